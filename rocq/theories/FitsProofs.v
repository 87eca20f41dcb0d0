(** The writers succeed exactly when the object fits. *)
From Coq Require Import ZArith List Bool Lia.
From Verif Require Import Base IoCtx Text Exp10 MobId ClassTac PrimProofs UrnProofs Attributes
  Components TrackGroups TrackGroupsProofs Misc Essence BinModel Fits.
Import ListNotations.
Open Scope Z_scope.

(** The writer succeeds. *)
Definition wok (w : writer) : Prop := exists bs, w = Ok bs.

Definition wiff (w : writer) (P : Prop) : Prop := wok w <-> P.

Lemma wok_cat : forall a b, wok (a +++ b) <-> wok a /\ wok b.
Proof.
  intros a b. split.
  - intros [bs H]. apply wcat_ok in H as (x & y & -> & -> & _). split; eexists; reflexivity.
  - intros [[x ->] [y ->]]. eexists. reflexivity.
Qed.

Lemma wiff_cat : forall a b P Q, wiff a P -> wiff b Q -> wiff (a +++ b) (P /\ Q).
Proof. unfold wiff. intros a b P Q H1 H2. rewrite wok_cat. tauto. Qed.

Lemma wiff_cat_l : forall a b Q, wok a -> wiff b Q -> wiff (a +++ b) Q.
Proof. unfold wiff. intros a b Q H1 H2. rewrite wok_cat. tauto. Qed.

Lemma wiff_cat_r : forall a b P, wiff a P -> wok b -> wiff (a +++ b) P.
Proof. unfold wiff. intros a b P H1 H2. rewrite wok_cat. tauto. Qed.

Lemma wiff_assoc : forall a b c P, wiff (a +++ (b +++ c)) P -> wiff ((a +++ b) +++ c) P.
Proof. unfold wiff. intros a b c P H. rewrite !wok_cat in *. tauto. Qed.

Lemma wiff_assoc_p : forall w P Q R, wiff w (P /\ Q /\ R) -> wiff w ((P /\ Q) /\ R).
Proof. unfold wiff. intros. tauto. Qed.

Lemma wiff_true : forall w, wok w -> wiff w True.
Proof. unfold wiff. tauto. Qed.

Lemma wiff_false : forall e P, ~ P -> wiff (Err e) P.
Proof. intros e P H. split; [intros [bs Hb]; discriminate Hb|tauto]. Qed.

Lemma wiff_eq : forall w P Q, wiff w P -> (P <-> Q) -> wiff w Q.
Proof. unfold wiff. tauto. Qed.

Lemma wok_list : forall A (w : A -> writer) l, (forall x, In x l -> wok (w x)) -> wok (wlist w l).
Proof.
  intros A w l. induction l as [|x l IH]; intros H; [eexists; reflexivity|].
  cbn [wlist]. apply wok_cat. split; [apply H; now left|]. apply IH. intros; apply H; now right.
Qed.

Lemma wiff_list : forall A (w : A -> writer) (P : A -> Prop) l,
  (forall x, In x l -> wiff (w x) (P x)) -> wiff (wlist w l) (Forall P l).
Proof.
  intros A w P l. induction l as [|x l IH]; intros H; cbn [wlist].
  - split; [constructor|eexists; reflexivity].
  - eapply wiff_eq; [apply wiff_cat; [apply H; now left|apply IH; intros; apply H; now right]|].
    split; [intros []; auto|intros HF; inversion HF; auto].
Qed.

Lemma wiff_opt : forall A (o : option A) (w : A -> writer) (P : A -> Prop),
  (forall v, o = Some v -> wiff (w v) (P v)) -> wiff (wopt o w) (opt_ok P o).
Proof.
  intros A [v|] w P H; cbn [wopt opt_ok]; [auto|]. apply wiff_true. eexists; reflexivity.
Qed.

Lemma wok_opt : forall A (o : option A) (w : A -> writer),
  (forall v, o = Some v -> wok (w v)) -> wok (wopt o w).
Proof. intros A [v|] w H; cbn [wopt]; [auto|]. eexists; reflexivity. Qed.

(** ** Primitives *)

Lemma wiff_unsigned : forall bo n v m, pow256 n = m + 1 ->
  wiff (wunsigned bo n v) (0 <= v <= m).
Proof.
  intros bo n v m Hm. unfold wiff, wok. split.
  - intros [bs H]. unfold wunsigned in H.
    destruct (Z.leb_spec 0 v); destruct (Z.ltb_spec v (pow256 n)); cbn in H; try discriminate. lia.
  - intros H. rewrite (proj1 (wunsigned_spec bo n v)); [eauto|lia].
Qed.

Lemma wiff_signed : forall bo n v m, pow256 n / 2 = m + 1 ->
  wiff (wsigned bo n v) (- (m + 1) <= v <= m).
Proof.
  intros bo n v m Hm. unfold wiff, wok. split.
  - intros [bs H]. unfold wsigned in H. rewrite Hm in H.
    destruct (Z.leb_spec (- (m + 1)) v); destruct (Z.ltb_spec v (m + 1)); cbn in H; try discriminate. lia.
  - intros H. rewrite (proj1 (wsigned_spec bo n v)); [eauto|lia].
Qed.

Lemma wiff_u8 : forall v, wiff (wu8 v) (fits_u8 v).
Proof. intros. apply wiff_unsigned. reflexivity. Qed.
Lemma wiff_s8 : forall v, wiff (ws8 v) (fits_s8 v).
Proof. intros. apply (wiff_signed _ _ _ 127). reflexivity. Qed.
Lemma wiff_u16 : forall bo v, wiff (wu16 bo v) (fits_u16 v).
Proof. intros. apply wiff_unsigned. reflexivity. Qed.
Lemma wiff_s16 : forall bo v, wiff (ws16 bo v) (fits_s16 v).
Proof. intros. apply (wiff_signed _ _ _ 32767). reflexivity. Qed.
Lemma wiff_u32 : forall bo v, wiff (wu32 bo v) (fits_u32 v).
Proof. intros. apply wiff_unsigned. reflexivity. Qed.
Lemma wiff_s32 : forall bo v, wiff (ws32 bo v) (fits_s32 v).
Proof. intros. apply (wiff_signed _ _ _ 2147483647). reflexivity. Qed.
Lemma wiff_u64 : forall bo v, wiff (wu64 bo v) (fits_u64 v).
Proof. intros. apply wiff_unsigned. reflexivity. Qed.
Lemma wiff_s64 : forall bo v, wiff (ws64 bo v) (fits_s64 v).
Proof. intros. apply (wiff_signed _ _ _ 9223372036854775807). reflexivity. Qed.
Lemma wiff_date : forall bo v, wiff (wdate bo v) (fits_date v).
Proof. intros. apply wiff_u32. Qed.
Lemma wiff_double : forall v, wiff (wdouble v) (fits_double v).
Proof. intros. apply wiff_unsigned. reflexivity. Qed.

Lemma mac_dec : forall s, {Forall mac_char s} + {~ Forall mac_char s}.
Proof.
  intros s. apply Forall_dec. intros c. destruct (In_dec Z.eq_dec c mac_table); [left|right]; now rewrite mac_char_table.
Qed.

Lemma mac_table_all : forall s, Forall mac_char s <-> Forall (fun c => In c mac_table) s.
Proof. intros s. rewrite !Forall_forall. split; intros H c Hc; apply mac_char_table; auto. Qed.

Lemma wiff_str : forall bo s, wiff (wstr bo s) (fits_str s).
Proof.
  intros bo s. unfold wiff, fits_str. split.
  - intros [bs H]. destruct (mac_dec s) as [Hm|Hm].
    + split; [now apply mac_table_all|]. destruct (Z_lt_le_dec 65535 (len s)); auto.
      rewrite wstr_too_long in H by auto. discriminate H.
    + rewrite wstr_unencodable in H by auto. discriminate H.
  - intros [H1 H2]. apply wstr_ok; [now apply mac_table_all|exact H2].
Qed.

Lemma wname_wstr : forall bo s, wok (wname bo s) <-> wok (wstr bo s).
Proof.
  intros bo s. unfold wname. destruct s; [|reflexivity].
  split; intros _; eexists; reflexivity.
Qed.

Lemma wiff_name : forall bo s, wiff (wname bo s) (fits_str s).
Proof. intros bo s. unfold wiff. rewrite wname_wstr. apply wiff_str. Qed.

Lemma scalar_dec : forall c, {scalar c} + {~ scalar c}.
Proof.
  intros c. unfold scalar.
  destruct (Z_le_dec 0 c); [|right; lia].
  destruct (Z_lt_dec c 55296); [left; lia|].
  destruct (Z_le_dec 57344 c); [|right; lia].
  destruct (Z_lt_dec c 1114112); [left; lia|right; lia].
Qed.

Lemma utf8_encode_none : forall s, ~ Forall scalar s -> utf8_encode s = Err UnicodeErr.
Proof.
  induction s as [|c s IH]; intros H; [exfalso; auto|]. cbn [utf8_encode].
  destruct (utf8_enc1 c) as [b|] eqn:E; auto.
  rewrite IH; auto. intros Hs. apply H. constructor; auto. apply utf8_enc1_some. eauto.
Qed.

Lemma utf8_encode_iff : forall s, (exists bs, utf8_encode s = Ok bs) <-> Forall scalar s.
Proof.
  intros s. split; [|apply utf8_encode_some]. intros [bs H].
  destruct (Forall_dec _ scalar_dec s); auto. rewrite utf8_encode_none in H by auto. discriminate H.
Qed.

Lemma wiff_utf8 : forall bo s, wiff (wstr_enc bo Utf8 s) (fits_utf8 s).
Proof.
  intros bo s. unfold wiff, fits_utf8, wok. split.
  - intros [bs H]. unfold wstr_enc in H. destruct s as [|c s]; [split; [constructor|cbn; lia]|].
    unfold encode in H. destruct (utf8_encode (c :: s)) as [bs0|e] eqn:E; [|discriminate H].
    split; [apply utf8_encode_iff; eauto|].
    apply utf8_encode_size in E. cbv zeta in H. apply wcat_ok in H as (x & y & Hx & _ & _).
    destruct (wiff_u16 bo (len (0 :: 0 :: bs0))) as [K _].
    specialize (K (ex_intro _ x Hx)). unfold fits_u16, len in K. cbn [length] in K.
    unfold len in E. lia.
  - intros [H1 H2]. apply wutf8_ok; auto. lia.
Qed.

Lemma wiff_exp10 : forall bo x, wiff (wexp10 bo x) (fits_exp10 x).
Proof.
  intros bo x. unfold wexp10, fits_exp10. destruct (exp10_parts x) as [[m e]|er] eqn:E.
  - eapply wiff_eq; [apply wiff_cat; [apply wiff_s32|apply wiff_s16]|]. split.
    + intros [H1 H2]. eauto.
    + intros (m' & e' & H & H1 & H2). apply Ok_inj in H. injection H as <- <-. auto.
  - apply wiff_false. intros (m & e & H & _). discriminate H.
Qed.

Lemma wiff_ref : forall c r, wiff (wref c r) (fits_ref c r).
Proof.
  intros c r. unfold wref, fits_ref. destruct (Z.eqb_spec r 0) as [->|Hr].
  - eapply wiff_eq; [apply wiff_true; eexists; reflexivity|tauto].
  - destruct (orefs c r) as [x|].
    + eapply wiff_eq; [apply wiff_u32|]. split; [eauto|].
      intros [H|(y & H & Hy)]; [contradiction|]. injection H as <-. auto.
    + apply wiff_false. intros [H|(y & H & _)]; [contradiction|discriminate].
Qed.

Lemma wiff_rect : forall bo v, wiff (wrect bo v) (fits_rect v).
Proof.
  intros bo v. unfold wrect, fits_rect. eapply wiff_cat_l; [eexists; reflexivity|].
  repeat apply wiff_cat; apply wiff_s16.
Qed.

Lemma wiff_rgb : forall bo v, wiff (wrgb bo v) (fits_rgb v).
Proof.
  intros bo v. unfold wrgb, fits_rgb. eapply wiff_cat_l; [eexists; reflexivity|].
  repeat apply wiff_cat; apply wiff_u16.
Qed.

Lemma wiff_fourcc : forall bo v, wiff (wfourcc bo v) (len v = 4).
Proof.
  intros bo v. unfold wfourcc, wassert. destruct (Z.eqb_spec (len v) 4).
  - eapply wiff_eq; [apply wiff_true|tauto]. destruct bo; eexists; reflexivity.
  - apply wiff_cat_r with (P := len v = 4).
    + apply wiff_false. auto.
    + destruct bo; eexists; reflexivity.
Qed.

Lemma wiff_assert : forall x y, wiff (wassert (x =? y)) (x = y).
Proof.
  intros x y. unfold wassert. destruct (Z.eqb_spec x y).
  - eapply wiff_eq; [apply wiff_true; eexists; reflexivity|tauto].
  - now apply wiff_false.
Qed.

(** The code checks the length before [write_fourcc] checks it again. *)
Lemma wiff_fourcc_twice : forall bo v w P,
  wiff (wfourcc bo v +++ w) P -> wiff (wassert (len v =? 4) +++ wfourcc bo v +++ w) P.
Proof.
  intros bo v w P H. unfold wiff in *. rewrite <- H. rewrite !wok_cat. split; [tauto|].
  intros [H1 H2]. repeat split; auto. apply wiff_assert. eapply wiff_fourcc; eauto.
Qed.

Lemma wok_bool : forall b, wok (wbool b).
Proof. intros []; eexists; reflexivity. Qed.


Create HintDb fit discriminated.
#[export] Hint Resolve wiff_u8 wiff_s8 wiff_u16 wiff_s16 wiff_u32 wiff_s32 wiff_u64 wiff_s64
  wiff_date wiff_double wiff_str wiff_name wiff_utf8 wiff_exp10 wiff_ref wiff_rect wiff_rgb
  wiff_fourcc wiff_assert : fit.

(** ** Proof search *)

(** Writers that always succeed. *)
Ltac wtriv :=
  lazymatch goal with
  | |- wok (wu8 _) => solve [ eexists; reflexivity ]
  | |- wok (ws8 _) => solve [ eexists; reflexivity ]
  | |- wok (wu16 _ _) => solve [ eexists; reflexivity ]
  | |- wok (ws16 _ _) => solve [ eexists; reflexivity ]
  | |- wok (wu32 _ _) => solve [ eexists; reflexivity ]
  | |- wok (ws32 _ _) => solve [ eexists; reflexivity ]
  | |- wok (ws64 _ _) => solve [ eexists; reflexivity ]
  | |- wok (wu64 _ _) => solve [ eexists; reflexivity ]
  | |- wok (wbytes _) => solve [ eexists; reflexivity ]
  | |- wok (wrawuuid _ _) => solve [ eexists; reflexivity ]
  | |- wok wnil => solve [ eexists; reflexivity ]
  | |- wok (wbool _) => apply wok_bool
  | |- wok (wuuid _ _) => apply wuuid_some; assumption
  | |- wok (wmobid _ _) => apply wmobid_some; assumption
  | |- wok (wext _ _) => unfold wext; wtriv
  | |- wok (_ +++ _) => apply wok_cat; split; wtriv
  | |- wok (wopt _ _) => apply wok_opt; intros ? ?; use_ok; wtriv
  | |- wok (wlist _ _) => apply wok_list; intros ? ?; use_ok; wtriv
  end.

Ltac fit_elem :=
  cbv beta;
  lazymatch goal with
  | |- wiff (_ +++ _) _ => fit_go
  | |- wiff (wext _ _) _ => unfold wext; fit_go
  | |- wiff (wopt _ _) (opt_ok _ _) => apply wiff_opt; intros ? ?; use_ok; fit_elem
  | |- wiff (wlist _ _) (Forall _ _) => apply wiff_list; intros ? ?; use_ok; fit_elem
  | |- wiff _ True => apply wiff_true; wtriv
  | |- wiff _ _ => solve [ eauto 3 with fit ]
  end
with fit_go :=
  cbv beta;
  lazymatch goal with
  | |- wiff ((_ +++ _) +++ _) _ => apply wiff_assoc; fit_go
  | |- wiff (wext _ _ +++ _) _ => unfold wext; fit_go
  | |- wiff (wassert _ +++ wfourcc _ _ +++ _) _ => apply wiff_fourcc_twice; fit_go
  | |- wiff (?a +++ _) _ =>
      tryif (assert_succeeds (assert (wok a) by wtriv))
      then (apply wiff_cat_l; [ wtriv | fit_go ])
      else lazymatch goal with
           | |- wiff _ (_ /\ _) => apply wiff_cat; [ fit_elem | fit_go ]
           | |- wiff _ _ => apply wiff_cat_r; [ fit_elem | wtriv ]
           end
  | |- wiff _ _ => fit_elem
  end.

Lemma fit_attr : forall (c : octx) (p : str * attr_value), wiff (wattr c p) (attr_fits c p).
Proof.
  intros c [key v]. unfold wattr, attr_fits. cbn [fst snd].
  destruct v; (apply wiff_cat_l; [wtriv|]); fit_go.
Qed.

#[export] Hint Resolve fit_attr : fit.

Lemma fit_attributes : forall (c : octx) (o : attributes), attributes_ok o -> wiff (wattributes c o) (attributes_fits c o).
Proof. intros c o Hok. unfold wattributes, attributes_fits. pose proof Hok as Hok0. unfold attributes_ok in Hok. use_ok. fit_go. Qed.
#[export] Hint Resolve fit_attributes : fit.

Lemma fit_parameter_list : forall (c : octx) (o : parameter_list), parameter_list_ok o -> wiff (wparameter_list c o) (parameter_list_fits c o).
Proof. intros c o Hok. unfold wparameter_list, parameter_list_fits. pose proof Hok as Hok0. unfold parameter_list_ok in Hok. use_ok. fit_go. Qed.
#[export] Hint Resolve fit_parameter_list : fit.

Lemma fit_time_crumb_list : forall (c : octx) (o : time_crumb_list), time_crumb_list_ok o -> wiff (wtime_crumb_list c o) (time_crumb_list_fits c o).
Proof. intros c o Hok. unfold wtime_crumb_list, time_crumb_list_fits. pose proof Hok as Hok0. unfold time_crumb_list_ok in Hok. use_ok. fit_go. Qed.
#[export] Hint Resolve fit_time_crumb_list : fit.

Lemma fit_component : forall (c : octx) (o : component), component_ok o -> wiff (wcomponent c o) (component_fits c o).
Proof. intros c o Hok. unfold wcomponent, component_fits. pose proof Hok as Hok0. unfold component_ok in Hok. use_ok. fit_go. Qed.
#[export] Hint Resolve fit_component : fit.

Lemma fit_sequence : forall (c : octx) (o : sequence), sequence_ok o -> wiff (wsequence c o) (sequence_fits c o).
Proof. intros c o Hok. unfold wsequence, sequence_fits. pose proof Hok as Hok0. unfold sequence_ok in Hok. use_ok. fit_go. Qed.
#[export] Hint Resolve fit_sequence : fit.

Lemma fit_clip : forall (c : octx) (o : clip), clip_ok o -> wiff (wclip c o) (clip_fits c o).
Proof. intros c o Hok. unfold wclip, clip_fits. pose proof Hok as Hok0. unfold clip_ok in Hok. use_ok. fit_go. Qed.
#[export] Hint Resolve fit_clip : fit.

Lemma dec_range_le : forall bo n i j u, Forall is_byte u -> (j <= length u)%nat -> (i <= j)%nat ->
  (j - i)%nat = n -> 0 <= dec bo (slice u i j) < pow256 n.
Proof.
  intros bo n i j u Hb H1 H2 H3. pose proof (dec_range bo (slice u i j) (slice_bytes _ _ _ Hb)) as H.
  now rewrite slice_length, H3 in H by lia.
Qed.

(** The two words taken from a mob ID always fit. *)
Lemma mob_words_ok : forall bo m, mobid_wf m -> wok (wu32 bo (mob_lo m) +++ wu32 bo (mob_hi m)).
Proof.
  intros bo m Hm. apply material_wf in Hm as [Hl Hb]. apply wok_cat. split; apply wiff_u32;
    unfold fits_u32, mob_lo, mob_hi, time_low, time_mid, time_hi_version.
  - pose proof (dec_range_le BE 4 0 4 _ Hb ltac:(lia) ltac:(lia) eq_refl) as H.
    change (pow256 4) with 4294967296 in H. lia.
  - pose proof (dec_range_le BE 2 4 6 _ Hb ltac:(lia) ltac:(lia) eq_refl) as H.
    pose proof (dec_range_le BE 2 6 8 _ Hb ltac:(lia) ltac:(lia) eq_refl) as H'.
    change (pow256 2) with 65536 in H, H'. rewrite Z.shiftl_mul_pow2 by lia.
    change (2 ^ 16) with 65536. lia.
Qed.

(** The words of an ID that may be missing. *)
Lemma wiff_words : forall bo m, opt_ok mobid_wf m ->
  wiff (match m with
        | None => Err AttributeErr
        | Some m => wu32 bo (mob_lo m) +++ wu32 bo (mob_hi m)
        end) (m <> None).
Proof.
  intros bo [m|] H.
  - eapply wiff_eq; [apply wiff_true; now apply mob_words_ok|]. split; [discriminate|auto].
  - apply wiff_false. congruence.
Qed.
#[export] Hint Resolve wiff_words : fit.

Lemma fit_source_clip : forall (c : octx) (o : source_clip), source_clip_ok o ->
  wiff (wsource_clip c o) (source_clip_fits c o).
Proof.
  intros c o Hok. unfold wsource_clip, source_clip_fits. unfold source_clip_ok in Hok. use_ok. fit_go.
Qed.

#[export] Hint Resolve fit_source_clip : fit.

Lemma fit_timecode : forall (c : octx) (o : timecode), timecode_ok o -> wiff (wtimecode c o) (timecode_fits c o).
Proof. intros c o Hok. unfold wtimecode, timecode_fits. pose proof Hok as Hok0. unfold timecode_ok in Hok. use_ok. fit_go. Qed.
#[export] Hint Resolve fit_timecode : fit.

Lemma fit_edgecode : forall (c : octx) (o : edgecode), edgecode_ok o -> wiff (wedgecode c o) (edgecode_fits c o).
Proof. intros c o Hok. unfold wedgecode, edgecode_fits. pose proof Hok as Hok0. unfold edgecode_ok in Hok. use_ok. fit_go. Qed.
#[export] Hint Resolve fit_edgecode : fit.

Lemma fit_track_ref : forall (c : octx) (o : track_ref), track_ref_ok o -> wiff (wtrack_ref c o) (track_ref_fits c o).
Proof. intros c o Hok. unfold wtrack_ref, track_ref_fits. pose proof Hok as Hok0. unfold track_ref_ok in Hok. use_ok. fit_go. Qed.
#[export] Hint Resolve fit_track_ref : fit.

Lemma fit_param_point_property : forall (c : octx) (o : param_point_property),
  wiff (wparam_point_property c o) (param_point_property_fits c o).
Proof.
  intros c o. unfold wparam_point_property, param_point_property_fits.
  apply wiff_cat; [apply wiff_s16|].
  destruct (Z.eqb_spec (ppp_type o) 2) as [E|H2];
    [|destruct (Z.eqb_spec (ppp_type o) 1) as [E|H1]].
  - rewrite E. apply wiff_cat_l; [wtriv|]. destruct (ppp_value o); try (apply wiff_false; lia).
    eapply wiff_eq; [solve [eauto with fit]|]. tauto.
  - rewrite E. apply wiff_cat_l; [wtriv|].
    destruct (ppp_value o); try (apply wiff_false; lia).
    eapply wiff_eq; [solve [eauto with fit]|]. tauto.
  - eapply wiff_eq; [apply wiff_cat; [apply wiff_s16|apply (wiff_false _ False); tauto]|].
    destruct (ppp_value o); tauto.
Qed.

#[export] Hint Resolve fit_param_point_property : fit.

Lemma fit_cp_value : forall (c : octx) (value_type : Z) (v : cp_value),
  wiff (wcp_value c value_type v) (cp_value_fits c value_type v).
Proof.
  intros c t v. unfold wcp_value, cp_value_fits.
  destruct (Z.eqb_spec t 1) as [->|H1]; [|destruct (Z.eqb_spec t 2) as [->|H2];
    [|destruct (Z.eqb_spec t 4) as [->|H4]]]; destruct v;
    try (apply wiff_false; lia);
    (eapply wiff_eq; [solve [eauto with fit]|]); tauto.
Qed.

#[export] Hint Resolve fit_cp_value : fit.

Lemma fit_param_control_point : forall (c : octx) (value_type : Z) (o : param_control_point), param_control_point_ok o -> wiff (wparam_control_point c value_type o) (param_control_point_fits c value_type o).
Proof. intros c value_type o Hok. unfold wparam_control_point, param_control_point_fits. pose proof Hok as Hok0. unfold param_control_point_ok in Hok. use_ok. fit_go. Qed.
#[export] Hint Resolve fit_param_control_point : fit.

Lemma fit_param_clip : forall (c : octx) (o : param_clip), param_clip_ok o -> wiff (wparam_clip c o) (param_clip_fits c o).
Proof. intros c o Hok. unfold wparam_clip, param_clip_fits. pose proof Hok as Hok0. unfold param_clip_ok in Hok. use_ok. fit_go. Qed.
#[export] Hint Resolve fit_param_clip : fit.

Lemma fit_control_point_property : forall (c : octx) (o : control_point_property), control_point_property_ok o -> wiff (wcontrol_point_property c o) (control_point_property_fits c o).
Proof. intros c o Hok. unfold wcontrol_point_property, control_point_property_fits. pose proof Hok as Hok0. unfold control_point_property_ok in Hok. use_ok. fit_go. Qed.
#[export] Hint Resolve fit_control_point_property : fit.

Lemma fit_control_point : forall (c : octx) (o : control_point), control_point_ok o -> wiff (wcontrol_point c o) (control_point_fits c o).
Proof. intros c o Hok. unfold wcontrol_point, control_point_fits. pose proof Hok as Hok0. unfold control_point_ok in Hok. use_ok. fit_go. Qed.
#[export] Hint Resolve fit_control_point : fit.

Lemma fit_control_clip : forall (c : octx) (o : control_clip), control_clip_ok o -> wiff (wcontrol_clip c o) (control_clip_fits c o).
Proof. intros c o Hok. unfold wcontrol_clip, control_clip_fits. pose proof Hok as Hok0. unfold control_clip_ok in Hok. use_ok. fit_go. Qed.
#[export] Hint Resolve fit_control_clip : fit.

Lemma fit_filler : forall (c : octx) (o : filler), filler_ok o -> wiff (wfiller c o) (filler_fits c o).
Proof. intros c o Hok. unfold wfiller, filler_fits. pose proof Hok as Hok0. unfold filler_ok in Hok. use_ok. fit_go. Qed.
#[export] Hint Resolve fit_filler : fit.

Lemma wiff_flag : forall A flags bit (o : option A) (w : A -> writer) P,
  Z.testbit flags bit = is_some o -> (forall v, wiff (w v) (P v)) ->
  wiff (wflag flags bit o w) (opt_ok P o).
Proof.
  intros A flags bit o w P Hb H. unfold wflag. rewrite Hb. destruct o; cbn [is_some opt_ok]; auto.
  apply wiff_true. wtriv.
Qed.

Lemma track_flags_range : forall t, fits_u16 (track_flags t).
Proof.
  intros t. unfold fits_u16, track_flags, flag_if.
  repeat match goal with |- context [is_some ?x] => destruct (is_some x) end;
    vm_compute; split; discriminate.
Qed.

Lemma fit_track : forall (c : octx) (t : track), wiff (wtrack c t) (track_fits c t).
Proof.
  intros c t. unfold wtrack, track_fits. cbv zeta. rewrite flags_known. cbn [Z.eqb negb].
  apply wiff_cat_l; [apply wiff_u16, track_flags_range|].
  apply wiff_cat; [apply wiff_flag; [apply flags_index|auto with fit]|].
  apply wiff_cat; [apply wiff_flag; [apply flags_attributes|auto with fit]|].
  apply wiff_cat; [apply wiff_flag; [apply flags_session_attr|auto with fit]|].
  apply wiff_cat; [apply wiff_flag; [apply flags_component|auto with fit]|].
  apply wiff_cat; [apply wiff_flag; [apply flags_filler_proxy|auto with fit]|].
  apply wiff_cat; [apply wiff_flag; [apply flags_bob_data|auto with fit]|].
  apply wiff_cat; [apply wiff_flag; [apply flags_control_code|auto with fit]|].
  apply wiff_cat; [apply wiff_flag; [apply flags_control_sub_code|auto with fit]|].
  apply wiff_cat_r; [apply wiff_flag; [apply flags_start_pos|auto with fit]|].
  unfold wflag. rewrite flags_read_only. destruct (trak_read_only t); cbn [is_some]; wtriv.
Qed.

#[export] Hint Resolve fit_track : fit.

Lemma fit_lock : forall (c : octx) (t : track), wiff (wlock c t) (lock_fits c t).
Proof.
  intros c t. unfold wlock, lock_fits. apply wiff_cat_l; [wtriv|].
  destruct (trak_lock_number t); cbn [opt_ok]; [apply wiff_s16|]. apply wiff_true. wtriv.
Qed.

#[export] Hint Resolve fit_lock : fit.

Lemma fit_track_group : forall (c : octx) (o : track_group), component_ok (trkg_component o) ->
  wiff (wtrack_group c o) (track_group_fits c o).
Proof.
  intros c o Hok. unfold wtrack_group, track_group_fits.
  do 6 (repeat (apply wiff_cat_l; [wtriv|]); apply wiff_cat; [fit_elem|]).
  destruct (trkg_tracks o) as [|t l] eqn:E.
  - eapply wiff_eq; [apply wiff_true; wtriv|]. split; [constructor|auto].
  - rewrite <- E. unfold wext. do 2 (apply wiff_cat_l; [wtriv|]). fit_elem.
Qed.

Lemma track_group_component : forall o, track_group_ok o -> component_ok (trkg_component o).
Proof. intros o H. apply H. Qed.
#[export] Hint Resolve track_group_component : fit.

#[export] Hint Resolve fit_track_group : fit.

Lemma fit_track_effect_base : forall (c : octx) (o : track_effect), track_effect_ok o -> wiff (wtrack_effect_base c o) (track_effect_base_fits c o).
Proof. intros c o Hok. unfold wtrack_effect_base, track_effect_base_fits. pose proof Hok as Hok0. unfold track_effect_ok in Hok. use_ok. fit_go. Qed.
#[export] Hint Resolve fit_track_effect_base : fit.

Lemma fit_track_effect : forall (c : octx) (o : track_effect), track_effect_ok o -> wiff (wtrack_effect c o) (track_effect_fits c o).
Proof. intros c o Hok. unfold wtrack_effect, track_effect_fits. pose proof Hok as Hok0. unfold track_effect_ok in Hok. use_ok. fit_go. Qed.
#[export] Hint Resolve fit_track_effect : fit.

Lemma fit_pan_volume_effect : forall (c : octx) (o : pan_volume_effect), pan_volume_effect_ok o -> wiff (wpan_volume_effect c o) (pan_volume_effect_fits c o).
Proof. intros c o Hok. unfold wpan_volume_effect, pan_volume_effect_fits. pose proof Hok as Hok0. unfold pan_volume_effect_ok in Hok. use_ok. fit_go. Qed.
#[export] Hint Resolve fit_pan_volume_effect : fit.

Lemma fit_aspi_chunk : forall (c : octx) (o : aspi_chunk), aspi_chunk_ok o -> wiff (waspi_chunk c o) (aspi_chunk_fits c o).
Proof. intros c o Hok. unfold waspi_chunk, aspi_chunk_fits. pose proof Hok as Hok0. unfold aspi_chunk_ok in Hok. use_ok. fit_go. Qed.
#[export] Hint Resolve fit_aspi_chunk : fit.

Lemma fit_aspi_plugin : forall (c : octx) (o : aspi_plugin), aspi_plugin_ok o -> wiff (waspi_plugin c o) (aspi_plugin_fits c o).
Proof. intros c o Hok. unfold waspi_plugin, aspi_plugin_fits. pose proof Hok as Hok0. unfold aspi_plugin_ok in Hok. use_ok. fit_go. Qed.
#[export] Hint Resolve fit_aspi_plugin : fit.

Lemma fit_preset_path : forall (c : octx) (v : bytes), wiff (wpreset_path c v) (preset_path_fits c v).
Proof.
  intros c v. unfold wpreset_path, preset_path_fits. apply wiff_cat_l; [wtriv|].
  destruct (0 <? len v).
  - eapply wiff_eq; [apply wiff_cat; [apply wiff_u32|apply wiff_cat_l; [wtriv|]]|].
    + apply wiff_cat_r; [apply wiff_u32|wtriv].
    + tauto.
  - fit_go.
Qed.

#[export] Hint Resolve fit_preset_path : fit.

Lemma fit_audio_suite_effect : forall (c : octx) (o : audio_suite_effect), audio_suite_effect_ok o -> wiff (waudio_suite_effect c o) (audio_suite_effect_fits c o).
Proof. intros c o Hok. unfold waudio_suite_effect, audio_suite_effect_fits. pose proof Hok as Hok0. unfold audio_suite_effect_ok in Hok. use_ok. fit_go. Qed.
#[export] Hint Resolve fit_audio_suite_effect : fit.

Lemma fit_equalizer_band : forall (c : octx) (o : equalizer_band), equalizer_band_ok o -> wiff (wequalizer_band c o) (equalizer_band_fits c o).
Proof. intros c o Hok. unfold wequalizer_band, equalizer_band_fits. pose proof Hok as Hok0. unfold equalizer_band_ok in Hok. use_ok. fit_go. Qed.
#[export] Hint Resolve fit_equalizer_band : fit.

Lemma fit_equalizer_multi_band : forall (c : octx) (o : equalizer_multi_band), equalizer_multi_band_ok o -> wiff (wequalizer_multi_band c o) (equalizer_multi_band_fits c o).
Proof. intros c o Hok. unfold wequalizer_multi_band, equalizer_multi_band_fits. pose proof Hok as Hok0. unfold equalizer_multi_band_ok in Hok. use_ok. fit_go. Qed.
#[export] Hint Resolve fit_equalizer_multi_band : fit.

Lemma fit_time_warp : forall (c : octx) (o : time_warp), time_warp_ok o -> wiff (wtime_warp c o) (time_warp_fits c o).
Proof. intros c o Hok. unfold wtime_warp, time_warp_fits. pose proof Hok as Hok0. unfold time_warp_ok in Hok. use_ok. fit_go. Qed.
#[export] Hint Resolve fit_time_warp : fit.

Lemma fit_capture_mask : forall (c : octx) (o : capture_mask), capture_mask_ok o -> wiff (wcapture_mask c o) (capture_mask_fits c o).
Proof. intros c o Hok. unfold wcapture_mask, capture_mask_fits. pose proof Hok as Hok0. unfold capture_mask_ok in Hok. use_ok. fit_go. Qed.
#[export] Hint Resolve fit_capture_mask : fit.

Lemma fit_strobe_effect : forall (c : octx) (o : strobe_effect), strobe_effect_ok o -> wiff (wstrobe_effect c o) (strobe_effect_fits c o).
Proof. intros c o Hok. unfold wstrobe_effect, strobe_effect_fits. pose proof Hok as Hok0. unfold strobe_effect_ok in Hok. use_ok. fit_go. Qed.
#[export] Hint Resolve fit_strobe_effect : fit.

Lemma fit_motion_effect : forall (c : octx) (o : motion_effect), motion_effect_ok o -> wiff (wmotion_effect c o) (motion_effect_fits c o).
Proof. intros c o Hok. unfold wmotion_effect, motion_effect_fits. pose proof Hok as Hok0. unfold motion_effect_ok in Hok. use_ok. fit_go. Qed.
#[export] Hint Resolve fit_motion_effect : fit.

Lemma fit_repeat_effect : forall (c : octx) (o : repeat_effect), repeat_effect_ok o -> wiff (wrepeat_effect c o) (repeat_effect_fits c o).
Proof. intros c o Hok. unfold wrepeat_effect, repeat_effect_fits. pose proof Hok as Hok0. unfold repeat_effect_ok in Hok. use_ok. fit_go. Qed.
#[export] Hint Resolve fit_repeat_effect : fit.

Lemma fit_essence_group : forall (c : octx) (o : essence_group), essence_group_ok o -> wiff (wessence_group c o) (essence_group_fits c o).
Proof. intros c o Hok. unfold wessence_group, essence_group_fits. pose proof Hok as Hok0. unfold essence_group_ok in Hok. use_ok. fit_go. Qed.
#[export] Hint Resolve fit_essence_group : fit.

Lemma fit_transition_effect : forall (c : octx) (o : transition_effect), transition_effect_ok o -> wiff (wtransition_effect c o) (transition_effect_fits c o).
Proof. intros c o Hok. unfold wtransition_effect, transition_effect_fits. pose proof Hok as Hok0. unfold transition_effect_ok in Hok. use_ok. fit_go. Qed.
#[export] Hint Resolve fit_transition_effect : fit.

Lemma fit_selector : forall (c : octx) (o : selector), selector_ok o -> wiff (wselector c o) (selector_fits c o).
Proof. intros c o Hok. unfold wselector, selector_fits. pose proof Hok as Hok0. unfold selector_ok in Hok. use_ok. fit_go. Qed.
#[export] Hint Resolve fit_selector : fit.

Lemma fit_composition : forall (c : octx) (o : composition), composition_ok o -> wiff (wcomposition c o) (composition_fits c o).
Proof. intros c o Hok. unfold wcomposition, composition_fits. pose proof Hok as Hok0. unfold composition_ok in Hok. use_ok. fit_go. Qed.
#[export] Hint Resolve fit_composition : fit.

Lemma fit_file_locator : forall (c : octx) (o : file_locator), file_locator_ok o -> wiff (wfile_locator c o) (file_locator_fits c o).
Proof. intros c o Hok. unfold wfile_locator, file_locator_fits. pose proof Hok as Hok0. unfold file_locator_ok in Hok. use_ok. fit_go. Qed.
#[export] Hint Resolve fit_file_locator : fit.

Lemma fit_url_locator : forall (c : octx) (o : url_locator), url_locator_ok o -> wiff (wurl_locator c o) (url_locator_fits c o).
Proof. intros c o Hok. unfold wurl_locator, url_locator_fits. pose proof Hok as Hok0. unfold url_locator_ok in Hok. use_ok. fit_go. Qed.
#[export] Hint Resolve fit_url_locator : fit.

Lemma fit_graphic_effect : forall (c : octx) (o : graphic_effect), graphic_effect_ok o -> wiff (wgraphic_effect c o) (graphic_effect_fits c o).
Proof. intros c o Hok. unfold wgraphic_effect, graphic_effect_fits. pose proof Hok as Hok0. unfold graphic_effect_ok in Hok. use_ok. fit_go. Qed.
#[export] Hint Resolve fit_graphic_effect : fit.

Lemma fit_shape_list : forall (c : octx) (o : shape_list), shape_list_ok o -> wiff (wshape_list c o) (shape_list_fits c o).
Proof. intros c o Hok. unfold wshape_list, shape_list_fits. pose proof Hok as Hok0. unfold shape_list_ok in Hok. use_ok. fit_go. Qed.
#[export] Hint Resolve fit_shape_list : fit.

Lemma fit_color_correction_effect : forall (c : octx) (o : color_correction_effect), color_correction_effect_ok o -> wiff (wcolor_correction_effect c o) (color_correction_effect_fits c o).
Proof. intros c o Hok. unfold wcolor_correction_effect, color_correction_effect_fits. pose proof Hok as Hok0. unfold color_correction_effect_ok in Hok. use_ok. fit_go. Qed.
#[export] Hint Resolve fit_color_correction_effect : fit.

Lemma fit_box : forall (c : octx) (v : rect), wiff (wbox c v) (box_fits c v).
Proof. intros c v. unfold wbox, box_fits. fit_go. Qed.
#[export] Hint Resolve fit_box : fit.

Lemma fit_effect_param : forall (c : octx) (o : effect_param), effect_param_ok o -> wiff (weffect_param c o) (effect_param_fits c o).
Proof. intros c o Hok. unfold weffect_param, effect_param_fits. pose proof Hok as Hok0. unfold effect_param_ok in Hok. use_ok. fit_go. Qed.
#[export] Hint Resolve fit_effect_param : fit.

Lemma fit_effect_param_list : forall (c : octx) (o : effect_param_list), effect_param_list_ok o -> wiff (weffect_param_list c o) (effect_param_list_fits c o).
Proof. intros c o Hok. unfold weffect_param_list, effect_param_list_fits. pose proof Hok as Hok0. unfold effect_param_list_ok in Hok. use_ok. fit_go. Qed.
#[export] Hint Resolve fit_effect_param_list : fit.

Lemma fit_cf_user_param : forall (c : octx) (o : cf_user_param), cf_user_param_ok o -> wiff (wcf_user_param c o) (cf_user_param_fits c o).
Proof. intros c o Hok. unfold wcf_user_param, cf_user_param_fits. pose proof Hok as Hok0. unfold cf_user_param_ok in Hok. use_ok. fit_go. Qed.
#[export] Hint Resolve fit_cf_user_param : fit.

Lemma fit_prit_value : forall (c : octx) (value_type : Z) (v : cp_value),
  wiff (ws16 (obo c) value_type +++ wprit_value c value_type v) (cp_value_fits c value_type v).
Proof.
  intros c t v. unfold wprit_value, cp_value_fits.
  destruct (Z.eqb_spec t 1) as [->|H1]; [|destruct (Z.eqb_spec t 2) as [->|H2];
    [|destruct (Z.eqb_spec t 4) as [->|H4]]]; try (apply wiff_cat_l; [wtriv|]);
    try (destruct v; try (apply wiff_false; lia);
    (eapply wiff_eq; [solve [eauto with fit]|]); tauto).
  eapply wiff_eq; [apply wiff_cat; [apply wiff_s16|apply (wiff_false _ False); tauto]|].
  destruct v; lia.
Qed.

Lemma wiff_assoc_r : forall a b c P, wiff ((a +++ b) +++ c) P -> wiff (a +++ (b +++ c)) P.
Proof. unfold wiff. intros a b c P H. rewrite !wok_cat in *. tauto. Qed.

Lemma fit_parameter_item : forall (c : octx) (o : parameter_item), parameter_item_ok o ->
  wiff (wparameter_item c o) (parameter_item_fits c o).
Proof.
  intros c o Hok. unfold wparameter_item, parameter_item_fits. unfold parameter_item_ok in Hok. use_ok.
  do 3 (apply wiff_cat_l; [wtriv|]). apply wiff_assoc_r. apply wiff_cat; [apply fit_prit_value|].
  fit_go.
Qed.

#[export] Hint Resolve fit_parameter_item : fit.

Lemma fit_mob_words : forall (c : octx) (m : option mobid), opt_ok mobid_wf m ->
  wiff (wmob_words c m) (mob_words_fits c m).
Proof. intros c m H. apply (wiff_words (obo c) m H). Qed.

#[export] Hint Resolve fit_mob_words : fit.

Lemma fit_msm_locator : forall (c : octx) (o : msm_locator), msm_locator_ok o -> wiff (wmsm_locator c o) (msm_locator_fits c o).
Proof. intros c o Hok. unfold wmsm_locator, msm_locator_fits. pose proof Hok as Hok0. unfold msm_locator_ok in Hok. use_ok. fit_go. Qed.
#[export] Hint Resolve fit_msm_locator : fit.

Lemma fit_position_base : forall (c : octx) (o : position), position_ok o -> wiff (wposition_base c o) (position_base_fits c o).
Proof. intros c o Hok. unfold wposition_base, position_base_fits. pose proof Hok as Hok0. unfold position_ok in Hok. use_ok. fit_go. Qed.
#[export] Hint Resolve fit_position_base : fit.

Lemma fit_position : forall (c : octx) (o : position), position_ok o -> wiff (wposition c o) (position_fits c o).
Proof. intros c o Hok. unfold wposition, position_fits. pose proof Hok as Hok0. unfold position_ok in Hok. use_ok. fit_go. Qed.
#[export] Hint Resolve fit_position : fit.

Lemma fit_bob_position_base : forall (c : octx) (o : bob_position), bob_position_ok o -> wiff (wbob_position_base c o) (bob_position_base_fits c o).
Proof. intros c o Hok. unfold wbob_position_base, bob_position_base_fits. pose proof Hok as Hok0. unfold bob_position_ok in Hok. use_ok. fit_go. Qed.
#[export] Hint Resolve fit_bob_position_base : fit.

Lemma fit_bob_position : forall (c : octx) (o : bob_position), bob_position_ok o -> wiff (wbob_position c o) (bob_position_fits c o).
Proof. intros c o Hok. unfold wbob_position, bob_position_fits. pose proof Hok as Hok0. unfold bob_position_ok in Hok. use_ok. fit_go. Qed.
#[export] Hint Resolve fit_bob_position : fit.

Lemma fit_did_position_base : forall (c : octx) (o : did_position), did_position_ok o -> wiff (wdid_position_base c o) (did_position_base_fits c o).
Proof. intros c o Hok. unfold wdid_position_base, did_position_base_fits. pose proof Hok as Hok0. unfold did_position_ok in Hok. use_ok. fit_go. Qed.
#[export] Hint Resolve fit_did_position_base : fit.

Lemma fit_did_position : forall (c : octx) (o : did_position), did_position_ok o -> wiff (wdid_position c o) (did_position_fits c o).
Proof. intros c o Hok. unfold wdid_position, did_position_fits. pose proof Hok as Hok0. unfold did_position_ok in Hok. use_ok. fit_go. Qed.
#[export] Hint Resolve fit_did_position : fit.

Lemma fit_mpg_field : forall (c : octx) (p : Z * Z), wiff (wmpg_field c p) (mpg_field_fits c p).
Proof. intros c [a b]. unfold wmpg_field, mpg_field_fits. cbn [fst snd]. fit_go. Qed.

#[export] Hint Resolve fit_mpg_field : fit.

Lemma fit_mpg_fields : forall (c : octx) (l : list (Z * Z)), wiff (wmpg_fields c l) (mpg_fields_fits c l).
Proof.
  intros c l. unfold wmpg_fields, mpg_fields_fits. destruct (Z.ltb_spec 0 (len l)) as [H|H].
  - eapply wiff_eq; [apply wiff_cat; [apply wiff_s16|
      apply wiff_cat; [apply wiff_s16|apply wiff_list; intros; apply fit_mpg_field]]|].
    unfold fits_s16. split; [tauto|]. intros [H1 H2]. repeat split; try tauto; lia.
  - destruct l as [|x l]; [|unfold len in H; cbn [length] in H; lia].
    eapply wiff_eq; [apply wiff_true; wtriv|]. unfold fits_s16, len. cbn. split; auto. intros _.
    split; [lia|constructor].
Qed.

#[export] Hint Resolve fit_mpg_fields : fit.

Lemma fit_mpg_position : forall (c : octx) (o : mpg_position), mpg_position_ok o -> wiff (wmpg_position c o) (mpg_position_fits c o).
Proof. intros c o Hok. unfold wmpg_position, mpg_position_fits. pose proof Hok as Hok0. unfold mpg_position_ok in Hok. use_ok. fit_go. Qed.
#[export] Hint Resolve fit_mpg_position : fit.

Lemma fit_bin_ref : forall (c : octx) (o : bin_ref), wiff (wbin_ref c o) (bin_ref_fits c o).
Proof.
  intros c o. unfold wbin_ref, bin_ref_fits.
  do 3 (repeat (apply wiff_cat_l; [wtriv|]); apply wiff_cat; [fit_elem|]).
  apply wiff_cat_r; [|wtriv]. destruct (mcbr_name_utf8 o); [fit_elem|]. apply wiff_false. tauto.
Qed.

#[export] Hint Resolve fit_bin_ref : fit.

Lemma fit_mob_ref_base : forall (c : octx) (o : mob_ref), mob_ref_ok o -> wiff (wmob_ref_base c o) (mob_ref_base_fits c o).
Proof. intros c o Hok. unfold wmob_ref_base, mob_ref_base_fits. pose proof Hok as Hok0. unfold mob_ref_ok in Hok. use_ok. fit_go. Qed.
#[export] Hint Resolve fit_mob_ref_base : fit.

Lemma fit_mob_ref : forall (c : octx) (o : mob_ref), mob_ref_ok o -> wiff (wmob_ref c o) (mob_ref_fits c o).
Proof. intros c o Hok. unfold wmob_ref, mob_ref_fits. pose proof Hok as Hok0. unfold mob_ref_ok in Hok. use_ok. fit_go. Qed.
#[export] Hint Resolve fit_mob_ref : fit.

Lemma fit_marker : forall (c : octx) (o : marker), marker_ok o -> wiff (wmarker c o) (marker_fits c o).
Proof. intros c o Hok. unfold wmarker, marker_fits. pose proof Hok as Hok0. unfold marker_ok in Hok. use_ok. fit_go. Qed.
#[export] Hint Resolve fit_marker : fit.

Lemma fit_tracker_manager : forall (c : octx) (o : tracker_manager), tracker_manager_ok o -> wiff (wtracker_manager c o) (tracker_manager_fits c o).
Proof. intros c o Hok. unfold wtracker_manager, tracker_manager_fits. pose proof Hok as Hok0. unfold tracker_manager_ok in Hok. use_ok. fit_go. Qed.
#[export] Hint Resolve fit_tracker_manager : fit.

Lemma fit_tracker_data_slot : forall (c : octx) (o : tracker_data_slot), tracker_data_slot_ok o -> wiff (wtracker_data_slot c o) (tracker_data_slot_fits c o).
Proof. intros c o Hok. unfold wtracker_data_slot, tracker_data_slot_fits. pose proof Hok as Hok0. unfold tracker_data_slot_ok in Hok. use_ok. fit_go. Qed.
#[export] Hint Resolve fit_tracker_data_slot : fit.

Lemma fit_tracker_parameter_slot : forall (c : octx) (o : tracker_parameter_slot), tracker_parameter_slot_ok o -> wiff (wtracker_parameter_slot c o) (tracker_parameter_slot_fits c o).
Proof. intros c o Hok. unfold wtracker_parameter_slot, tracker_parameter_slot_fits. pose proof Hok as Hok0. unfold tracker_parameter_slot_ok in Hok. use_ok. fit_go. Qed.
#[export] Hint Resolve fit_tracker_parameter_slot : fit.

Lemma fit_tracker_data : forall (c : octx) (o : tracker_data), tracker_data_ok o -> wiff (wtracker_data c o) (tracker_data_fits c o).
Proof. intros c o Hok. unfold wtracker_data, tracker_data_fits. pose proof Hok as Hok0. unfold tracker_data_ok in Hok. use_ok. fit_go. Qed.
#[export] Hint Resolve fit_tracker_data : fit.

Lemma fit_tracker_parameter : forall (c : octx) (o : tracker_parameter), tracker_parameter_ok o -> wiff (wtracker_parameter c o) (tracker_parameter_fits c o).
Proof. intros c o Hok. unfold wtracker_parameter, tracker_parameter_fits. pose proof Hok as Hok0. unfold tracker_parameter_ok in Hok. use_ok. fit_go. Qed.
#[export] Hint Resolve fit_tracker_parameter : fit.

Lemma fit_media_descriptor_base : forall (c : octx) (o : media_descriptor), media_descriptor_ok o -> wiff (wmedia_descriptor_base c o) (media_descriptor_base_fits c o).
Proof. intros c o Hok. unfold wmedia_descriptor_base, media_descriptor_base_fits. pose proof Hok as Hok0. unfold media_descriptor_ok in Hok. use_ok. fit_go. Qed.
#[export] Hint Resolve fit_media_descriptor_base : fit.

Lemma fit_media_descriptor : forall (c : octx) (o : media_descriptor), media_descriptor_ok o -> wiff (wmedia_descriptor c o) (media_descriptor_fits c o).
Proof. intros c o Hok. unfold wmedia_descriptor, media_descriptor_fits. pose proof Hok as Hok0. unfold media_descriptor_ok in Hok. use_ok. fit_go. Qed.
#[export] Hint Resolve fit_media_descriptor : fit.

Lemma fit_tape_descriptor : forall (c : octx) (o : tape_descriptor), tape_descriptor_ok o -> wiff (wtape_descriptor c o) (tape_descriptor_fits c o).
Proof. intros c o Hok. unfold wtape_descriptor, tape_descriptor_fits. pose proof Hok as Hok0. unfold tape_descriptor_ok in Hok. use_ok. fit_go. Qed.
#[export] Hint Resolve fit_tape_descriptor : fit.

Lemma fit_film_descriptor : forall (c : octx) (o : film_descriptor), film_descriptor_ok o -> wiff (wfilm_descriptor c o) (film_descriptor_fits c o).
Proof. intros c o Hok. unfold wfilm_descriptor, film_descriptor_fits. pose proof Hok as Hok0. unfold film_descriptor_ok in Hok. use_ok. fit_go. Qed.
#[export] Hint Resolve fit_film_descriptor : fit.

Lemma fit_media_file_descriptor_base : forall (c : octx) (o : media_file_descriptor), media_file_descriptor_ok o -> wiff (wmedia_file_descriptor_base c o) (media_file_descriptor_base_fits c o).
Proof. intros c o Hok. unfold wmedia_file_descriptor_base, media_file_descriptor_base_fits. pose proof Hok as Hok0. unfold media_file_descriptor_ok in Hok. use_ok. fit_go. Qed.
#[export] Hint Resolve fit_media_file_descriptor_base : fit.

Lemma fit_media_file_descriptor : forall (c : octx) (o : media_file_descriptor), media_file_descriptor_ok o -> wiff (wmedia_file_descriptor c o) (media_file_descriptor_fits c o).
Proof. intros c o Hok. unfold wmedia_file_descriptor, media_file_descriptor_fits. pose proof Hok as Hok0. unfold media_file_descriptor_ok in Hok. use_ok. fit_go. Qed.
#[export] Hint Resolve fit_media_file_descriptor : fit.

Lemma fit_multi_descriptor : forall (c : octx) (o : multi_descriptor), multi_descriptor_ok o -> wiff (wmulti_descriptor c o) (multi_descriptor_fits c o).
Proof. intros c o Hok. unfold wmulti_descriptor, multi_descriptor_fits. pose proof Hok as Hok0. unfold multi_descriptor_ok in Hok. use_ok. fit_go. Qed.
#[export] Hint Resolve fit_multi_descriptor : fit.

Lemma fit_wave_descriptor : forall (c : octx) (o : wave_descriptor), wave_descriptor_ok o -> wiff (wwave_descriptor c o) (wave_descriptor_fits c o).
Proof. intros c o Hok. unfold wwave_descriptor, wave_descriptor_fits. pose proof Hok as Hok0. unfold wave_descriptor_ok in Hok. use_ok. fit_go. Qed.
#[export] Hint Resolve fit_wave_descriptor : fit.

Lemma fit_aifc_descriptor : forall (c : octx) (o : aifc_descriptor), aifc_descriptor_ok o -> wiff (waifc_descriptor c o) (aifc_descriptor_fits c o).
Proof. intros c o Hok. unfold waifc_descriptor, aifc_descriptor_fits. pose proof Hok as Hok0. unfold aifc_descriptor_ok in Hok. use_ok. fit_go. Qed.
#[export] Hint Resolve fit_aifc_descriptor : fit.

Lemma fit_pcma_descriptor : forall (c : octx) (o : pcma_descriptor), pcma_descriptor_ok o -> wiff (wpcma_descriptor c o) (pcma_descriptor_fits c o).
Proof. intros c o Hok. unfold wpcma_descriptor, pcma_descriptor_fits. pose proof Hok as Hok0. unfold pcma_descriptor_ok in Hok. use_ok. fit_go. Qed.
#[export] Hint Resolve fit_pcma_descriptor : fit.

Lemma fit_mpga_descriptor : forall (c : octx) (o : mpga_descriptor), mpga_descriptor_ok o -> wiff (wmpga_descriptor c o) (mpga_descriptor_fits c o).
Proof. intros c o Hok. unfold wmpga_descriptor, mpga_descriptor_fits. pose proof Hok as Hok0. unfold mpga_descriptor_ok in Hok. use_ok. fit_go. Qed.
#[export] Hint Resolve fit_mpga_descriptor : fit.

Lemma fit_point : forall (c : octx) (x y : Z), wiff (wpoint c x y) (point_fits c x y).
Proof. intros c x y. unfold wpoint, point_fits. fit_go. Qed.
#[export] Hint Resolve fit_point : fit.

Lemma fit_bounds_box : forall (c : octx) (b : bounds_box), wiff (wbounds_box c b) (bounds_box_fits c b).
Proof. intros c b. unfold wbounds_box, bounds_box_fits. fit_go. Qed.
#[export] Hint Resolve fit_bounds_box : fit.

Lemma fit_client_fill : forall (c : octx) (s e : option Z),
  wiff (wclient_fill c s e) (client_fill_fits c s e).
Proof.
  intros c [a|] [b|]; unfold wclient_fill, client_fill_fits; try (apply wiff_true; wtriv).
  - fit_elem.
  - unfold wext. do 3 (apply wiff_cat_l; [wtriv|]). apply wiff_cat; [fit_elem|].
    apply wiff_cat_l; [wtriv|]. apply wiff_false. tauto.
Qed.

#[export] Hint Resolve fit_client_fill : fit.

Lemma fit_boxes : forall (c : octx) (va es so : option bounds_box),
  wiff (wboxes c va es so) (boxes_fits c va es so).
Proof.
  intros c [a|] [b|] [d|]; unfold wboxes, boxes_fits; try (apply wiff_true; wtriv). fit_elem.
Qed.

#[export] Hint Resolve fit_boxes : fit.

Lemma fit_framing : forall (c : octx) (fb : option bounds_box) (ro : option Z),
  wiff (wframing c fb ro) (framing_fits c fb ro).
Proof.
  intros c [a|] [b|]; unfold wframing, framing_fits; try (apply wiff_true; wtriv). fit_elem.
Qed.

#[export] Hint Resolve fit_framing : fit.

Lemma fit_color : forall (c : octx) (cp ce : option uuid), wiff (wcolor c cp ce) (color_fits c cp ce).
Proof.
  intros c [a|] [b|]; unfold wcolor, color_fits; apply wiff_true; wtriv.
Qed.

#[export] Hint Resolve fit_color : fit.

Lemma fit_line_map : forall (c : octx) (l : list Z), wiff (wline_map c l) (line_map_fits c l).
Proof. intros c l. unfold wline_map, line_map_fits. fit_go. Qed.
#[export] Hint Resolve fit_line_map : fit.

Lemma fit_did_descriptor_base : forall (c : octx) (o : did_descriptor), did_descriptor_ok o -> wiff (wdid_descriptor_base c o) (did_descriptor_base_fits c o).
Proof. intros c o Hok. unfold wdid_descriptor_base, did_descriptor_base_fits. pose proof Hok as Hok0. unfold did_descriptor_ok in Hok. use_ok. fit_go. Qed.
#[export] Hint Resolve fit_did_descriptor_base : fit.

Lemma fit_did_descriptor : forall (c : octx) (o : did_descriptor), did_descriptor_ok o -> wiff (wdid_descriptor c o) (did_descriptor_fits c o).
Proof. intros c o Hok. unfold wdid_descriptor, did_descriptor_fits. pose proof Hok as Hok0. unfold did_descriptor_ok in Hok. use_ok. fit_go. Qed.
#[export] Hint Resolve fit_did_descriptor : fit.

Lemma fit_cdci_descriptor_base : forall (c : octx) (o : cdci_descriptor), cdci_descriptor_ok o -> wiff (wcdci_descriptor_base c o) (cdci_descriptor_base_fits c o).
Proof. intros c o Hok. unfold wcdci_descriptor_base, cdci_descriptor_base_fits. pose proof Hok as Hok0. unfold cdci_descriptor_ok in Hok. use_ok. fit_go. Qed.
#[export] Hint Resolve fit_cdci_descriptor_base : fit.

Lemma fit_cdci_descriptor : forall (c : octx) (o : cdci_descriptor), cdci_descriptor_ok o -> wiff (wcdci_descriptor c o) (cdci_descriptor_fits c o).
Proof. intros c o Hok. unfold wcdci_descriptor, cdci_descriptor_fits. pose proof Hok as Hok0. unfold cdci_descriptor_ok in Hok. use_ok. fit_go. Qed.
#[export] Hint Resolve fit_cdci_descriptor : fit.

Lemma fit_mpgi_descriptor : forall (c : octx) (o : mpgi_descriptor), mpgi_descriptor_ok o -> wiff (wmpgi_descriptor c o) (mpgi_descriptor_fits c o).
Proof. intros c o Hok. unfold wmpgi_descriptor, mpgi_descriptor_fits. pose proof Hok as Hok0. unfold mpgi_descriptor_ok in Hok. use_ok. fit_go. Qed.
#[export] Hint Resolve fit_mpgi_descriptor : fit.

Lemma fit_jped_descriptor : forall (c : octx) (o : jped_descriptor), jped_descriptor_ok o -> wiff (wjped_descriptor c o) (jped_descriptor_fits c o).
Proof. intros c o Hok. unfold wjped_descriptor, jped_descriptor_fits. pose proof Hok as Hok0. unfold jped_descriptor_ok in Hok. use_ok. fit_go. Qed.
#[export] Hint Resolve fit_jped_descriptor : fit.

Lemma wlist_u8_len : forall A (f : A -> Z) l bs, wlist (fun p => wu8 (f p)) l = Ok bs -> len bs = len l.
Proof.
  induction l as [|x l IH]; intros bs H; cbn [wlist] in H.
  - apply Ok_inj in H as <-. reflexivity.
  - apply wcat_ok in H as (a & b & Ha & Hb & ->). apply wu8_ok in Ha as [-> _].
    apply IH in Hb. unfold len in *. cbn [app length]. lia.
Qed.

Lemma fit_pixel_layout : forall (c : octx) (l : list (Z * Z)),
  wiff (wpixel_layout c l) (pixel_layout_fits c l).
Proof.
  intros c l. unfold wpixel_layout, pixel_layout_fits.
  assert (wiff (wlist (fun p => wu8 (fst p)) l) (Forall (fun p => fits_u8 (fst p)) l)) as H1
    by (apply wiff_list; intros; apply wiff_u8).
  assert (wiff (wlist (fun p => wu8 (snd p)) l) (Forall (fun p => fits_u8 (snd p)) l)) as H2
    by (apply wiff_list; intros; apply wiff_u8).
  assert (Forall (fun p => fits_u8 (fst p) /\ fits_u8 (snd p)) l <->
    Forall (fun p => fits_u8 (fst p)) l /\ Forall (fun p => fits_u8 (snd p)) l) as HF.
  { split; [apply Forall_and_inv|intros []; now apply Forall_and]. }
  apply wiff_eq with (P := (Forall (fun p => fits_u8 (fst p)) l /\
    Forall (fun p => fits_u8 (snd p)) l) /\ len l <= 4294967295); [clear HF|tauto].
  destruct (wlist (fun p => wu8 (fst p)) l) as [pl|] eqn:E1.
  - destruct (wlist (fun p => wu8 (snd p)) l) as [ps|] eqn:E2.
    + apply wlist_u8_len in E1, E2. rewrite E1, E2.
      eapply wiff_eq; [apply wiff_cat; [apply wiff_u32|]; apply wiff_cat_l; [wtriv|];
        apply wiff_cat_r; [apply wiff_u32|wtriv]|].
      unfold wiff, wok in H1, H2. unfold fits_u32, len in *. split; [|intros [_ H]; lia].
      intros [Hl _]. split; [split; [apply H1; eauto|apply H2; eauto]|lia].
    + apply wiff_false. intros [[_ H] _]. apply H2 in H as [bs H]. discriminate H.
  - apply wiff_false. intros [[H _] _]. apply H1 in H as [bs H]. discriminate H.
Qed.

#[export] Hint Resolve fit_pixel_layout : fit.

Lemma wiff_attr_of : forall A (o : option A) (w : A -> writer) P, (forall v, wiff (w v) (P v)) ->
  wiff (wattr_of o w) (exists v, o = Some v /\ P v).
Proof.
  intros A [v|] w P H; cbn [wattr_of].
  - eapply wiff_eq; [apply H|]. split; [eauto|]. intros (x & E & Hx). now injection E as <-.
  - apply wiff_false. intros (x & E & _). discriminate E.
Qed.

Lemma fit_comp_refs : forall (c : octx) (o : rgba_descriptor),
  wiff (wcomp_refs c o) (comp_refs_fits c o).
Proof.
  intros c o. unfold wcomp_refs, comp_refs_fits. destruct (rgba_has_comp_min_ref o) as [a|].
  - unfold wext. do 5 (apply wiff_cat_l; [wtriv|]).
    eapply wiff_eq.
    + apply wiff_cat; [apply wiff_attr_of; intros; apply wiff_u32|].
      apply wiff_cat_l; [wtriv|].
      apply wiff_cat; [apply wiff_attr_of with (P := fun _ => True); intros; apply wiff_true; wtriv|].
      apply wiff_cat_l; [wtriv|]. apply wiff_attr_of; intros; apply wiff_u32.
    + split.
      * intros (H1 & (v & -> & _) & H3). right. repeat split; auto. discriminate.
      * intros [H|(H1 & H2 & H3)]; [discriminate H|]. repeat split; auto.
        destruct (rgba_has_comp_max_ref o); [eauto|congruence].
  - eapply wiff_eq; [apply wiff_true; wtriv|]. tauto.
Qed.

#[export] Hint Resolve fit_comp_refs : fit.

Lemma fit_alpha_refs : forall (c : octx) (o : rgba_descriptor),
  wiff (walpha_refs c o) (alpha_refs_fits c o).
Proof.
  intros c o. unfold walpha_refs, alpha_refs_fits. destruct (rgba_alpha_min_ref o) as [a|].
  - unfold wext. do 3 (apply wiff_cat_l; [wtriv|]). apply wiff_cat; [apply wiff_u32|].
    apply wiff_cat_l; [wtriv|]. apply wiff_attr_of; intros; apply wiff_u32.
  - apply wiff_true; wtriv.
Qed.

#[export] Hint Resolve fit_alpha_refs : fit.

Lemma fit_rgba_descriptor : forall (c : octx) (o : rgba_descriptor), rgba_descriptor_ok o -> wiff (wrgba_descriptor c o) (rgba_descriptor_fits c o).
Proof. intros c o Hok. unfold wrgba_descriptor, rgba_descriptor_fits. pose proof Hok as Hok0. unfold rgba_descriptor_ok in Hok. use_ok. fit_go. Qed.
#[export] Hint Resolve fit_rgba_descriptor : fit.

Lemma fit_data_descriptor : forall (c : octx) (o : data_descriptor), data_descriptor_ok o -> wiff (wdata_descriptor c o) (data_descriptor_fits c o).
Proof. intros c o Hok. unfold wdata_descriptor, data_descriptor_fits. pose proof Hok as Hok0. unfold data_descriptor_ok in Hok. use_ok. fit_go. Qed.
#[export] Hint Resolve fit_data_descriptor : fit.

Lemma fit_anc_data_descriptor : forall (c : octx) (o : anc_data_descriptor), anc_data_descriptor_ok o -> wiff (wanc_data_descriptor c o) (anc_data_descriptor_fits c o).
Proof. intros c o Hok. unfold wanc_data_descriptor, anc_data_descriptor_fits. pose proof Hok as Hok0. unfold anc_data_descriptor_ok in Hok. use_ok. fit_go. Qed.
#[export] Hint Resolve fit_anc_data_descriptor : fit.

Lemma fit_setting : forall (c : octx) (o : setting), setting_ok o -> wiff (wsetting c o) (setting_fits c o).
Proof. intros c o Hok. unfold wsetting, setting_fits. pose proof Hok as Hok0. unfold setting_ok in Hok. use_ok. fit_go. Qed.
#[export] Hint Resolve fit_setting : fit.

Lemma fit_bin_column : forall (c : octx) (o : bin_column), bin_column_ok o -> wiff (wbin_column c o) (bin_column_fits c o).
Proof. intros c o Hok. unfold wbin_column, bin_column_fits. pose proof Hok as Hok0. unfold bin_column_ok in Hok. use_ok. fit_go. Qed.
#[export] Hint Resolve fit_bin_column : fit.

Lemma fit_format_desc : forall (c : octx) (o : format_desc), wiff (wformat_desc c o) (format_desc_fits c o).
Proof.
  intros c o. unfold wformat_desc, format_desc_fits. apply wiff_cat_l; [wtriv|].
  apply wiff_cat; [apply wiff_s16|].
  destruct (utf8_encode (fdsc_format_descriptor o)) as [bs|e] eqn:E.
  - pose proof (utf8_encode_size _ _ E) as Hs.
    eapply wiff_eq.
    + apply wiff_cat_l; [wtriv|]. apply wiff_cat; [apply wiff_s32|]. apply wiff_cat_l; [wtriv|].
      apply wiff_cat_r; [apply wiff_s16|wtriv].
    + rewrite Hs. unfold fits_s32, fits_s16. split.
      * intros H. split; [|lia]. apply (proj1 (utf8_encode_iff _)). eauto.
      * intros [_ H]. unfold len in Hs. lia.
  - apply wiff_false. intros [H _]. apply (proj2 (utf8_encode_iff _)) in H as [bs H].
    rewrite E in H. discriminate H.
Qed.

#[export] Hint Resolve fit_format_desc : fit.

Lemma fit_format_descs : forall (c : octx) (l : list format_desc), wiff (wformat_descs c l) (format_descs_fits c l).
Proof. intros c l. unfold wformat_descs, format_descs_fits. fit_go. Qed.
#[export] Hint Resolve fit_format_descs : fit.

Lemma fit_bin_view_setting : forall (c : octx) (o : bin_view_setting), bin_view_setting_ok o -> wiff (wbin_view_setting c o) (bin_view_setting_fits c o).
Proof. intros c o Hok. unfold wbin_view_setting, bin_view_setting_fits. pose proof Hok as Hok0. unfold bin_view_setting_ok in Hok. use_ok. fit_go. Qed.
#[export] Hint Resolve fit_bin_view_setting : fit.

Lemma fit_bin_item : forall (c : octx) (o : bin_item), wiff (wbin_item c o) (bin_item_fits c o).
Proof.
  intros c o. unfold wbin_item, bin_item_fits.
  apply wiff_cat; [fit_elem|]. apply wiff_cat; [fit_elem|]. apply wiff_cat; [fit_elem|].
  apply wiff_cat_r; [fit_elem|]. destruct (item_user_placed o); wtriv.
Qed.

#[export] Hint Resolve fit_bin_item : fit.

Lemma fit_sift_item : forall (c : octx) (o : sift_item), sift_item_ok o -> wiff (wsift_item c o) (sift_item_fits c o).
Proof. intros c o Hok. unfold wsift_item, sift_item_fits. pose proof Hok as Hok0. unfold sift_item_ok in Hok. use_ok. fit_go. Qed.
#[export] Hint Resolve fit_sift_item : fit.

Lemma fit_sort_column : forall (c : octx) (o : sort_column), sort_column_ok o -> wiff (wsort_column c o) (sort_column_fits c o).
Proof. intros c o Hok. unfold wsort_column, sort_column_fits. pose proof Hok as Hok0. unfold sort_column_ok in Hok. use_ok. fit_go. Qed.
#[export] Hint Resolve fit_sort_column : fit.

Lemma fit_object_count : forall (c : octx) (o : bin), wiff (wobject_count c o) (object_count_fits c o).
Proof.
  intros c o. unfold wobject_count, object_count_fits, large_form.
  destruct (abin_large_bin o || (65535 <? len (abin_items o))) eqn:E;
    (eapply wiff_eq; [apply wiff_u32 || apply wiff_u16|]); unfold fits_u32, fits_u16, len in *.
  - lia.
  - apply orb_false_elim in E as [_ E]. apply Z.ltb_ge in E. lia.
Qed.

#[export] Hint Resolve fit_object_count : fit.

Lemma wiff_first : forall A (w : A -> writer) (P : A -> Prop) n l, length l = n ->
  (forall x, In x l -> wiff (w x) (P x)) -> wiff (wfirst n w l) (Forall P l).
Proof.
  intros A w P n l <- H.
  replace (wfirst (length l) w l) with (wlist w l); [now apply wiff_list|].
  clear H. induction l as [|x l IH]; cbn [length wfirst wlist]; [reflexivity|]. now rewrite IH.
Qed.

Lemma fit_bin_base : forall (c : octx) (o : bin), bin_ok o -> wiff (wbin_base c o) (bin_base_fits c o).
Proof.
  intros c o Hok. pose proof Hok as Hok0. unfold wbin_base, bin_base_fits. unfold bin_ok in Hok. use_ok.
  apply wiff_cat_l; [wtriv|]. apply wiff_cat_l; [destruct (large_form o); wtriv|].
  do 6 (apply wiff_cat; [fit_elem|]). apply wiff_cat_l; [wtriv|].
  apply wiff_cat; [apply wiff_first; [assumption|intros; use_ok; fit_elem]|].
  fit_go.
Qed.

#[export] Hint Resolve fit_bin_base : fit.

Lemma fit_bin : forall (c : octx) (o : bin), bin_ok o -> wiff (wbin c o) (bin_fits c o).
Proof. intros c o Hok. unfold wbin, bin_fits. pose proof Hok as Hok0. unfold bin_ok in Hok. use_ok. fit_go. Qed.
#[export] Hint Resolve fit_bin : fit.

Lemma fit_bin_first : forall (c : octx) (o : bin_first), bin_first_ok o -> wiff (wbin_first c o) (bin_first_fits c o).
Proof. intros c o Hok. unfold wbin_first, bin_first_fits. pose proof Hok as Hok0. unfold bin_first_ok in Hok. use_ok. fit_go. Qed.
#[export] Hint Resolve fit_bin_first : fit.
