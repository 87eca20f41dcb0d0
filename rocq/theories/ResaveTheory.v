(** Chunks and documents that were read and are written again. *)
From Coq Require Import ZArith List Bool Lia.
From Verif Require Import Base IoCtx Text Exp10 MobId Storable Attributes Components TrackGroups
  Misc Essence BinModel RoundTrip PrimProofs FitsProofs Dates Fits Saved Objects ObjSpec ObjProofs ObjTheory OrderProofs LocProofs RefsProofs GotProofs
  ResaveSpec ResaveProofs FitRefsProofs DateSpec FileModel FileSpec Opened TableProofs SaveProofs.
Import ListNotations.
Open Scope Z_scope.

(** ** Chunks *)

Lemma read_again : forall i cc data o, Forall is_byte data -> robject i cc data = Ok o -> obj_keeps o ->
  obj_ok o /\ obj_fits own o.
Proof.
  intros i cc data o Hd H. apply robject_ok in H as (_ & _ & E).
  unfold rbody in E. apply bind_ok in E as (v & b & E1 & E2). unfold ret in E2. apply Ok_inj in E2.
  remember (okind o) as k eqn:Ek. apply (f_equal fst) in E2. cbn [fst] in E2. subst o. intros K.
  destruct (read_keeps i k data v b Hd E1) as [Q _]. destruct (Q K) as (A & B & C).
  split; [split; assumption|exact C].
Qed.

Lemma fits_moves : forall c c' o, obj_ok o -> obj_fits c o ->
  (forall r, In r (obj_refs o) -> fits_ref c' r) -> obj_fits c' o.
Proof.
  intros c c' o [Hk _] Hf Hr. destruct (fsp_obj c c' o Hk Hf) as [_ G]. apply G.
  apply Forall_forall. exact Hr.
Qed.

Lemma exp10_steady : forall x, fits_exp10 x -> exp10_stable x -> steady x.
Proof.
  intros x (m & e & H & A & B) S. exists m, e. unfold exp10_stable in S. rewrite H in S. auto.
Qed.

Lemma ok_roomy : forall s, utf8_ok s -> roomy s. Proof. intros s [_ H]. exact H. Qed.

Create HintDb kept.
#[export] Hint Resolve exp10_steady ok_roomy : kept.

(** The conditions are not stronger than what writing needs. *)
Lemma written_keeps : forall c o, obj_ok o -> obj_fits c o -> obj_keeps o.
Proof.
  intros c [k v] [Hk Hok] Hf. unfold obj_fits, obj_keeps in *. cbn [okind oval] in *.
  destruct k; try discriminate Hk; cbn [keeps_of ok_of fits_of class_of C_type] in *;
    try exact I.
  all: cbv beta delta [ component_fits component_ok sequence_fits sequence_ok clip_fits clip_ok
    source_clip_fits source_clip_ok timecode_fits timecode_ok edgecode_fits edgecode_ok
    track_ref_fits track_ref_ok param_clip_fits param_clip_ok control_clip_fits control_clip_ok
    filler_fits filler_ok track_group_fits track_group_ok track_effect_fits track_effect_base_fits
    track_effect_ok pan_volume_effect_fits pan_volume_effect_ok audio_suite_effect_fits
    audio_suite_effect_ok equalizer_multi_band_fits equalizer_multi_band_ok time_warp_fits
    time_warp_ok capture_mask_fits capture_mask_ok strobe_effect_fits strobe_effect_ok
    motion_effect_fits motion_effect_ok repeat_effect_fits repeat_effect_ok essence_group_fits
    essence_group_ok transition_effect_fits transition_effect_ok selector_fits selector_ok
    composition_fits composition_ok media_file_descriptor_fits media_file_descriptor_base_fits
    media_file_descriptor_ok multi_descriptor_fits multi_descriptor_ok wave_descriptor_fits
    wave_descriptor_ok aifc_descriptor_fits aifc_descriptor_ok pcma_descriptor_fits
    pcma_descriptor_ok mpga_descriptor_fits mpga_descriptor_ok did_descriptor_fits
    did_descriptor_base_fits did_descriptor_ok cdci_descriptor_fits cdci_descriptor_base_fits
    cdci_descriptor_ok mpgi_descriptor_fits mpgi_descriptor_ok jped_descriptor_fits
    jped_descriptor_ok rgba_descriptor_fits rgba_descriptor_ok data_descriptor_fits data_descriptor_ok
    anc_data_descriptor_fits anc_data_descriptor_ok file_locator_fits file_locator_ok
    msm_locator_fits msm_locator_ok position_fits position_base_fits position_ok bob_position_fits
    bob_position_base_fits bob_position_ok did_position_fits did_position_base_fits did_position_ok
    mpg_position_fits mpg_position_ok mpg_fields_fits mob_words_fits bin_ref_fits bin_ref_ok
    mob_ref_fits mob_ref_base_fits mob_ref_ok marker_fits marker_ok bin_view_setting_fits
    bin_view_setting_ok format_desc_fits format_desc_ok format_descs_fits ] in Hok, Hf.
  all: repeat match goal with H : _ /\ _ |- _ => destruct H end.
  all: repeat match goal with |- _ /\ _ => split end.
  all: try first [ assumption | solve [auto with kept]
    | match goal with H : opt_ok _ ?x |- opt_ok _ ?x => solve [refine (opt_map _ _ _ _ _ H); auto with kept] end ].

  - refine (opt_map _ _ _ _ _ H2). intros l [_ Hl]. apply (Forall_impl _ (fun d H => proj2 (proj2 H)) Hl).
  - refine (opt_map _ _ _ _ _ H8). intros n Hn. unfold fits_s64 in Hn. lia.
  - unfold fits_s16 in H1. change (2 ^ 15) with 32768. lia.
  - intros E. rewrite E in H2. exact H2.
  - refine (opt_map _ _ _ _ _ H2). intros m [A B]. unfold fits_s32 in A, B. lia.
Qed.

(** The conditions do not look at references. *)
Lemma keeps_map : forall f o, obj_keeps o -> obj_keeps (obj_map f o).
Proof.
  intros f [k v]. unfold obj_keeps, obj_map. cbn [okind oval].
  destruct k; cbn [keeps_of class_of C_type C_map]; intros H; try exact H.
  cbn [bin_view_setting_map bvst_format_descriptors]. destruct (bvst_format_descriptors v) as [l|]; [|exact I].
  cbn [option_map opt_ok] in *. apply Forall_forall. intros d Hd. apply in_map_iff in Hd as (x & <- & Hx).
  rewrite Forall_forall in H. exact (H x Hx).
Qed.

Lemma resave_chunk : forall i cc data o c, Forall is_byte data -> robject i cc data = Ok o -> obj_keeps o ->
  (forall r, In r (obj_refs o) -> r = 0 \/ exists x, orefs c r = Some x /\ 0 <= x < 2 ^ 32) ->
  obj_ok o /\ obj_fits c o /\ exists data', wbody c o = Ok data'.
Proof.
  intros i cc data o c Hd H K Hr. destruct (read_again i cc data o Hd H K) as [A B].
  assert (obj_fits c o) as C.
  { apply (fits_moves own c o A B). intros r Hi. destruct (Hr r Hi) as [->|(x & E & Hx)]; [now left|right].
    exists x. split; [exact E|]. unfold fits_u32. lia. }
  split; [exact A|]. split; [exact C|]. now apply obj_fit.
Qed.

(** ** Files *)

Lemma is_byte_skipn : forall n l, Forall is_byte l -> Forall is_byte (skipn n l).
Proof. intros n l H. rewrite <- (firstn_skipn n l) in H. apply Forall_app in H. apply H. Qed.

Lemma is_byte_firstn : forall n l, Forall is_byte l -> Forall is_byte (firstn n l).
Proof. intros n l H. rewrite <- (firstn_skipn n l) in H. apply Forall_app in H. apply H. Qed.

Lemma read_object_inv : forall t n o, Forall is_byte (of_file t) -> read_object t n = Ok (Some o) ->
  exists cc data, Forall is_byte data /\ robject (of_ictx t) cc data = Ok o.
Proof.
  intros t n o Hf H. unfold read_object in H. destruct (Z.eqb_spec n 0); [discriminate|].
  destruct (position t n) as [pos|e]; [|discriminate].
  destruct (rchunk_head _ _) as [[[cc size] b]|e] eqn:E; [|discriminate].
  destruct (len (firstn (Z.to_nat size) b) =? size); [|discriminate].
  destruct (robject (of_ictx t) cc (firstn (Z.to_nat size) b)) as [o'|e] eqn:R; [|discriminate].
  injection H as ->. exists cc, (firstn (Z.to_nat size) b). split; [|exact R].
  apply is_byte_firstn. unfold rchunk_head in E. apply bind_ok in E as (x & b' & E1 & E2).
  unfold ret in E2. injection E2 as _ _ ->. unfold take in E1.
  destruct (Nat.ltb _ _) in E1; [discriminate|]. injection E1 as _ <-.
  exact (is_byte_skipn 8 _ (is_byte_skipn (Z.to_nat pos) _ Hf)).
Qed.

Lemma open_table_got : forall file t, Forall is_byte file -> open_table file = Ok t ->
  of_file t = file /\ 0 <= hd_count (of_head t) < 2 ^ 32 /\ 0 <= hd_root (of_head t) < 2 ^ 32 /\
  0 <= of_stamp t < 2 ^ 32 /\ (exists v, mac_encode (of_version t) = Ok v) /\
  length (of_positions t) = Z.to_nat (hd_count (of_head t)).
Proof.
  intros file t Hf H.
  assert (res (fun h => 0 <= hd_count h < 2 ^ 32 /\ 0 <= hd_root h < 2 ^ 32) rhead) as R1.
  { unfold rhead. eapply res_bind; [apply got_fread|]. intros m _.
    eapply res_bind; [apply (res_any _ _)|].
    { destruct (zlist_eqb m (order_mark LE)); [apply loc_ret|].
      destruct (zlist_eqb m (order_mark BE)); [apply loc_ret|apply loc_fail]. }
    intros bo _. eapply res_bind; [apply got_fread|]. intros g _.
    eapply res_bind; [apply (res_any _ _)|].
    { destruct (zlist_eqb g magic); [apply loc_ret|apply loc_fail]. }
    intros _ _. eapply res_bind; [apply (res_any _ _ (loc_fourcc _))|]. intros cc _.
    eapply res_bind; [apply got_rassert|]. intros _ _.
    eapply res_bind; [apply got_str|]. intros nm _.
    eapply res_bind; [apply got_rassert|]. intros _ _.
    eapply res_bind; [apply got_u8|]. intros x _.
    eapply res_bind; [apply got_rassert|]. intros _ _.
    eapply res_bind; [apply got_str|]. intros txt _.
    eapply res_bind; [apply got_u32|]. intros n Hn.
    eapply res_bind; [apply got_u32|]. intros r Hr.
    apply res_ret. cbn [hd_count hd_root]. unfold fits_u32 in *. lia. }
  assert (forall bo, res (fun p => 0 <= fst p < 2 ^ 32 /\ str_got (snd p)) (rhead_rest bo)) as R2.
  { intros bo. unfold rhead_rest. eapply res_bind; [apply got_u32|]. intros v _.
    eapply res_bind; [apply got_rassert|]. intros _ _.
    eapply res_bind; [apply got_u32|]. intros n Hn.
    eapply res_bind; [apply got_fread|]. intros x _.
    eapply res_bind; [apply (res_any _ _ (loc_fourcc _))|]. intros a _.
    eapply res_bind; [apply got_rassert|]. intros _ _.
    eapply res_bind; [apply (res_any _ _ (loc_fourcc _))|]. intros b _.
    eapply res_bind; [apply got_rassert|]. intros _ _.
    eapply res_bind; [apply got_str|]. intros ver Hv.
    eapply res_bind; [apply got_fread|]. intros r _.
    apply res_ret. cbn [fst snd]. unfold fits_u32 in *. split; [lia|exact Hv]. }
  destruct (open_table_inv _ _ H) as [E S]. split; [exact E|].
  unfold open_table in H. destruct (rhead file) as [[h b1]|e] eqn:E1; [|discriminate].
  destruct (R1 _ _ _ Hf E1) as [A B].
  destruct (rhead_rest (hd_bo h) b1) as [[[st ver] b2]|e] eqn:E2; [|discriminate].
  destruct (R2 _ _ _ _ B E2) as [[C D] _]. cbn [fst snd] in C, D.
  destruct (scan _ _ _ _) as [l|e] eqn:E3 in H; [|discriminate]. injection H as <-.
  cbn [of_head of_stamp of_version of_positions] in *.
  split; [apply A|]. split; [apply A|]. split; [exact C|]. split.
  - destruct D as [[D _] _]. apply mac_encode_some. now apply mac_table_all.
  - now destruct (scan_inv _ _ _ _ _ S).
Qed.

(** ** Opened documents *)

Lemma load_inv : forall t self kids n nd, load t self kids n = Ok nd ->
  exists o, read_object t n = Ok (Some o) /\ nd = {| nd_doc := self; nd_id := n; nd_obj := o; nd_kids := kids n o |}.
Proof.
  intros t self kids n nd H. unfold load in H. destruct (read_object t n) as [[o|]|e]; try discriminate.
  injection H as <-. eauto.
Qed.

Lemma opened_walks : forall z t self kids, follows kids -> walks_refs (opened_doc z t self kids).
Proof.
  intros z t self kids K a nd _ E b. apply load_inv in E as (o & _ & ->). apply K.
Qed.

Lemma opened_ids : forall z t self kids, ids_distinct (opened_doc z t self kids).
Proof.
  intros z t self kids a b na nb _ _ Ea Eb. apply load_inv in Ea as (o & _ & ->).
  apply load_inv in Eb as (o' & _ & ->). auto.
Qed.

Lemma opened_ok : forall z t self kids, Forall is_byte (of_file t) ->
  (forall n o, in_doc (opened_doc z t self kids) n -> read_object t n = Ok (Some o) -> obj_keeps o) ->
  all_ok (opened_doc z t self kids).
Proof.
  intros z t self kids Hf K a nd Ha E. apply load_inv in E as (o & R & ->). cbn [nd_obj].
  destruct (read_object_inv t a o Hf R) as (cc & data & Hd & H).
  now apply (read_again _ cc data o Hd H), (K a o).
Qed.

Lemma opened_range : forall file z t self kids n, Forall is_byte file -> open_table file = Ok t ->
  in_doc (opened_doc z t self kids) n ->
  read_object t (hd_root (of_head t)) <> Err IndexErr ->
  1 <= n <= hd_count (of_head t).
Proof.
  intros file z t self kids n Hf T D N. destruct (open_table_got file t Hf T) as (Ef & Hc & Hr & _ & _ & Hl).
  destruct D as [D0 R]. cbn [opened_doc dc_content dc_heap] in *.
  induction R as [|b c R IH (nd & E & I & N0)].
  - unfold read_object in N. destruct (Z.eqb_spec (hd_root (of_head t)) 0); [contradiction|].
    unfold position in N. destruct (nth_error _ _) as [p|] eqn:E in N; [|contradiction].
    assert (nth_error (of_positions t) (Z.to_nat (hd_root (of_head t) - 1)) <> None) as G by congruence.
    apply nth_error_Some in G. lia.
  - apply load_inv in E as (o & Ro & ->). cbn [nd_obj] in I. rewrite <- Ef in Hf.
    destruct (read_object_inv t b o Hf Ro) as (cc & data & Hd & H).
    pose proof (robject_refs _ _ _ _ Hd H) as F. unfold refs_ok in F. rewrite Forall_forall in F.
    specialize (F c I). unfold ref_ok, of_ictx in F. cbn [inobj] in F. lia.
Qed.

Lemma own_numbered : forall bo o, obj_ok o -> obj_fits own o -> obj_fits (all_numbered bo) o.
Proof.
  intros bo o A B. apply (fits_moves own _ o A B). intros r _. right. exists 1.
  split; [reflexivity|]. unfold fits_u32. lia.
Qed.

Lemma opened_header : forall file z t self kids, Forall is_byte file -> open_table file = Ok t ->
  mktime_right z -> unambiguous z (of_stamp t) -> header_fits z (opened_doc z t self kids).
Proof.
  intros file z t self kids Hf T M U. destruct (open_table_got file t Hf T) as (_ & _ & _ & Hs & Hv & _).
  split; [exact Hv|]. cbn [opened_doc dc_saved]. rewrite (U _ (M (of_stamp t))). exact Hs.
Qed.

Lemma opened_saveable : forall file z t self kids bo, Forall is_byte file -> open_table file = Ok t ->
  (forall n, in_doc (opened_doc z t self kids) n -> exists o, read_object t n = Ok (Some o) /\ obj_keeps o /\
     forall data, wbody (all_numbered bo) o = Ok data -> len data < 2 ^ 32) ->
  saveable bo (opened_doc z t self kids) (map Z.of_nat (seq 1 (Z.to_nat (hd_count (of_head t))))).
Proof.
  intros file z t self kids bo Hf T K. destruct (open_table_got file t Hf T) as (Ef & Hc & Hr & _ & _ & Hl).
  split.
  { unfold len. rewrite map_length, seq_length. lia. }
  intros a Ha. split.
  - assert (1 <= a <= hd_count (of_head t)) as Hr'.
    { apply (opened_range file z t self kids a Hf T Ha). intros E.
      destruct (K (hd_root (of_head t))) as (o & G & _); [|rewrite E in G; discriminate G].
      split; [exact (proj1 Ha)|constructor]. }
    apply in_map_iff. exists (Z.to_nat a). split; [lia|]. apply in_seq. lia.
  - destruct (K a Ha) as (o & R & Ko & S). eexists. cbn [opened_doc dc_heap]. unfold load. rewrite R.
    split; [reflexivity|]. cbn [nd_doc nd_obj opened_doc dc_self]. split; [reflexivity|].
    rewrite <- Ef in Hf. destruct (read_object_inv t a o Hf R) as (cc & data & Hd & H).
    destruct (read_again _ cc data o Hd H Ko) as [A B]. split; [now apply own_numbered|exact S].
Qed.

Lemma completed_node : forall lim z bo d o, walks_refs d -> ids_distinct d -> save lim z bo d = (o, None) ->
  forall n, in_doc d n -> exists nd, dc_heap d n = Ok nd.
Proof.
  intros lim z bo d o W Id H n Hn.
  destruct (completed lim z bo d o W Id H) as (order & v & ss & _ & Io & _ & _ & _ & _ & S & _).
  apply Io in Hn. clear Io. induction S as [done|done a l ss nd m data E _ _ _ _ _ _ IH]; [destruct Hn|].
  destruct Hn as [<-|Hn]; eauto.
Qed.

(** References that lead to smaller numbers do not form cycles. *)
Lemma opened_descends : forall z t self kids, let d := opened_doc z t self kids in
  (forall n o r, in_doc d n -> read_object t n = Ok (Some o) -> In r (obj_refs o) -> r < n) ->
  acyclic d.
Proof.
  intros z t self kids d D.
  assert (forall a b, in_doc d a -> refers (dc_heap d) a b -> b < a) as L.
  { intros a b Ha (nd & E & I & _). apply load_inv in E as (o & R & ->). exact (D a o b Ha R I). }
  assert (forall a b, in_doc d a -> reach (dc_heap d) a b -> in_doc d b /\ b <= a) as M.
  { intros a b Ha R. induction R as [|b c R IH K]; [split; [exact Ha|lia]|]. destruct IH as [Hb IH].
    split; [exact (in_doc_step d b c Hb K)|]. apply L in K; [lia|exact Hb]. }
  intros a Ha (b & K & R). pose proof (in_doc_step d a b Ha K) as Hb. apply L in K; [|exact Ha].
  apply M in R as [_ R]; [lia|exact Hb].
Qed.
