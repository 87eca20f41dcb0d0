(** A new document and the mobs put into it: what is alive, and that all of it can be saved. *)
From Coq Require Import ZArith String List Bool FinFun Lia.
From Verif Require Import Base IoCtx RoundTrip Text Exp10 MobId Storable Attributes Components TrackGroups Misc Essence BinModel Fits Saved SavedProofs
  FitsProofs FitRefsProofs Dates Objects ObjSpec ObjProofs ObjTheory FileModel FileSpec HeaderProofs SaveProofs Names NamesProofs ResaveSpec Edited EditSpec EditProofs
  MobIdProofs Made MadeSpec MadeProofs.
Import ListNotations.
Open Scope Z_scope.

(** ** Lengths of chunks *)

Definition wbound (w : writer) (n : Z) : Prop := forall d, w = Ok d -> len d <= n.

Lemma wb_cat : forall a b n m, wbound a n -> wbound b m -> wbound (a +++ b) (n + m).
Proof.
  intros a b n m A B d E. unfold wcat in E. destruct a as [x|]; [|discriminate E]. destruct b as [y|]; [|discriminate E].
  injection E as <-. specialize (A x eq_refl). specialize (B y eq_refl). unfold len in *. rewrite app_length. lia.
Qed.

Lemma wb_le : forall w n m, wbound w n -> n <= m -> wbound w m.
Proof. intros w n m H L d E. specialize (H d E). lia. Qed.

Lemma wb_unsigned : forall bo n v, wbound (wunsigned bo n v) (Z.of_nat n).
Proof. intros bo n v d E. unfold wunsigned in E. destruct (_ && _); [|discriminate E]. injection E as <-. unfold len. rewrite enc_length. lia. Qed.

Lemma wb_signed : forall bo n v, wbound (wsigned bo n v) (Z.of_nat n).
Proof. intros bo n v d E. unfold wsigned in E. destruct (_ && _); [|discriminate E]. injection E as <-. unfold len. rewrite enc_length. lia. Qed.

Lemma wb_ref : forall c r, wbound (wref c r) 4.
Proof.
  intros c r. unfold wref. destruct (r =? 0); [apply (wb_unsigned _ 4)|]. destruct (orefs c r); [apply (wb_unsigned _ 4)|].
  intros d E. discriminate E.
Qed.

Lemma wb_bool : forall v, wbound (wbool v) 1.
Proof. intros v. destruct v; apply (wb_unsigned _ 1). Qed.

Lemma wb_nil : wbound wnil 0.
Proof. intros d E. injection E as <-. cbn. lia. Qed.

Lemma wb_bytes : forall b n, len b <= n -> wbound (wbytes b) n.
Proof. intros b n H d E. injection E as <-. exact H. Qed.

Lemma wb_list : forall A (w : A -> writer) n l, 0 <= n -> (forall x, wbound (w x) n) -> wbound (wlist w l) (n * len l).
Proof.
  intros A w n l Hn H. induction l as [|x l IH]; cbn [wlist].
  - eapply wb_le; [apply wb_nil|]. unfold len. cbn [length]. lia.
  - eapply wb_le; [apply wb_cat; [apply H|exact IH]|]. unfold len. cbn [length]. lia.
Qed.

Lemma wb_computed : forall w n, match w with Ok d => len d <= n | Err _ => True end -> wbound w n.
Proof. intros w n H d E. rewrite E in H. exact H. Qed.

Lemma wb_uuid : forall bo u, length u = 16%nat -> wbound (wuuid bo u) 64.
Proof.
  intros bo u H. unfold wuuid. eapply wb_le.
  - repeat (apply wb_cat; [first [apply (wb_unsigned _ 1)|apply (wb_unsigned _ 2)|apply (wb_unsigned _ 4)|apply (wb_signed _ 4)]|]).
    apply (wb_bytes _ 32). unfold len.
    assert (length (skipn 8 u) <= 32)%nat by (rewrite skipn_length; lia).
    assert (length (skipn 8 (uuid_bytes_le u)) <= 32)%nat.
    { rewrite skipn_length. unfold uuid_bytes_le. rewrite uuid_swap_length by exact H. lia. }
    destruct bo; lia.
  - lia.
Qed.

Lemma wb_mobid : forall bo m, mobid_wf m -> wbound (wmobid bo m) 128.
Proof.
  intros bo m [H _]. unfold wmobid. eapply wb_le.
  - apply wb_cat; [apply (wb_unsigned _ 1)|]. apply wb_cat; [apply (wb_signed _ 4)|].
    apply wb_cat; [apply (wb_le _ (1 * len (m_label m)) 12); [apply (wb_list _ wu8 1); [lia|intros x; apply (wb_unsigned _ 1)]|]|].
    + unfold len, m_label, MobId.slice. rewrite firstn_length. lia.
    + do 8 (apply wb_cat; [apply (wb_unsigned _ 1)|]). apply wb_uuid. unfold m_material. apply uuid_swap_length.
      rewrite skipn_length. lia.
  - lia.
Qed.

Lemma wb_name : forall bo t, In t type_names -> wbound (wname bo t) 100.
Proof.
  intros bo t H. unfold type_names in H. cbn [map In] in H. apply wb_computed.
  repeat (destruct H as [<-|H]; [destruct bo; vm_compute; discriminate|]). destruct H.
Qed.

Lemma wb_rate : forall bo, wbound (wexp10 bo default_rate) 100.
Proof. intros bo. apply wb_computed. destruct bo; vm_compute; discriminate. Qed.

Lemma wb_no_name : forall bo, wbound (wname bo []) 100.
Proof. intros bo. apply wb_computed. destruct bo; vm_compute; discriminate. Qed.

Ltac wb := lazymatch goal with
  | |- wbound (wu8 _) _ => apply (wb_unsigned _ 1)
  | |- wbound (wu16 _ _) _ => apply (wb_unsigned _ 2)
  | |- wbound (wu32 _ _) _ => apply (wb_unsigned _ 4)
  | |- wbound (wdate _ _) _ => apply (wb_unsigned _ 4)
  | |- wbound (wu64 _ _) _ => apply (wb_unsigned _ 8)
  | |- wbound (ws16 _ _) _ => apply (wb_signed _ 2)
  | |- wbound (ws32 _ _) _ => apply (wb_signed _ 4)
  | |- wbound (wref _ _) _ => apply wb_ref
  | |- wbound (wbool _) _ => apply wb_bool
  | |- wbound wnil _ => apply wb_nil
  | |- wbound (wexp10 _ default_rate) _ => apply wb_rate
  end.
Ltac wcats := lazymatch goal with
  | |- wbound (_ +++ _) _ => apply wb_cat
  | |- wbound (wname _ []) _ => apply wb_no_name
  | |- wbound (wname _ _) _ => apply wb_name; assumption
  | |- wbound (wmobid _ _) _ => apply wb_mobid; assumption
  | |- _ => wb
  end.

Lemma wb_composition : forall bo a t n m now, In t type_names -> mobid_wf m ->
  wbound (wbody (all_numbered bo) (Obj K_CMPO (new_composition a t n m now))) 1000.
Proof.
  intros bo a t n m now Ht Hm. unfold wbody. cbn [okind oval class_of C_write]. unfold wcomposition, wtrack_group, wcomponent.
  cbn [new_composition named new_component cmpo_group trkg_component cpnt_left_bob cpnt_right_bob cpnt_media_kind_id cpnt_edit_rate
    cpnt_name cpnt_effect_id cpnt_attributes cpnt_session_attrs cpnt_precomputed cpnt_param_list trkg_mc_mode trkg_length trkg_num_scalars
    trkg_tracks cmpo_mob_id cmpo_last_modified cmpo_mob_type_id cmpo_usage_code cmpo_descriptor cmpo_creation_time wopt wlist obo all_numbered].
  unfold wext. eapply wb_le.
  - repeat wcats.
  - lia.
Qed.

Lemma wb_view : forall bo, wbound (wbody (all_numbered bo) (Obj K_BVst (new_view 3))) 10000.
Proof. intros bo. apply wb_computed. destruct bo; vm_compute; discriminate. Qed.

Lemma wb_attributes : forall bo, wbound (wbody (all_numbered bo) (Obj K_ATTR [])) 1000.
Proof. intros bo. apply wb_computed. destruct bo; vm_compute; discriminate. Qed.

Lemma wb_bin : forall bo u ms, len ms <= 65535 -> wbound (wbody (all_numbered bo) (Obj K_ABIN (bin_with 2 4 u ms))) 2000000.
Proof.
  intros bo u ms H. unfold wbody. cbn [okind oval class_of C_write]. rewrite bin_with_items. cbv zeta. unfold wbin, wbin_base.
  cbn [abin_view_setting abin_uid abin_items abin_display_mask abin_display_mode abin_sifted_settings abin_sort_columns abin_mac_font
    abin_mac_font_size abin_mac_image_scale abin_home_rect abin_background_color abin_forground_color abin_ql_image_scale
    abin_attributes abin_sifted abin_was_iconic new_bin obo all_numbered].
  eapply wb_le.
  - apply wb_cat; [|wb]. apply wb_cat; [wb|]. apply wb_cat; [wb|]. apply wb_cat; [wb|]. apply wb_cat; [wb|].
    apply wb_cat; [apply (wb_le _ 4 4); [unfold wobject_count; destruct (large_form _); [wb|eapply wb_le; [wb|lia]]|lia]|].
    apply wb_cat; [apply (wb_list _ _ 13); [lia|]|].
    { intros x. unfold wbin_item. eapply wb_le; [repeat (apply wb_cat; [wb|]); wb|lia]. }
    apply (wb_computed _ 10000). destruct bo; vm_compute; discriminate.
  - unfold len in *. rewrite map_length. lia.
Qed.

(** ** What is alive *)

Definition mob_at (k : nat) : Z := 5 + 2 * Z.of_nat k.

Definition mob_ok (m : mob_args) : Prop := call_ok (mob_call m).

Record made (u : Z) (ms : list mob_args) (s : editing) : Prop := {
  md_file : ed_file s = None;
  md_next : ed_next s = 4 + 2 * len ms;
  md_content : ed_content s = 1;
  md_bin : ed_live s 1 = Some (Obj K_ABIN (bin_with 2 4 u (map mob_at (seq 0 (length ms)))));
  md_view : ed_live s 2 = Some (Obj K_BVst (new_view 3));
  md_view_attributes : ed_live s 3 = Some (Obj K_ATTR []);
  md_bin_attributes : ed_live s 4 = Some (Obj K_ATTR []);
  md_mob : forall k m, nth_error ms k = Some m -> exists n, mob_type n = Ok (ma_type m) /\ fits_u8 n /\
    ed_live s (mob_at k) = Some (Obj K_CMPO (new_composition (mob_at k + 1) (ma_type m) n (ma_id m) (ma_now m))) /\
    ed_live s (mob_at k + 1) = Some (Obj K_ATTR []);
  md_none : forall x, x < 1 \/ 4 + 2 * len ms < x -> ed_live s x = None }.

Lemma new_document_made : forall u, made u [] (new_document u).
Proof.
  intros u. constructor; try reflexivity.
  - intros k m H. destruct k; discriminate H.
  - intros x H. change (len (@nil mob_args)) with 0 in H.
    cbn [new_document create construct fold_left edit_step edit_new ed_live ed_next ed_file ed_modified ed_content snd fst].
    unfold upd. repeat match goal with |- context [x =? ?y] => destruct (Z.eqb_spec x y); [lia|] end. reflexivity.
Qed.

Lemma mob_added : forall u ms s m, made u ms s -> mob_ok m -> made u (ms ++ [m]) (add_new_mob s (mob_call m)).
Proof.
  intros u ms s m M (Ht & Hm & Hn). destruct (known_type (ma_name m) _ Ht) as (n & E & T & F & _).
  assert (len (ms ++ [m]) = len ms + 1) as EL by (unfold len; rewrite app_length; cbn [length]; lia).
  assert (0 <= len ms) as L0 by (unfold len; lia).
  set (i := ed_next s + 1).
  assert (i = mob_at (length ms)) as Ei by (unfold i; rewrite (md_next _ _ _ M); unfold mob_at, len; lia).
  set (s1 := edit_step (edit_step s (Make (Obj K_CMPO (new_composition (i + 1) (ma_type m) n (ma_id m) (ma_now m))))) (Make (Obj K_ATTR []))).
  assert (create s (mob_call m) = (s1, Ok i)) as C.
  { unfold create, mob_call, construct. fold i. rewrite E. reflexivity. }
  assert (forall x, ed_live s1 x = if x =? i + 1 then Some (Obj K_ATTR []) else if x =? i then
     Some (Obj K_CMPO (new_composition (i + 1) (ma_type m) n (ma_id m) (ma_now m))) else ed_live s x) as L1 by reflexivity.
  assert (5 <= i) as I5 by (rewrite Ei; unfold mob_at; lia).
  assert (forall x, x < i -> ed_live s1 x = ed_live s x) as L2.
  { intros x Hx. rewrite L1. destruct (Z.eqb_spec x (i + 1)); [lia|]. destruct (Z.eqb_spec x i); [lia|reflexivity]. }
  set (b := bin_with 2 4 u (map mob_at (seq 0 (length ms)))).
  assert (ed_live s1 1 = Some (Obj K_ABIN b)) as B by (rewrite L2 by lia; apply (md_bin _ _ _ M)).
  assert (add_new_mob s (mob_call m) = {| ed_file := ed_file s; ed_live := upd (ed_live s1) 1 (Some (Obj K_ABIN (with_item b i)));
    ed_modified := ed_modified s1; ed_next := i + 1; ed_content := 1 |}) as ->.
  { unfold add_new_mob. rewrite C. unfold add_mob_to_content.
    assert (ed_content s1 = 1) as -> by (apply (md_content _ _ _ M)). unfold fetch. rewrite B.
    cbn [edit_step]. unfold replace, fetch. rewrite B. cbn [okind]. change (zlist_eqb (class_id K_ABIN) (class_id K_ABIN)) with true. cbv iota.
    assert (ed_content s1 = 1) as -> by (apply (md_content _ _ _ M)). reflexivity. }
  constructor; cbn [ed_file ed_live ed_next ed_content].
  - apply (md_file _ _ _ M).
  - rewrite EL, Ei. unfold mob_at, len. lia.
  - reflexivity.
  - rewrite upd_same. do 2 f_equal. rewrite app_length. cbn [length]. rewrite Nat.add_1_r, seq_S, map_app. cbn [map]. rewrite Nat.add_0_l, <- Ei.
    unfold b, bin_with. rewrite fold_left_app. reflexivity.
  - rewrite upd_other by lia. rewrite L2 by lia. apply (md_view _ _ _ M).
  - rewrite upd_other by lia. rewrite L2 by lia. apply (md_view_attributes _ _ _ M).
  - rewrite upd_other by lia. rewrite L2 by lia. apply (md_bin_attributes _ _ _ M).
  - intros k m' H. destruct (Nat.lt_trichotomy k (length ms)) as [Hk|[->|Hk]].
    + rewrite nth_error_app1 in H by exact Hk. destruct (md_mob _ _ _ M k m' H) as (n' & A1 & A2 & A3 & A4).
      exists n'. assert (mob_at k + 1 < i) by (rewrite Ei; unfold mob_at; lia).
      rewrite !upd_other by (unfold mob_at in *; lia). rewrite !L2 by lia. split; [exact A1|]. split; [exact A2|]. split; assumption.
    + rewrite nth_error_app2 in H by lia. rewrite Nat.sub_diag in H. cbn in H. injection H as <-. exists n.
      rewrite <- Ei. rewrite !upd_other by lia. rewrite !L1, Z.eqb_refl. destruct (Z.eqb_spec i (i + 1)); [lia|]. rewrite Z.eqb_refl.
      split; [exact T|]. split; [exact F|]. split; reflexivity.
    + rewrite nth_error_app2 in H by lia. destruct (k - length ms)%nat as [|q] eqn:Q; [lia|]. destruct q; discriminate H.
  - intros x Hx. rewrite EL in Hx. assert (i = 5 + 2 * len ms) by (rewrite Ei; unfold mob_at, len; lia).
    rewrite upd_other by lia. rewrite L1. destruct (Z.eqb_spec x (i + 1)); [lia|]. destruct (Z.eqb_spec x i); [lia|].
    apply (md_none _ _ _ M). lia.
Qed.

Definition new_document_with (u : Z) (ms : list mob_args) : editing := fold_left add_new_mob (map mob_call ms) (new_document u).

Lemma document_made : forall u ms, Forall mob_ok ms -> made u ms (new_document_with u ms).
Proof.
  intros u ms. unfold new_document_with. induction ms as [|m ms IH] using rev_ind; intros H; [apply new_document_made|].
  apply Forall_app in H as [H1 H2]. rewrite map_app, fold_left_app. cbn [map fold_left]. apply mob_added; [now apply IH|].
  now inversion_clear H2.
Qed.

Inductive stands (u : Z) (ms : list mob_args) : Z -> obj -> Prop :=
| st_bin : stands u ms 1 (Obj K_ABIN (bin_with 2 4 u (map mob_at (seq 0 (length ms)))))
| st_view : stands u ms 2 (Obj K_BVst (new_view 3))
| st_attributes : forall a, (a = 3 \/ a = 4 \/ exists k, a = mob_at k + 1) -> stands u ms a (Obj K_ATTR [])
| st_mob : forall k m n, nth_error ms k = Some m -> mob_type n = Ok (ma_type m) -> fits_u8 n ->
    stands u ms (mob_at k) (Obj K_CMPO (new_composition (mob_at k + 1) (ma_type m) n (ma_id m) (ma_now m))).

Lemma made_alive : forall u ms s a, made u ms s -> 1 <= a <= 4 + 2 * len ms -> exists o, ed_live s a = Some o /\ stands u ms a o.
Proof.
  intros u ms s a M H.
  destruct (Z.eq_dec a 1) as [->|N1]; [eexists; split; [apply (md_bin _ _ _ M)|constructor]|].
  destruct (Z.eq_dec a 2) as [->|N2]; [eexists; split; [apply (md_view _ _ _ M)|constructor]|].
  destruct (Z.eq_dec a 3) as [->|N3]; [eexists; split; [apply (md_view_attributes _ _ _ M)|constructor; tauto]|].
  destruct (Z.eq_dec a 4) as [->|N4]; [eexists; split; [apply (md_bin_attributes _ _ _ M)|constructor; tauto]|].
  assert (exists k, a = mob_at k \/ a = mob_at k + 1) as (k & D).
  { exists (Z.to_nat ((a - 5) / 2)). unfold mob_at. rewrite Z2Nat.id by (apply Z.div_pos; lia). pose proof (Z.div_mod (a - 5) 2 ltac:(lia)).
    pose proof (Z.mod_pos_bound (a - 5) 2 ltac:(lia)). lia. }
  destruct (nth_error ms k) as [m|] eqn:E.
  - destruct (md_mob _ _ _ M k m E) as (n & A1 & A2 & A3 & A4). destruct D as [->| ->].
    + eexists. split; [exact A3|]. now apply st_mob.
    + eexists. split; [exact A4|]. constructor. right. right. now exists k.
  - exfalso. apply nth_error_None in E. unfold mob_at, len in *. lia.
Qed.

Lemma made_stands : forall u ms s a o, made u ms s -> ed_live s a = Some o -> 1 <= a <= 4 + 2 * len ms /\ stands u ms a o.
Proof.
  intros u ms s a o M E. assert (1 <= a <= 4 + 2 * len ms) as R.
  { destruct (Z_lt_dec a 1); [rewrite (md_none _ _ _ M) in E by tauto; discriminate E|].
    destruct (Z_lt_dec (4 + 2 * len ms) a); [rewrite (md_none _ _ _ M) in E by tauto; discriminate E|]. lia. }
  split; [exact R|]. destruct (made_alive _ _ _ _ M R) as (o' & E' & S'). rewrite E in E'. injection E' as <-. exact S'.
Qed.

Definition level (a : Z) : nat := if a =? 1 then 2 else if a =? 2 then 1 else if a <? 5 then 0 else if Z.odd a then 1 else 0.

Lemma level_mob : forall k, level (mob_at k) = 1%nat /\ level (mob_at k + 1) = 0%nat.
Proof.
  intros k. unfold level, mob_at.
  destruct (Z.eqb_spec (5 + 2 * Z.of_nat k) 1); [lia|]. destruct (Z.eqb_spec (5 + 2 * Z.of_nat k) 2); [lia|].
  destruct (Z.ltb_spec (5 + 2 * Z.of_nat k) 5); [lia|].
  destruct (Z.eqb_spec (5 + 2 * Z.of_nat k + 1) 1); [lia|]. destruct (Z.eqb_spec (5 + 2 * Z.of_nat k + 1) 2); [lia|].
  destruct (Z.ltb_spec (5 + 2 * Z.of_nat k + 1) 5); [lia|].
  replace (5 + 2 * Z.of_nat k + 1) with (0 + 2 * (Z.of_nat k + 3)) by lia. rewrite !Z.odd_add_mul_2. now split.
Qed.

Lemma item_refs : forall l, flat_map bin_item_refs (map new_item l) = l.
Proof. induction l as [|x l IH]; [reflexivity|]. cbn [map flat_map]. rewrite IH. reflexivity. Qed.

Lemma bin_with_refs : forall u l, obj_refs (Obj K_ABIN (bin_with 2 4 u l)) = 2 :: l ++ [4].
Proof.
  intros u l. unfold obj_refs. cbn [okind oval class_of C_refs]. unfold bin_refs. rewrite bin_with_items. cbv zeta.
  cbn [abin_view_setting abin_items abin_sifted_settings abin_sort_columns abin_attributes new_bin]. rewrite item_refs. reflexivity.
Qed.

Lemma composition_refs_are : forall a t n m now, obj_refs (Obj K_CMPO (new_composition a t n m now)) = [0; 0; a; 0; 0; 0].
Proof. reflexivity. Qed.

Lemma stands_refs : forall u ms a o b, stands u ms a o -> In b (obj_refs o) -> b <> 0 ->
  1 <= b <= 4 + 2 * len ms /\ (level b < level a)%nat.
Proof.
  intros u ms a o b S H N. assert (0 <= len ms) by (unfold len; lia). destruct S as [| |a H'|k m n E _ _].
  - rewrite bin_with_refs in H. destruct H as [<-|H]; [split; [lia|]; vm_compute; lia|].
    apply in_app_iff in H as [H|[<-|[]]]; [|split; [lia|]; vm_compute; lia].
    apply in_map_iff in H as (k & <- & Hk). apply in_seq in Hk. destruct (level_mob k) as [-> _].
    split; [unfold mob_at, len; lia|]. vm_compute. lia.
  - vm_compute in H. destruct H as [<-|[]]. split; [lia|]. vm_compute. lia.
  - destruct H.
  - rewrite composition_refs_are in H. assert (nth_error ms k <> None) as Hk by congruence. apply nth_error_Some in Hk. destruct (level_mob k) as [L1 L2].
    assert (b = mob_at k + 1) as -> by (cbn [In] in H; intuition congruence).
    rewrite L1, L2. split; [unfold mob_at, len; lia|lia].
Qed.

Lemma stands_ok : forall u ms a o, len ms <= 65535 -> Forall mob_ok ms -> stands u ms a o -> obj_ok o.
Proof.
  intros u ms a o L F S. destruct S as [| |a H'|k m n E _ _].
  - split; [reflexivity|]. cbn [okind oval ok_of]. apply bin_with_ok. unfold len in *. now rewrite map_length, seq_length.
  - apply new_view_ok.
  - split; [reflexivity|]. split; constructor.
  - apply nth_error_In in E. rewrite Forall_forall in F. destruct (F m E) as (Ht & Hm & Hd).
    destruct (known_type [] _ Ht) as (x & _ & _ & _ & T & _). now apply new_composition_ok.
Qed.

Lemma any_ref : forall bo r, fits_ref (all_numbered bo) r.
Proof. intros bo r. right. exists 1. split; [reflexivity|]. unfold fits_u32. lia. Qed.

Lemma stands_fits : forall bo u ms a o, fits_u64 u -> len ms <= 65535 -> Forall mob_ok ms -> stands u ms a o ->
  obj_fits (all_numbered bo) o /\ forall data, wbody (all_numbered bo) o = Ok data -> len data < 2 ^ 32.
Proof.
  intros bo u ms a o Hu L F S. destruct S as [| |a H'|k m n E _ N].
  - assert (len (map mob_at (seq 0 (length ms))) <= 65535) as L' by (unfold len in *; now rewrite map_length, seq_length).
    split; [|intros d E; pose proof (wb_bin bo u _ L' d E); lia].
    unfold obj_fits. cbn [okind oval fits_of]. apply bin_with_fits; [exact L'|exact Hu|apply any_ref..|].
    apply Forall_forall. intros x _. apply any_ref.
  - split; [apply new_view_fits, any_ref|]. intros d E. pose proof (wb_view bo d E). lia.
  - split; [|intros d E; pose proof (wb_attributes bo d E); lia]. unfold obj_fits. cbn [okind oval fits_of].
    split; [cbn; unfold fits_u32; lia|constructor].
  - apply nth_error_In in E. rewrite Forall_forall in F. destruct (F m E) as (Ht & Hm & Hd).
    destruct (known_type [] _ Ht) as (x & _ & _ & _ & _ & T).
    split; [apply new_composition_fits; [exact T|exact N|exact Hd|apply any_ref]|].
    intros d W. pose proof (wb_composition bo _ _ n (ma_id m) (ma_now m) Ht Hm d W). lia.
Qed.

(** ** Single constructor calls *)

Lemma timed_refs : forall c a k r x, In x (obj_refs (new_timed c a k r)) -> x = 0 \/ x = a.
Proof. intros c a k r x H. destruct c; cbn in H; intuition congruence. Qed.

Lemma empty_attributes : obj_ok (Obj K_ATTR []) /\ forall ctx, obj_fits ctx (Obj K_ATTR []).
Proof.
  split; [split; [reflexivity|split; constructor]|]. intros ctx. unfold obj_fits. cbn [okind oval fits_of].
  split; [cbn; unfold fits_u32; lia|constructor].
Qed.

Lemma new_bin_with : forall v a u, new_bin v a u = bin_with v a u [].
Proof. reflexivity. Qed.

Lemma new_plain_ok : forall id c, Forall obj_ok (new_plain id c).
Proof.
  intros id c. destruct empty_attributes as [A _].
  assert (forall o, obj_ok o -> Forall obj_ok [o]) as one by (intros o Ho; constructor; [exact Ho|constructor]).
  destruct c; cbn [new_plain].
  - now apply one.
  - apply one. split; [reflexivity|]. cbn. constructor.
  - apply one. split; [reflexivity|]. cbn. constructor.
  - constructor; [apply new_view_ok|now apply one].
  - apply one. split; [reflexivity|]. apply new_descriptor_ok.
  - apply one. split; [reflexivity|]. apply new_descriptor_ok.
  - apply one. split; [reflexivity|]. apply new_descriptor_ok.
  - apply one. split; [reflexivity|]. apply new_descriptor_ok.
  - apply one. split; [reflexivity|]. split; [apply new_descriptor_ok|]. apply default_rate_ok.
  - apply one. split; [reflexivity|]. exact I.
Qed.

Lemma new_plain_fits : forall id c ctx x, (c = PBinView -> fits_ref ctx (id + 1)) -> In x (new_plain id c) -> obj_fits ctx x.
Proof.
  intros id c ctx x R H. destruct empty_attributes as [_ A]. pose proof (new_descriptor_fits ctx) as D.
  destruct c; cbn [new_plain In] in H.
  - destruct H as [<-|[]]. apply A.
  - destruct H as [<-|[]]. unfold obj_fits. cbn [okind oval fits_of]. split; [cbn; unfold fits_s32; lia|constructor].
  - destruct H as [<-|[]]. unfold obj_fits. cbn [okind oval fits_of]. split; [cbn; unfold fits_s16; lia|constructor].
  - destruct H as [<-|[<-|[]]]; [now apply new_view_fits, R|apply A].
  - destruct H as [<-|[]]. exact D.
  - destruct H as [<-|[]]. split; [exact D|]. cbn. repeat split; try lia; try discriminate.
  - destruct H as [<-|[]]. exact D.
  - destruct H as [<-|[]]. exact D.
  - destruct H as [<-|[]]. split; [exact D|]. destruct default_rate_ok as [E _].
    cbn [mdfl_edit_rate mdfl_length mdfl_is_omfi mdfl_data_offset oval]. split; [exact E|]. unfold fits_s16, fits_s32. lia.
  - destruct H as [<-|[]]. exact I.
Qed.

(** ** The document as a save sees it *)

Section Doc.
Variables (self : Z) (kids : Z -> obj -> list Z) (version : str) (saved u : Z) (ms : list mob_args) (s : editing).
Hypothesis M : made u ms s.
Let d := edit_doc s self kids version saved.

Lemma made_node : forall a o, ed_live s a = Some o -> dc_heap d a = Ok {| nd_doc := self; nd_id := a; nd_obj := o; nd_kids := kids a o |}.
Proof. intros a o H. unfold d. cbn [edit_doc dc_heap]. unfold edit_heap, fetch. rewrite H. reflexivity. Qed.

Lemma node_made : forall a nd, dc_heap d a = Ok nd -> exists o, ed_live s a = Some o /\ nd_obj nd = o /\ nd_id nd = a /\ nd_kids nd = kids a o.
Proof.
  intros a nd H. unfold d in H. cbn [edit_doc dc_heap] in H. unfold edit_heap, fetch in H. destruct (ed_live s a) as [o|].
  - injection H as <-. exists o. now repeat split.
  - rewrite (md_file _ _ _ M) in H. discriminate H.
Qed.

Lemma reach_made : forall a, in_doc d a -> 1 <= a <= 4 + 2 * len ms.
Proof.
  intros a [_ H]. assert (0 <= len ms) by (unfold len; lia). induction H as [|b c R IH Rf].
  - unfold d. cbn [edit_doc dc_content]. rewrite (md_content _ _ _ M). lia.
  - destruct Rf as (nd & E & Hin & Nz). destruct (node_made _ _ E) as (o & Eo & Eq & _). destruct (made_stands _ _ _ _ _ M Eo) as [_ St].
    rewrite Eq in Hin. exact (proj1 (stands_refs _ _ _ _ _ St Hin Nz)).
Qed.

Lemma doc_facts : len ms <= 65535 -> Forall mob_ok ms -> follows kids -> walks_refs d /\ ids_distinct d /\ all_ok d.
Proof.
  intros L F K. split; [|split].
  - intros a nd _ E b. destruct (node_made _ _ E) as (o & _ & Eo & _ & Ek). rewrite Ek, Eo. apply K.
  - intros a b na nb _ _ Ea Eb Eq. destruct (node_made _ _ Ea) as (? & _ & _ & <- & _). destruct (node_made _ _ Eb) as (? & _ & _ & <- & _). exact Eq.
  - intros a nd _ E. destruct (node_made _ _ E) as (o & Eo & -> & _). destruct (made_stands _ _ _ _ _ M Eo) as [_ St].
    exact (stands_ok _ _ _ _ L F St).
Qed.

Lemma doc_saves : forall lim z bo, fits_u64 u -> len ms <= 65535 -> Forall mob_ok ms -> follows kids -> (2 < lim)%nat ->
  (exists v, mac_encode version = Ok v) -> 0 <= to_timestamp z saved < 2 ^ 32 -> exists o, save lim z bo d = (o, None).
Proof.
  intros lim z bo Hu L F K Hl V T. destruct (doc_facts L F K) as (W & I & A).
  set (ids := map (fun k => 1 + Z.of_nat k) (seq 0 (Z.to_nat (4 + 2 * len ms)))).
  apply (save_completes_levels lim z bo d ids level W I A).
  - intros a b _ (nd & E & Hin & Nz). destruct (node_made _ _ E) as (o & Eo & Eq & _). destruct (made_stands _ _ _ _ _ M Eo) as [_ St].
    rewrite Eq in Hin. exact (proj2 (stands_refs _ _ _ _ _ St Hin Nz)).
  - split; [unfold ids, len in *; rewrite map_length, seq_length; lia|]. intros a Ha. apply reach_made in Ha.
    split; [apply in_map_iff; exists (Z.to_nat (a - 1)); split; [lia|apply in_seq; lia]|].
    destruct (made_alive _ _ _ _ M Ha) as (o & Eo & St). eexists. split; [exact (made_node _ _ Eo)|]. cbn [nd_doc nd_obj].
    split; [reflexivity|]. exact (stands_fits bo _ _ _ _ Hu L F St).
  - split; [exact V|exact T].
  - intros _. unfold d. cbn [edit_doc dc_content]. rewrite (md_content _ _ _ M). exact Hl.
Qed.

Lemma in_doc_ref : forall a b o, in_doc d a -> ed_live s a = Some o -> In b (obj_refs o) -> b <> 0 -> in_doc d b.
Proof.
  intros a b o [N R] E H Nz. split; [exact N|]. apply reach_step with a; [exact R|]. eexists. split; [exact (made_node _ _ E)|]. now split.
Qed.

Lemma doc_reached :
  in_doc d 1 /\
  dc_heap d 1 = Ok {| nd_doc := self; nd_id := 1; nd_obj := Obj K_ABIN (bin_with 2 4 u (map mob_at (seq 0 (length ms))));
     nd_kids := kids 1 (Obj K_ABIN (bin_with 2 4 u (map mob_at (seq 0 (length ms))))) |} /\
  in_doc d 2 /\
  dc_heap d 2 = Ok {| nd_doc := self; nd_id := 2; nd_obj := Obj K_BVst (new_view 3); nd_kids := kids 2 (Obj K_BVst (new_view 3)) |} /\
  forall k m, nth_error ms k = Some m -> in_doc d (mob_at k) /\ exists nd c, dc_heap d (mob_at k) = Ok nd /\ nd_obj nd = Obj K_CMPO c /\ shows_mob c m.
Proof.
  assert (in_doc d 1) as D1.
  { unfold in_doc, d. cbn [edit_doc dc_content]. rewrite (md_content _ _ _ M). split; [discriminate|]. constructor. }
  split; [exact D1|]. split; [exact (made_node _ _ (md_bin _ _ _ M))|].
  split; [apply (in_doc_ref 1 2 _ D1 (md_bin _ _ _ M)); [rewrite bin_with_refs; now left|discriminate]|].
  split; [exact (made_node _ _ (md_view _ _ _ M))|]. intros k m Hk. split.
  - apply (in_doc_ref 1 _ _ D1 (md_bin _ _ _ M)); [|unfold mob_at; lia]. rewrite bin_with_refs. right. apply in_app_iff. left.
    apply in_map. apply in_seq. split; [lia|]. apply nth_error_Some. congruence.
  - destruct (md_mob _ _ _ M k m Hk) as (n & Ht & _ & E & _). eexists. eexists. split; [exact (made_node _ _ E)|].
    split; [reflexivity|]. split; [exact Ht|]. now repeat split.
Qed.
End Doc.

Lemma shows_mapped : forall f c m, shows_mob c m -> shows_mob (composition_map f c) m.
Proof.
  intros f c m (H1 & H2 & H3 & H4 & H5). split; [exact H1|]. split; [exact H2|]. split; [exact H3|]. split; [exact H4|].
  cbn [composition_map cmpo_group track_group_map trkg_tracks]. now rewrite H5.
Qed.

Lemma mobs_distinct : forall n, NoDup (map mob_at (seq 0 n)).
Proof. intros n. apply FinFun.Injective_map_NoDup; [intros a b E; unfold mob_at in E; lia|apply seq_NoDup]. Qed.

Lemma NoDup_map_on : forall (f : Z -> Z) l, (forall x y, In x l -> In y l -> f x = f y -> x = y) -> NoDup l -> NoDup (map f l).
Proof.
  intros f l. induction l as [|a l IH]; intros H N; [constructor|]. cbn [map]. inversion_clear N as [|? ? Na Nl]. constructor.
  - intros H'. apply in_map_iff in H' as (x & E & Hx). apply Na. rewrite (H a x); [exact Hx|now left|now right|now symmetry].
  - apply IH; [|exact Nl]. intros x y Hx Hy. apply H; now right.
Qed.

Lemma Forall2_nth : forall A B (P : A -> B -> Prop) l l', length l = length l' ->
  (forall k x y, nth_error l k = Some x -> nth_error l' k = Some y -> P x y) -> Forall2 P l l'.
Proof.
  intros A B P l. induction l as [|x l IH]; intros l' E H; destruct l' as [|y l']; try discriminate E; constructor.
  - now apply (H 0%nat).
  - apply IH; [now injection E|]. intros k a b Ha Hb. now apply (H (S k)).
Qed.

(** For the examples: two mobs of the same name. *)
Definition two_mobs : list mob_args :=
  [{| ma_name := txt "A"; ma_type := txt "MasterMob"; ma_id := repeat 7 32; ma_now := 1000 |};
   {| ma_name := txt "A"; ma_type := txt "CompositionMob"; ma_id := repeat 9 32; ma_now := 1001 |}].

(** One number occurs once in a short list of references. *)
Ltac occurs_once :=
  cbn -[Z.add Z.eq_dec]; repeat match goal with |- context [Z.eq_dec ?a ?b] => destruct (Z.eq_dec a b); try lia end.
