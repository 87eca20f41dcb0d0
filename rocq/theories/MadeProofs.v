(** Lemmas about constructors and new documents. *)
From Coq Require Import ZArith String List Bool Lia.
From Verif Require Import Base IoCtx RoundTrip Text Exp10 MobId Storable Attributes Components TrackGroups Misc Essence BinModel Fits Saved SavedProofs
  FitsProofs FitRefsProofs Dates Objects ObjSpec ObjProofs ObjTheory FileModel FileSpec SaveProofs Names NamesProofs ResaveSpec Edited EditSpec EditProofs Made MadeSpec.
Import ListNotations.
Open Scope Z_scope.

Lemma known_kind : forall k, In k kind_names -> exists n, set_media_kind k = Ok n /\ media_kind n = k /\ fits_s16 n.
Proof.
  intros k H. unfold kind_names in H. cbn [map In] in H.
  repeat (destruct H as [<-|H]; [eexists; split; [vm_compute; reflexivity|split; [vm_compute; reflexivity|vm_compute; split; discriminate]]|]).
  destruct H.
Qed.

Lemma text_ok : forall s, forallb (fun c => existsb (Z.eqb c) mac_table) s = true ->
  (hd 1 s =? 0) = false -> (last s 1 =? 0) = false -> len s < 65535 -> str_ok s /\ fits_str s.
Proof.
  intros s H1 H2 H3 H4. split; [|split; [|lia]].
  - split; [|exact H4]. split; [apply Z.eqb_neq, H2|apply Z.eqb_neq, H3].
  - apply Forall_forall. intros x Hx. rewrite forallb_forall in H1. specialize (H1 x Hx).
    apply existsb_exists in H1 as (y & Hy & E). apply Z.eqb_eq in E. now subst.
Qed.

Ltac text_is := apply text_ok; vm_compute; reflexivity.

Lemma known_type : forall name t, In t type_names -> exists n, init_mob name (AText t) = Ok (AText t, n) /\ mob_type n = Ok t /\
  fits_u8 n /\ str_ok t /\ fits_str t.
Proof.
  intros name t H. unfold type_names in H. cbn [map In] in H.
  repeat (destruct H as [<-|H]; [eexists; split; [vm_compute; reflexivity|split; [vm_compute; reflexivity|]]|]); [..|destruct H];
    (split; [vm_compute; split; discriminate|]);
    text_is.
Qed.

Lemma default_rate_ok : rate_ok default_rate.
Proof. split; [|vm_compute; reflexivity]. eexists. eexists. split; [vm_compute; reflexivity|]. split; vm_compute; split; discriminate. Qed.

(** ** The objects *)

Lemma new_component_ok : forall a k r, rate_ok r -> component_ok (new_component a k r).
Proof. intros a k r [_ H]. split; [exact H|]. split; apply (text_ok []); reflexivity. Qed.

Lemma new_component_fits : forall c a k r, rate_ok r -> fits_s16 k -> fits_ref c a -> component_fits c (new_component a k r).
Proof.
  intros c a k r [H _] Hk Ha. unfold component_fits. cbn [new_component cpnt_left_bob cpnt_right_bob cpnt_media_kind_id
    cpnt_edit_rate cpnt_name cpnt_effect_id cpnt_attributes cpnt_session_attrs cpnt_precomputed cpnt_param_list].
  assert (fits_ref c 0) as H0 by now left. assert (fits_str []) as He by now apply (text_ok []).
  repeat (split; [assumption|]). exact I.
Qed.

Lemma new_clip_fits : forall c a k r, rate_ok r -> fits_s16 k -> fits_ref c a -> clip_fits c (new_clip a k r).
Proof. intros. split; [now apply new_component_fits|]. cbn. unfold fits_u32. lia. Qed.

Lemma new_group_fits : forall c a k r, rate_ok r -> fits_s16 k -> fits_ref c a -> track_group_fits c (new_track_group a k r).
Proof.
  intros. split; [now apply new_component_fits|]. cbn [new_track_group trkg_mc_mode trkg_length trkg_num_scalars trkg_tracks].
  change (len (@nil track)) with 0. unfold fits_u8, fits_s32. repeat (split; [lia|]). split; constructor.
Qed.

Lemma zero_id : mobid_wf (repeat 0 32).
Proof. split; [reflexivity|]. apply Forall_forall. intros x H. apply repeat_spec in H. subst. unfold is_byte. lia. Qed.

Lemma new_timed_ok : forall c a k r, c <> TTrackGroup -> rate_ok r -> obj_ok (new_timed c a k r).
Proof.
  intros c a k r N H. pose proof (new_component_ok a k r H) as C.
  destruct c; try contradiction; (split; [reflexivity|]); cbn [new_timed okind oval ok_of];
    unfold sequence_ok, source_clip_ok, timecode_ok, track_ref_ok, filler_ok, essence_group_ok, track_group_ok, clip_ok;
    cbn [sequ_component sclp_clip tccp_clip trkr_clip fill_clip rset_group new_track_group trkg_component trkg_tracks clip_component
      new_clip sclp_mob_id opt_ok]; repeat split; try exact C; try apply C; try apply zero_id; try constructor.
Qed.

Lemma new_timed_fits : forall x c a k r, rate_ok r -> fits_s16 k -> fits_ref x a -> obj_fits x (new_timed c a k r).
Proof.
  intros x c a k r H Hk Ha. pose proof (new_component_fits x a k r H Hk Ha) as C. pose proof (new_clip_fits x a k r H Hk Ha) as Cl.
  pose proof (new_group_fits x a k r H Hk Ha) as G.
  destruct c; unfold obj_fits; cbn [new_timed okind oval fits_of]; try exact G; try exact Cl.
  - split; [exact C|]. split; [cbn; unfold fits_u32; lia|constructor].
  - split; [exact Cl|]. cbn [sclp_mob_id sclp_track_id sclp_start_time]. split; [discriminate|]. unfold fits_s16, fits_s32. lia.
  - split; [exact Cl|]. cbn [tccp_flags tccp_fps tccp_start]. unfold fits_u32, fits_u16. lia.
  - split; [exact Cl|]. cbn [trkr_relative_scope trkr_relative_track]. unfold fits_s16. lia.
  - split; [exact G|]. exact I.
Qed.

Lemma new_composition_ok : forall a n t m now, str_ok n -> mobid_wf m -> obj_ok (Obj K_CMPO (new_composition a n t m now)).
Proof.
  intros a n t m now Hn Hm. split; [reflexivity|]. cbn [okind oval ok_of]. split; [|exact Hm].
  split; [|constructor]. destruct default_rate_ok as [_ R]. split; [exact R|]. split; [exact Hn|]. apply (text_ok []); reflexivity.
Qed.

Lemma new_composition_fits : forall x a n t m now, fits_str n -> fits_u8 t -> fits_date now -> fits_ref x a ->
  obj_fits x (Obj K_CMPO (new_composition a n t m now)).
Proof.
  intros x a n t m now Hn Ht Hd Ha. unfold obj_fits. cbn [okind oval fits_of]. unfold composition_fits.
  cbn [new_composition cmpo_group cmpo_mob_id cmpo_last_modified cmpo_mob_type_id cmpo_usage_code cmpo_descriptor cmpo_creation_time].
  assert (fits_ref x 0) as H0 by now left.
  split; [|split; [discriminate|split; [exact Hd|split; [exact Ht|split; [unfold fits_s32; lia|split; [exact H0|exact Hd]]]]]].
  destruct (new_group_fits x a 0 default_rate default_rate_ok ltac:(unfold fits_s16; lia) Ha) as (C & G).
  split; [|exact G]. destruct C as (C1 & C2 & C3 & C4 & _ & C6). repeat (split; [assumption|]). exact C6.
Qed.

Lemma column_ok : forall b, In b default_bin_columns -> bin_column_ok b /\ forall x, bin_column_fits x b.
Proof.
  intros b H. unfold default_bin_columns in H. cbn [In] in H.
  assert (forall s f t, str_ok (txt s) /\ fits_str (txt s) -> fits_s16 f -> fits_s16 t ->
    bin_column_ok (column s f t) /\ forall x, bin_column_fits x (column s f t)) as G.
  { intros s f t [A B] Hf Ht. split; [exact A|]. intros x. split; [exact B|]. split; [exact Hf|exact Ht]. }
  repeat (destruct H as [<-|H]; [apply G; [text_is|unfold fits_s16; lia..]|]). destruct H.
Qed.

Lemma new_view_ok : forall a, obj_ok (Obj K_BVst (new_view a)).
Proof.
  intros a. split; [reflexivity|]. cbn [okind oval ok_of]. split; [split; text_is|]. split.
  - apply Forall_forall. intros b H. now apply column_ok.
  - split; [constructor|]. cbn. lia.
Qed.

Lemma new_view_fits : forall x a, fits_ref x a -> obj_fits x (Obj K_BVst (new_view a)).
Proof.
  intros x a Ha. unfold obj_fits. cbn [okind oval fits_of]. split; [|split; [|split]].
  - split; [text_is|]. split; [text_is|]. cbn [new_view bvst_setting aset_attr_count aset_attr_type aset_attributes].
    split; [unfold fits_s16; lia|]. split; [unfold fits_s16; lia|exact Ha].
  - cbn. unfold fits_u16. lia.
  - apply Forall_forall. intros b H. now apply column_ok.
  - cbn [new_view bvst_format_descriptors opt_ok]. split; [cbn; unfold fits_u16; lia|constructor].
Qed.

(** A new bin with items of mobs. *)
Definition bin_with (view attributes uid : Z) (mobs : list Z) : bin :=
  fold_left with_item mobs (new_bin view attributes uid).

Lemma bin_with_items : forall v a u ms, bin_with v a u ms =
  let b := new_bin v a u in {|
  abin_large_bin := abin_large_bin b; abin_view_setting := abin_view_setting b; abin_uid := abin_uid b;
  abin_items := map new_item ms;
  abin_display_mask := abin_display_mask b; abin_display_mode := abin_display_mode b; abin_sifted := abin_sifted b;
  abin_sifted_settings := abin_sifted_settings b; abin_sort_columns := abin_sort_columns b;
  abin_mac_font := abin_mac_font b; abin_mac_font_size := abin_mac_font_size b; abin_mac_image_scale := abin_mac_image_scale b;
  abin_home_rect := abin_home_rect b; abin_background_color := abin_background_color b;
  abin_forground_color := abin_forground_color b; abin_ql_image_scale := abin_ql_image_scale b;
  abin_attributes := abin_attributes b; abin_was_iconic := abin_was_iconic b |}.
Proof.
  intros v a u ms. unfold bin_with. induction ms as [|m ms IH] using rev_ind; [reflexivity|].
  rewrite fold_left_app, IH, map_app. reflexivity.
Qed.

Lemma sift_ok : sift_item_ok new_sift /\ forall x, sift_item_fits x new_sift.
Proof.
  assert (str_ok [] /\ fits_str []) as [E1 E2] by now apply (text_ok []).
  assert (str_ok (txt "Any") /\ fits_str (txt "Any")) as [A1 A2] by text_is.
  split; [now split|]. intros x. split; [cbn; unfold fits_s16; lia|]. now split.
Qed.

Lemma bin_with_ok : forall v a u ms, len ms <= 65535 -> bin_ok (bin_with v a u ms).
Proof.
  intros v a u ms H. rewrite bin_with_items. cbv zeta. unfold bin_ok.
  cbn [abin_items abin_sifted_settings abin_sort_columns abin_large_bin new_bin]. split; [apply Forall_forall; intros; exact I|].
  split; [|split; [constructor|split; [reflexivity|]]].
  - apply Forall_forall. intros y Hy. apply repeat_spec in Hy. subst y. apply sift_ok.
  - intros _. unfold len in *. rewrite map_length. lia.
Qed.

Lemma bin_with_fits : forall x v a u ms, len ms <= 65535 -> fits_u64 u -> fits_ref x v -> fits_ref x a -> Forall (fits_ref x) ms ->
  bin_base_fits x (bin_with v a u ms).
Proof.
  intros x v a u ms H Hu Hv Ha Hm. rewrite bin_with_items. cbv zeta. unfold bin_base_fits.
  cbn [abin_view_setting abin_uid abin_items abin_display_mask abin_display_mode abin_sifted_settings abin_sort_columns abin_mac_font
    abin_mac_font_size abin_mac_image_scale abin_home_rect abin_background_color abin_forground_color abin_ql_image_scale
    abin_attributes new_bin].
  assert (len (map new_item ms) = len ms) as EL by (unfold len; now rewrite map_length).
  split; [exact Hv|]. split; [exact Hu|]. split.
  { unfold object_count_fits, large_form. cbn [abin_large_bin abin_items new_bin orb]. rewrite EL.
    destruct (Z.ltb_spec 65535 (len ms)); unfold fits_u16, fits_u32, len in *; lia. }
  split.
  { apply Forall_forall. intros it Hit. apply in_map_iff in Hit as (m & <- & Hin). rewrite Forall_forall in Hm.
    split; [now apply Hm|]. cbn [new_item item_x item_y item_keyframe]. unfold fits_s16, fits_s32. lia. }
  split; [unfold fits_s32; lia|]. split; [unfold fits_s16; lia|]. split; [apply Forall_forall; intros y Hy; apply repeat_spec in Hy; subst y; apply sift_ok|].
  split; [cbn; unfold fits_s16; lia|]. split; [constructor|].
  repeat (split; [first [unfold fits_s16; lia|unfold fits_rect, fits_rgb, fits_s16, fits_u16; cbn; lia]|]). exact Ha.
Qed.

Lemma new_descriptor_ok : media_descriptor_ok new_descriptor.
Proof. repeat split. Qed.

Lemma new_descriptor_fits : forall x, media_descriptor_base_fits x new_descriptor.
Proof. intros x. unfold media_descriptor_base_fits. assert (fits_ref x 0) by now left. cbn. unfold fits_u8. repeat split; try assumption; lia. Qed.
