(** An object that fits has only stored references, and whether it fits depends on the stored
    objects only through its references. *)
From Coq Require Import ZArith List Bool Lia.
From Verif Require Import Base IoCtx Text Exp10 MobId Storable Attributes Components TrackGroups
  Misc Essence BinModel Fits Objects ObjSpec.
Import ListNotations.
Open Scope Z_scope.

Definition refs_fit (c : octx) (l : list Z) : Prop := Forall (fits_ref c) l.

Lemma refs_fit_app : forall c a b, refs_fit c (a ++ b) <-> refs_fit c a /\ refs_fit c b.
Proof. intros. apply Forall_app. Qed.

Lemma refs_fit_one : forall c r, refs_fit c [r] <-> fits_ref c r.
Proof. intros. unfold refs_fit. split; [now inversion 1|]. intros H. constructor; [exact H|constructor]. Qed.

Section Two.
Variables c c' : octx.

(** [A] holds in [c], [A'] is the same in [c']; [R] are the references involved. *)
Definition fsp (A A' : Prop) (R : list Z) : Prop :=
  A -> refs_fit c R /\ (refs_fit c' R -> A').

Lemma fsp_ref : forall r, fsp (fits_ref c r) (fits_ref c' r) [r].
Proof. intros r H. split; [now apply refs_fit_one|]. intros H'. now apply refs_fit_one in H'. Qed.

Lemma fsp_refs : forall l, fsp (Forall (fits_ref c) l) (Forall (fits_ref c') l) l.
Proof. intros l H. now split. Qed.

Lemma fsp_opt : forall o : option Z, fsp (opt_ok (fits_ref c) o) (opt_ok (fits_ref c') o)
  (match o with Some v => [v] | None => [] end).
Proof.
  intros [v|] H; [exact (fsp_ref v H)|]. split; [constructor|intros _; exact I].
Qed.

Lemma fsp_list : forall A (F : octx -> A -> Prop) R, (forall x, fsp (F c x) (F c' x) (R x)) ->
  forall l, fsp (Forall (F c) l) (Forall (F c') l) (flat_map R l).
Proof.
  intros A F R H l Hl. unfold refs_fit. rewrite !Forall_flat_map.
  induction Hl as [|x l Hx Hl IH]; [split; [constructor|intros; constructor]|].
  destruct (H x Hx) as [H1 H2]. destruct IH as [I1 I2]. split; [constructor; assumption|].
  intros G. inversion G; subst. constructor; auto.
Qed.

Lemma mono_list : forall A (F : octx -> A -> Prop), (forall x, F c x -> F c' x) ->
  forall l, Forall (F c) l -> Forall (F c') l.
Proof. intros A F H l. apply Forall_impl. exact H. Qed.

Lemma mono_opt : forall A (F : octx -> A -> Prop), (forall x, F c x -> F c' x) ->
  forall l, opt_ok (F c) l -> opt_ok (F c') l.
Proof. intros A F H [x|]; [apply H|exact (fun h => h)]. Qed.

Ltac fsp_use tac :=
  repeat match goal with
  | H : _ /\ _ |- _ => destruct H
  | H : fits_ref c _ |- _ => apply fsp_ref in H
  | H : Forall (fits_ref c) _ |- _ => apply fsp_refs in H
  | H : opt_ok (fits_ref c) _ |- _ => apply fsp_opt in H
  | H : _ |- _ => tac H
  end.

Ltac fsp_done := split; [rewrite ?refs_fit_app; repeat match goal with |- _ /\ _ => split end; first [assumption | solve [constructor]]|];
  intros G; rewrite ?refs_fit_app in G; repeat match goal with H : _ /\ _ |- _ => destruct H end;
  repeat match goal with |- _ /\ _ => split end; auto.

Lemma fsp_attr_fits : forall p, fsp (attr_fits c p) (attr_fits c' p)
  (match snd p with ARef r => [r] | _ => [] end).
Proof.
  intros [k v] [H1 H2]. unfold attr_fits. cbn [fst snd] in *.
  destruct v; try (split; [solve [constructor]|intros _; split; assumption]).
  apply fsp_ref in H2 as [H2 H3]. split; [exact H2|]. intros G. split; auto.
Qed.

Lemma fsp_attributes_fits : forall o, fsp (attributes_fits c o) (attributes_fits c' o) (attributes_refs o).
Proof.
  intros o H. unfold attributes_fits in *. fsp_use ltac:(fun H => lazymatch type of H with Forall (attr_fits c) _ => apply (fsp_list _ attr_fits _ (fsp_attr_fits)) in H end). first [solve [fsp_done] | unfold attributes_refs; fsp_done].
Qed.

Lemma fsp_parameter_list_fits : forall o, fsp (parameter_list_fits c o) (parameter_list_fits c' o) (parameter_list_refs o).
Proof.
  intros o H. unfold parameter_list_fits in *. fsp_use ltac:(fun H => fail). first [solve [fsp_done] | unfold parameter_list_refs; fsp_done].
Qed.

Lemma fsp_time_crumb_list_fits : forall o, fsp (time_crumb_list_fits c o) (time_crumb_list_fits c' o) (time_crumb_list_refs o).
Proof.
  intros o H. unfold time_crumb_list_fits in *. fsp_use ltac:(fun H => fail). first [solve [fsp_done] | unfold time_crumb_list_refs; fsp_done].
Qed.

Lemma fsp_component_fits : forall o, fsp (component_fits c o) (component_fits c' o) (component_refs o).
Proof.
  intros o H. unfold component_fits in *. fsp_use ltac:(fun H => fail). first [solve [fsp_done] | unfold component_refs; fsp_done].
Qed.

Lemma fsp_sequence_fits : forall o, fsp (sequence_fits c o) (sequence_fits c' o) (sequence_refs o).
Proof.
  intros o H. unfold sequence_fits in *. fsp_use ltac:(fun H => lazymatch type of H with component_fits c _ => apply fsp_component_fits in H end). first [solve [fsp_done] | unfold sequence_refs; fsp_done].
Qed.

Lemma fsp_clip_fits : forall o, fsp (clip_fits c o) (clip_fits c' o) (clip_refs o).
Proof.
  intros o H. unfold clip_fits in *. fsp_use ltac:(fun H => lazymatch type of H with component_fits c _ => apply fsp_component_fits in H end). first [solve [fsp_done] | unfold clip_refs; fsp_done].
Qed.

Lemma fsp_source_clip_fits : forall o, fsp (source_clip_fits c o) (source_clip_fits c' o) (source_clip_refs o).
Proof.
  intros o H. unfold source_clip_fits in *. fsp_use ltac:(fun H => lazymatch type of H with clip_fits c _ => apply fsp_clip_fits in H end). first [solve [fsp_done] | unfold source_clip_refs; fsp_done].
Qed.

Lemma fsp_timecode_fits : forall o, fsp (timecode_fits c o) (timecode_fits c' o) (timecode_refs o).
Proof.
  intros o H. unfold timecode_fits in *. fsp_use ltac:(fun H => lazymatch type of H with clip_fits c _ => apply fsp_clip_fits in H end). first [solve [fsp_done] | unfold timecode_refs; fsp_done].
Qed.

Lemma fsp_edgecode_fits : forall o, fsp (edgecode_fits c o) (edgecode_fits c' o) (edgecode_refs o).
Proof.
  intros o H. unfold edgecode_fits in *. fsp_use ltac:(fun H => lazymatch type of H with clip_fits c _ => apply fsp_clip_fits in H end). first [solve [fsp_done] | unfold edgecode_refs; fsp_done].
Qed.

Lemma fsp_track_ref_fits : forall o, fsp (track_ref_fits c o) (track_ref_fits c' o) (track_ref_refs o).
Proof.
  intros o H. unfold track_ref_fits in *. fsp_use ltac:(fun H => lazymatch type of H with clip_fits c _ => apply fsp_clip_fits in H end). first [solve [fsp_done] | unfold track_ref_refs; fsp_done].
Qed.

Lemma fsp_param_point_property_fits : forall o,
  fsp (param_point_property_fits c o) (param_point_property_fits c' o) (param_point_property_refs o).
Proof.
  intros o H. unfold param_point_property_fits, param_point_property_refs, cp_value_refs in *.
  destruct (ppp_value o); try (split; [solve [constructor]|intros _; exact H]).
  exfalso. tauto.
Qed.

Lemma fsp_cp_value_fits : forall value_type v,
  fsp (cp_value_fits c value_type v) (cp_value_fits c' value_type v) (cp_value_refs v).
Proof.
  intros t v H. unfold cp_value_fits, cp_value_refs in *.
  destruct v; try (split; [solve [constructor]|intros _; exact H]).
  destruct H as [H1 H2]. apply fsp_ref in H2 as [H2 H3]. split; [exact H2|]. intros G. split; auto.
Qed.

Lemma fsp_param_control_point_fits : forall value_type o, fsp (param_control_point_fits c value_type o) (param_control_point_fits c' value_type o) (param_control_point_refs o).
Proof.
  intros value_type o H. unfold param_control_point_fits in *. fsp_use ltac:(fun H => lazymatch type of H with cp_value_fits c _ _ => apply fsp_cp_value_fits in H | Forall (param_point_property_fits c) _ => apply (fsp_list _ param_point_property_fits _ (fsp_param_point_property_fits)) in H end). first [solve [fsp_done] | unfold param_control_point_refs; fsp_done].
Qed.

Lemma fsp_param_clip_fits : forall o, fsp (param_clip_fits c o) (param_clip_fits c' o) (param_clip_refs o).
Proof.
  intros o H. unfold param_clip_fits in *. fsp_use ltac:(fun H => lazymatch type of H with clip_fits c _ => apply fsp_clip_fits in H | Forall (param_control_point_fits c _) _ => apply (fsp_list _ (fun c => param_control_point_fits c (prcl_value_type o)) _ (fsp_param_control_point_fits (prcl_value_type o))) in H end). first [solve [fsp_done] | unfold param_clip_refs; fsp_done].
Qed.

Lemma fsp_control_point_property_fits : forall o, fsp (control_point_property_fits c o) (control_point_property_fits c' o) (control_point_property_refs o).
Proof.
  intros o H. unfold control_point_property_fits in *. fsp_use ltac:(fun H => fail). first [solve [fsp_done] | unfold control_point_property_refs; fsp_done].
Qed.

Lemma fsp_control_point_fits : forall o, fsp (control_point_fits c o) (control_point_fits c' o) (control_point_refs o).
Proof.
  intros o H. unfold control_point_fits in *. fsp_use ltac:(fun H => lazymatch type of H with Forall (control_point_property_fits c) _ => apply (fsp_list _ control_point_property_fits _ (fsp_control_point_property_fits)) in H end). first [solve [fsp_done] | unfold control_point_refs; fsp_done].
Qed.

Lemma fsp_control_clip_fits : forall o, fsp (control_clip_fits c o) (control_clip_fits c' o) (control_clip_refs o).
Proof.
  intros o H. unfold control_clip_fits in *. fsp_use ltac:(fun H => lazymatch type of H with clip_fits c _ => apply fsp_clip_fits in H | Forall (control_point_fits c) _ => apply (fsp_list _ control_point_fits _ (fsp_control_point_fits)) in H end). first [solve [fsp_done] | unfold control_clip_refs; fsp_done].
Qed.

Lemma fsp_filler_fits : forall o, fsp (filler_fits c o) (filler_fits c' o) (filler_refs o).
Proof.
  intros o H. unfold filler_fits in *. fsp_use ltac:(fun H => lazymatch type of H with clip_fits c _ => apply fsp_clip_fits in H end). first [solve [fsp_done] | unfold filler_refs; fsp_done].
Qed.

Lemma fsp_track_fits : forall t, fsp (track_fits c t) (track_fits c' t) (track_refs t).
Proof.
  intros t H. unfold track_fits in *. fsp_use ltac:(fun H => fail). first [solve [fsp_done] | unfold track_refs; fsp_done].
Qed.

Lemma mono_lock_fits : forall t, lock_fits c t -> lock_fits c' t.
Proof. intros t H. exact H. Qed.

Lemma fsp_track_group_fits : forall o, fsp (track_group_fits c o) (track_group_fits c' o) (track_group_refs o).
Proof.
  intros o H. unfold track_group_fits in *. fsp_use ltac:(fun H => lazymatch type of H with component_fits c _ => apply fsp_component_fits in H | Forall (lock_fits c) _ => apply (mono_list _ lock_fits mono_lock_fits) in H | Forall (track_fits c) _ => apply (fsp_list _ track_fits _ (fsp_track_fits)) in H end). first [solve [fsp_done] | unfold track_group_refs; fsp_done].
Qed.

Lemma fsp_track_effect_base_fits : forall o, fsp (track_effect_base_fits c o) (track_effect_base_fits c' o) (track_effect_refs o).
Proof.
  intros o H. unfold track_effect_base_fits in *. fsp_use ltac:(fun H => lazymatch type of H with track_group_fits c _ => apply fsp_track_group_fits in H end). first [solve [fsp_done] | unfold track_effect_refs; fsp_done].
Qed.

Lemma fsp_track_effect_fits : forall o, fsp (track_effect_fits c o) (track_effect_fits c' o) (track_effect_refs o).
Proof.
  intros o H. unfold track_effect_fits in *. fsp_use ltac:(fun H => lazymatch type of H with track_effect_base_fits c _ => apply fsp_track_effect_base_fits in H end). first [solve [fsp_done] | unfold track_effect_refs; fsp_done].
Qed.

Lemma fsp_pan_volume_effect_fits : forall o, fsp (pan_volume_effect_fits c o) (pan_volume_effect_fits c' o) (pan_volume_effect_refs o).
Proof.
  intros o H. unfold pan_volume_effect_fits in *. fsp_use ltac:(fun H => lazymatch type of H with track_effect_base_fits c _ => apply fsp_track_effect_base_fits in H end). first [solve [fsp_done] | unfold pan_volume_effect_refs; fsp_done].
Qed.

Lemma fsp_aspi_chunk_fits : forall o, fsp (aspi_chunk_fits c o) (aspi_chunk_fits c' o) (aspi_chunk_refs o).
Proof.
  intros o H. unfold aspi_chunk_fits in *. fsp_use ltac:(fun H => fail). first [solve [fsp_done] | unfold aspi_chunk_refs; fsp_done].
Qed.

Lemma fsp_aspi_plugin_fits : forall o, fsp (aspi_plugin_fits c o) (aspi_plugin_fits c' o) (aspi_plugin_refs o).
Proof.
  intros o H. unfold aspi_plugin_fits in *. fsp_use ltac:(fun H => lazymatch type of H with Forall (aspi_chunk_fits c) _ => apply (fsp_list _ aspi_chunk_fits _ (fsp_aspi_chunk_fits)) in H end). first [solve [fsp_done] | unfold aspi_plugin_refs; fsp_done].
Qed.

Lemma mono_preset_path_fits : forall v, preset_path_fits c v -> preset_path_fits c' v.
Proof. intros v H. exact H. Qed.

Lemma fsp_audio_suite_effect_fits : forall o, fsp (audio_suite_effect_fits c o) (audio_suite_effect_fits c' o) (audio_suite_effect_refs o).
Proof.
  intros o H. unfold audio_suite_effect_fits in *. fsp_use ltac:(fun H => lazymatch type of H with track_effect_base_fits c _ => apply fsp_track_effect_base_fits in H | Forall (aspi_plugin_fits c) _ => apply (fsp_list _ aspi_plugin_fits _ (fsp_aspi_plugin_fits)) in H | opt_ok (preset_path_fits c) _ => apply (mono_opt _ preset_path_fits mono_preset_path_fits) in H end). first [solve [fsp_done] | unfold audio_suite_effect_refs; fsp_done].
Qed.

Lemma fsp_equalizer_band_fits : forall o, fsp (equalizer_band_fits c o) (equalizer_band_fits c' o) (equalizer_band_refs o).
Proof.
  intros o H. unfold equalizer_band_fits in *. fsp_use ltac:(fun H => fail). first [solve [fsp_done] | unfold equalizer_band_refs; fsp_done].
Qed.

Lemma fsp_equalizer_multi_band_fits : forall o, fsp (equalizer_multi_band_fits c o) (equalizer_multi_band_fits c' o) (equalizer_multi_band_refs o).
Proof.
  intros o H. unfold equalizer_multi_band_fits in *. fsp_use ltac:(fun H => lazymatch type of H with track_effect_base_fits c _ => apply fsp_track_effect_base_fits in H | Forall (equalizer_band_fits c) _ => apply (fsp_list _ equalizer_band_fits _ (fsp_equalizer_band_fits)) in H end). first [solve [fsp_done] | unfold equalizer_multi_band_refs; fsp_done].
Qed.

Lemma fsp_time_warp_fits : forall o, fsp (time_warp_fits c o) (time_warp_fits c' o) (time_warp_refs o).
Proof.
  intros o H. unfold time_warp_fits in *. fsp_use ltac:(fun H => lazymatch type of H with track_group_fits c _ => apply fsp_track_group_fits in H end). first [solve [fsp_done] | unfold time_warp_refs; fsp_done].
Qed.

Lemma fsp_capture_mask_fits : forall o, fsp (capture_mask_fits c o) (capture_mask_fits c' o) (capture_mask_refs o).
Proof.
  intros o H. unfold capture_mask_fits in *. fsp_use ltac:(fun H => lazymatch type of H with time_warp_fits c _ => apply fsp_time_warp_fits in H end). first [solve [fsp_done] | unfold capture_mask_refs; fsp_done].
Qed.

Lemma fsp_strobe_effect_fits : forall o, fsp (strobe_effect_fits c o) (strobe_effect_fits c' o) (strobe_effect_refs o).
Proof.
  intros o H. unfold strobe_effect_fits in *. fsp_use ltac:(fun H => lazymatch type of H with time_warp_fits c _ => apply fsp_time_warp_fits in H end). first [solve [fsp_done] | unfold strobe_effect_refs; fsp_done].
Qed.

Lemma fsp_motion_effect_fits : forall o, fsp (motion_effect_fits c o) (motion_effect_fits c' o) (motion_effect_refs o).
Proof.
  intros o H. unfold motion_effect_fits in *. fsp_use ltac:(fun H => lazymatch type of H with time_warp_fits c _ => apply fsp_time_warp_fits in H end). first [solve [fsp_done] | unfold motion_effect_refs; fsp_done].
Qed.

Lemma fsp_repeat_effect_fits : forall o, fsp (repeat_effect_fits c o) (repeat_effect_fits c' o) (repeat_effect_refs o).
Proof.
  intros o H. unfold repeat_effect_fits in *. fsp_use ltac:(fun H => lazymatch type of H with time_warp_fits c _ => apply fsp_time_warp_fits in H end). first [solve [fsp_done] | unfold repeat_effect_refs; fsp_done].
Qed.

Lemma fsp_essence_group_fits : forall o, fsp (essence_group_fits c o) (essence_group_fits c' o) (essence_group_refs o).
Proof.
  intros o H. unfold essence_group_fits in *. fsp_use ltac:(fun H => lazymatch type of H with track_group_fits c _ => apply fsp_track_group_fits in H end). first [solve [fsp_done] | unfold essence_group_refs; fsp_done].
Qed.

Lemma fsp_transition_effect_fits : forall o, fsp (transition_effect_fits c o) (transition_effect_fits c' o) (transition_effect_refs o).
Proof.
  intros o H. unfold transition_effect_fits in *. fsp_use ltac:(fun H => lazymatch type of H with track_group_fits c _ => apply fsp_track_group_fits in H end). first [solve [fsp_done] | unfold transition_effect_refs; fsp_done].
Qed.

Lemma fsp_selector_fits : forall o, fsp (selector_fits c o) (selector_fits c' o) (selector_refs o).
Proof.
  intros o H. unfold selector_fits in *. fsp_use ltac:(fun H => lazymatch type of H with track_group_fits c _ => apply fsp_track_group_fits in H end). first [solve [fsp_done] | unfold selector_refs; fsp_done].
Qed.

Lemma fsp_composition_fits : forall o, fsp (composition_fits c o) (composition_fits c' o) (composition_refs o).
Proof.
  intros o H. unfold composition_fits in *. fsp_use ltac:(fun H => lazymatch type of H with track_group_fits c _ => apply fsp_track_group_fits in H end). first [solve [fsp_done] | unfold composition_refs; fsp_done].
Qed.

Lemma fsp_file_locator_fits : forall o, fsp (file_locator_fits c o) (file_locator_fits c' o) (file_locator_refs o).
Proof.
  intros o H. unfold file_locator_fits in *. fsp_use ltac:(fun H => fail). first [solve [fsp_done] | unfold file_locator_refs; fsp_done].
Qed.

Lemma fsp_url_locator_fits : forall o, fsp (url_locator_fits c o) (url_locator_fits c' o) (url_locator_refs o).
Proof.
  intros o H. unfold url_locator_fits in *. fsp_use ltac:(fun H => fail). first [solve [fsp_done] | unfold url_locator_refs; fsp_done].
Qed.

Lemma fsp_graphic_effect_fits : forall o, fsp (graphic_effect_fits c o) (graphic_effect_fits c' o) (graphic_effect_refs o).
Proof.
  intros o H. unfold graphic_effect_fits in *. fsp_use ltac:(fun H => fail). first [solve [fsp_done] | unfold graphic_effect_refs; fsp_done].
Qed.

Lemma fsp_shape_list_fits : forall o, fsp (shape_list_fits c o) (shape_list_fits c' o) (shape_list_refs o).
Proof.
  intros o H. unfold shape_list_fits in *. fsp_use ltac:(fun H => fail). first [solve [fsp_done] | unfold shape_list_refs; fsp_done].
Qed.

Lemma fsp_color_correction_effect_fits : forall o, fsp (color_correction_effect_fits c o) (color_correction_effect_fits c' o) (color_correction_effect_refs o).
Proof.
  intros o H. unfold color_correction_effect_fits in *. fsp_use ltac:(fun H => fail). first [solve [fsp_done] | unfold color_correction_effect_refs; fsp_done].
Qed.

Lemma mono_box_fits : forall v, box_fits c v -> box_fits c' v.
Proof. intros v H. exact H. Qed.

Lemma fsp_effect_param_fits : forall o, fsp (effect_param_fits c o) (effect_param_fits c' o) (effect_param_refs o).
Proof.
  intros o H. unfold effect_param_fits in *. fsp_use ltac:(fun H => lazymatch type of H with box_fits c _ => apply mono_box_fits in H end). first [solve [fsp_done] | unfold effect_param_refs; fsp_done].
Qed.

Lemma fsp_effect_param_list_fits : forall o, fsp (effect_param_list_fits c o) (effect_param_list_fits c' o) (effect_param_list_refs o).
Proof.
  intros o H. unfold effect_param_list_fits in *. fsp_use ltac:(fun H => lazymatch type of H with Forall (effect_param_fits c) _ => apply (fsp_list _ effect_param_fits _ (fsp_effect_param_fits)) in H end). first [solve [fsp_done] | unfold effect_param_list_refs; fsp_done].
Qed.

Lemma fsp_cf_user_param_fits : forall o, fsp (cf_user_param_fits c o) (cf_user_param_fits c' o) (cf_user_param_refs o).
Proof.
  intros o H. unfold cf_user_param_fits in *. fsp_use ltac:(fun H => fail). first [solve [fsp_done] | unfold cf_user_param_refs; fsp_done].
Qed.

Lemma fsp_parameter_item_fits : forall o, fsp (parameter_item_fits c o) (parameter_item_fits c' o) (parameter_item_refs o).
Proof.
  intros o H. unfold parameter_item_fits in *. fsp_use ltac:(fun H => lazymatch type of H with cp_value_fits c _ _ => apply fsp_cp_value_fits in H end). first [solve [fsp_done] | unfold parameter_item_refs; fsp_done].
Qed.

Lemma mono_mob_words_fits : forall m, mob_words_fits c m -> mob_words_fits c' m.
Proof. intros m H. exact H. Qed.

Lemma fsp_msm_locator_fits : forall o, fsp (msm_locator_fits c o) (msm_locator_fits c' o) (msm_locator_refs o).
Proof.
  intros o H. unfold msm_locator_fits in *. fsp_use ltac:(fun H => lazymatch type of H with mob_words_fits c _ => apply mono_mob_words_fits in H end). first [solve [fsp_done] | unfold msm_locator_refs; fsp_done].
Qed.

Lemma fsp_position_base_fits : forall o, fsp (position_base_fits c o) (position_base_fits c' o) (position_refs o).
Proof.
  intros o H. unfold position_base_fits in *. fsp_use ltac:(fun H => lazymatch type of H with mob_words_fits c _ => apply mono_mob_words_fits in H end). first [solve [fsp_done] | unfold position_refs; fsp_done].
Qed.

Lemma fsp_position_fits : forall o, fsp (position_fits c o) (position_fits c' o) (position_refs o).
Proof.
  intros o H. unfold position_fits in *. fsp_use ltac:(fun H => lazymatch type of H with position_base_fits c _ => apply fsp_position_base_fits in H end). first [solve [fsp_done] | unfold position_refs; fsp_done].
Qed.

Lemma fsp_bob_position_base_fits : forall o, fsp (bob_position_base_fits c o) (bob_position_base_fits c' o) (bob_position_refs o).
Proof.
  intros o H. unfold bob_position_base_fits in *. fsp_use ltac:(fun H => lazymatch type of H with position_base_fits c _ => apply fsp_position_base_fits in H end). first [solve [fsp_done] | unfold bob_position_refs; fsp_done].
Qed.

Lemma fsp_bob_position_fits : forall o, fsp (bob_position_fits c o) (bob_position_fits c' o) (bob_position_refs o).
Proof.
  intros o H. unfold bob_position_fits in *. fsp_use ltac:(fun H => lazymatch type of H with bob_position_base_fits c _ => apply fsp_bob_position_base_fits in H end). first [solve [fsp_done] | unfold bob_position_refs; fsp_done].
Qed.

Lemma fsp_did_position_base_fits : forall o, fsp (did_position_base_fits c o) (did_position_base_fits c' o) (did_position_refs o).
Proof.
  intros o H. unfold did_position_base_fits in *. fsp_use ltac:(fun H => lazymatch type of H with bob_position_base_fits c _ => apply fsp_bob_position_base_fits in H end). first [solve [fsp_done] | unfold did_position_refs; fsp_done].
Qed.

Lemma fsp_did_position_fits : forall o, fsp (did_position_fits c o) (did_position_fits c' o) (did_position_refs o).
Proof.
  intros o H. unfold did_position_fits in *. fsp_use ltac:(fun H => lazymatch type of H with did_position_base_fits c _ => apply fsp_did_position_base_fits in H end). first [solve [fsp_done] | unfold did_position_refs; fsp_done].
Qed.

Lemma mono_mpg_field_fits : forall p, mpg_field_fits c p -> mpg_field_fits c' p.
Proof. intros p H. exact H. Qed.

Lemma mono_mpg_fields_fits : forall l, mpg_fields_fits c l -> mpg_fields_fits c' l.
Proof. intros l H. exact H. Qed.

Lemma fsp_mpg_position_fits : forall o, fsp (mpg_position_fits c o) (mpg_position_fits c' o) (mpg_position_refs o).
Proof.
  intros o H. unfold mpg_position_fits in *. fsp_use ltac:(fun H => lazymatch type of H with did_position_base_fits c _ => apply fsp_did_position_base_fits in H | mpg_fields_fits c _ => apply mono_mpg_fields_fits in H end). first [solve [fsp_done] | unfold mpg_position_refs; fsp_done].
Qed.

Lemma fsp_bin_ref_fits : forall o, fsp (bin_ref_fits c o) (bin_ref_fits c' o) (bin_ref_refs o).
Proof.
  intros o H. unfold bin_ref_fits in *. fsp_use ltac:(fun H => fail). first [solve [fsp_done] | unfold bin_ref_refs; fsp_done].
Qed.

Lemma fsp_mob_ref_base_fits : forall o, fsp (mob_ref_base_fits c o) (mob_ref_base_fits c' o) (mob_ref_refs o).
Proof.
  intros o H. unfold mob_ref_base_fits in *. fsp_use ltac:(fun H => lazymatch type of H with mob_words_fits c _ => apply mono_mob_words_fits in H end). first [solve [fsp_done] | unfold mob_ref_refs; fsp_done].
Qed.

Lemma fsp_mob_ref_fits : forall o, fsp (mob_ref_fits c o) (mob_ref_fits c' o) (mob_ref_refs o).
Proof.
  intros o H. unfold mob_ref_fits in *. fsp_use ltac:(fun H => lazymatch type of H with mob_ref_base_fits c _ => apply fsp_mob_ref_base_fits in H end). first [solve [fsp_done] | unfold mob_ref_refs; fsp_done].
Qed.

Lemma fsp_marker_fits : forall o, fsp (marker_fits c o) (marker_fits c' o) (marker_refs o).
Proof.
  intros o H. unfold marker_fits in *. fsp_use ltac:(fun H => lazymatch type of H with mob_ref_base_fits c _ => apply fsp_mob_ref_base_fits in H end). first [solve [fsp_done] | unfold marker_refs; fsp_done].
Qed.

Lemma fsp_tracker_manager_fits : forall o, fsp (tracker_manager_fits c o) (tracker_manager_fits c' o) (tracker_manager_refs o).
Proof.
  intros o H. unfold tracker_manager_fits in *. fsp_use ltac:(fun H => fail). first [solve [fsp_done] | unfold tracker_manager_refs; fsp_done].
Qed.

Lemma fsp_tracker_data_slot_fits : forall o, fsp (tracker_data_slot_fits c o) (tracker_data_slot_fits c' o) (tracker_data_slot_refs o).
Proof.
  intros o H. unfold tracker_data_slot_fits in *. fsp_use ltac:(fun H => fail). first [solve [fsp_done] | unfold tracker_data_slot_refs; fsp_done].
Qed.

Lemma fsp_tracker_parameter_slot_fits : forall o, fsp (tracker_parameter_slot_fits c o) (tracker_parameter_slot_fits c' o) (tracker_parameter_slot_refs o).
Proof.
  intros o H. unfold tracker_parameter_slot_fits in *. fsp_use ltac:(fun H => fail). first [solve [fsp_done] | unfold tracker_parameter_slot_refs; fsp_done].
Qed.

Lemma fsp_tracker_data_fits : forall o, fsp (tracker_data_fits c o) (tracker_data_fits c' o) (tracker_data_refs o).
Proof.
  intros o H. unfold tracker_data_fits in *. fsp_use ltac:(fun H => fail). first [solve [fsp_done] | unfold tracker_data_refs; fsp_done].
Qed.

Lemma fsp_tracker_parameter_fits : forall o, fsp (tracker_parameter_fits c o) (tracker_parameter_fits c' o) (tracker_parameter_refs o).
Proof.
  intros o H. unfold tracker_parameter_fits in *. fsp_use ltac:(fun H => fail). first [solve [fsp_done] | unfold tracker_parameter_refs; fsp_done].
Qed.

Lemma fsp_media_descriptor_base_fits : forall o, fsp (media_descriptor_base_fits c o) (media_descriptor_base_fits c' o) (media_descriptor_refs o).
Proof.
  intros o H. unfold media_descriptor_base_fits in *. fsp_use ltac:(fun H => fail). first [solve [fsp_done] | unfold media_descriptor_refs; fsp_done].
Qed.

Lemma fsp_media_descriptor_fits : forall o, fsp (media_descriptor_fits c o) (media_descriptor_fits c' o) (media_descriptor_refs o).
Proof.
  intros o H. unfold media_descriptor_fits in *. fsp_use ltac:(fun H => lazymatch type of H with media_descriptor_base_fits c _ => apply fsp_media_descriptor_base_fits in H end). first [solve [fsp_done] | unfold media_descriptor_refs; fsp_done].
Qed.

Lemma fsp_tape_descriptor_fits : forall o, fsp (tape_descriptor_fits c o) (tape_descriptor_fits c' o) (tape_descriptor_refs o).
Proof.
  intros o H. unfold tape_descriptor_fits in *. fsp_use ltac:(fun H => lazymatch type of H with media_descriptor_base_fits c _ => apply fsp_media_descriptor_base_fits in H end). first [solve [fsp_done] | unfold tape_descriptor_refs; fsp_done].
Qed.

Lemma fsp_film_descriptor_fits : forall o, fsp (film_descriptor_fits c o) (film_descriptor_fits c' o) (media_descriptor_refs o).
Proof.
  intros o H. unfold film_descriptor_fits in *. fsp_use ltac:(fun H => lazymatch type of H with media_descriptor_base_fits c _ => apply fsp_media_descriptor_base_fits in H end). first [solve [fsp_done] | unfold media_descriptor_refs; fsp_done].
Qed.

Lemma fsp_media_file_descriptor_base_fits : forall o, fsp (media_file_descriptor_base_fits c o) (media_file_descriptor_base_fits c' o) (media_file_descriptor_refs o).
Proof.
  intros o H. unfold media_file_descriptor_base_fits in *. fsp_use ltac:(fun H => lazymatch type of H with media_descriptor_base_fits c _ => apply fsp_media_descriptor_base_fits in H end). first [solve [fsp_done] | unfold media_file_descriptor_refs; fsp_done].
Qed.

Lemma fsp_media_file_descriptor_fits : forall o, fsp (media_file_descriptor_fits c o) (media_file_descriptor_fits c' o) (media_file_descriptor_refs o).
Proof.
  intros o H. unfold media_file_descriptor_fits in *. fsp_use ltac:(fun H => lazymatch type of H with media_file_descriptor_base_fits c _ => apply fsp_media_file_descriptor_base_fits in H end). first [solve [fsp_done] | unfold media_file_descriptor_refs; fsp_done].
Qed.

Lemma fsp_multi_descriptor_fits : forall o, fsp (multi_descriptor_fits c o) (multi_descriptor_fits c' o) (multi_descriptor_refs o).
Proof.
  intros o H. unfold multi_descriptor_fits in *. fsp_use ltac:(fun H => lazymatch type of H with media_file_descriptor_base_fits c _ => apply fsp_media_file_descriptor_base_fits in H end). first [solve [fsp_done] | unfold multi_descriptor_refs; fsp_done].
Qed.

Lemma fsp_wave_descriptor_fits : forall o, fsp (wave_descriptor_fits c o) (wave_descriptor_fits c' o) (wave_descriptor_refs o).
Proof.
  intros o H. unfold wave_descriptor_fits in *. fsp_use ltac:(fun H => lazymatch type of H with media_file_descriptor_base_fits c _ => apply fsp_media_file_descriptor_base_fits in H end). first [solve [fsp_done] | unfold wave_descriptor_refs; fsp_done].
Qed.

Lemma fsp_aifc_descriptor_fits : forall o, fsp (aifc_descriptor_fits c o) (aifc_descriptor_fits c' o) (aifc_descriptor_refs o).
Proof.
  intros o H. unfold aifc_descriptor_fits in *. fsp_use ltac:(fun H => lazymatch type of H with media_file_descriptor_base_fits c _ => apply fsp_media_file_descriptor_base_fits in H end). first [solve [fsp_done] | unfold aifc_descriptor_refs; fsp_done].
Qed.

Lemma fsp_pcma_descriptor_fits : forall o, fsp (pcma_descriptor_fits c o) (pcma_descriptor_fits c' o) (pcma_descriptor_refs o).
Proof.
  intros o H. unfold pcma_descriptor_fits in *. fsp_use ltac:(fun H => lazymatch type of H with media_file_descriptor_base_fits c _ => apply fsp_media_file_descriptor_base_fits in H end). first [solve [fsp_done] | unfold pcma_descriptor_refs; fsp_done].
Qed.

Lemma fsp_mpga_descriptor_fits : forall o, fsp (mpga_descriptor_fits c o) (mpga_descriptor_fits c' o) (mpga_descriptor_refs o).
Proof.
  intros o H. unfold mpga_descriptor_fits in *. fsp_use ltac:(fun H => lazymatch type of H with media_file_descriptor_base_fits c _ => apply fsp_media_file_descriptor_base_fits in H end). first [solve [fsp_done] | unfold mpga_descriptor_refs; fsp_done].
Qed.

Lemma mono_point_fits : forall x y, point_fits c x y -> point_fits c' x y.
Proof. intros x y H. exact H. Qed.

Lemma mono_bounds_box_fits : forall b, bounds_box_fits c b -> bounds_box_fits c' b.
Proof. intros b H. exact H. Qed.

Lemma mono_client_fill_fits : forall s e, client_fill_fits c s e -> client_fill_fits c' s e.
Proof. intros s e H. exact H. Qed.

Lemma mono_boxes_fits : forall va es so, boxes_fits c va es so -> boxes_fits c' va es so.
Proof. intros va es so H. exact H. Qed.

Lemma mono_framing_fits : forall fb ro, framing_fits c fb ro -> framing_fits c' fb ro.
Proof. intros fb ro H. exact H. Qed.

Lemma mono_color_fits : forall cp ce, color_fits c cp ce -> color_fits c' cp ce.
Proof. intros cp ce H. exact H. Qed.

Lemma mono_line_map_fits : forall l, line_map_fits c l -> line_map_fits c' l.
Proof. intros l H. exact H. Qed.

Lemma fsp_did_descriptor_base_fits : forall o, fsp (did_descriptor_base_fits c o) (did_descriptor_base_fits c' o) (did_descriptor_refs o).
Proof.
  intros o H. unfold did_descriptor_base_fits in *. fsp_use ltac:(fun H => lazymatch type of H with boxes_fits c _ _ _ => apply mono_boxes_fits in H | client_fill_fits c _ _ => apply mono_client_fill_fits in H | color_fits c _ _ => apply mono_color_fits in H | framing_fits c _ _ => apply mono_framing_fits in H | line_map_fits c _ => apply mono_line_map_fits in H | media_file_descriptor_base_fits c _ => apply fsp_media_file_descriptor_base_fits in H end). first [solve [fsp_done] | unfold did_descriptor_refs; fsp_done].
Qed.

Lemma fsp_did_descriptor_fits : forall o, fsp (did_descriptor_fits c o) (did_descriptor_fits c' o) (did_descriptor_refs o).
Proof.
  intros o H. unfold did_descriptor_fits in *. fsp_use ltac:(fun H => lazymatch type of H with did_descriptor_base_fits c _ => apply fsp_did_descriptor_base_fits in H end). first [solve [fsp_done] | unfold did_descriptor_refs; fsp_done].
Qed.

Lemma fsp_cdci_descriptor_base_fits : forall o, fsp (cdci_descriptor_base_fits c o) (cdci_descriptor_base_fits c' o) (cdci_descriptor_refs o).
Proof.
  intros o H. unfold cdci_descriptor_base_fits in *. fsp_use ltac:(fun H => lazymatch type of H with did_descriptor_base_fits c _ => apply fsp_did_descriptor_base_fits in H end). first [solve [fsp_done] | unfold cdci_descriptor_refs; fsp_done].
Qed.

Lemma fsp_cdci_descriptor_fits : forall o, fsp (cdci_descriptor_fits c o) (cdci_descriptor_fits c' o) (cdci_descriptor_refs o).
Proof.
  intros o H. unfold cdci_descriptor_fits in *. fsp_use ltac:(fun H => lazymatch type of H with cdci_descriptor_base_fits c _ => apply fsp_cdci_descriptor_base_fits in H end). first [solve [fsp_done] | unfold cdci_descriptor_refs; fsp_done].
Qed.

Lemma fsp_mpgi_descriptor_fits : forall o, fsp (mpgi_descriptor_fits c o) (mpgi_descriptor_fits c' o) (mpgi_descriptor_refs o).
Proof.
  intros o H. unfold mpgi_descriptor_fits in *. fsp_use ltac:(fun H => lazymatch type of H with cdci_descriptor_base_fits c _ => apply fsp_cdci_descriptor_base_fits in H end). first [solve [fsp_done] | unfold mpgi_descriptor_refs; fsp_done].
Qed.

Lemma fsp_jped_descriptor_fits : forall o, fsp (jped_descriptor_fits c o) (jped_descriptor_fits c' o) (jped_descriptor_refs o).
Proof.
  intros o H. unfold jped_descriptor_fits in *. fsp_use ltac:(fun H => lazymatch type of H with cdci_descriptor_base_fits c _ => apply fsp_cdci_descriptor_base_fits in H end). first [solve [fsp_done] | unfold jped_descriptor_refs; fsp_done].
Qed.

Lemma mono_pixel_layout_fits : forall l, pixel_layout_fits c l -> pixel_layout_fits c' l.
Proof. intros l H. exact H. Qed.

Lemma mono_comp_refs_fits : forall o, comp_refs_fits c o -> comp_refs_fits c' o.
Proof. intros o H. exact H. Qed.

Lemma mono_alpha_refs_fits : forall o, alpha_refs_fits c o -> alpha_refs_fits c' o.
Proof. intros o H. exact H. Qed.

Lemma fsp_rgba_descriptor_fits : forall o, fsp (rgba_descriptor_fits c o) (rgba_descriptor_fits c' o) (rgba_descriptor_refs o).
Proof.
  intros o H. unfold rgba_descriptor_fits in *. fsp_use ltac:(fun H => lazymatch type of H with alpha_refs_fits c _ => apply mono_alpha_refs_fits in H | comp_refs_fits c _ => apply mono_comp_refs_fits in H | did_descriptor_base_fits c _ => apply fsp_did_descriptor_base_fits in H | pixel_layout_fits c _ => apply mono_pixel_layout_fits in H end). first [solve [fsp_done] | unfold rgba_descriptor_refs; fsp_done].
Qed.

Lemma fsp_data_descriptor_fits : forall o, fsp (data_descriptor_fits c o) (data_descriptor_fits c' o) (data_descriptor_refs o).
Proof.
  intros o H. unfold data_descriptor_fits in *. fsp_use ltac:(fun H => lazymatch type of H with media_file_descriptor_base_fits c _ => apply fsp_media_file_descriptor_base_fits in H end). first [solve [fsp_done] | unfold data_descriptor_refs; fsp_done].
Qed.

Lemma fsp_anc_data_descriptor_fits : forall o, fsp (anc_data_descriptor_fits c o) (anc_data_descriptor_fits c' o) (anc_data_descriptor_refs o).
Proof.
  intros o H. unfold anc_data_descriptor_fits in *. fsp_use ltac:(fun H => lazymatch type of H with data_descriptor_fits c _ => apply fsp_data_descriptor_fits in H end). first [solve [fsp_done] | unfold anc_data_descriptor_refs; fsp_done].
Qed.

Lemma fsp_setting_fits : forall o, fsp (setting_fits c o) (setting_fits c' o) (setting_refs o).
Proof.
  intros o H. unfold setting_fits in *. fsp_use ltac:(fun H => fail). first [solve [fsp_done] | unfold setting_refs; fsp_done].
Qed.

Lemma fsp_bin_column_fits : forall o, fsp (bin_column_fits c o) (bin_column_fits c' o) (bin_column_refs o).
Proof.
  intros o H. unfold bin_column_fits in *. fsp_use ltac:(fun H => fail). first [solve [fsp_done] | unfold bin_column_refs; fsp_done].
Qed.

Lemma fsp_format_desc_fits : forall o, fsp (format_desc_fits c o) (format_desc_fits c' o) (format_desc_refs o).
Proof.
  intros o H. unfold format_desc_fits in *. fsp_use ltac:(fun H => fail). first [solve [fsp_done] | unfold format_desc_refs; fsp_done].
Qed.

Lemma mono_format_descs_fits : forall l, format_descs_fits c l -> format_descs_fits c' l.
Proof. intros l H. exact H. Qed.

Lemma no_format_refs : forall c0 o,
  refs_fit c0 (match o with Some v => flat_map format_desc_refs v | None => [] end).
Proof. intros c0 [l|]; [|constructor]. unfold refs_fit. rewrite Forall_flat_map. apply Forall_forall. intros. constructor. Qed.

Lemma fsp_bin_view_setting_fits : forall o, fsp (bin_view_setting_fits c o) (bin_view_setting_fits c' o) (bin_view_setting_refs o).
Proof.
  intros o (H1 & H2 & H3 & H4). apply fsp_setting_fits in H1 as [H1 G1].
  apply (fsp_list _ bin_column_fits _ fsp_bin_column_fits) in H3 as [H3 G3].
  apply (mono_opt _ format_descs_fits mono_format_descs_fits) in H4.
  unfold bin_view_setting_refs, bin_view_setting_fits. split.
  - rewrite !refs_fit_app. auto using no_format_refs.
  - rewrite !refs_fit_app. intros (A & B & _). auto.
Qed.

Lemma fsp_bin_item_fits : forall o, fsp (bin_item_fits c o) (bin_item_fits c' o) (bin_item_refs o).
Proof.
  intros o H. unfold bin_item_fits in *. fsp_use ltac:(fun H => fail). first [solve [fsp_done] | unfold bin_item_refs; fsp_done].
Qed.

Lemma fsp_sift_item_fits : forall o, fsp (sift_item_fits c o) (sift_item_fits c' o) (sift_item_refs o).
Proof.
  intros o H. unfold sift_item_fits in *. fsp_use ltac:(fun H => fail). first [solve [fsp_done] | unfold sift_item_refs; fsp_done].
Qed.

Lemma fsp_sort_column_fits : forall o, fsp (sort_column_fits c o) (sort_column_fits c' o) (sort_column_refs o).
Proof.
  intros o H. unfold sort_column_fits in *. fsp_use ltac:(fun H => fail). first [solve [fsp_done] | unfold sort_column_refs; fsp_done].
Qed.

Lemma mono_object_count_fits : forall o, object_count_fits c o -> object_count_fits c' o.
Proof. intros o H. exact H. Qed.

Lemma fsp_bin_base_fits : forall o, fsp (bin_base_fits c o) (bin_base_fits c' o) (bin_refs o).
Proof.
  intros o H. unfold bin_base_fits in *. fsp_use ltac:(fun H => lazymatch type of H with object_count_fits c _ => apply mono_object_count_fits in H | Forall (bin_item_fits c) _ => apply (fsp_list _ bin_item_fits _ (fsp_bin_item_fits)) in H | Forall (sift_item_fits c) _ => apply (fsp_list _ sift_item_fits _ (fsp_sift_item_fits)) in H | Forall (sort_column_fits c) _ => apply (fsp_list _ sort_column_fits _ (fsp_sort_column_fits)) in H end). first [solve [fsp_done] | unfold bin_refs; fsp_done].
Qed.

Lemma fsp_bin_fits : forall o, fsp (bin_fits c o) (bin_fits c' o) (bin_refs o).
Proof.
  intros o H. unfold bin_fits in *. fsp_use ltac:(fun H => lazymatch type of H with bin_base_fits c _ => apply fsp_bin_base_fits in H end). first [solve [fsp_done] | unfold bin_refs; fsp_done].
Qed.

Lemma fsp_bin_first_fits : forall o, fsp (bin_first_fits c o) (bin_first_fits c' o) (bin_first_refs o).
Proof.
  intros o H. unfold bin_first_fits in *. fsp_use ltac:(fun H => lazymatch type of H with bin_base_fits c _ => apply fsp_bin_base_fits in H end). first [solve [fsp_done] | unfold bin_first_refs; fsp_done].
Qed.

End Two.

Lemma fsp_obj : forall c c' o, closes (okind o) = true -> fsp c c' (obj_fits c o) (obj_fits c' o) (obj_refs o).
Proof.
  intros c c' [k v] Hk. unfold obj_fits, obj_refs. cbn [okind oval] in *.
  destruct k; try discriminate Hk; cbn [fits_of class_of C_refs C_type] in *.
  - apply fsp_attributes_fits.
  - apply fsp_parameter_list_fits.
  - apply fsp_time_crumb_list_fits.
  - apply fsp_bin_view_setting_fits.
  - apply fsp_bin_fits.
  - apply fsp_bin_first_fits.
  - apply fsp_sequence_fits.
  - apply fsp_source_clip_fits.
  - apply fsp_timecode_fits.
  - apply fsp_edgecode_fits.
  - apply fsp_track_ref_fits.
  - apply fsp_param_clip_fits.
  - apply fsp_control_clip_fits.
  - apply fsp_filler_fits.
  - apply fsp_media_descriptor_fits.
  - apply fsp_tape_descriptor_fits.
  - apply fsp_film_descriptor_fits.
  - apply fsp_film_descriptor_fits.
  - apply fsp_media_file_descriptor_fits.
  - apply fsp_multi_descriptor_fits.
  - apply fsp_wave_descriptor_fits.
  - apply fsp_aifc_descriptor_fits.
  - apply fsp_pcma_descriptor_fits.
  - apply fsp_mpga_descriptor_fits.
  - apply fsp_did_descriptor_fits.
  - apply fsp_cdci_descriptor_fits.
  - apply fsp_mpgi_descriptor_fits.
  - apply fsp_jped_descriptor_fits.
  - apply fsp_rgba_descriptor_fits.
  - apply fsp_anc_data_descriptor_fits.
  - apply fsp_file_locator_fits.
  - apply fsp_file_locator_fits.
  - apply fsp_url_locator_fits.
  - apply fsp_graphic_effect_fits.
  - apply fsp_shape_list_fits.
  - apply fsp_color_correction_effect_fits.
  - apply fsp_effect_param_list_fits.
  - apply fsp_cf_user_param_fits.
  - apply fsp_parameter_item_fits.
  - apply fsp_msm_locator_fits.
  - apply fsp_position_fits.
  - apply fsp_bob_position_fits.
  - apply fsp_did_position_fits.
  - apply fsp_mpg_position_fits.
  - apply fsp_bin_ref_fits.
  - apply fsp_mob_ref_fits.
  - apply fsp_marker_fits.
  - apply fsp_tracker_manager_fits.
  - apply fsp_tracker_data_slot_fits.
  - apply fsp_tracker_parameter_slot_fits.
  - apply fsp_tracker_data_fits.
  - apply fsp_tracker_parameter_fits.
  - apply fsp_track_effect_fits.
  - apply fsp_pan_volume_effect_fits.
  - apply fsp_audio_suite_effect_fits.
  - apply fsp_equalizer_multi_band_fits.
  - apply fsp_capture_mask_fits.
  - apply fsp_strobe_effect_fits.
  - apply fsp_motion_effect_fits.
  - apply fsp_repeat_effect_fits.
  - apply fsp_essence_group_fits.
  - apply fsp_transition_effect_fits.
  - apply fsp_selector_fits.
  - apply fsp_composition_fits.
Qed.
