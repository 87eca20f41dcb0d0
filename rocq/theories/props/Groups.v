(** C16 and C17: effects, other track groups and compositions survive a save.
    [saves] is in Saved.v, the [_fits] conditions in Fits.v, the [_ok] conditions beside the
    classes; the sample objects in Samples.v. *)
From Coq Require Import ZArith List Bool Lia.
From Verif Require Import Base IoCtx Text Exp10 MobId Storable Attributes Components TrackGroups
  Misc Essence BinModel Fits RoundTrip ComponentsProofs TrackGroupsProofs MiscProofs EssenceProofs
  BinProofs FitsProofs MapProofs Saved SavedProofs Samples.
Import ListNotations.
Open Scope Z_scope.

Theorem C16_track_effect_saved :
  saves rtrack_effect wtrack_effect track_effect_map track_effect_refs track_effect_ok track_effect_fits
    (fun o => locked (tkfx_group o)).
Proof.
  apply saves_intro.
  - exact rt_track_effect.
  - intros c o H. apply fit_track_effect; exact H.
  - intros o H. apply map_id_track_effect; exact H.
  - intros f o. apply refs_map_track_effect.
Qed.
Print Assumptions C16_track_effect_saved.

Example C16_track_effect_case :
  track_effect_ok sample_track_effect /\ forall bo, track_effect_fits (sample_out bo) sample_track_effect.
Proof.
  assert (track_effect_ok sample_track_effect) as H by sample_ok.
  split; [exact H|]. intros bo. apply fit_track_effect; [exact H|]. destruct bo; vm_compute; eexists; reflexivity.
Qed.

Theorem C16_pan_volume_effect_saved :
  saves rpan_volume_effect wpan_volume_effect pan_volume_effect_map pan_volume_effect_refs pan_volume_effect_ok pan_volume_effect_fits
    (fun o => locked (tkfx_group (pvol_effect o))).
Proof.
  apply saves_intro.
  - exact rt_pan_volume_effect.
  - intros c o H. apply fit_pan_volume_effect; exact H.
  - intros o H. apply map_id_pan_volume_effect; exact H.
  - intros f o. apply refs_map_pan_volume_effect.
Qed.
Print Assumptions C16_pan_volume_effect_saved.

Example C16_pan_volume_effect_case :
  pan_volume_effect_ok sample_pan_volume_effect /\ forall bo, pan_volume_effect_fits (sample_out bo) sample_pan_volume_effect.
Proof.
  assert (pan_volume_effect_ok sample_pan_volume_effect) as H by sample_ok.
  split; [exact H|]. intros bo. apply fit_pan_volume_effect; [exact H|]. destruct bo; vm_compute; eexists; reflexivity.
Qed.

Theorem C16_audio_suite_effect_saved :
  saves raudio_suite_effect waudio_suite_effect audio_suite_effect_map audio_suite_effect_refs audio_suite_effect_ok audio_suite_effect_fits
    (fun o => locked (tkfx_group (aspi_effect o))).
Proof.
  apply saves_intro.
  - exact rt_audio_suite_effect.
  - intros c o H. apply fit_audio_suite_effect; exact H.
  - intros o H. apply map_id_audio_suite_effect; exact H.
  - intros f o. apply refs_map_audio_suite_effect.
Qed.
Print Assumptions C16_audio_suite_effect_saved.

Example C16_audio_suite_effect_case :
  audio_suite_effect_ok sample_audio_suite_effect /\ forall bo, audio_suite_effect_fits (sample_out bo) sample_audio_suite_effect.
Proof.
  assert (audio_suite_effect_ok sample_audio_suite_effect) as H by sample_ok.
  split; [exact H|]. intros bo. apply fit_audio_suite_effect; [exact H|]. destruct bo; vm_compute; eexists; reflexivity.
Qed.

Theorem C16_equalizer_multi_band_saved :
  saves requalizer_multi_band wequalizer_multi_band equalizer_multi_band_map equalizer_multi_band_refs equalizer_multi_band_ok equalizer_multi_band_fits
    (fun o => locked (tkfx_group (eqmb_effect o))).
Proof.
  apply saves_intro.
  - exact rt_equalizer_multi_band.
  - intros c o H. apply fit_equalizer_multi_band; exact H.
  - intros o H. apply map_id_equalizer_multi_band; exact H.
  - intros f o. apply refs_map_equalizer_multi_band.
Qed.
Print Assumptions C16_equalizer_multi_band_saved.

Example C16_equalizer_multi_band_case :
  equalizer_multi_band_ok sample_equalizer_multi_band /\ forall bo, equalizer_multi_band_fits (sample_out bo) sample_equalizer_multi_band.
Proof.
  assert (equalizer_multi_band_ok sample_equalizer_multi_band) as H by sample_ok.
  split; [exact H|]. intros bo. apply fit_equalizer_multi_band; [exact H|]. destruct bo; vm_compute; eexists; reflexivity.
Qed.

Theorem C16_capture_mask_saved :
  saves rcapture_mask wcapture_mask capture_mask_map capture_mask_refs capture_mask_ok capture_mask_fits
    (fun o => locked (warp_group (mask_warp o))).
Proof.
  apply saves_intro.
  - exact rt_capture_mask.
  - intros c o H. apply fit_capture_mask; exact H.
  - intros o H. apply map_id_capture_mask; exact H.
  - intros f o. apply refs_map_capture_mask.
Qed.
Print Assumptions C16_capture_mask_saved.

Example C16_capture_mask_case :
  capture_mask_ok sample_capture_mask /\ forall bo, capture_mask_fits (sample_out bo) sample_capture_mask.
Proof.
  assert (capture_mask_ok sample_capture_mask) as H by sample_ok.
  split; [exact H|]. intros bo. apply fit_capture_mask; [exact H|]. destruct bo; vm_compute; eexists; reflexivity.
Qed.

Theorem C16_strobe_effect_saved :
  saves rstrobe_effect wstrobe_effect strobe_effect_map strobe_effect_refs strobe_effect_ok strobe_effect_fits
    (fun o => locked (warp_group (strb_warp o))).
Proof.
  apply saves_intro.
  - exact rt_strobe_effect.
  - intros c o H. apply fit_strobe_effect; exact H.
  - intros o H. apply map_id_strobe_effect; exact H.
  - intros f o. apply refs_map_strobe_effect.
Qed.
Print Assumptions C16_strobe_effect_saved.

Example C16_strobe_effect_case :
  strobe_effect_ok sample_strobe_effect /\ forall bo, strobe_effect_fits (sample_out bo) sample_strobe_effect.
Proof.
  assert (strobe_effect_ok sample_strobe_effect) as H by sample_ok.
  split; [exact H|]. intros bo. apply fit_strobe_effect; [exact H|]. destruct bo; vm_compute; eexists; reflexivity.
Qed.

Theorem C16_motion_effect_saved :
  saves rmotion_effect wmotion_effect motion_effect_map motion_effect_refs motion_effect_ok motion_effect_fits
    (fun o => locked (warp_group (sped_warp o))).
Proof.
  apply saves_intro.
  - exact rt_motion_effect.
  - intros c o H. apply fit_motion_effect; exact H.
  - intros o H. apply map_id_motion_effect; exact H.
  - intros f o. apply refs_map_motion_effect.
Qed.
Print Assumptions C16_motion_effect_saved.

Example C16_motion_effect_case :
  motion_effect_ok sample_motion_effect /\ forall bo, motion_effect_fits (sample_out bo) sample_motion_effect.
Proof.
  assert (motion_effect_ok sample_motion_effect) as H by sample_ok.
  split; [exact H|]. intros bo. apply fit_motion_effect; [exact H|]. destruct bo; vm_compute; eexists; reflexivity.
Qed.

Theorem C16_repeat_effect_saved :
  saves rrepeat_effect wrepeat_effect repeat_effect_map repeat_effect_refs repeat_effect_ok repeat_effect_fits
    (fun o => locked (warp_group (rept_warp o))).
Proof.
  apply saves_intro.
  - exact rt_repeat_effect.
  - intros c o H. apply fit_repeat_effect; exact H.
  - intros o H. apply map_id_repeat_effect; exact H.
  - intros f o. apply refs_map_repeat_effect.
Qed.
Print Assumptions C16_repeat_effect_saved.

Example C16_repeat_effect_case :
  repeat_effect_ok sample_repeat_effect /\ forall bo, repeat_effect_fits (sample_out bo) sample_repeat_effect.
Proof.
  assert (repeat_effect_ok sample_repeat_effect) as H by sample_ok.
  split; [exact H|]. intros bo. apply fit_repeat_effect; [exact H|]. destruct bo; vm_compute; eexists; reflexivity.
Qed.

Theorem C16_essence_group_saved :
  saves ressence_group wessence_group essence_group_map essence_group_refs essence_group_ok essence_group_fits
    (fun o => locked (rset_group o)).
Proof.
  apply saves_intro.
  - exact rt_essence_group.
  - intros c o H. apply fit_essence_group; exact H.
  - intros o H. apply map_id_essence_group; exact H.
  - intros f o. apply refs_map_essence_group.
Qed.
Print Assumptions C16_essence_group_saved.

Example C16_essence_group_case :
  essence_group_ok sample_essence_group /\ forall bo, essence_group_fits (sample_out bo) sample_essence_group.
Proof.
  assert (essence_group_ok sample_essence_group) as H by sample_ok.
  split; [exact H|]. intros bo. apply fit_essence_group; [exact H|]. destruct bo; vm_compute; eexists; reflexivity.
Qed.

Theorem C16_transition_effect_saved :
  saves rtransition_effect wtransition_effect transition_effect_map transition_effect_refs transition_effect_ok transition_effect_fits
    (fun o => locked (tnfx_group o)).
Proof.
  apply saves_intro.
  - exact rt_transition_effect.
  - intros c o H. apply fit_transition_effect; exact H.
  - intros o H. apply map_id_transition_effect; exact H.
  - intros f o. apply refs_map_transition_effect.
Qed.
Print Assumptions C16_transition_effect_saved.

Example C16_transition_effect_case :
  transition_effect_ok sample_transition_effect /\ forall bo, transition_effect_fits (sample_out bo) sample_transition_effect.
Proof.
  assert (transition_effect_ok sample_transition_effect) as H by sample_ok.
  split; [exact H|]. intros bo. apply fit_transition_effect; [exact H|]. destruct bo; vm_compute; eexists; reflexivity.
Qed.

Theorem C16_selector_saved :
  saves rselector wselector selector_map selector_refs selector_ok selector_fits
    (fun o => locked (slct_group o)).
Proof.
  apply saves_intro.
  - exact rt_selector.
  - intros c o H. apply fit_selector; exact H.
  - intros o H. apply map_id_selector; exact H.
  - intros f o. apply refs_map_selector.
Qed.
Print Assumptions C16_selector_saved.

Example C16_selector_case :
  selector_ok sample_selector /\ forall bo, selector_fits (sample_out bo) sample_selector.
Proof.
  assert (selector_ok sample_selector) as H by sample_ok.
  split; [exact H|]. intros bo. apply fit_selector; [exact H|]. destruct bo; vm_compute; eexists; reflexivity.
Qed.

Theorem C17_composition_saved :
  saves rcomposition wcomposition composition_map composition_refs composition_ok composition_fits
    (fun o => locked (cmpo_group o)).
Proof.
  apply saves_intro.
  - exact rt_composition.
  - intros c o H. apply fit_composition; exact H.
  - intros o H. apply map_id_composition; exact H.
  - intros f o. apply refs_map_composition.
Qed.
Print Assumptions C17_composition_saved.

Example C17_composition_case :
  composition_ok sample_composition /\ forall bo, composition_fits (sample_out bo) sample_composition.
Proof.
  assert (composition_ok sample_composition) as H by sample_ok.
  split; [exact H|]. intros bo. apply fit_composition; [exact H|]. destruct bo; vm_compute; eexists; reflexivity.
Qed.

(** C15: the tracks of a group, alone. [track_kept] spells out each property. *)
Theorem C15_tracks_kept : forall i c o, compat i c -> component_ok (trkg_component o) ->
  (track_group_fits c o -> exists bs, wtrack_group c o = Ok bs /\
     forall rest, no_section rest -> exists g, rtrack_group i (bs ++ rest) = Ok (g, rest) /\
       Forall2 (track_kept (reff c)) (trkg_tracks o) (trkg_tracks g) /\
       trkg_component g = component_map (reff c) (trkg_component o) /\
       trkg_mc_mode g = trkg_mc_mode o /\ trkg_length g = trkg_length o /\
       trkg_num_scalars g = trkg_num_scalars o) /\
  (~ track_group_fits c o -> exists e, wtrack_group c o = Err e).
Proof.
  intros i c o Hc Hok.
  assert (track_group_ok o) as Ho.
  { split; [exact Hok|]. apply Forall_forall. intros; exact I. }
  destruct (fit_track_group c o Hok) as [H1 H2]. split.
  - intros Hf. destruct (H2 Hf) as [bs Hbs]. exists bs. split; [exact Hbs|].
    intros rest Hr. exists (track_group_map (reff c) o). split.
    + apply (rt_track_group i c Hc o Ho); [exact Hbs|exact Hr].
    + split; [|repeat split].
      cbn [trkg_tracks track_group_map]. induction (trkg_tracks o) as [|t l IH]; constructor; auto.
      unfold track_kept. cbn. repeat split. now destruct (trak_lock_number t).
  - intros Hn. destruct (wtrack_group c o) as [bs|e] eqn:E; [|eauto].
    exfalso. apply Hn, H1. exists bs. reflexivity.
Qed.
Print Assumptions C15_tracks_kept.

(** A group of three tracks: one with every property, one with none, one with three and
    no lock number. *)
Definition three_tracks : track_group := {|
  trkg_component := sample_component;
  trkg_mc_mode := 1; trkg_length := 100; trkg_num_scalars := 0;
  trkg_tracks :=
    [sample_track;
     {| trak_index := None; trak_attributes := None; trak_session_attr := None;
        trak_component := None; trak_filler_proxy := None; trak_bob_data := None;
        trak_control_code := None; trak_control_sub_code := None; trak_start_pos := None;
        trak_read_only := None; trak_lock_number := None |};
     {| trak_index := Some (-3); trak_attributes := None; trak_session_attr := Some 5;
        trak_component := Some 6; trak_filler_proxy := None; trak_bob_data := None;
        trak_control_code := None; trak_control_sub_code := None; trak_start_pos := None;
        trak_read_only := None; trak_lock_number := None |}] |}.

Example C15_tracks_case : component_ok (trkg_component three_tracks) /\
  forall bo, track_group_fits (sample_out bo) three_tracks.
Proof.
  assert (component_ok (trkg_component three_tracks)) as H by sample_ok.
  split; [exact H|]. intros bo. apply fit_track_group.
  - exact H.
  - destruct bo; vm_compute; eexists; reflexivity.
Qed.

(** Any of the 1024 sets of optional properties is a track that fits. *)
Theorem C15_every_subset : forall c (b0 b1 b2 b3 b4 b5 b6 b7 b8 b9 : bool),
  track_fits c {|
    trak_index := if b0 then Some 1 else None;
    trak_attributes := if b1 then Some 0 else None;
    trak_session_attr := if b2 then Some 0 else None;
    trak_component := if b3 then Some 0 else None;
    trak_filler_proxy := if b4 then Some 0 else None;
    trak_bob_data := if b5 then Some 0 else None;
    trak_control_code := if b6 then Some 2 else None;
    trak_control_sub_code := if b7 then Some 3 else None;
    trak_start_pos := if b8 then Some 4 else None;
    trak_read_only := if b9 then Some true else None;
    trak_lock_number := None |}.
Proof.
  intros. unfold track_fits. cbn [trak_index trak_attributes trak_session_attr trak_component
    trak_filler_proxy trak_bob_data trak_control_code trak_control_sub_code trak_start_pos].
  assert (fits_ref c 0) as R by (left; reflexivity).
  repeat split; match goal with |- opt_ok _ (if ?b then _ else _) => destruct b; cbn [opt_ok] end;
    try exact I; try exact R; unfold fits_s16, fits_s32; lia.
Qed.
Print Assumptions C15_every_subset.

(** The condition of [selector_ok] is needed: a selector whose [selected] is not the index of a
    track is written without complaint, and cannot be read again. *)
Theorem C16_selector_out_of_range_refuted : exists o bs,
  slct_selected o = 2 /\ length (trkg_tracks (slct_group o)) = 2%nat /\
  wselector (sample_out LE) o = Ok bs /\ rselector (sample_in LE) bs = Err AssertionErr.
Proof.
  exists {| slct_group := sample_track_group; slct_is_ganged := false; slct_selected := 2 |}.
  eexists. split; [reflexivity|]. split; [reflexivity|]. split; [vm_compute; reflexivity|].
  vm_compute. reflexivity.
Qed.
Print Assumptions C16_selector_out_of_range_refuted.

(** So is the condition on the number of plug-ins. *)
Theorem C16_two_plugins_refuted : exists o bs,
  length (aspi_plugins o) = 2%nat /\
  waudio_suite_effect (sample_out LE) o = Ok bs /\
  raudio_suite_effect (sample_in LE) bs = Err AssertionErr.
Proof.
  exists {| aspi_effect := sample_track_effect; aspi_plugins := [sample_aspi_plugin; sample_aspi_plugin];
    aspi_mob_id := None; aspi_mark_in := None; aspi_mark_out := None;
    aspi_tracks_to_affect := None; aspi_rendering_mode := None; aspi_padding_secs := None;
    aspi_preset_path := None |}.
  eexists. split; [reflexivity|]. split; [vm_compute; reflexivity|]. vm_compute. reflexivity.
Qed.
Print Assumptions C16_two_plugins_refuted.

(** A mob ID whose first half has a word of 2^31 or more cannot be saved in an audio-suite
    effect, although it is a valid mob ID. *)
Theorem C16_audio_suite_mob_id_refuted : exists o m,
  aspi_mob_id o = Some m /\ mobid_wf m /\ audio_suite_effect_ok o /\
  waudio_suite_effect (sample_out LE) o = Err StructError.
Proof.
  exists {| aspi_effect := sample_track_effect; aspi_plugins := [sample_aspi_plugin];
    aspi_mob_id := Some (repeat 255 32); aspi_mark_in := None; aspi_mark_out := None;
    aspi_tracks_to_affect := None; aspi_rendering_mode := None; aspi_padding_secs := None;
    aspi_preset_path := None |}, (repeat 255 32).
  split; [reflexivity|]. split; [sample_ok|]. split; [sample_ok|]. vm_compute. reflexivity.
Qed.
Print Assumptions C16_audio_suite_mob_id_refuted.
