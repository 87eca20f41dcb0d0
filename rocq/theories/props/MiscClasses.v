(** C19: locators, effects, positions, references, markers and trackers survive a save.
    [saves] is in Saved.v, the [_fits] conditions in Fits.v, the [_ok] conditions beside the
    classes; the sample objects in Samples.v. *)
From Coq Require Import ZArith List Bool Lia.
From Verif Require Import Base IoCtx Text Exp10 MobId Storable Attributes Components TrackGroups
  Misc Essence BinModel Fits RoundTrip ComponentsProofs TrackGroupsProofs MiscProofs EssenceProofs
  BinProofs FitsProofs MapProofs Saved SavedProofs Samples.
Import ListNotations.
Open Scope Z_scope.

Theorem C19_file_locator_saved :
  saves rfile_locator wfile_locator file_locator_map file_locator_refs file_locator_ok file_locator_fits
    always.
Proof.
  apply saves_intro.
  - exact rt_file_locator.
  - intros c o H. apply fit_file_locator; exact H.
  - intros o H. apply map_id_file_locator.
  - intros f o. apply refs_map_file_locator.
Qed.
Print Assumptions C19_file_locator_saved.

Example C19_file_locator_case :
  file_locator_ok sample_file_locator /\ forall bo, file_locator_fits (sample_out bo) sample_file_locator.
Proof.
  assert (file_locator_ok sample_file_locator) as H by sample_ok.
  split; [exact H|]. intros bo. apply fit_file_locator; [exact H|]. destruct bo; vm_compute; eexists; reflexivity.
Qed.

Theorem C19_url_locator_saved :
  saves rurl_locator wurl_locator url_locator_map url_locator_refs url_locator_ok url_locator_fits
    always.
Proof.
  apply saves_intro.
  - exact rt_url_locator.
  - intros c o H. apply fit_url_locator; exact H.
  - intros o H. apply map_id_url_locator.
  - intros f o. apply refs_map_url_locator.
Qed.
Print Assumptions C19_url_locator_saved.

Example C19_url_locator_case :
  url_locator_ok sample_url_locator /\ forall bo, url_locator_fits (sample_out bo) sample_url_locator.
Proof.
  assert (url_locator_ok sample_url_locator) as H by sample_ok.
  split; [exact H|]. intros bo. apply fit_url_locator; [exact H|]. destruct bo; vm_compute; eexists; reflexivity.
Qed.

Theorem C19_graphic_effect_saved :
  saves rgraphic_effect wgraphic_effect graphic_effect_map graphic_effect_refs graphic_effect_ok graphic_effect_fits
    always.
Proof.
  apply saves_intro.
  - exact rt_graphic_effect.
  - intros c o H. apply fit_graphic_effect; exact H.
  - intros o H. apply map_id_graphic_effect.
  - intros f o. apply refs_map_graphic_effect.
Qed.
Print Assumptions C19_graphic_effect_saved.

Example C19_graphic_effect_case :
  graphic_effect_ok sample_graphic_effect /\ forall bo, graphic_effect_fits (sample_out bo) sample_graphic_effect.
Proof.
  assert (graphic_effect_ok sample_graphic_effect) as H by sample_ok.
  split; [exact H|]. intros bo. apply fit_graphic_effect; [exact H|]. destruct bo; vm_compute; eexists; reflexivity.
Qed.

Theorem C19_shape_list_saved :
  saves rshape_list wshape_list shape_list_map shape_list_refs shape_list_ok shape_list_fits
    always.
Proof.
  apply saves_intro.
  - exact rt_shape_list.
  - intros c o H. apply fit_shape_list; exact H.
  - intros o H. apply map_id_shape_list.
  - intros f o. apply refs_map_shape_list.
Qed.
Print Assumptions C19_shape_list_saved.

Example C19_shape_list_case :
  shape_list_ok sample_shape_list /\ forall bo, shape_list_fits (sample_out bo) sample_shape_list.
Proof.
  assert (shape_list_ok sample_shape_list) as H by sample_ok.
  split; [exact H|]. intros bo. apply fit_shape_list; [exact H|]. destruct bo; vm_compute; eexists; reflexivity.
Qed.

Theorem C19_color_correction_effect_saved :
  saves rcolor_correction_effect wcolor_correction_effect color_correction_effect_map color_correction_effect_refs color_correction_effect_ok color_correction_effect_fits
    always.
Proof.
  apply saves_intro.
  - exact rt_color_correction_effect.
  - intros c o H. apply fit_color_correction_effect; exact H.
  - intros o H. apply map_id_color_correction_effect.
  - intros f o. apply refs_map_color_correction_effect.
Qed.
Print Assumptions C19_color_correction_effect_saved.

Example C19_color_correction_effect_case :
  color_correction_effect_ok sample_color_correction_effect /\ forall bo, color_correction_effect_fits (sample_out bo) sample_color_correction_effect.
Proof.
  assert (color_correction_effect_ok sample_color_correction_effect) as H by sample_ok.
  split; [exact H|]. intros bo. apply fit_color_correction_effect; [exact H|]. destruct bo; vm_compute; eexists; reflexivity.
Qed.

Theorem C19_effect_param_list_saved :
  saves reffect_param_list weffect_param_list effect_param_list_map effect_param_list_refs effect_param_list_ok effect_param_list_fits
    always.
Proof.
  apply saves_intro.
  - exact rt_effect_param_list.
  - intros c o H. apply fit_effect_param_list; exact H.
  - intros o H. apply map_id_effect_param_list.
  - intros f o. apply refs_map_effect_param_list.
Qed.
Print Assumptions C19_effect_param_list_saved.

Example C19_effect_param_list_case :
  effect_param_list_ok sample_effect_param_list /\ forall bo, effect_param_list_fits (sample_out bo) sample_effect_param_list.
Proof.
  assert (effect_param_list_ok sample_effect_param_list) as H by sample_ok.
  split; [exact H|]. intros bo. apply fit_effect_param_list; [exact H|]. destruct bo; vm_compute; eexists; reflexivity.
Qed.

Theorem C19_cf_user_param_saved :
  saves rcf_user_param wcf_user_param cf_user_param_map cf_user_param_refs cf_user_param_ok cf_user_param_fits
    always.
Proof.
  apply saves_intro.
  - exact rt_cf_user_param.
  - intros c o H. apply fit_cf_user_param; exact H.
  - intros o H. apply map_id_cf_user_param.
  - intros f o. apply refs_map_cf_user_param.
Qed.
Print Assumptions C19_cf_user_param_saved.

Example C19_cf_user_param_case :
  cf_user_param_ok sample_cf_user_param /\ forall bo, cf_user_param_fits (sample_out bo) sample_cf_user_param.
Proof.
  assert (cf_user_param_ok sample_cf_user_param) as H by sample_ok.
  split; [exact H|]. intros bo. apply fit_cf_user_param; [exact H|]. destruct bo; vm_compute; eexists; reflexivity.
Qed.

Theorem C19_parameter_item_saved :
  saves rparameter_item wparameter_item parameter_item_map parameter_item_refs parameter_item_ok parameter_item_fits
    always.
Proof.
  apply saves_intro.
  - exact rt_parameter_item.
  - intros c o H. apply fit_parameter_item; exact H.
  - intros o H. apply map_id_parameter_item.
  - intros f o. apply refs_map_parameter_item.
Qed.
Print Assumptions C19_parameter_item_saved.

Example C19_parameter_item_case :
  parameter_item_ok sample_parameter_item /\ forall bo, parameter_item_fits (sample_out bo) sample_parameter_item.
Proof.
  assert (parameter_item_ok sample_parameter_item) as H by sample_ok.
  split; [exact H|]. intros bo. apply fit_parameter_item; [exact H|]. destruct bo; vm_compute; eexists; reflexivity.
Qed.

Theorem C19_msm_locator_saved :
  saves rmsm_locator wmsm_locator msm_locator_map msm_locator_refs msm_locator_ok msm_locator_fits
    always.
Proof.
  apply saves_intro.
  - exact rt_msm_locator.
  - intros c o H. apply fit_msm_locator; exact H.
  - intros o H. apply map_id_msm_locator.
  - intros f o. apply refs_map_msm_locator.
Qed.
Print Assumptions C19_msm_locator_saved.

Example C19_msm_locator_case :
  msm_locator_ok sample_msm_locator /\ forall bo, msm_locator_fits (sample_out bo) sample_msm_locator.
Proof.
  assert (msm_locator_ok sample_msm_locator) as H by sample_ok.
  split; [exact H|]. intros bo. apply fit_msm_locator; [exact H|]. destruct bo; vm_compute; eexists; reflexivity.
Qed.

Theorem C19_position_saved :
  saves rposition wposition position_map position_refs position_ok position_fits
    always.
Proof.
  apply saves_intro.
  - exact rt_position.
  - intros c o H. apply fit_position; exact H.
  - intros o H. apply map_id_position.
  - intros f o. apply refs_map_position.
Qed.
Print Assumptions C19_position_saved.

Example C19_position_case :
  position_ok sample_position /\ forall bo, position_fits (sample_out bo) sample_position.
Proof.
  assert (position_ok sample_position) as H by sample_ok.
  split; [exact H|]. intros bo. apply fit_position; [exact H|]. destruct bo; vm_compute; eexists; reflexivity.
Qed.

Theorem C19_bob_position_saved :
  saves rbob_position wbob_position bob_position_map bob_position_refs bob_position_ok bob_position_fits
    always.
Proof.
  apply saves_intro.
  - exact rt_bob_position.
  - intros c o H. apply fit_bob_position; exact H.
  - intros o H. apply map_id_bob_position.
  - intros f o. apply refs_map_bob_position.
Qed.
Print Assumptions C19_bob_position_saved.

Example C19_bob_position_case :
  bob_position_ok sample_bob_position /\ forall bo, bob_position_fits (sample_out bo) sample_bob_position.
Proof.
  assert (bob_position_ok sample_bob_position) as H by sample_ok.
  split; [exact H|]. intros bo. apply fit_bob_position; [exact H|]. destruct bo; vm_compute; eexists; reflexivity.
Qed.

Theorem C19_did_position_saved :
  saves rdid_position wdid_position did_position_map did_position_refs did_position_ok did_position_fits
    always.
Proof.
  apply saves_intro.
  - exact rt_did_position.
  - intros c o H. apply fit_did_position; exact H.
  - intros o H. apply map_id_did_position.
  - intros f o. apply refs_map_did_position.
Qed.
Print Assumptions C19_did_position_saved.

Example C19_did_position_case :
  did_position_ok sample_did_position /\ forall bo, did_position_fits (sample_out bo) sample_did_position.
Proof.
  assert (did_position_ok sample_did_position) as H by sample_ok.
  split; [exact H|]. intros bo. apply fit_did_position; [exact H|]. destruct bo; vm_compute; eexists; reflexivity.
Qed.

Theorem C19_mpg_position_saved :
  saves rmpg_position wmpg_position mpg_position_map mpg_position_refs mpg_position_ok mpg_position_fits
    always.
Proof.
  apply saves_intro.
  - exact rt_mpg_position.
  - intros c o H. apply fit_mpg_position; exact H.
  - intros o H. apply map_id_mpg_position.
  - intros f o. apply refs_map_mpg_position.
Qed.
Print Assumptions C19_mpg_position_saved.

Example C19_mpg_position_case :
  mpg_position_ok sample_mpg_position /\ forall bo, mpg_position_fits (sample_out bo) sample_mpg_position.
Proof.
  assert (mpg_position_ok sample_mpg_position) as H by sample_ok.
  split; [exact H|]. intros bo. apply fit_mpg_position; [exact H|]. destruct bo; vm_compute; eexists; reflexivity.
Qed.

Theorem C19_bin_ref_saved :
  saves rbin_ref wbin_ref bin_ref_map bin_ref_refs bin_ref_ok bin_ref_fits
    always.
Proof.
  apply saves_intro.
  - exact rt_bin_ref.
  - intros c o H. apply fit_bin_ref.
  - intros o H. apply map_id_bin_ref.
  - intros f o. apply refs_map_bin_ref.
Qed.
Print Assumptions C19_bin_ref_saved.

Example C19_bin_ref_case :
  bin_ref_ok sample_bin_ref /\ forall bo, bin_ref_fits (sample_out bo) sample_bin_ref.
Proof.
  assert (bin_ref_ok sample_bin_ref) as H by sample_ok.
  split; [exact H|]. intros bo. apply fit_bin_ref. destruct bo; vm_compute; eexists; reflexivity.
Qed.

Theorem C19_mob_ref_saved :
  saves rmob_ref wmob_ref mob_ref_map mob_ref_refs mob_ref_ok mob_ref_fits
    always.
Proof.
  apply saves_intro.
  - exact rt_mob_ref.
  - intros c o H. apply fit_mob_ref; exact H.
  - intros o H. apply map_id_mob_ref.
  - intros f o. apply refs_map_mob_ref.
Qed.
Print Assumptions C19_mob_ref_saved.

Example C19_mob_ref_case :
  mob_ref_ok sample_mob_ref /\ forall bo, mob_ref_fits (sample_out bo) sample_mob_ref.
Proof.
  assert (mob_ref_ok sample_mob_ref) as H by sample_ok.
  split; [exact H|]. intros bo. apply fit_mob_ref; [exact H|]. destruct bo; vm_compute; eexists; reflexivity.
Qed.

Theorem C19_marker_saved :
  saves rmarker wmarker marker_map marker_refs marker_ok marker_fits
    always.
Proof.
  apply saves_intro.
  - exact rt_marker.
  - intros c o H. apply fit_marker; exact H.
  - intros o H. apply map_id_marker.
  - intros f o. apply refs_map_marker.
Qed.
Print Assumptions C19_marker_saved.

Example C19_marker_case :
  marker_ok sample_marker /\ forall bo, marker_fits (sample_out bo) sample_marker.
Proof.
  assert (marker_ok sample_marker) as H by sample_ok.
  split; [exact H|]. intros bo. apply fit_marker; [exact H|]. destruct bo; vm_compute; eexists; reflexivity.
Qed.

Theorem C19_tracker_manager_saved :
  saves rtracker_manager wtracker_manager tracker_manager_map tracker_manager_refs tracker_manager_ok tracker_manager_fits
    always.
Proof.
  apply saves_intro.
  - exact rt_tracker_manager.
  - intros c o H. apply fit_tracker_manager; exact H.
  - intros o H. apply map_id_tracker_manager.
  - intros f o. apply refs_map_tracker_manager.
Qed.
Print Assumptions C19_tracker_manager_saved.

Example C19_tracker_manager_case :
  tracker_manager_ok sample_tracker_manager /\ forall bo, tracker_manager_fits (sample_out bo) sample_tracker_manager.
Proof.
  assert (tracker_manager_ok sample_tracker_manager) as H by sample_ok.
  split; [exact H|]. intros bo. apply fit_tracker_manager; [exact H|]. destruct bo; vm_compute; eexists; reflexivity.
Qed.

Theorem C19_tracker_data_slot_saved :
  saves rtracker_data_slot wtracker_data_slot tracker_data_slot_map tracker_data_slot_refs tracker_data_slot_ok tracker_data_slot_fits
    always.
Proof.
  apply saves_intro.
  - exact rt_tracker_data_slot.
  - intros c o H. apply fit_tracker_data_slot; exact H.
  - intros o H. apply map_id_tracker_data_slot.
  - intros f o. apply refs_map_tracker_data_slot.
Qed.
Print Assumptions C19_tracker_data_slot_saved.

Example C19_tracker_data_slot_case :
  tracker_data_slot_ok sample_tracker_data_slot /\ forall bo, tracker_data_slot_fits (sample_out bo) sample_tracker_data_slot.
Proof.
  assert (tracker_data_slot_ok sample_tracker_data_slot) as H by sample_ok.
  split; [exact H|]. intros bo. apply fit_tracker_data_slot; [exact H|]. destruct bo; vm_compute; eexists; reflexivity.
Qed.

Theorem C19_tracker_parameter_slot_saved :
  saves rtracker_parameter_slot wtracker_parameter_slot tracker_parameter_slot_map tracker_parameter_slot_refs tracker_parameter_slot_ok tracker_parameter_slot_fits
    always.
Proof.
  apply saves_intro.
  - exact rt_tracker_parameter_slot.
  - intros c o H. apply fit_tracker_parameter_slot; exact H.
  - intros o H. apply map_id_tracker_parameter_slot.
  - intros f o. apply refs_map_tracker_parameter_slot.
Qed.
Print Assumptions C19_tracker_parameter_slot_saved.

Example C19_tracker_parameter_slot_case :
  tracker_parameter_slot_ok sample_tracker_parameter_slot /\ forall bo, tracker_parameter_slot_fits (sample_out bo) sample_tracker_parameter_slot.
Proof.
  assert (tracker_parameter_slot_ok sample_tracker_parameter_slot) as H by sample_ok.
  split; [exact H|]. intros bo. apply fit_tracker_parameter_slot; [exact H|]. destruct bo; vm_compute; eexists; reflexivity.
Qed.

Theorem C19_tracker_data_saved :
  saves rtracker_data wtracker_data tracker_data_map tracker_data_refs tracker_data_ok tracker_data_fits
    always.
Proof.
  apply saves_intro.
  - exact rt_tracker_data.
  - intros c o H. apply fit_tracker_data; exact H.
  - intros o H. apply map_id_tracker_data.
  - intros f o. apply refs_map_tracker_data.
Qed.
Print Assumptions C19_tracker_data_saved.

Example C19_tracker_data_case :
  tracker_data_ok sample_tracker_data /\ forall bo, tracker_data_fits (sample_out bo) sample_tracker_data.
Proof.
  assert (tracker_data_ok sample_tracker_data) as H by sample_ok.
  split; [exact H|]. intros bo. apply fit_tracker_data; [exact H|]. destruct bo; vm_compute; eexists; reflexivity.
Qed.

Theorem C19_tracker_parameter_saved :
  saves rtracker_parameter wtracker_parameter tracker_parameter_map tracker_parameter_refs tracker_parameter_ok tracker_parameter_fits
    always.
Proof.
  apply saves_intro.
  - exact rt_tracker_parameter.
  - intros c o H. apply fit_tracker_parameter; exact H.
  - intros o H. apply map_id_tracker_parameter.
  - intros f o. apply refs_map_tracker_parameter.
Qed.
Print Assumptions C19_tracker_parameter_saved.

Example C19_tracker_parameter_case :
  tracker_parameter_ok sample_tracker_parameter /\ forall bo, tracker_parameter_fits (sample_out bo) sample_tracker_parameter.
Proof.
  assert (tracker_parameter_ok sample_tracker_parameter) as H by sample_ok.
  split; [exact H|]. intros bo. apply fit_tracker_parameter; [exact H|]. destruct bo; vm_compute; eexists; reflexivity.
Qed.

(** The condition on the colour of a marker is needed: with two components the writer writes two,
    and the reader takes the next four bytes for the third. *)
Theorem C19_marker_color_refuted : exists o bs,
  length (tmbc_color o) = 2%nat /\ wmarker (sample_out LE) o = Ok bs /\
  exists e, rmarker (sample_in LE) bs = Err e.
Proof.
  exists {| tmbc_mob_ref := sample_mob_ref; tmbc_comp_offset := 1; tmbc_attributes := 0;
    tmbc_color := [1; 2]; tmbc_handled_codes := None |}.
  eexists. split; [reflexivity|]. split; [vm_compute; reflexivity|].
  eexists. vm_compute. reflexivity.
Qed.
Print Assumptions C19_marker_color_refuted.

(** The [byte_order] of a user parameter is not written; it always reads back as 0x4949. *)
Theorem C19_user_param_byte_order_refuted : exists o bs o',
  avup_byte_order o = 0x4D4D /\ wcf_user_param (sample_out LE) o = Ok bs /\
  rcf_user_param (sample_in LE) bs = Ok (o', []) /\ avup_byte_order o' = 0x4949.
Proof.
  exists {| avup_byte_order := 0x4D4D; avup_uuid := repeat 7 16; avup_data := [1; 2] |}.
  eexists. eexists. split; [reflexivity|]. split; [vm_compute; reflexivity|].
  split; [vm_compute; reflexivity|]. reflexivity.
Qed.
Print Assumptions C19_user_param_byte_order_refuted.
