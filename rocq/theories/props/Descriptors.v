(** C18: media descriptors survive a save.
    [saves] is in Saved.v, the [_fits] conditions in Fits.v, the [_ok] conditions beside the
    classes; the sample objects in Samples.v. *)
From Coq Require Import ZArith List Bool Lia.
From Verif Require Import Base IoCtx Text Exp10 MobId Storable Attributes Components TrackGroups
  Misc Essence BinModel Fits RoundTrip ComponentsProofs TrackGroupsProofs MiscProofs EssenceProofs
  BinProofs FitsProofs MapProofs Saved SavedProofs Samples.
Import ListNotations.
Open Scope Z_scope.

Theorem C18_media_descriptor_saved :
  saves rmedia_descriptor wmedia_descriptor media_descriptor_map media_descriptor_refs media_descriptor_ok media_descriptor_fits
    always.
Proof.
  apply saves_intro.
  - exact rt_media_descriptor.
  - intros c o H. apply fit_media_descriptor; exact H.
  - intros o H. apply map_id_media_descriptor.
  - intros f o. apply refs_map_media_descriptor.
Qed.
Print Assumptions C18_media_descriptor_saved.

Example C18_media_descriptor_case :
  media_descriptor_ok sample_media_descriptor /\ forall bo, media_descriptor_fits (sample_out bo) sample_media_descriptor.
Proof.
  assert (media_descriptor_ok sample_media_descriptor) as H by sample_ok.
  split; [exact H|]. intros bo. apply fit_media_descriptor; [exact H|]. destruct bo; vm_compute; eexists; reflexivity.
Qed.

Theorem C18_tape_descriptor_saved :
  saves rtape_descriptor wtape_descriptor tape_descriptor_map tape_descriptor_refs tape_descriptor_ok tape_descriptor_fits
    always.
Proof.
  apply saves_intro.
  - exact rt_tape_descriptor.
  - intros c o H. apply fit_tape_descriptor; exact H.
  - intros o H. apply map_id_tape_descriptor.
  - intros f o. apply refs_map_tape_descriptor.
Qed.
Print Assumptions C18_tape_descriptor_saved.

Example C18_tape_descriptor_case :
  tape_descriptor_ok sample_tape_descriptor /\ forall bo, tape_descriptor_fits (sample_out bo) sample_tape_descriptor.
Proof.
  assert (tape_descriptor_ok sample_tape_descriptor) as H by sample_ok.
  split; [exact H|]. intros bo. apply fit_tape_descriptor; [exact H|]. destruct bo; vm_compute; eexists; reflexivity.
Qed.

Theorem C18_film_descriptor_saved :
  saves rfilm_descriptor wfilm_descriptor film_descriptor_map film_descriptor_refs film_descriptor_ok film_descriptor_fits
    always.
Proof.
  apply saves_intro.
  - exact rt_film_descriptor.
  - intros c o H. apply fit_film_descriptor; exact H.
  - intros o H. apply map_id_media_descriptor.
  - intros f o. apply refs_map_media_descriptor.
Qed.
Print Assumptions C18_film_descriptor_saved.

Example C18_film_descriptor_case :
  film_descriptor_ok sample_media_descriptor /\ forall bo, film_descriptor_fits (sample_out bo) sample_media_descriptor.
Proof.
  assert (film_descriptor_ok sample_media_descriptor) as H by sample_ok.
  split; [exact H|]. intros bo. apply fit_film_descriptor; [exact H|]. destruct bo; vm_compute; eexists; reflexivity.
Qed.

Theorem C18_media_file_descriptor_saved :
  saves rmedia_file_descriptor wmedia_file_descriptor media_file_descriptor_map media_file_descriptor_refs media_file_descriptor_ok media_file_descriptor_fits
    always.
Proof.
  apply saves_intro.
  - exact rt_media_file_descriptor.
  - intros c o H. apply fit_media_file_descriptor; exact H.
  - intros o H. apply map_id_media_file_descriptor.
  - intros f o. apply refs_map_media_file_descriptor.
Qed.
Print Assumptions C18_media_file_descriptor_saved.

Example C18_media_file_descriptor_case :
  media_file_descriptor_ok sample_media_file_descriptor /\ forall bo, media_file_descriptor_fits (sample_out bo) sample_media_file_descriptor.
Proof.
  assert (media_file_descriptor_ok sample_media_file_descriptor) as H by sample_ok.
  split; [exact H|]. intros bo. apply fit_media_file_descriptor; [exact H|]. destruct bo; vm_compute; eexists; reflexivity.
Qed.

Theorem C18_multi_descriptor_saved :
  saves rmulti_descriptor wmulti_descriptor multi_descriptor_map multi_descriptor_refs multi_descriptor_ok multi_descriptor_fits
    always.
Proof.
  apply saves_intro.
  - exact rt_multi_descriptor.
  - intros c o H. apply fit_multi_descriptor; exact H.
  - intros o H. apply map_id_multi_descriptor.
  - intros f o. apply refs_map_multi_descriptor.
Qed.
Print Assumptions C18_multi_descriptor_saved.

Example C18_multi_descriptor_case :
  multi_descriptor_ok sample_multi_descriptor /\ forall bo, multi_descriptor_fits (sample_out bo) sample_multi_descriptor.
Proof.
  assert (multi_descriptor_ok sample_multi_descriptor) as H by sample_ok.
  split; [exact H|]. intros bo. apply fit_multi_descriptor; [exact H|]. destruct bo; vm_compute; eexists; reflexivity.
Qed.

Theorem C18_wave_descriptor_saved :
  saves rwave_descriptor wwave_descriptor wave_descriptor_map wave_descriptor_refs wave_descriptor_ok wave_descriptor_fits
    always.
Proof.
  apply saves_intro.
  - exact rt_wave_descriptor.
  - intros c o H. apply fit_wave_descriptor; exact H.
  - intros o H. apply map_id_wave_descriptor.
  - intros f o. apply refs_map_wave_descriptor.
Qed.
Print Assumptions C18_wave_descriptor_saved.

Example C18_wave_descriptor_case :
  wave_descriptor_ok sample_wave_descriptor /\ forall bo, wave_descriptor_fits (sample_out bo) sample_wave_descriptor.
Proof.
  assert (wave_descriptor_ok sample_wave_descriptor) as H by sample_ok.
  split; [exact H|]. intros bo. apply fit_wave_descriptor; [exact H|]. destruct bo; vm_compute; eexists; reflexivity.
Qed.

Theorem C18_aifc_descriptor_saved :
  saves raifc_descriptor waifc_descriptor aifc_descriptor_map aifc_descriptor_refs aifc_descriptor_ok aifc_descriptor_fits
    always.
Proof.
  apply saves_intro.
  - exact rt_aifc_descriptor.
  - intros c o H. apply fit_aifc_descriptor; exact H.
  - intros o H. apply map_id_aifc_descriptor.
  - intros f o. apply refs_map_aifc_descriptor.
Qed.
Print Assumptions C18_aifc_descriptor_saved.

Example C18_aifc_descriptor_case :
  aifc_descriptor_ok sample_aifc_descriptor /\ forall bo, aifc_descriptor_fits (sample_out bo) sample_aifc_descriptor.
Proof.
  assert (aifc_descriptor_ok sample_aifc_descriptor) as H by sample_ok.
  split; [exact H|]. intros bo. apply fit_aifc_descriptor; [exact H|]. destruct bo; vm_compute; eexists; reflexivity.
Qed.

Theorem C18_pcma_descriptor_saved :
  saves rpcma_descriptor wpcma_descriptor pcma_descriptor_map pcma_descriptor_refs pcma_descriptor_ok pcma_descriptor_fits
    always.
Proof.
  apply saves_intro.
  - exact rt_pcma_descriptor.
  - intros c o H. apply fit_pcma_descriptor; exact H.
  - intros o H. apply map_id_pcma_descriptor.
  - intros f o. apply refs_map_pcma_descriptor.
Qed.
Print Assumptions C18_pcma_descriptor_saved.

Example C18_pcma_descriptor_case :
  pcma_descriptor_ok sample_pcma_descriptor /\ forall bo, pcma_descriptor_fits (sample_out bo) sample_pcma_descriptor.
Proof.
  assert (pcma_descriptor_ok sample_pcma_descriptor) as H by sample_ok.
  split; [exact H|]. intros bo. apply fit_pcma_descriptor; [exact H|]. destruct bo; vm_compute; eexists; reflexivity.
Qed.

Theorem C18_mpga_descriptor_saved :
  saves rmpga_descriptor wmpga_descriptor mpga_descriptor_map mpga_descriptor_refs mpga_descriptor_ok mpga_descriptor_fits
    always.
Proof.
  apply saves_intro.
  - exact rt_mpga_descriptor.
  - intros c o H. apply fit_mpga_descriptor; exact H.
  - intros o H. apply map_id_mpga_descriptor.
  - intros f o. apply refs_map_mpga_descriptor.
Qed.
Print Assumptions C18_mpga_descriptor_saved.

Example C18_mpga_descriptor_case :
  mpga_descriptor_ok sample_mpga_descriptor /\ forall bo, mpga_descriptor_fits (sample_out bo) sample_mpga_descriptor.
Proof.
  assert (mpga_descriptor_ok sample_mpga_descriptor) as H by sample_ok.
  split; [exact H|]. intros bo. apply fit_mpga_descriptor; [exact H|]. destruct bo; vm_compute; eexists; reflexivity.
Qed.

Theorem C18_did_descriptor_saved :
  saves rdid_descriptor wdid_descriptor did_descriptor_map did_descriptor_refs did_descriptor_ok did_descriptor_fits
    always.
Proof.
  apply saves_intro.
  - exact rt_did_descriptor.
  - intros c o H. apply fit_did_descriptor; exact H.
  - intros o H. apply map_id_did_descriptor.
  - intros f o. apply refs_map_did_descriptor.
Qed.
Print Assumptions C18_did_descriptor_saved.

Example C18_did_descriptor_case :
  did_descriptor_ok sample_did_descriptor /\ forall bo, did_descriptor_fits (sample_out bo) sample_did_descriptor.
Proof.
  assert (did_descriptor_ok sample_did_descriptor) as H by sample_ok.
  split; [exact H|]. intros bo. apply fit_did_descriptor; [exact H|]. destruct bo; vm_compute; eexists; reflexivity.
Qed.

Theorem C18_cdci_descriptor_saved :
  saves rcdci_descriptor wcdci_descriptor cdci_descriptor_map cdci_descriptor_refs cdci_descriptor_ok cdci_descriptor_fits
    always.
Proof.
  apply saves_intro.
  - exact rt_cdci_descriptor.
  - intros c o H. apply fit_cdci_descriptor; exact H.
  - intros o H. apply map_id_cdci_descriptor.
  - intros f o. apply refs_map_cdci_descriptor.
Qed.
Print Assumptions C18_cdci_descriptor_saved.

Example C18_cdci_descriptor_case :
  cdci_descriptor_ok sample_cdci_descriptor /\ forall bo, cdci_descriptor_fits (sample_out bo) sample_cdci_descriptor.
Proof.
  assert (cdci_descriptor_ok sample_cdci_descriptor) as H by sample_ok.
  split; [exact H|]. intros bo. apply fit_cdci_descriptor; [exact H|]. destruct bo; vm_compute; eexists; reflexivity.
Qed.

Theorem C18_mpgi_descriptor_saved :
  saves rmpgi_descriptor wmpgi_descriptor mpgi_descriptor_map mpgi_descriptor_refs mpgi_descriptor_ok mpgi_descriptor_fits
    always.
Proof.
  apply saves_intro.
  - exact rt_mpgi_descriptor.
  - intros c o H. apply fit_mpgi_descriptor; exact H.
  - intros o H. apply map_id_mpgi_descriptor.
  - intros f o. apply refs_map_mpgi_descriptor.
Qed.
Print Assumptions C18_mpgi_descriptor_saved.

Example C18_mpgi_descriptor_case :
  mpgi_descriptor_ok sample_mpgi_descriptor /\ forall bo, mpgi_descriptor_fits (sample_out bo) sample_mpgi_descriptor.
Proof.
  assert (mpgi_descriptor_ok sample_mpgi_descriptor) as H by sample_ok.
  split; [exact H|]. intros bo. apply fit_mpgi_descriptor; [exact H|]. destruct bo; vm_compute; eexists; reflexivity.
Qed.

Theorem C18_jped_descriptor_saved :
  saves rjped_descriptor wjped_descriptor jped_descriptor_map jped_descriptor_refs jped_descriptor_ok jped_descriptor_fits
    always.
Proof.
  apply saves_intro.
  - exact rt_jped_descriptor.
  - intros c o H. apply fit_jped_descriptor; exact H.
  - intros o H. apply map_id_jped_descriptor.
  - intros f o. apply refs_map_jped_descriptor.
Qed.
Print Assumptions C18_jped_descriptor_saved.

Example C18_jped_descriptor_case :
  jped_descriptor_ok sample_jped_descriptor /\ forall bo, jped_descriptor_fits (sample_out bo) sample_jped_descriptor.
Proof.
  assert (jped_descriptor_ok sample_jped_descriptor) as H by sample_ok.
  split; [exact H|]. intros bo. apply fit_jped_descriptor; [exact H|]. destruct bo; vm_compute; eexists; reflexivity.
Qed.

Theorem C18_rgba_descriptor_saved :
  saves rrgba_descriptor wrgba_descriptor rgba_descriptor_map rgba_descriptor_refs rgba_descriptor_ok rgba_descriptor_fits
    always.
Proof.
  apply saves_intro.
  - exact rt_rgba_descriptor.
  - intros c o H. apply fit_rgba_descriptor; exact H.
  - intros o H. apply map_id_rgba_descriptor.
  - intros f o. apply refs_map_rgba_descriptor.
Qed.
Print Assumptions C18_rgba_descriptor_saved.

Example C18_rgba_descriptor_case :
  rgba_descriptor_ok sample_rgba_descriptor /\ forall bo, rgba_descriptor_fits (sample_out bo) sample_rgba_descriptor.
Proof.
  assert (rgba_descriptor_ok sample_rgba_descriptor) as H by sample_ok.
  split; [exact H|]. intros bo. apply fit_rgba_descriptor; [exact H|]. destruct bo; vm_compute; eexists; reflexivity.
Qed.

Theorem C18_data_descriptor_saved :
  saves rdata_descriptor wdata_descriptor data_descriptor_map data_descriptor_refs data_descriptor_ok data_descriptor_fits
    always.
Proof.
  apply saves_intro.
  - exact rt_data_descriptor.
  - intros c o H. apply fit_data_descriptor; exact H.
  - intros o H. apply map_id_data_descriptor.
  - intros f o. apply refs_map_data_descriptor.
Qed.
Print Assumptions C18_data_descriptor_saved.

Example C18_data_descriptor_case :
  data_descriptor_ok sample_data_descriptor /\ forall bo, data_descriptor_fits (sample_out bo) sample_data_descriptor.
Proof.
  assert (data_descriptor_ok sample_data_descriptor) as H by sample_ok.
  split; [exact H|]. intros bo. apply fit_data_descriptor; [exact H|]. destruct bo; vm_compute; eexists; reflexivity.
Qed.

Theorem C18_anc_data_descriptor_saved :
  saves ranc_data_descriptor wanc_data_descriptor anc_data_descriptor_map anc_data_descriptor_refs anc_data_descriptor_ok anc_data_descriptor_fits
    always.
Proof.
  apply saves_intro.
  - exact rt_anc_data_descriptor.
  - intros c o H. apply fit_anc_data_descriptor; exact H.
  - intros o H. apply map_id_anc_data_descriptor.
  - intros f o. apply refs_map_anc_data_descriptor.
Qed.
Print Assumptions C18_anc_data_descriptor_saved.

Example C18_anc_data_descriptor_case :
  anc_data_descriptor_ok sample_anc_data_descriptor /\ forall bo, anc_data_descriptor_fits (sample_out bo) sample_anc_data_descriptor.
Proof.
  assert (anc_data_descriptor_ok sample_anc_data_descriptor) as H by sample_ok.
  split; [exact H|]. intros bo. apply fit_anc_data_descriptor; [exact H|]. destruct bo; vm_compute; eexists; reflexivity.
Qed.

(** [same_presence] in [did_descriptor_ok] is needed: an image descriptor with a valid box but
    without the other two boxes is written without complaint, and read back without the box. *)
Theorem C18_single_box_refuted : exists o bs o',
  didd_valid_box o <> None /\ wdid_descriptor (sample_out LE) o = Ok bs /\
  rdid_descriptor (sample_in LE) bs = Ok (o', []) /\ didd_valid_box o' = None.
Proof.
  exists (set_didd_source_box (set_didd_essence_box sample_did_descriptor None) None).
  eexists. eexists. split; [discriminate|]. split; [vm_compute; reflexivity|].
  split; [vm_compute; reflexivity|]. reflexivity.
Qed.
Print Assumptions C18_single_box_refuted.

(** [sub_frame_alignment] of an MPEG audio descriptor is written signed and read unsigned. *)
Theorem C18_sub_frame_alignment_refuted : exists o bs o',
  mpga_sub_frame_alignment o = Some (-1) /\ wmpga_descriptor (sample_out LE) o = Ok bs /\
  rmpga_descriptor (sample_in LE) bs = Ok (o', []) /\
  mpga_sub_frame_alignment o' = Some 18446744073709551615.
Proof.
  exists (set_mpga_sub_frame_alignment sample_mpga_descriptor (Some (-1))).
  eexists. eexists. split; [reflexivity|]. split; [vm_compute; reflexivity|].
  split; [vm_compute; reflexivity|]. reflexivity.
Qed.
Print Assumptions C18_sub_frame_alignment_refuted.
