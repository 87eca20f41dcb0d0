(** Proofs about objects of any class, from those about the classes. *)
From Coq Require Import ZArith List Bool Lia Eqdep_dec.
From Verif Require Import Base IoCtx Text Exp10 MobId Storable Attributes Components TrackGroups
  Misc Essence BinModel Fits RoundTrip ComponentsProofs TrackGroupsProofs MiscProofs EssenceProofs
  BinProofs FitsProofs MapProofs Saved SavedProofs OrderProofs LocProofs RefsProofs Objects ObjSpec.
Import ListNotations.
Open Scope Z_scope.

Lemma kind_eq_dec : forall a b : kind, {a = b} + {a <> b}.
Proof. decide equality. Defined.

Lemma kinds_all : forall k, In k kinds.
Proof. intros k. destruct k; cbn; tauto. Qed.

Lemma class_id_len : forall k, length (class_id k) = 4%nat.
Proof. intros []; reflexivity. Qed.

Lemma kind_of_class_id : forall k, kind_of (class_id k) = Some k.
Proof. intros []; vm_compute; reflexivity. Qed.

Lemma kind_of_some : forall cc k, kind_of cc = Some k -> cc = class_id k.
Proof.
  intros cc k H. unfold kind_of in H. apply find_some in H as [_ H].
  unfold bytes_eqb in H. destruct (list_eq_dec Z.eq_dec (class_id k) cc); congruence.
Qed.

Lemma class_id_inj : forall a b, class_id a = class_id b -> a = b.
Proof.
  intros a b H. pose proof (kind_of_class_id a) as Ha. rewrite H, kind_of_class_id in Ha. congruence.
Qed.

(** ** Each class survives a save *)

Definition class_saves (k : kind) : Prop :=
  saves (C_read (class_of k)) (C_write (class_of k)) (C_map (class_of k)) (C_refs (class_of k))
    (ok_of k) (fits_of k) (whole_of k).

Lemma saves_ATTR : class_saves K_ATTR.
Proof.
  apply saves_intro; cbn [class_of C_type C_read C_write C_map C_refs ok_of fits_of whole_of].
  - exact rt_attributes.
  - intros c o H. apply fit_attributes; exact H.
  - intros o H. apply map_id_attributes.
  - intros f o. apply refs_map_attributes.
Qed.

Lemma saves_PRLS : class_saves K_PRLS.
Proof.
  apply saves_intro; cbn [class_of C_type C_read C_write C_map C_refs ok_of fits_of whole_of].
  - exact rt_parameter_list.
  - intros c o H. apply fit_parameter_list; exact H.
  - intros o H. apply map_id_parameter_list.
  - intros f o. apply refs_map_parameter_list.
Qed.

Lemma saves_TMCS : class_saves K_TMCS.
Proof.
  apply saves_intro; cbn [class_of C_type C_read C_write C_map C_refs ok_of fits_of whole_of].
  - exact rt_time_crumb_list.
  - intros c o H. apply fit_time_crumb_list; exact H.
  - intros o H. apply map_id_time_crumb_list.
  - intros f o. apply refs_map_time_crumb_list.
Qed.

Lemma saves_BVst : class_saves K_BVst.
Proof.
  apply saves_intro; cbn [class_of C_type C_read C_write C_map C_refs ok_of fits_of whole_of].
  - exact rt_bin_view_setting.
  - intros c o H. apply fit_bin_view_setting; exact H.
  - intros o H. apply map_id_bin_view_setting.
  - intros f o. apply refs_map_bin_view_setting.
Qed.

Lemma saves_ABIN : class_saves K_ABIN.
Proof.
  apply saves_intro; cbn [class_of C_type C_read C_write C_map C_refs ok_of fits_of whole_of].
  - exact rt_bin.
  - intros c o H. apply fit_bin; exact H.
  - intros o H. apply map_id_bin.
  - intros f o. apply refs_map_bin.
Qed.

Lemma saves_BINF : class_saves K_BINF.
Proof.
  apply saves_intro; cbn [class_of C_type C_read C_write C_map C_refs ok_of fits_of whole_of].
  - exact rt_bin_first.
  - intros c o H. apply fit_bin_first; exact H.
  - intros o H. apply map_id_bin_first.
  - intros f o. apply refs_map_bin_first.
Qed.

Lemma saves_SEQU : class_saves K_SEQU.
Proof.
  apply saves_intro; cbn [class_of C_type C_read C_write C_map C_refs ok_of fits_of whole_of].
  - exact rt_sequence.
  - intros c o H. apply fit_sequence; exact H.
  - intros o H. apply map_id_sequence.
  - intros f o. apply refs_map_sequence.
Qed.

Lemma saves_SCLP : class_saves K_SCLP.
Proof.
  apply saves_intro; cbn [class_of C_type C_read C_write C_map C_refs ok_of fits_of whole_of].
  - exact rt_source_clip.
  - intros c o H. apply fit_source_clip; exact H.
  - intros o H. apply map_id_source_clip.
  - intros f o. apply refs_map_source_clip.
Qed.

Lemma saves_TCCP : class_saves K_TCCP.
Proof.
  apply saves_intro; cbn [class_of C_type C_read C_write C_map C_refs ok_of fits_of whole_of].
  - exact rt_timecode.
  - intros c o H. apply fit_timecode; exact H.
  - intros o H. apply map_id_timecode.
  - intros f o. apply refs_map_timecode.
Qed.

Lemma saves_ECCP : class_saves K_ECCP.
Proof.
  apply saves_intro; cbn [class_of C_type C_read C_write C_map C_refs ok_of fits_of whole_of].
  - exact rt_edgecode.
  - intros c o H. apply fit_edgecode; exact H.
  - intros o H. apply map_id_edgecode.
  - intros f o. apply refs_map_edgecode.
Qed.

Lemma saves_TRKR : class_saves K_TRKR.
Proof.
  apply saves_intro; cbn [class_of C_type C_read C_write C_map C_refs ok_of fits_of whole_of].
  - exact rt_track_ref.
  - intros c o H. apply fit_track_ref; exact H.
  - intros o H. apply map_id_track_ref.
  - intros f o. apply refs_map_track_ref.
Qed.

Lemma saves_PRCL : class_saves K_PRCL.
Proof.
  apply saves_intro; cbn [class_of C_type C_read C_write C_map C_refs ok_of fits_of whole_of].
  - exact rt_param_clip.
  - intros c o H. apply fit_param_clip; exact H.
  - intros o H. apply map_id_param_clip.
  - intros f o. apply refs_map_param_clip.
Qed.

Lemma saves_CTRL : class_saves K_CTRL.
Proof.
  apply saves_intro; cbn [class_of C_type C_read C_write C_map C_refs ok_of fits_of whole_of].
  - exact rt_control_clip.
  - intros c o H. apply fit_control_clip; exact H.
  - intros o H. apply map_id_control_clip.
  - intros f o. apply refs_map_control_clip.
Qed.

Lemma saves_FILL : class_saves K_FILL.
Proof.
  apply saves_intro; cbn [class_of C_type C_read C_write C_map C_refs ok_of fits_of whole_of].
  - exact rt_filler.
  - intros c o H. apply fit_filler; exact H.
  - intros o H. apply map_id_filler.
  - intros f o. apply refs_map_filler.
Qed.

Lemma saves_MDES : class_saves K_MDES.
Proof.
  apply saves_intro; cbn [class_of C_type C_read C_write C_map C_refs ok_of fits_of whole_of].
  - exact rt_media_descriptor.
  - intros c o H. apply fit_media_descriptor; exact H.
  - intros o H. apply map_id_media_descriptor.
  - intros f o. apply refs_map_media_descriptor.
Qed.

Lemma saves_MDTP : class_saves K_MDTP.
Proof.
  apply saves_intro; cbn [class_of C_type C_read C_write C_map C_refs ok_of fits_of whole_of].
  - exact rt_tape_descriptor.
  - intros c o H. apply fit_tape_descriptor; exact H.
  - intros o H. apply map_id_tape_descriptor.
  - intros f o. apply refs_map_tape_descriptor.
Qed.

Lemma saves_MDFM : class_saves K_MDFM.
Proof.
  apply saves_intro; cbn [class_of C_type C_read C_write C_map C_refs ok_of fits_of whole_of].
  - exact rt_film_descriptor.
  - intros c o H. apply fit_film_descriptor; exact H.
  - intros o H. apply map_id_media_descriptor.
  - intros f o. apply refs_map_media_descriptor.
Qed.

Lemma saves_MDNG : class_saves K_MDNG.
Proof.
  apply saves_intro; cbn [class_of C_type C_read C_write C_map C_refs ok_of fits_of whole_of].
  - exact rt_film_descriptor.
  - intros c o H. apply fit_film_descriptor; exact H.
  - intros o H. apply map_id_media_descriptor.
  - intros f o. apply refs_map_media_descriptor.
Qed.

Lemma saves_MDFL : class_saves K_MDFL.
Proof.
  apply saves_intro; cbn [class_of C_type C_read C_write C_map C_refs ok_of fits_of whole_of].
  - exact rt_media_file_descriptor.
  - intros c o H. apply fit_media_file_descriptor; exact H.
  - intros o H. apply map_id_media_file_descriptor.
  - intros f o. apply refs_map_media_file_descriptor.
Qed.

Lemma saves_MULD : class_saves K_MULD.
Proof.
  apply saves_intro; cbn [class_of C_type C_read C_write C_map C_refs ok_of fits_of whole_of].
  - exact rt_multi_descriptor.
  - intros c o H. apply fit_multi_descriptor; exact H.
  - intros o H. apply map_id_multi_descriptor.
  - intros f o. apply refs_map_multi_descriptor.
Qed.

Lemma saves_WAVE : class_saves K_WAVE.
Proof.
  apply saves_intro; cbn [class_of C_type C_read C_write C_map C_refs ok_of fits_of whole_of].
  - exact rt_wave_descriptor.
  - intros c o H. apply fit_wave_descriptor; exact H.
  - intros o H. apply map_id_wave_descriptor.
  - intros f o. apply refs_map_wave_descriptor.
Qed.

Lemma saves_AIFC : class_saves K_AIFC.
Proof.
  apply saves_intro; cbn [class_of C_type C_read C_write C_map C_refs ok_of fits_of whole_of].
  - exact rt_aifc_descriptor.
  - intros c o H. apply fit_aifc_descriptor; exact H.
  - intros o H. apply map_id_aifc_descriptor.
  - intros f o. apply refs_map_aifc_descriptor.
Qed.

Lemma saves_PCMA : class_saves K_PCMA.
Proof.
  apply saves_intro; cbn [class_of C_type C_read C_write C_map C_refs ok_of fits_of whole_of].
  - exact rt_pcma_descriptor.
  - intros c o H. apply fit_pcma_descriptor; exact H.
  - intros o H. apply map_id_pcma_descriptor.
  - intros f o. apply refs_map_pcma_descriptor.
Qed.

Lemma saves_MPGA : class_saves K_MPGA.
Proof.
  apply saves_intro; cbn [class_of C_type C_read C_write C_map C_refs ok_of fits_of whole_of].
  - exact rt_mpga_descriptor.
  - intros c o H. apply fit_mpga_descriptor; exact H.
  - intros o H. apply map_id_mpga_descriptor.
  - intros f o. apply refs_map_mpga_descriptor.
Qed.

Lemma saves_DIDD : class_saves K_DIDD.
Proof.
  apply saves_intro; cbn [class_of C_type C_read C_write C_map C_refs ok_of fits_of whole_of].
  - exact rt_did_descriptor.
  - intros c o H. apply fit_did_descriptor; exact H.
  - intros o H. apply map_id_did_descriptor.
  - intros f o. apply refs_map_did_descriptor.
Qed.

Lemma saves_CDCI : class_saves K_CDCI.
Proof.
  apply saves_intro; cbn [class_of C_type C_read C_write C_map C_refs ok_of fits_of whole_of].
  - exact rt_cdci_descriptor.
  - intros c o H. apply fit_cdci_descriptor; exact H.
  - intros o H. apply map_id_cdci_descriptor.
  - intros f o. apply refs_map_cdci_descriptor.
Qed.

Lemma saves_MPGI : class_saves K_MPGI.
Proof.
  apply saves_intro; cbn [class_of C_type C_read C_write C_map C_refs ok_of fits_of whole_of].
  - exact rt_mpgi_descriptor.
  - intros c o H. apply fit_mpgi_descriptor; exact H.
  - intros o H. apply map_id_mpgi_descriptor.
  - intros f o. apply refs_map_mpgi_descriptor.
Qed.

Lemma saves_JPED : class_saves K_JPED.
Proof.
  apply saves_intro; cbn [class_of C_type C_read C_write C_map C_refs ok_of fits_of whole_of].
  - exact rt_jped_descriptor.
  - intros c o H. apply fit_jped_descriptor; exact H.
  - intros o H. apply map_id_jped_descriptor.
  - intros f o. apply refs_map_jped_descriptor.
Qed.

Lemma saves_RGBA : class_saves K_RGBA.
Proof.
  apply saves_intro; cbn [class_of C_type C_read C_write C_map C_refs ok_of fits_of whole_of].
  - exact rt_rgba_descriptor.
  - intros c o H. apply fit_rgba_descriptor; exact H.
  - intros o H. apply map_id_rgba_descriptor.
  - intros f o. apply refs_map_rgba_descriptor.
Qed.

Lemma saves_ANCD : class_saves K_ANCD.
Proof.
  apply saves_intro; cbn [class_of C_type C_read C_write C_map C_refs ok_of fits_of whole_of].
  - exact rt_anc_data_descriptor.
  - intros c o H. apply fit_anc_data_descriptor; exact H.
  - intros o H. apply map_id_anc_data_descriptor.
  - intros f o. apply refs_map_anc_data_descriptor.
Qed.

Lemma saves_FILE : class_saves K_FILE.
Proof.
  apply saves_intro; cbn [class_of C_type C_read C_write C_map C_refs ok_of fits_of whole_of].
  - exact rt_file_locator.
  - intros c o H. apply fit_file_locator; exact H.
  - intros o H. apply map_id_file_locator.
  - intros f o. apply refs_map_file_locator.
Qed.

Lemma saves_WINF : class_saves K_WINF.
Proof.
  apply saves_intro; cbn [class_of C_type C_read C_write C_map C_refs ok_of fits_of whole_of].
  - exact rt_file_locator.
  - intros c o H. apply fit_file_locator; exact H.
  - intros o H. apply map_id_file_locator.
  - intros f o. apply refs_map_file_locator.
Qed.

Lemma saves_URLL : class_saves K_URLL.
Proof.
  apply saves_intro; cbn [class_of C_type C_read C_write C_map C_refs ok_of fits_of whole_of].
  - exact rt_url_locator.
  - intros c o H. apply fit_url_locator; exact H.
  - intros o H. apply map_id_url_locator.
  - intros f o. apply refs_map_url_locator.
Qed.

Lemma saves_GRFX : class_saves K_GRFX.
Proof.
  apply saves_intro; cbn [class_of C_type C_read C_write C_map C_refs ok_of fits_of whole_of].
  - exact rt_graphic_effect.
  - intros c o H. apply fit_graphic_effect; exact H.
  - intros o H. apply map_id_graphic_effect.
  - intros f o. apply refs_map_graphic_effect.
Qed.

Lemma saves_SHLP : class_saves K_SHLP.
Proof.
  apply saves_intro; cbn [class_of C_type C_read C_write C_map C_refs ok_of fits_of whole_of].
  - exact rt_shape_list.
  - intros c o H. apply fit_shape_list; exact H.
  - intros o H. apply map_id_shape_list.
  - intros f o. apply refs_map_shape_list.
Qed.

Lemma saves_CCFX : class_saves K_CCFX.
Proof.
  apply saves_intro; cbn [class_of C_type C_read C_write C_map C_refs ok_of fits_of whole_of].
  - exact rt_color_correction_effect.
  - intros c o H. apply fit_color_correction_effect; exact H.
  - intros o H. apply map_id_color_correction_effect.
  - intros f o. apply refs_map_color_correction_effect.
Qed.

Lemma saves_FXPS : class_saves K_FXPS.
Proof.
  apply saves_intro; cbn [class_of C_type C_read C_write C_map C_refs ok_of fits_of whole_of].
  - exact rt_effect_param_list.
  - intros c o H. apply fit_effect_param_list; exact H.
  - intros o H. apply map_id_effect_param_list.
  - intros f o. apply refs_map_effect_param_list.
Qed.

Lemma saves_AVUP : class_saves K_AVUP.
Proof.
  apply saves_intro; cbn [class_of C_type C_read C_write C_map C_refs ok_of fits_of whole_of].
  - exact rt_cf_user_param.
  - intros c o H. apply fit_cf_user_param; exact H.
  - intros o H. apply map_id_cf_user_param.
  - intros f o. apply refs_map_cf_user_param.
Qed.

Lemma saves_PRIT : class_saves K_PRIT.
Proof.
  apply saves_intro; cbn [class_of C_type C_read C_write C_map C_refs ok_of fits_of whole_of].
  - exact rt_parameter_item.
  - intros c o H. apply fit_parameter_item; exact H.
  - intros o H. apply map_id_parameter_item.
  - intros f o. apply refs_map_parameter_item.
Qed.

Lemma saves_MSML : class_saves K_MSML.
Proof.
  apply saves_intro; cbn [class_of C_type C_read C_write C_map C_refs ok_of fits_of whole_of].
  - exact rt_msm_locator.
  - intros c o H. apply fit_msm_locator; exact H.
  - intros o H. apply map_id_msm_locator.
  - intros f o. apply refs_map_msm_locator.
Qed.

Lemma saves_APOS : class_saves K_APOS.
Proof.
  apply saves_intro; cbn [class_of C_type C_read C_write C_map C_refs ok_of fits_of whole_of].
  - exact rt_position.
  - intros c o H. apply fit_position; exact H.
  - intros o H. apply map_id_position.
  - intros f o. apply refs_map_position.
Qed.

Lemma saves_ABOB : class_saves K_ABOB.
Proof.
  apply saves_intro; cbn [class_of C_type C_read C_write C_map C_refs ok_of fits_of whole_of].
  - exact rt_bob_position.
  - intros c o H. apply fit_bob_position; exact H.
  - intros o H. apply map_id_bob_position.
  - intros f o. apply refs_map_bob_position.
Qed.

Lemma saves_DIDP : class_saves K_DIDP.
Proof.
  apply saves_intro; cbn [class_of C_type C_read C_write C_map C_refs ok_of fits_of whole_of].
  - exact rt_did_position.
  - intros c o H. apply fit_did_position; exact H.
  - intros o H. apply map_id_did_position.
  - intros f o. apply refs_map_did_position.
Qed.

Lemma saves_MPGP : class_saves K_MPGP.
Proof.
  apply saves_intro; cbn [class_of C_type C_read C_write C_map C_refs ok_of fits_of whole_of].
  - exact rt_mpg_position.
  - intros c o H. apply fit_mpg_position; exact H.
  - intros o H. apply map_id_mpg_position.
  - intros f o. apply refs_map_mpg_position.
Qed.

Lemma saves_MCBR : class_saves K_MCBR.
Proof.
  apply saves_intro; cbn [class_of C_type C_read C_write C_map C_refs ok_of fits_of whole_of].
  - exact rt_bin_ref.
  - intros c o H. apply fit_bin_ref.
  - intros o H. apply map_id_bin_ref.
  - intros f o. apply refs_map_bin_ref.
Qed.

Lemma saves_MCMR : class_saves K_MCMR.
Proof.
  apply saves_intro; cbn [class_of C_type C_read C_write C_map C_refs ok_of fits_of whole_of].
  - exact rt_mob_ref.
  - intros c o H. apply fit_mob_ref; exact H.
  - intros o H. apply map_id_mob_ref.
  - intros f o. apply refs_map_mob_ref.
Qed.

Lemma saves_TMBC : class_saves K_TMBC.
Proof.
  apply saves_intro; cbn [class_of C_type C_read C_write C_map C_refs ok_of fits_of whole_of].
  - exact rt_marker.
  - intros c o H. apply fit_marker; exact H.
  - intros o H. apply map_id_marker.
  - intros f o. apply refs_map_marker.
Qed.

Lemma saves_TKMN : class_saves K_TKMN.
Proof.
  apply saves_intro; cbn [class_of C_type C_read C_write C_map C_refs ok_of fits_of whole_of].
  - exact rt_tracker_manager.
  - intros c o H. apply fit_tracker_manager; exact H.
  - intros o H. apply map_id_tracker_manager.
  - intros f o. apply refs_map_tracker_manager.
Qed.

Lemma saves_TKDS : class_saves K_TKDS.
Proof.
  apply saves_intro; cbn [class_of C_type C_read C_write C_map C_refs ok_of fits_of whole_of].
  - exact rt_tracker_data_slot.
  - intros c o H. apply fit_tracker_data_slot; exact H.
  - intros o H. apply map_id_tracker_data_slot.
  - intros f o. apply refs_map_tracker_data_slot.
Qed.

Lemma saves_TKPS : class_saves K_TKPS.
Proof.
  apply saves_intro; cbn [class_of C_type C_read C_write C_map C_refs ok_of fits_of whole_of].
  - exact rt_tracker_parameter_slot.
  - intros c o H. apply fit_tracker_parameter_slot; exact H.
  - intros o H. apply map_id_tracker_parameter_slot.
  - intros f o. apply refs_map_tracker_parameter_slot.
Qed.

Lemma saves_TKDA : class_saves K_TKDA.
Proof.
  apply saves_intro; cbn [class_of C_type C_read C_write C_map C_refs ok_of fits_of whole_of].
  - exact rt_tracker_data.
  - intros c o H. apply fit_tracker_data; exact H.
  - intros o H. apply map_id_tracker_data.
  - intros f o. apply refs_map_tracker_data.
Qed.

Lemma saves_TKPA : class_saves K_TKPA.
Proof.
  apply saves_intro; cbn [class_of C_type C_read C_write C_map C_refs ok_of fits_of whole_of].
  - exact rt_tracker_parameter.
  - intros c o H. apply fit_tracker_parameter; exact H.
  - intros o H. apply map_id_tracker_parameter.
  - intros f o. apply refs_map_tracker_parameter.
Qed.

Lemma saves_TKFX : class_saves K_TKFX.
Proof.
  apply saves_intro; cbn [class_of C_type C_read C_write C_map C_refs ok_of fits_of whole_of].
  - exact rt_track_effect.
  - intros c o H. apply fit_track_effect; exact H.
  - intros o H. apply map_id_track_effect; exact H.
  - intros f o. apply refs_map_track_effect.
Qed.

Lemma saves_PVOL : class_saves K_PVOL.
Proof.
  apply saves_intro; cbn [class_of C_type C_read C_write C_map C_refs ok_of fits_of whole_of].
  - exact rt_pan_volume_effect.
  - intros c o H. apply fit_pan_volume_effect; exact H.
  - intros o H. apply map_id_pan_volume_effect; exact H.
  - intros f o. apply refs_map_pan_volume_effect.
Qed.

Lemma saves_ASPI : class_saves K_ASPI.
Proof.
  apply saves_intro; cbn [class_of C_type C_read C_write C_map C_refs ok_of fits_of whole_of].
  - exact rt_audio_suite_effect.
  - intros c o H. apply fit_audio_suite_effect; exact H.
  - intros o H. apply map_id_audio_suite_effect; exact H.
  - intros f o. apply refs_map_audio_suite_effect.
Qed.

Lemma saves_EQMB : class_saves K_EQMB.
Proof.
  apply saves_intro; cbn [class_of C_type C_read C_write C_map C_refs ok_of fits_of whole_of].
  - exact rt_equalizer_multi_band.
  - intros c o H. apply fit_equalizer_multi_band; exact H.
  - intros o H. apply map_id_equalizer_multi_band; exact H.
  - intros f o. apply refs_map_equalizer_multi_band.
Qed.

Lemma saves_MASK : class_saves K_MASK.
Proof.
  apply saves_intro; cbn [class_of C_type C_read C_write C_map C_refs ok_of fits_of whole_of].
  - exact rt_capture_mask.
  - intros c o H. apply fit_capture_mask; exact H.
  - intros o H. apply map_id_capture_mask; exact H.
  - intros f o. apply refs_map_capture_mask.
Qed.

Lemma saves_STRB : class_saves K_STRB.
Proof.
  apply saves_intro; cbn [class_of C_type C_read C_write C_map C_refs ok_of fits_of whole_of].
  - exact rt_strobe_effect.
  - intros c o H. apply fit_strobe_effect; exact H.
  - intros o H. apply map_id_strobe_effect; exact H.
  - intros f o. apply refs_map_strobe_effect.
Qed.

Lemma saves_SPED : class_saves K_SPED.
Proof.
  apply saves_intro; cbn [class_of C_type C_read C_write C_map C_refs ok_of fits_of whole_of].
  - exact rt_motion_effect.
  - intros c o H. apply fit_motion_effect; exact H.
  - intros o H. apply map_id_motion_effect; exact H.
  - intros f o. apply refs_map_motion_effect.
Qed.

Lemma saves_REPT : class_saves K_REPT.
Proof.
  apply saves_intro; cbn [class_of C_type C_read C_write C_map C_refs ok_of fits_of whole_of].
  - exact rt_repeat_effect.
  - intros c o H. apply fit_repeat_effect; exact H.
  - intros o H. apply map_id_repeat_effect; exact H.
  - intros f o. apply refs_map_repeat_effect.
Qed.

Lemma saves_RSET : class_saves K_RSET.
Proof.
  apply saves_intro; cbn [class_of C_type C_read C_write C_map C_refs ok_of fits_of whole_of].
  - exact rt_essence_group.
  - intros c o H. apply fit_essence_group; exact H.
  - intros o H. apply map_id_essence_group; exact H.
  - intros f o. apply refs_map_essence_group.
Qed.

Lemma saves_TNFX : class_saves K_TNFX.
Proof.
  apply saves_intro; cbn [class_of C_type C_read C_write C_map C_refs ok_of fits_of whole_of].
  - exact rt_transition_effect.
  - intros c o H. apply fit_transition_effect; exact H.
  - intros o H. apply map_id_transition_effect; exact H.
  - intros f o. apply refs_map_transition_effect.
Qed.

Lemma saves_SLCT : class_saves K_SLCT.
Proof.
  apply saves_intro; cbn [class_of C_type C_read C_write C_map C_refs ok_of fits_of whole_of].
  - exact rt_selector.
  - intros c o H. apply fit_selector; exact H.
  - intros o H. apply map_id_selector; exact H.
  - intros f o. apply refs_map_selector.
Qed.

Lemma saves_CMPO : class_saves K_CMPO.
Proof.
  apply saves_intro; cbn [class_of C_type C_read C_write C_map C_refs ok_of fits_of whole_of].
  - exact rt_composition.
  - intros c o H. apply fit_composition; exact H.
  - intros o H. apply map_id_composition; exact H.
  - intros f o. apply refs_map_composition.
Qed.

Lemma class_saves_all : forall k, closes k = true -> class_saves k.
Proof.
  intros k H. destruct k; try discriminate H.
  - exact saves_ATTR.
  - exact saves_PRLS.
  - exact saves_TMCS.
  - exact saves_BVst.
  - exact saves_ABIN.
  - exact saves_BINF.
  - exact saves_SEQU.
  - exact saves_SCLP.
  - exact saves_TCCP.
  - exact saves_ECCP.
  - exact saves_TRKR.
  - exact saves_PRCL.
  - exact saves_CTRL.
  - exact saves_FILL.
  - exact saves_MDES.
  - exact saves_MDTP.
  - exact saves_MDFM.
  - exact saves_MDNG.
  - exact saves_MDFL.
  - exact saves_MULD.
  - exact saves_WAVE.
  - exact saves_AIFC.
  - exact saves_PCMA.
  - exact saves_MPGA.
  - exact saves_DIDD.
  - exact saves_CDCI.
  - exact saves_MPGI.
  - exact saves_JPED.
  - exact saves_RGBA.
  - exact saves_ANCD.
  - exact saves_FILE.
  - exact saves_WINF.
  - exact saves_URLL.
  - exact saves_GRFX.
  - exact saves_SHLP.
  - exact saves_CCFX.
  - exact saves_FXPS.
  - exact saves_AVUP.
  - exact saves_PRIT.
  - exact saves_MSML.
  - exact saves_APOS.
  - exact saves_ABOB.
  - exact saves_DIDP.
  - exact saves_MPGP.
  - exact saves_MCBR.
  - exact saves_MCMR.
  - exact saves_TMBC.
  - exact saves_TKMN.
  - exact saves_TKDS.
  - exact saves_TKPS.
  - exact saves_TKDA.
  - exact saves_TKPA.
  - exact saves_TKFX.
  - exact saves_PVOL.
  - exact saves_ASPI.
  - exact saves_EQMB.
  - exact saves_MASK.
  - exact saves_STRB.
  - exact saves_SPED.
  - exact saves_REPT.
  - exact saves_RSET.
  - exact saves_TNFX.
  - exact saves_SLCT.
  - exact saves_CMPO.
Qed.

Lemma class_rt : forall k i c v, closes k = true -> compat i c -> ok_of k v ->
  rt anyr (C_read (class_of k) i) (C_write (class_of k) c v) (C_map (class_of k) (reff c) v).
Proof.
  intros k i c v H Hc Hok. destruct k; try discriminate H; cbn [class_of C_read C_write C_map C_type] in *.
  - now apply rt_attributes.
  - now apply rt_parameter_list.
  - now apply rt_time_crumb_list.
  - now apply rt_bin_view_setting.
  - now apply rt_bin.
  - now apply rt_bin_first.
  - now apply rt_sequence.
  - now apply rt_source_clip.
  - now apply rt_timecode.
  - now apply rt_edgecode.
  - now apply rt_track_ref.
  - now apply rt_param_clip.
  - now apply rt_control_clip.
  - now apply rt_filler.
  - now apply rt_media_descriptor.
  - now apply rt_tape_descriptor.
  - now apply rt_film_descriptor.
  - now apply rt_film_descriptor.
  - now apply rt_media_file_descriptor.
  - now apply rt_multi_descriptor.
  - now apply rt_wave_descriptor.
  - now apply rt_aifc_descriptor.
  - now apply rt_pcma_descriptor.
  - now apply rt_mpga_descriptor.
  - now apply rt_did_descriptor.
  - now apply rt_cdci_descriptor.
  - now apply rt_mpgi_descriptor.
  - now apply rt_jped_descriptor.
  - now apply rt_rgba_descriptor.
  - now apply rt_anc_data_descriptor.
  - now apply rt_file_locator.
  - now apply rt_file_locator.
  - now apply rt_url_locator.
  - now apply rt_graphic_effect.
  - now apply rt_shape_list.
  - now apply rt_color_correction_effect.
  - now apply rt_effect_param_list.
  - now apply rt_cf_user_param.
  - now apply rt_parameter_item.
  - now apply rt_msm_locator.
  - now apply rt_position.
  - now apply rt_bob_position.
  - now apply rt_did_position.
  - now apply rt_mpg_position.
  - now apply rt_bin_ref.
  - now apply rt_mob_ref.
  - now apply rt_marker.
  - now apply rt_tracker_manager.
  - now apply rt_tracker_data_slot.
  - now apply rt_tracker_parameter_slot.
  - now apply rt_tracker_data.
  - now apply rt_tracker_parameter.
  - now apply rt_track_effect.
  - now apply rt_pan_volume_effect.
  - now apply rt_audio_suite_effect.
  - now apply rt_equalizer_multi_band.
  - now apply rt_capture_mask.
  - now apply rt_strobe_effect.
  - now apply rt_motion_effect.
  - now apply rt_repeat_effect.
  - now apply rt_essence_group.
  - now apply rt_transition_effect.
  - now apply rt_selector.
  - now apply rt_composition.
Qed.

Lemma class_fit : forall k c v, closes k = true -> ok_of k v -> wiff (C_write (class_of k) c v) (fits_of k c v).
Proof.
  intros k c v H Hok. destruct k; try discriminate H; cbn [class_of C_write C_type fits_of] in *.
  - now apply fit_attributes.
  - now apply fit_parameter_list.
  - now apply fit_time_crumb_list.
  - now apply fit_bin_view_setting.
  - now apply fit_bin.
  - now apply fit_bin_first.
  - now apply fit_sequence.
  - now apply fit_source_clip.
  - now apply fit_timecode.
  - now apply fit_edgecode.
  - now apply fit_track_ref.
  - now apply fit_param_clip.
  - now apply fit_control_clip.
  - now apply fit_filler.
  - now apply fit_media_descriptor.
  - now apply fit_tape_descriptor.
  - now apply fit_film_descriptor.
  - now apply fit_film_descriptor.
  - now apply fit_media_file_descriptor.
  - now apply fit_multi_descriptor.
  - now apply fit_wave_descriptor.
  - now apply fit_aifc_descriptor.
  - now apply fit_pcma_descriptor.
  - now apply fit_mpga_descriptor.
  - now apply fit_did_descriptor.
  - now apply fit_cdci_descriptor.
  - now apply fit_mpgi_descriptor.
  - now apply fit_jped_descriptor.
  - now apply fit_rgba_descriptor.
  - now apply fit_anc_data_descriptor.
  - now apply fit_file_locator.
  - now apply fit_file_locator.
  - now apply fit_url_locator.
  - now apply fit_graphic_effect.
  - now apply fit_shape_list.
  - now apply fit_color_correction_effect.
  - now apply fit_effect_param_list.
  - now apply fit_cf_user_param.
  - now apply fit_parameter_item.
  - now apply fit_msm_locator.
  - now apply fit_position.
  - now apply fit_bob_position.
  - now apply fit_did_position.
  - now apply fit_mpg_position.
  - now apply fit_bin_ref.
  - now apply fit_mob_ref.
  - now apply fit_marker.
  - now apply fit_tracker_manager.
  - now apply fit_tracker_data_slot.
  - now apply fit_tracker_parameter_slot.
  - now apply fit_tracker_data.
  - now apply fit_tracker_parameter.
  - now apply fit_track_effect.
  - now apply fit_pan_volume_effect.
  - now apply fit_audio_suite_effect.
  - now apply fit_equalizer_multi_band.
  - now apply fit_capture_mask.
  - now apply fit_strobe_effect.
  - now apply fit_motion_effect.
  - now apply fit_repeat_effect.
  - now apply fit_essence_group.
  - now apply fit_transition_effect.
  - now apply fit_selector.
  - now apply fit_composition.
Qed.

(** ** Byte orders *)

Lemma weq_body : forall c c' o, (forall r, orefs c r = orefs c' r) -> weq (wbody c o) (wbody c' o).
Proof.
  intros c c' [k v] H. unfold wbody. cbn [okind oval]. destruct k; cbn [class_of C_write].
  - now apply weq_wattributes.
  - now apply weq_wparameter_list.
  - now apply weq_wtime_crumb_list.
  - now apply weq_wbin_view_setting.
  - now apply weq_wbin.
  - now apply weq_wbin_first.
  - now apply weq_wsequence.
  - now apply weq_wsource_clip.
  - now apply weq_wtimecode.
  - now apply weq_wedgecode.
  - now apply weq_wtrack_ref.
  - now apply weq_wparam_clip.
  - now apply weq_wcontrol_clip.
  - now apply weq_wfiller.
  - now apply weq_wmedia_descriptor.
  - now apply weq_wtape_descriptor.
  - now apply weq_wfilm_descriptor.
  - now apply weq_wfilm_descriptor.
  - now apply weq_wmedia_file_descriptor.
  - now apply weq_wmulti_descriptor.
  - now apply weq_wwave_descriptor.
  - now apply weq_waifc_descriptor.
  - now apply weq_wpcma_descriptor.
  - now apply weq_wmpga_descriptor.
  - now apply weq_wdid_descriptor.
  - now apply weq_wcdci_descriptor.
  - now apply weq_wmpgi_descriptor.
  - now apply weq_wjped_descriptor.
  - now apply weq_wrgba_descriptor.
  - now apply weq_wdata_descriptor.
  - now apply weq_wanc_data_descriptor.
  - now apply weq_wfile_locator.
  - now apply weq_wfile_locator.
  - now apply weq_wurl_locator.
  - now apply weq_wgraphic_effect.
  - now apply weq_wshape_list.
  - now apply weq_wcolor_correction_effect.
  - now apply weq_weffect_param_list.
  - now apply weq_wcf_user_param.
  - now apply weq_wparameter_item.
  - now apply weq_wmsm_locator.
  - now apply weq_wposition.
  - now apply weq_wbob_position.
  - now apply weq_wdid_position.
  - now apply weq_wmpg_position.
  - now apply weq_wbin_ref.
  - now apply weq_wmob_ref.
  - now apply weq_wmarker.
  - now apply weq_wtracker_manager.
  - now apply weq_wtracker_data_slot.
  - now apply weq_wtracker_parameter_slot.
  - now apply weq_wtracker_data.
  - now apply weq_wtracker_parameter.
  - now apply weq_wtrack_group.
  - now apply weq_wtrack_effect.
  - now apply weq_wpan_volume_effect.
  - now apply weq_waudio_suite_effect.
  - now apply weq_wequalizer_multi_band.
  - now apply weq_wcapture_mask.
  - now apply weq_wstrobe_effect.
  - now apply weq_wmotion_effect.
  - now apply weq_wrepeat_effect.
  - now apply weq_wessence_group.
  - now apply weq_wtransition_effect.
  - now apply weq_wselector.
  - now apply weq_wcomposition.
Qed.

(** ** Cut data *)

Lemma closed_read : forall k i, closes k = true -> closed (C_read (class_of k) i).
Proof.
  intros k i H. destruct k; try discriminate H; cbn [class_of C_read].
  - apply closed_attributes.
  - apply closed_parameter_list.
  - apply closed_time_crumb_list.
  - apply closed_bin_view_setting.
  - apply closed_bin.
  - apply closed_bin_first.
  - apply closed_sequence.
  - apply closed_source_clip.
  - apply closed_timecode.
  - apply closed_edgecode.
  - apply closed_track_ref.
  - apply closed_param_clip.
  - apply closed_control_clip.
  - apply closed_filler.
  - apply closed_media_descriptor.
  - apply closed_tape_descriptor.
  - apply closed_film_descriptor.
  - apply closed_film_descriptor.
  - apply closed_media_file_descriptor.
  - apply closed_multi_descriptor.
  - apply closed_wave_descriptor.
  - apply closed_aifc_descriptor.
  - apply closed_pcma_descriptor.
  - apply closed_mpga_descriptor.
  - apply closed_did_descriptor.
  - apply closed_cdci_descriptor.
  - apply closed_mpgi_descriptor.
  - apply closed_jped_descriptor.
  - apply closed_rgba_descriptor.
  - apply closed_anc_data_descriptor.
  - apply closed_file_locator.
  - apply closed_file_locator.
  - apply closed_url_locator.
  - apply closed_graphic_effect.
  - apply closed_shape_list.
  - apply closed_color_correction_effect.
  - apply closed_effect_param_list.
  - apply closed_cf_user_param.
  - apply closed_parameter_item.
  - apply closed_msm_locator.
  - apply closed_position.
  - apply closed_bob_position.
  - apply closed_did_position.
  - apply closed_mpg_position.
  - apply closed_bin_ref.
  - apply closed_mob_ref.
  - apply closed_marker.
  - apply closed_tracker_manager.
  - apply closed_tracker_data_slot.
  - apply closed_tracker_parameter_slot.
  - apply closed_tracker_data.
  - apply closed_tracker_parameter.
  - apply closed_track_effect.
  - apply closed_pan_volume_effect.
  - apply closed_audio_suite_effect.
  - apply closed_equalizer_multi_band.
  - apply closed_capture_mask.
  - apply closed_strobe_effect.
  - apply closed_motion_effect.
  - apply closed_repeat_effect.
  - apply closed_essence_group.
  - apply closed_transition_effect.
  - apply closed_selector.
  - apply closed_composition.
Qed.

Lemma closed_data : forall i, closed (C_read (class_of K_DATD) i).
Proof.
  intros i. cbn [class_of C_read]. unfold rdata_descriptor.
  repeat lazymatch goal with
  | |- closed (bind (rs32 _) (fun _ => ret _)) => fail
  | |- closed (bind _ _) => apply closed_bind; [loc|intro]
  end.
  apply closed_s32.
Qed.

Lemma group_rest : forall i d o rest, rtrack_group i d = Ok (o, rest) -> rest <> [].
Proof.
  intros i d o rest H. unfold rtrack_group in H.
  repeat (apply bind_ok in H as (? & ? & _ & H)).
  apply (ext_loop_loc _ _ _ (loc_track_group_ext i) _ _ _ _ H).
Qed.

(** ** References *)

Lemma res_read : forall k i, res (fun v => refs_ok i (C_refs (class_of k) v)) (C_read (class_of k) i).
Proof.
  intros k i. destruct k; cbn [class_of C_read C_refs].
  - apply res_rattributes.
  - apply res_rparameter_list.
  - apply res_rtime_crumb_list.
  - apply res_rbin_view_setting.
  - apply res_rbin.
  - apply res_rbin_first.
  - apply res_rsequence.
  - apply res_rsource_clip.
  - apply res_rtimecode.
  - apply res_redgecode.
  - apply res_rtrack_ref.
  - apply res_rparam_clip.
  - apply res_rcontrol_clip.
  - apply res_rfiller.
  - apply res_rmedia_descriptor.
  - apply res_rtape_descriptor.
  - apply res_rfilm_descriptor.
  - apply res_rfilm_descriptor.
  - apply res_rmedia_file_descriptor.
  - apply res_rmulti_descriptor.
  - apply res_rwave_descriptor.
  - apply res_raifc_descriptor.
  - apply res_rpcma_descriptor.
  - apply res_rmpga_descriptor.
  - apply res_rdid_descriptor.
  - apply res_rcdci_descriptor.
  - apply res_rmpgi_descriptor.
  - apply res_rjped_descriptor.
  - apply res_rrgba_descriptor.
  - apply res_rdata_descriptor.
  - apply res_ranc_data_descriptor.
  - apply res_rfile_locator.
  - apply res_rfile_locator.
  - apply res_rurl_locator.
  - apply res_rgraphic_effect.
  - apply res_rshape_list.
  - apply res_rcolor_correction_effect.
  - apply res_reffect_param_list.
  - apply res_rcf_user_param.
  - apply res_rparameter_item.
  - apply res_rmsm_locator.
  - apply res_rposition.
  - apply res_rbob_position.
  - apply res_rdid_position.
  - apply res_rmpg_position.
  - apply res_rbin_ref.
  - apply res_rmob_ref.
  - apply res_rmarker.
  - apply res_rtracker_manager.
  - apply res_rtracker_data_slot.
  - apply res_rtracker_parameter_slot.
  - apply res_rtracker_data.
  - apply res_rtracker_parameter.
  - apply res_rtrack_group.
  - apply res_rtrack_effect.
  - apply res_rpan_volume_effect.
  - apply res_raudio_suite_effect.
  - apply res_requalizer_multi_band.
  - apply res_rcapture_mask.
  - apply res_rstrobe_effect.
  - apply res_rmotion_effect.
  - apply res_rrepeat_effect.
  - apply res_ressence_group.
  - apply res_rtransition_effect.
  - apply res_rselector.
  - apply res_rcomposition.
Qed.

(** ** The closing byte *)

Definition ends3 (w : writer) : Prop := forall bs, w = Ok bs -> exists p, bs = p ++ [3].

Lemma ends3_cat : forall a b, ends3 b -> ends3 (a +++ b).
Proof.
  intros a b H bs E. apply wcat_ok in E as (x & y & _ & Hy & ->).
  destruct (H y Hy) as [p ->]. exists (x ++ p). now rewrite app_assoc.
Qed.

Lemma ends3_u8 : ends3 (wu8 3).
Proof. intros bs E. apply Ok_inj in E as <-. now exists []. Qed.

Ltac ends3 :=
  repeat lazymatch goal with
  | |- ends3 (_ +++ _) => apply ends3_cat
  | |- ends3 (wu8 3) => apply ends3_u8
  | |- ends3 (match ?x with _ => _ end) => destruct x
  end.

Lemma ends3_body : forall c o, closes (okind o) = true -> ends3 (wbody c o).
Proof.
  intros c [k v] H. unfold wbody. cbn [okind oval] in *.
  destruct k; try discriminate H; cbn [class_of C_write C_type] in *.
  - unfold wattributes. ends3.
  - unfold wparameter_list. ends3.
  - unfold wtime_crumb_list. ends3.
  - unfold wbin_view_setting. ends3.
  - unfold wbin. ends3.
  - unfold wbin_first. ends3.
  - unfold wsequence. ends3.
  - unfold wsource_clip. ends3.
  - unfold wtimecode. ends3.
  - unfold wedgecode. ends3.
  - unfold wtrack_ref. ends3.
  - unfold wparam_clip. ends3.
  - unfold wcontrol_clip. ends3.
  - unfold wfiller. ends3.
  - unfold wmedia_descriptor. ends3.
  - unfold wtape_descriptor. ends3.
  - unfold wfilm_descriptor. ends3.
  - unfold wfilm_descriptor. ends3.
  - unfold wmedia_file_descriptor. ends3.
  - unfold wmulti_descriptor. ends3.
  - unfold wwave_descriptor. ends3.
  - unfold waifc_descriptor. ends3.
  - unfold wpcma_descriptor. ends3.
  - unfold wmpga_descriptor. ends3.
  - unfold wdid_descriptor. ends3.
  - unfold wcdci_descriptor. ends3.
  - unfold wmpgi_descriptor. ends3.
  - unfold wjped_descriptor. ends3.
  - unfold wrgba_descriptor. ends3.
  - unfold wanc_data_descriptor. ends3.
  - unfold wfile_locator. ends3.
  - unfold wfile_locator. ends3.
  - unfold wurl_locator. ends3.
  - unfold wgraphic_effect. ends3.
  - unfold wshape_list. ends3.
  - unfold wcolor_correction_effect. ends3.
  - unfold weffect_param_list. ends3.
  - unfold wcf_user_param. ends3.
  - unfold wparameter_item. ends3.
  - unfold wmsm_locator. ends3.
  - unfold wposition. ends3.
  - unfold wbob_position. ends3.
  - unfold wdid_position. ends3.
  - unfold wmpg_position. ends3.
  - unfold wbin_ref. ends3.
  - unfold wmob_ref. ends3.
  - unfold wmarker. ends3.
  - unfold wtracker_manager. ends3.
  - unfold wtracker_data_slot. ends3.
  - unfold wtracker_parameter_slot. ends3.
  - unfold wtracker_data. ends3.
  - unfold wtracker_parameter. ends3.
  - unfold wtrack_effect. ends3.
  - unfold wpan_volume_effect. ends3.
  - unfold waudio_suite_effect. ends3.
  - unfold wequalizer_multi_band. ends3.
  - unfold wcapture_mask. ends3.
  - unfold wstrobe_effect. ends3.
  - unfold wmotion_effect. ends3.
  - unfold wrepeat_effect. ends3.
  - unfold wessence_group. ends3.
  - unfold wtransition_effect. ends3.
  - unfold wselector. ends3.
  - unfold wcomposition. ends3.
Qed.

(** ** Renaming *)

Lemma map_ext_obj : forall f g o, (forall r, In r (obj_refs o) -> f r = g r) ->
  obj_map f o = obj_map g o.
Proof.
  intros f g [k v] H. unfold obj_map, obj_refs in *. cbn [okind oval] in *. f_equal.
  destruct k; cbn [class_of C_map C_refs C_type] in *.
  - now apply map_ext_attributes.
  - now apply map_ext_parameter_list.
  - now apply map_ext_time_crumb_list.
  - now apply map_ext_bin_view_setting.
  - now apply map_ext_bin.
  - now apply map_ext_bin_first.
  - now apply map_ext_sequence.
  - now apply map_ext_source_clip.
  - now apply map_ext_timecode.
  - now apply map_ext_edgecode.
  - now apply map_ext_track_ref.
  - now apply map_ext_param_clip.
  - now apply map_ext_control_clip.
  - now apply map_ext_filler.
  - now apply map_ext_media_descriptor.
  - now apply map_ext_tape_descriptor.
  - now apply map_ext_media_descriptor.
  - now apply map_ext_media_descriptor.
  - now apply map_ext_media_file_descriptor.
  - now apply map_ext_multi_descriptor.
  - now apply map_ext_wave_descriptor.
  - now apply map_ext_aifc_descriptor.
  - now apply map_ext_pcma_descriptor.
  - now apply map_ext_mpga_descriptor.
  - now apply map_ext_did_descriptor.
  - now apply map_ext_cdci_descriptor.
  - now apply map_ext_mpgi_descriptor.
  - now apply map_ext_jped_descriptor.
  - now apply map_ext_rgba_descriptor.
  - now apply map_ext_data_descriptor.
  - now apply map_ext_anc_data_descriptor.
  - now apply map_ext_file_locator.
  - now apply map_ext_file_locator.
  - now apply map_ext_url_locator.
  - now apply map_ext_graphic_effect.
  - now apply map_ext_shape_list.
  - now apply map_ext_color_correction_effect.
  - now apply map_ext_effect_param_list.
  - now apply map_ext_cf_user_param.
  - now apply map_ext_parameter_item.
  - now apply map_ext_msm_locator.
  - now apply map_ext_position.
  - now apply map_ext_bob_position.
  - now apply map_ext_did_position.
  - now apply map_ext_mpg_position.
  - now apply map_ext_bin_ref.
  - now apply map_ext_mob_ref.
  - now apply map_ext_marker.
  - now apply map_ext_tracker_manager.
  - now apply map_ext_tracker_data_slot.
  - now apply map_ext_tracker_parameter_slot.
  - now apply map_ext_tracker_data.
  - now apply map_ext_tracker_parameter.
  - now apply map_ext_track_group.
  - now apply map_ext_track_effect.
  - now apply map_ext_pan_volume_effect.
  - now apply map_ext_audio_suite_effect.
  - now apply map_ext_equalizer_multi_band.
  - now apply map_ext_capture_mask.
  - now apply map_ext_strobe_effect.
  - now apply map_ext_motion_effect.
  - now apply map_ext_repeat_effect.
  - now apply map_ext_essence_group.
  - now apply map_ext_transition_effect.
  - now apply map_ext_selector.
  - now apply map_ext_composition.
Qed.

Lemma map_map_obj : forall f g o, obj_map g (obj_map f o) = obj_map (fun x => g (f x)) o.
Proof.
  intros f g [k v]. unfold obj_map. cbn [okind oval]. f_equal.
  destruct k; cbn [class_of C_map C_type] in *.
  - apply map_map_attributes.
  - apply map_map_parameter_list.
  - apply map_map_time_crumb_list.
  - apply map_map_bin_view_setting.
  - apply map_map_bin.
  - apply map_map_bin_first.
  - apply map_map_sequence.
  - apply map_map_source_clip.
  - apply map_map_timecode.
  - apply map_map_edgecode.
  - apply map_map_track_ref.
  - apply map_map_param_clip.
  - apply map_map_control_clip.
  - apply map_map_filler.
  - apply map_map_media_descriptor.
  - apply map_map_tape_descriptor.
  - apply map_map_media_descriptor.
  - apply map_map_media_descriptor.
  - apply map_map_media_file_descriptor.
  - apply map_map_multi_descriptor.
  - apply map_map_wave_descriptor.
  - apply map_map_aifc_descriptor.
  - apply map_map_pcma_descriptor.
  - apply map_map_mpga_descriptor.
  - apply map_map_did_descriptor.
  - apply map_map_cdci_descriptor.
  - apply map_map_mpgi_descriptor.
  - apply map_map_jped_descriptor.
  - apply map_map_rgba_descriptor.
  - apply map_map_data_descriptor.
  - apply map_map_anc_data_descriptor.
  - apply map_map_file_locator.
  - apply map_map_file_locator.
  - apply map_map_url_locator.
  - apply map_map_graphic_effect.
  - apply map_map_shape_list.
  - apply map_map_color_correction_effect.
  - apply map_map_effect_param_list.
  - apply map_map_cf_user_param.
  - apply map_map_parameter_item.
  - apply map_map_msm_locator.
  - apply map_map_position.
  - apply map_map_bob_position.
  - apply map_map_did_position.
  - apply map_map_mpg_position.
  - apply map_map_bin_ref.
  - apply map_map_mob_ref.
  - apply map_map_marker.
  - apply map_map_tracker_manager.
  - apply map_map_tracker_data_slot.
  - apply map_map_tracker_parameter_slot.
  - apply map_map_tracker_data.
  - apply map_map_tracker_parameter.
  - apply map_map_track_group.
  - apply map_map_track_effect.
  - apply map_map_pan_volume_effect.
  - apply map_map_audio_suite_effect.
  - apply map_map_equalizer_multi_band.
  - apply map_map_capture_mask.
  - apply map_map_strobe_effect.
  - apply map_map_motion_effect.
  - apply map_map_repeat_effect.
  - apply map_map_essence_group.
  - apply map_map_transition_effect.
  - apply map_map_selector.
  - apply map_map_composition.
Qed.

