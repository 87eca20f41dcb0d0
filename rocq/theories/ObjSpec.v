(** Side conditions by class, collected. A specification; nothing here is code of the
    repository. *)
From Coq Require Import ZArith List Bool.
From Verif Require Import Base IoCtx Text Exp10 MobId Storable Attributes Components TrackGroups
  Misc Essence BinModel Fits Saved Objects.
Import ListNotations.
Open Scope Z_scope.

(** The classes whose written form ends with the closing byte 3. The other three are refused by
    [write_object] unless the last byte happens to be 3 (their writers do not write it), and
    what is written of them cannot be read. *)
Definition closes (k : kind) : bool :=
  match k with K_TRKG | K_DATD => false | _ => true end.

(** What the format does not keep (see the [_ok] conditions of the classes). *)
Definition ok_of (k : kind) : C_type (class_of k) -> Prop :=
  match k with
  | K_ATTR => attributes_ok
  | K_PRLS => parameter_list_ok
  | K_TMCS => time_crumb_list_ok
  | K_BVst => bin_view_setting_ok
  | K_ABIN => bin_ok
  | K_BINF => bin_first_ok
  | K_SEQU => sequence_ok
  | K_SCLP => source_clip_ok
  | K_TCCP => timecode_ok
  | K_ECCP => edgecode_ok
  | K_TRKR => track_ref_ok
  | K_PRCL => param_clip_ok
  | K_CTRL => control_clip_ok
  | K_FILL => filler_ok
  | K_MDES => media_descriptor_ok
  | K_MDTP => tape_descriptor_ok
  | K_MDFM => film_descriptor_ok
  | K_MDNG => film_descriptor_ok
  | K_MDFL => media_file_descriptor_ok
  | K_MULD => multi_descriptor_ok
  | K_WAVE => wave_descriptor_ok
  | K_AIFC => aifc_descriptor_ok
  | K_PCMA => pcma_descriptor_ok
  | K_MPGA => mpga_descriptor_ok
  | K_DIDD => did_descriptor_ok
  | K_CDCI => cdci_descriptor_ok
  | K_MPGI => mpgi_descriptor_ok
  | K_JPED => jped_descriptor_ok
  | K_RGBA => rgba_descriptor_ok
  | K_DATD => data_descriptor_ok
  | K_ANCD => anc_data_descriptor_ok
  | K_FILE => file_locator_ok
  | K_WINF => file_locator_ok
  | K_URLL => url_locator_ok
  | K_GRFX => graphic_effect_ok
  | K_SHLP => shape_list_ok
  | K_CCFX => color_correction_effect_ok
  | K_FXPS => effect_param_list_ok
  | K_AVUP => cf_user_param_ok
  | K_PRIT => parameter_item_ok
  | K_MSML => msm_locator_ok
  | K_APOS => position_ok
  | K_ABOB => bob_position_ok
  | K_DIDP => did_position_ok
  | K_MPGP => mpg_position_ok
  | K_MCBR => bin_ref_ok
  | K_MCMR => mob_ref_ok
  | K_TMBC => marker_ok
  | K_TKMN => tracker_manager_ok
  | K_TKDS => tracker_data_slot_ok
  | K_TKPS => tracker_parameter_slot_ok
  | K_TKDA => tracker_data_ok
  | K_TKPA => tracker_parameter_ok
  | K_TRKG => track_group_ok
  | K_TKFX => track_effect_ok
  | K_PVOL => pan_volume_effect_ok
  | K_ASPI => audio_suite_effect_ok
  | K_EQMB => equalizer_multi_band_ok
  | K_MASK => capture_mask_ok
  | K_STRB => strobe_effect_ok
  | K_SPED => motion_effect_ok
  | K_REPT => repeat_effect_ok
  | K_RSET => essence_group_ok
  | K_TNFX => transition_effect_ok
  | K_SLCT => selector_ok
  | K_CMPO => composition_ok
  end.

(** When the writer accepts the object (the [_fits] conditions of Fits.v). *)
Definition fits_of (k : kind) : octx -> C_type (class_of k) -> Prop :=
  match k with
  | K_ATTR => attributes_fits
  | K_PRLS => parameter_list_fits
  | K_TMCS => time_crumb_list_fits
  | K_BVst => bin_view_setting_fits
  | K_ABIN => bin_fits
  | K_BINF => bin_first_fits
  | K_SEQU => sequence_fits
  | K_SCLP => source_clip_fits
  | K_TCCP => timecode_fits
  | K_ECCP => edgecode_fits
  | K_TRKR => track_ref_fits
  | K_PRCL => param_clip_fits
  | K_CTRL => control_clip_fits
  | K_FILL => filler_fits
  | K_MDES => media_descriptor_fits
  | K_MDTP => tape_descriptor_fits
  | K_MDFM => film_descriptor_fits
  | K_MDNG => film_descriptor_fits
  | K_MDFL => media_file_descriptor_fits
  | K_MULD => multi_descriptor_fits
  | K_WAVE => wave_descriptor_fits
  | K_AIFC => aifc_descriptor_fits
  | K_PCMA => pcma_descriptor_fits
  | K_MPGA => mpga_descriptor_fits
  | K_DIDD => did_descriptor_fits
  | K_CDCI => cdci_descriptor_fits
  | K_MPGI => mpgi_descriptor_fits
  | K_JPED => jped_descriptor_fits
  | K_RGBA => rgba_descriptor_fits
  | K_DATD => data_descriptor_fits
  | K_ANCD => anc_data_descriptor_fits
  | K_FILE => file_locator_fits
  | K_WINF => file_locator_fits
  | K_URLL => url_locator_fits
  | K_GRFX => graphic_effect_fits
  | K_SHLP => shape_list_fits
  | K_CCFX => color_correction_effect_fits
  | K_FXPS => effect_param_list_fits
  | K_AVUP => cf_user_param_fits
  | K_PRIT => parameter_item_fits
  | K_MSML => msm_locator_fits
  | K_APOS => position_fits
  | K_ABOB => bob_position_fits
  | K_DIDP => did_position_fits
  | K_MPGP => mpg_position_fits
  | K_MCBR => bin_ref_fits
  | K_MCMR => mob_ref_fits
  | K_TMBC => marker_fits
  | K_TKMN => tracker_manager_fits
  | K_TKDS => tracker_data_slot_fits
  | K_TKPS => tracker_parameter_slot_fits
  | K_TKDA => tracker_data_fits
  | K_TKPA => tracker_parameter_fits
  | K_TRKG => track_group_fits
  | K_TKFX => track_effect_fits
  | K_PVOL => pan_volume_effect_fits
  | K_ASPI => audio_suite_effect_fits
  | K_EQMB => equalizer_multi_band_fits
  | K_MASK => capture_mask_fits
  | K_STRB => strobe_effect_fits
  | K_SPED => motion_effect_fits
  | K_REPT => repeat_effect_fits
  | K_RSET => essence_group_fits
  | K_TNFX => transition_effect_fits
  | K_SLCT => selector_fits
  | K_CMPO => composition_fits
  end.

(** Every track has its lock number (a missing one is read back as 0). *)
Definition whole_of (k : kind) : C_type (class_of k) -> Prop :=
  match k with
  | K_ATTR => always
  | K_PRLS => always
  | K_TMCS => always
  | K_BVst => always
  | K_ABIN => always
  | K_BINF => always
  | K_SEQU => always
  | K_SCLP => always
  | K_TCCP => always
  | K_ECCP => always
  | K_TRKR => always
  | K_PRCL => always
  | K_CTRL => always
  | K_FILL => always
  | K_MDES => always
  | K_MDTP => always
  | K_MDFM => always
  | K_MDNG => always
  | K_MDFL => always
  | K_MULD => always
  | K_WAVE => always
  | K_AIFC => always
  | K_PCMA => always
  | K_MPGA => always
  | K_DIDD => always
  | K_CDCI => always
  | K_MPGI => always
  | K_JPED => always
  | K_RGBA => always
  | K_DATD => always
  | K_ANCD => always
  | K_FILE => always
  | K_WINF => always
  | K_URLL => always
  | K_GRFX => always
  | K_SHLP => always
  | K_CCFX => always
  | K_FXPS => always
  | K_AVUP => always
  | K_PRIT => always
  | K_MSML => always
  | K_APOS => always
  | K_ABOB => always
  | K_DIDP => always
  | K_MPGP => always
  | K_MCBR => always
  | K_MCMR => always
  | K_TMBC => always
  | K_TKMN => always
  | K_TKDS => always
  | K_TKPS => always
  | K_TKDA => always
  | K_TKPA => always
  | K_TRKG => fun o => locked (o)
  | K_TKFX => fun o => locked (tkfx_group o)
  | K_PVOL => fun o => locked (tkfx_group (pvol_effect o))
  | K_ASPI => fun o => locked (tkfx_group (aspi_effect o))
  | K_EQMB => fun o => locked (tkfx_group (eqmb_effect o))
  | K_MASK => fun o => locked (warp_group (mask_warp o))
  | K_STRB => fun o => locked (warp_group (strb_warp o))
  | K_SPED => fun o => locked (warp_group (sped_warp o))
  | K_REPT => fun o => locked (warp_group (rept_warp o))
  | K_RSET => fun o => locked (rset_group o)
  | K_TNFX => fun o => locked (tnfx_group o)
  | K_SLCT => fun o => locked (slct_group o)
  | K_CMPO => fun o => locked (cmpo_group o)
  end.

(** The same for objects. *)
Definition obj_ok (o : obj) : Prop := closes (okind o) = true /\ ok_of (okind o) (oval o).
Definition obj_fits (c : octx) (o : obj) : Prop := fits_of (okind o) c (oval o).
Definition obj_whole (o : obj) : Prop := whole_of (okind o) (oval o).
