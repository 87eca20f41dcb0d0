(** What the readers of the classes can return. For each class [X_got]: the conditions of Fits.v and
    of the class ([X_fits], [X_ok]), as far as whatever is read satisfies them; and the proof, reader
    by reader, that it does. What is missing from [X_got] is in ResaveSpec.v. *)
From Coq Require Import ZArith List Bool Lia.
From Verif Require Import Base IoCtx Text Exp10 MobId Storable Attributes Components TrackGroups
  Misc Essence BinModel RoundTrip TextProofs LocProofs Fits RefsProofs GotProofs.
Import ListNotations.
Open Scope Z_scope.

(** ** Conditions *)

Definition attr_got (p : str * attr_value) : Prop :=
  str_got (fst p) /\
  match snd p with
  | AInt v => fits_s32 v
  | AStr s => str_got s
  | ARef r => ref_in r
  | ABob v => fits_u32 (len v)
  end.

Definition attributes_got (o : attributes) : Prop :=
  fits_u32 (len o) /\
  Forall attr_got o /\
  NoDup (map fst o).

Definition parameter_list_got (o : parameter_list) : Prop :=
  fits_s32 (len o) /\
  Forall ref_in o.

Definition time_crumb_list_got (o : time_crumb_list) : Prop :=
  fits_s16 (len o) /\
  Forall ref_in o.

Definition component_got (o : component) : Prop :=
  ref_in (cpnt_left_bob o) /\
  ref_in (cpnt_right_bob o) /\
  fits_s16 (cpnt_media_kind_id o) /\
  str_got (cpnt_name o) /\
  str_got (cpnt_effect_id o) /\
  ref_in (cpnt_attributes o) /\
  ref_in (cpnt_session_attrs o) /\
  ref_in (cpnt_precomputed o) /\
  opt_ok ref_in (cpnt_param_list o).

Definition sequence_got (o : sequence) : Prop :=
  component_got (sequ_component o) /\
  fits_u32 (len (sequ_components o)) /\
  Forall ref_in (sequ_components o).

Definition clip_got (o : clip) : Prop :=
  component_got (clip_component o) /\
  fits_u32 (clip_length o).

Definition source_clip_got (o : source_clip) : Prop :=
  clip_got (sclp_clip o) /\
  fits_s16 (sclp_track_id o) /\
  fits_s32 (sclp_start_time o) /\
  opt_ok mobid_wf (sclp_mob_id o).

Definition timecode_got (o : timecode) : Prop :=
  clip_got (tccp_clip o) /\
  fits_u32 (tccp_flags o) /\
  fits_u16 (tccp_fps o) /\
  fits_u32 (tccp_start o).

Definition edgecode_got (o : edgecode) : Prop :=
  clip_got (eccp_clip o) /\
  len (eccp_header o) = 8 /\
  fits_u8 (eccp_film_kind o) /\
  fits_u8 (eccp_code_format o) /\
  fits_u16 (eccp_base_perf o) /\
  fits_s32 (eccp_start_ec o).

Definition track_ref_got (o : track_ref) : Prop :=
  clip_got (trkr_clip o) /\
  fits_s16 (trkr_relative_scope o) /\
  fits_s16 (trkr_relative_track o).

Definition param_point_property_got (o : param_point_property) : Prop :=
  fits_s16 (ppp_code o) /\
  match ppp_value o with
  | CPInt n => ppp_type o = 1 /\ fits_s32 n
  | CPDouble d => ppp_type o = 2 /\ fits_double d
  | CPRef _ => False
  end.

Definition cp_value_got (value_type : Z) (v : cp_value) : Prop :=
  match v with
  | CPInt n => value_type = 1 /\ fits_s32 n
  | CPDouble d => value_type = 2 /\ fits_double d
  | CPRef r => value_type = 4 /\ ref_in r
  end.

Definition param_control_point_got (value_type : Z) (o : param_control_point) : Prop :=
  fits_s32 (pcp_offset_num o) /\
  fits_s32 (pcp_offset_den o) /\
  fits_s32 (pcp_timescale o) /\
  cp_value_got value_type (pcp_value o) /\
  fits_s16 (len (pcp_pp o)) /\
  Forall param_point_property_got (pcp_pp o).

Definition param_clip_got (o : param_clip) : Prop :=
  clip_got (prcl_clip o) /\
  fits_s32 (prcl_interp_kind o) /\
  fits_s16 (prcl_value_type o) /\
  fits_s32 (len (prcl_control_points o)) /\
  Forall (param_control_point_got (prcl_value_type o)) (prcl_control_points o) /\
  opt_ok fits_s32 (prcl_extrap_kind o) /\
  opt_ok fits_s32 (prcl_fields o) /\
  (prcl_value_type o = 1 \/ prcl_value_type o = 2 \/ prcl_value_type o = 4).

Definition control_point_property_got (o : control_point_property) : Prop :=
  fits_s16 (cpp_code o) /\
  fits_s32 (cpp_value_num o) /\
  fits_s32 (cpp_value_den o).

Definition control_point_got (o : control_point) : Prop :=
  fits_s32 (cp_offset_num o) /\
  fits_s32 (cp_offset_den o) /\
  fits_s32 (cp_time_scale o) /\
  fits_s32 (cp_value_num o) /\
  fits_s32 (cp_value_den o) /\
  fits_s16 (len (cp_pp o)) /\
  Forall control_point_property_got (cp_pp o).

Definition control_clip_got (o : control_clip) : Prop :=
  clip_got (ctrl_clip o) /\
  fits_s32 (ctrl_interp_kind o) /\
  fits_s32 (len (ctrl_control_points o)) /\
  Forall control_point_got (ctrl_control_points o).

Definition filler_got (o : filler) : Prop :=
  clip_got (fill_clip o).

Definition track_got (t : track) : Prop :=
  opt_ok fits_s16 (trak_index t) /\
  opt_ok ref_in (trak_attributes t) /\
  opt_ok ref_in (trak_session_attr t) /\
  opt_ok ref_in (trak_component t) /\
  opt_ok ref_in (trak_filler_proxy t) /\
  opt_ok ref_in (trak_bob_data t) /\
  opt_ok fits_s16 (trak_control_code t) /\
  opt_ok fits_s16 (trak_control_sub_code t) /\
  opt_ok fits_s32 (trak_start_pos t).

Definition lock_got (t : track) : Prop :=
  opt_ok fits_s16 (trak_lock_number t).

Definition track_group_got (o : track_group) : Prop :=
  component_got (trkg_component o) /\
  fits_u8 (trkg_mc_mode o) /\
  fits_s32 (trkg_length o) /\
  fits_s32 (trkg_num_scalars o) /\
  fits_s32 (len (trkg_tracks o)) /\
  Forall track_got (trkg_tracks o) /\
  Forall lock_got (trkg_tracks o).

Definition track_effect_base_got (o : track_effect) : Prop :=
  track_group_got (tkfx_group o) /\
  fits_s32 (tkfx_left_length o) /\
  fits_s32 (tkfx_right_length o) /\
  fits_s16 (tkfx_info_version o) /\
  fits_s32 (tkfx_info_current o) /\
  fits_s32 (tkfx_info_smooth o) /\
  fits_s16 (tkfx_info_color_item o) /\
  fits_s16 (tkfx_info_quality o) /\
  fits_s8 (tkfx_info_is_reversed o) /\
  ref_in (tkfx_keyframes o) /\
  opt_ok ref_in (tkfx_trackman o).

Definition track_effect_got (o : track_effect) : Prop :=
  track_effect_base_got o.

Definition pan_volume_effect_got (o : pan_volume_effect) : Prop :=
  track_effect_base_got (pvol_effect o) /\
  fits_s32 (pvol_level o) /\
  fits_s32 (pvol_pan o) /\
  opt_ok fits_s32 (pvol_supports_seperate_gain o) /\
  opt_ok fits_s32 (pvol_is_trim_gain_effect o).

Definition aspi_chunk_got (o : aspi_chunk) : Prop :=
  fits_s32 (len (aspc_data o)) /\
  fits_s32 (aspc_version o) /\
  fits_u32 (aspc_manufacturer_id o) /\
  fits_u32 (aspc_product_id o) /\
  fits_u32 (aspc_plugin_id o) /\
  fits_u32 (aspc_chunk_id o) /\
  str_got (aspc_name o).

Definition aspi_plugin_got (o : aspi_plugin) : Prop :=
  str_got (aspp_name o) /\
  fits_u32 (aspp_manufacturer_id o) /\
  fits_u32 (aspp_product_id o) /\
  fits_u32 (aspp_plugin_id o) /\
  fits_s32 (len (aspp_chunks o)) /\
  Forall aspi_chunk_got (aspp_chunks o).

Definition preset_path_got (v : bytes) : Prop :=
  fits_u32 (len v).

Definition audio_suite_effect_got (o : audio_suite_effect) : Prop :=
  track_effect_base_got (aspi_effect o) /\
  fits_s32 (len (aspi_plugins o)) /\
  Forall aspi_plugin_got (aspi_plugins o) /\
  opt_ok fits_s64 (aspi_mark_in o) /\
  opt_ok fits_s64 (aspi_mark_out o) /\
  opt_ok fits_s32 (aspi_tracks_to_affect o) /\
  opt_ok fits_s32 (aspi_rendering_mode o) /\
  opt_ok fits_s32 (aspi_padding_secs o) /\
  opt_ok preset_path_got (aspi_preset_path o) /\
  opt_ok mobid_wf (aspi_mob_id o) /\
  length (aspi_plugins o) = 1%nat.

Definition equalizer_band_got (o : equalizer_band) : Prop :=
  fits_s32 (eqbd_type o) /\
  fits_s32 (eqbd_freq o) /\
  fits_s32 (eqbd_gain o) /\
  fits_s32 (eqbd_q o).

Definition equalizer_multi_band_got (o : equalizer_multi_band) : Prop :=
  track_effect_base_got (eqmb_effect o) /\
  fits_s32 (len (eqmb_bands o)) /\
  Forall equalizer_band_got (eqmb_bands o) /\
  str_got (eqmb_filter_name o).

Definition time_warp_got (o : time_warp) : Prop :=
  track_group_got (warp_group o) /\
  fits_s32 (warp_phase_offset o).

Definition capture_mask_got (o : capture_mask) : Prop :=
  time_warp_got (mask_warp o) /\
  fits_u32 (mask_mask_bits o).

Definition strobe_effect_got (o : strobe_effect) : Prop :=
  time_warp_got (strb_warp o) /\
  fits_s32 (strb_strobe_value o).

Definition motion_effect_got (o : motion_effect) : Prop :=
  time_warp_got (sped_warp o) /\
  fits_s32 (sped_speed_num o) /\
  fits_s32 (sped_speed_den o) /\
  opt_ok fits_double (sped_offset_adjust o) /\
  opt_ok ref_in (sped_source_param_list o).

Definition repeat_effect_got (o : repeat_effect) : Prop :=
  time_warp_got (rept_warp o).

Definition essence_group_got (o : essence_group) : Prop :=
  track_group_got (rset_group o) /\
  opt_ok fits_s32 (rset_rep_set_type o).

Definition transition_effect_got (o : transition_effect) : Prop :=
  track_group_got (tnfx_group o) /\
  fits_s32 (tnfx_cutpoint o) /\
  fits_s32 (tnfx_left_length o) /\
  fits_s32 (tnfx_right_length o) /\
  fits_s16 (tnfx_info_version o) /\
  fits_s32 (tnfx_info_current o) /\
  fits_s32 (tnfx_info_smooth o) /\
  fits_s16 (tnfx_info_color_item o) /\
  fits_s16 (tnfx_info_quality o) /\
  fits_s8 (tnfx_info_is_reversed o) /\
  ref_in (tnfx_keyframes o) /\
  opt_ok ref_in (tnfx_trackman o).

Definition selector_got (o : selector) : Prop :=
  track_group_got (slct_group o) /\
  fits_u16 (slct_selected o) /\
  slct_selected o < len (trkg_tracks (slct_group o)).

Definition composition_got (o : composition) : Prop :=
  track_group_got (cmpo_group o) /\
  fits_date (cmpo_last_modified o) /\
  fits_u8 (cmpo_mob_type_id o) /\
  fits_s32 (cmpo_usage_code o) /\
  ref_in (cmpo_descriptor o) /\
  opt_ok fits_date (cmpo_creation_time o) /\
  opt_ok mobid_wf (cmpo_mob_id o).

Definition file_locator_got (o : file_locator) : Prop :=
  str_got (file_path o) /\
  opt_ok str_got (file_path_posix o) /\
  opt_ok (utf8_got 65534) (file_path_utf8 o) /\
  opt_ok (utf8_got 65534) (file_path2_utf8 o).

Definition url_locator_got (o : url_locator) : Prop :=
  True.

Definition graphic_effect_got (o : graphic_effect) : Prop :=
  fits_s32 (len (grfx_pict_data o)).

Definition shape_list_got (o : shape_list) : Prop :=
  fits_s32 (len (shlp_shape_data o)).

Definition color_correction_effect_got (o : color_correction_effect) : Prop :=
  fits_s16 (len (ccfx_color_correction o)).

Definition box_got (v : rect) : Prop :=
  fits_s32 (rc0 v) /\
  fits_s32 (rc1 v) /\
  fits_s32 (rc2 v) /\
  fits_s32 (rc3 v).

Definition effect_param_got (o : effect_param) : Prop :=
  fits_s32 (fxp_percent_time o) /\
  fits_s32 (fxp_level o) /\
  fits_s32 (fxp_pos_x o) /\
  fits_s32 (fxp_floor_x o) /\
  fits_s32 (fxp_ceil_x o) /\
  fits_s32 (fxp_pos_y o) /\
  fits_s32 (fxp_floor_y o) /\
  fits_s32 (fxp_ceil_y o) /\
  fits_s32 (fxp_scale_x o) /\
  fits_s32 (fxp_scale_y o) /\
  fits_s32 (fxp_crop_left o) /\
  fits_s32 (fxp_crop_right o) /\
  fits_s32 (fxp_crop_top o) /\
  fits_s32 (fxp_crop_bottom o) /\
  box_got (fxp_box o) /\
  fits_s32 (fxp_border_width o) /\
  fits_s32 (fxp_border_soft o) /\
  fits_s16 (fxp_splill_gain2 o) /\
  fits_s16 (fxp_splill_gain o) /\
  fits_s16 (fxp_splill_soft2 o) /\
  fits_s16 (fxp_splill_soft o) /\
  fits_s8 (fxp_enable_key_flags o) /\
  fits_s32 (len (fxp_colors o)) /\
  Forall fits_s32 (fxp_colors o) /\
  fits_s32 (len (fxp_user_param o)).

Definition effect_param_list_got (o : effect_param_list) : Prop :=
  fits_s32 (fxps_orig_length o) /\
  fits_s32 (fxps_window_offset o) /\
  fits_s32 (len (fxps_parameters o)) /\
  fits_s32 (fxps_keyframe_size o) /\
  Forall effect_param_got (fxps_parameters o).

Definition cf_user_param_got (o : cf_user_param) : Prop :=
  fits_s32 (len (avup_data o) + 4) /\
  fits_s32 (len (avup_data o)) /\
  uuid_wf (avup_uuid o) /\
  avup_byte_order o = 0x4949.

Definition parameter_item_got (o : parameter_item) : Prop :=
  cp_value_got (prit_value_type o) (prit_value o) /\
  str_got (prit_name o) /\
  ref_in (prit_control_track o) /\
  uuid_wf (prit_uuid o).

Definition msm_locator_got (o : msm_locator) : Prop :=
  str_got (msml_last_known_volume o) /\
  opt_ok fits_s32 (msml_domain_type o) /\
  opt_ok (utf8_got 65534) (msml_last_known_volume_utf8 o) /\
  opt_ok mobid_wf (msml_mob_id o).

Definition position_base_got (o : position) : Prop :=
  opt_ok mobid_wf (apos_mob_id o).

Definition position_got (o : position) : Prop :=
  position_base_got o.

Definition bob_position_base_got (o : bob_position) : Prop :=
  position_base_got (abob_position o) /\
  fits_s32 (abob_sample_num o) /\
  fits_s32 (abob_length o) /\
  fits_s16 (abob_track_type o) /\
  fits_s16 (abob_track_index o).

Definition bob_position_got (o : bob_position) : Prop :=
  bob_position_base_got o.

Definition did_position_base_got (o : did_position) : Prop :=
  bob_position_base_got (didp_bob o) /\
  fits_s32 (didp_strip o) /\
  fits_u64 (didp_offset o) /\
  fits_u64 (didp_byte_length o).

Definition did_position_got (o : did_position) : Prop :=
  did_position_base_got o.

Definition mpg_field_got (p : Z * Z) : Prop :=
  fits_u8 (fst p) /\ fits_u32 (snd p).

Definition mpg_fields_got (l : list (Z * Z)) : Prop :=
  fits_s16 (len l) /\ Forall mpg_field_got l.

Definition mpg_position_got (o : mpg_position) : Prop :=
  did_position_base_got (mpgp_did o) /\
  fits_s16 (mpgp_trailing_discards o) /\
  mpg_fields_got (mpgp_fields o).

Definition bin_ref_got (o : bin_ref) : Prop :=
  fits_s32 (mcbr_uid_high o) /\
  fits_s32 (mcbr_uid_low o) /\
  str_got (mcbr_name o) /\
  opt_ok (utf8_got 65534) (mcbr_name_utf8 o).

Definition mob_ref_base_got (o : mob_ref) : Prop :=
  fits_s32 (mcmr_position o) /\
  opt_ok mobid_wf (mcmr_mob_id o).

Definition mob_ref_got (o : mob_ref) : Prop :=
  mob_ref_base_got o.

Definition marker_got (o : marker) : Prop :=
  mob_ref_base_got (tmbc_mob_ref o) /\
  fits_s32 (tmbc_comp_offset o) /\
  ref_in (tmbc_attributes o) /\
  Forall fits_u16 (tmbc_color o) /\
  length (tmbc_color o) = 3%nat.

Definition tracker_manager_got (o : tracker_manager) : Prop :=
  ref_in (tkmn_data_slots o) /\
  ref_in (tkmn_param_slots o).

Definition tracker_data_slot_got (o : tracker_data_slot) : Prop :=
  fits_s32 (len (tkds_tracker_data o)) /\
  Forall ref_in (tkds_tracker_data o).

Definition tracker_parameter_slot_got (o : tracker_parameter_slot) : Prop :=
  fits_s16 (len (tkps_settings o)) /\
  fits_s32 (len (tkps_params o)) /\
  Forall ref_in (tkps_params o).

Definition tracker_data_got (o : tracker_data) : Prop :=
  fits_s16 (len (tkda_settings o)) /\
  fits_u32 (tkda_clip_version o) /\
  fits_s16 (len (tkda_clips o)) /\
  Forall ref_in (tkda_clips o) /\
  opt_ok fits_u32 (tkda_offset_tracking o) /\
  opt_ok fits_u32 (tkda_smoothing o) /\
  opt_ok fits_u32 (tkda_jitter_removal o) /\
  opt_ok fits_double (tkda_filter_amount o) /\
  opt_ok ref_in (tkda_clip5 o) /\
  opt_ok ref_in (tkda_clip6 o).

Definition tracker_parameter_got (o : tracker_parameter) : Prop :=
  fits_s16 (len (tkpa_settings o)).

Definition media_descriptor_base_got (o : media_descriptor) : Prop :=
  fits_u8 (mdes_mob_kind o) /\
  ref_in (mdes_locator o) /\
  ref_in (mdes_physical_media o) /\
  opt_ok (fun v => fits_s32 (len v)) (mdes_wchar o) /\
  opt_ok ref_in (mdes_attributes o) /\
  opt_ok uuid_wf (mdes_uuid o).

Definition media_descriptor_got (o : media_descriptor) : Prop :=
  media_descriptor_base_got o.

Definition tape_descriptor_got (o : tape_descriptor) : Prop :=
  media_descriptor_base_got (mdtp_media o) /\
  fits_s16 (mdtp_cframe o).

Definition film_descriptor_got (o : film_descriptor) : Prop :=
  media_descriptor_base_got o.

Definition media_file_descriptor_base_got (o : media_file_descriptor) : Prop :=
  media_descriptor_base_got (mdfl_media o) /\
  fits_s32 (mdfl_length o) /\
  fits_s16 (mdfl_is_omfi o) /\
  fits_s32 (mdfl_data_offset o).

Definition media_file_descriptor_got (o : media_file_descriptor) : Prop :=
  media_file_descriptor_base_got o.

Definition multi_descriptor_got (o : multi_descriptor) : Prop :=
  media_file_descriptor_base_got (muld_file o) /\
  fits_s32 (len (muld_descriptors o)) /\
  Forall ref_in (muld_descriptors o).

Definition wave_descriptor_got (o : wave_descriptor) : Prop :=
  media_file_descriptor_base_got (wave_file o) /\
  fits_u32 (len (wave_summary o)).

Definition aifc_descriptor_got (o : aifc_descriptor) : Prop :=
  media_file_descriptor_base_got (aifc_file o) /\
  fits_u32 (len (aifc_summary o)) /\
  opt_ok fits_s32 (aifc_data_pos o).

Definition pcma_descriptor_got (o : pcma_descriptor) : Prop :=
  media_file_descriptor_base_got (pcma_file o) /\
  fits_u16 (pcma_channels o) /\
  fits_u16 (pcma_quantization_bits o) /\
  fits_s16 (pcma_audio_ref_level o) /\
  fits_s32 (pcma_electro_spatial_formulation o) /\
  fits_u16 (pcma_dial_norm o) /\
  fits_u32 (pcma_coding_format o) /\
  fits_u32 (pcma_block_align o) /\
  fits_u16 (pcma_sequence_offset o) /\
  fits_u32 (pcma_average_bps o) /\
  fits_s32 (pcma_peak_envelope_version o) /\
  fits_s32 (pcma_peak_envelope_format o) /\
  fits_s32 (pcma_points_per_peak_value o) /\
  fits_s32 (pcma_peak_envelope_block_size o) /\
  fits_s32 (pcma_peak_channel_count o) /\
  fits_s32 (pcma_peak_frame_count o) /\
  fits_u64 (pcma_peak_of_peaks_offset o) /\
  fits_s32 (pcma_peak_envelope_timestamp o) /\
  opt_ok fits_s64 (pcma_ebu_timestamp o) /\
  opt_ok str_got (pcma_timecode_framerate o).

Definition mpga_descriptor_got (o : mpga_descriptor) : Prop :=
  media_file_descriptor_base_got (mpga_file o) /\
  fits_u16 (mpga_channels o) /\
  fits_u16 (mpga_quantization_bits o) /\
  fits_s16 (mpga_audio_ref_level o) /\
  fits_s32 (mpga_electro_spatial_formulation o) /\
  fits_u16 (mpga_dial_norm o) /\
  fits_u32 (mpga_coding_format o) /\
  fits_u32 (mpga_bit_rate o) /\
  opt_ok fits_u64 (mpga_sub_frame_alignment o) /\
  opt_ok fits_u64 (mpga_origin o) /\
  opt_ok (fun v => 0 <= v) (mpga_sub_frame_alignment o).

Definition point_got (x y : Z) : Prop :=
  fits_s32 x /\
  fits_s32 y.

Definition bounds_box_got (b : bounds_box) : Prop :=
  point_got (bb_x0 b) (bb_y0 b) /\
  point_got (bb_x1 b) (bb_y1 b) /\
  point_got (bb_x2 b) (bb_y2 b) /\
  point_got (bb_x3 b) (bb_y3 b).

Definition client_fill_got (s e : option Z) : Prop :=
  match s with
  | None => True
  | Some a => fits_s32 a /\ match e with Some b => fits_s32 b | None => False end
  end.

Definition boxes_got (va es so : option bounds_box) : Prop :=
  match va, es, so with
  | Some a, Some b, Some d => bounds_box_got a /\ bounds_box_got b /\ bounds_box_got d
  | _, _, _ => True
  end.

Definition framing_got (fb : option bounds_box) (ro : option Z) : Prop :=
  match fb, ro with
  | Some a, Some b => bounds_box_got a /\ fits_s32 b
  | _, _ => True
  end.

Definition color_got (cp ce : option uuid) : Prop :=
  True.

Definition line_map_got (l : list Z) : Prop :=
  fits_s32 (len l * 4) /\
  Forall fits_s32 l.

Definition did_descriptor_base_got (o : did_descriptor) : Prop :=
  media_file_descriptor_base_got (didd_file o) /\
  fits_s32 (didd_stored_height o) /\
  fits_s32 (didd_stored_width o) /\
  fits_s32 (didd_sampled_height o) /\
  fits_s32 (didd_sampled_width o) /\
  fits_s32 (didd_sampled_x_offset o) /\
  fits_s32 (didd_sampled_y_offset o) /\
  fits_s32 (didd_display_height o) /\
  fits_s32 (didd_display_width o) /\
  fits_s32 (didd_display_x_offset o) /\
  fits_s32 (didd_display_y_offset o) /\
  fits_s16 (didd_frame_layout o) /\
  fits_s32 (didd_aspect_num o) /\
  fits_s32 (didd_aspect_den o) /\
  line_map_got (didd_line_map o) /\
  fits_s32 (didd_alpha_transparency o) /\
  fits_s32 (didd_did_image_size o) /\
  ref_in (didd_next_did_desc o) /\
  len (didd_compress_method o) = 4 /\
  fits_s32 (didd_resolution_id o) /\
  fits_s32 (didd_image_alignment_factor o) /\
  opt_ok fits_s16 (didd_frame_index_byte_order o) /\
  opt_ok fits_s32 (didd_frame_sample_size o) /\
  opt_ok fits_s32 (didd_first_frame_offset o) /\
  client_fill_got (didd_client_fill_start o) (didd_client_fill_end o) /\
  opt_ok fits_s32 (didd_offset_to_rle_frame_index o) /\
  opt_ok fits_s32 (didd_frame_start_offset o) /\
  boxes_got (didd_valid_box o) (didd_essence_box o) (didd_source_box o) /\
  framing_got (didd_framing_box o) (didd_reformatting_option o) /\
  color_got (didd_color_primaries o) (didd_coding_equations o) /\
  opt_ok fits_u8 (didd_essence_element_size_kind o) /\
  opt_ok uuid_wf (didd_transfer_characteristic o) /\
  opt_ok uuid_wf (didd_color_primaries o) /\
  opt_ok uuid_wf (didd_coding_equations o) /\
  opt_ok uuid_wf (didd_essence_compression o) /\
  (didd_client_fill_start o = None -> didd_client_fill_end o = None) /\
  same_presence (didd_valid_box o) (didd_essence_box o) /\
  same_presence (didd_valid_box o) (didd_source_box o) /\
  same_presence (didd_framing_box o) (didd_reformatting_option o) /\
  same_presence (didd_color_primaries o) (didd_coding_equations o).

Definition did_descriptor_got (o : did_descriptor) : Prop :=
  did_descriptor_base_got o.

Definition cdci_descriptor_base_got (o : cdci_descriptor) : Prop :=
  did_descriptor_base_got (cdci_did o) /\
  fits_u32 (cdci_horizontal_subsampling o) /\
  fits_u32 (cdci_vertical_subsampling o) /\
  fits_s32 (cdci_component_width o) /\
  fits_s16 (cdci_color_sitting o) /\
  fits_u32 (cdci_black_ref_level o) /\
  fits_u32 (cdci_white_ref_level o) /\
  fits_u32 (cdci_color_range o) /\
  fits_s64 (cdci_frame_index_offset o) /\
  opt_ok fits_u32 (cdci_alpha_sampled_width o) /\
  opt_ok fits_u32 (cdci_ignore_bw o).

Definition cdci_descriptor_got (o : cdci_descriptor) : Prop :=
  cdci_descriptor_base_got o.

Definition mpgi_descriptor_got (o : mpgi_descriptor) : Prop :=
  cdci_descriptor_base_got (mpgi_cdci o) /\
  fits_u8 (mpgi_mpeg_version o) /\
  fits_u8 (mpgi_profile o) /\
  fits_u8 (mpgi_gop_structure o) /\
  fits_u8 (mpgi_stream_type o) /\
  fits_u16 (mpgi_min_gop_length o) /\
  fits_u16 (mpgi_max_gop_length o) /\
  fits_s32 (len (mpgi_sequence_hdr o)).

Definition jped_descriptor_got (o : jped_descriptor) : Prop :=
  cdci_descriptor_base_got (jped_cdci o) /\
  fits_s32 (jped_jpeg_table_id o) /\
  fits_u64 (jped_jpeg_frame_index_offset o) /\
  fits_s32 (len (jped_quantization_tables o)) /\
  opt_ok fits_s32 (jped_image_start_align o).

Definition pixel_layout_got (l : list (Z * Z)) : Prop :=
  Forall (fun p => fits_u8 (fst p) /\ fits_u8 (snd p)) l /\ len l <= 4294967295.

Definition comp_refs_got (o : rgba_descriptor) : Prop :=
  rgba_has_comp_min_ref o = None \/
  (exists v, rgba_comp_min_ref o = Some v /\ fits_u32 v) /\
  rgba_has_comp_max_ref o <> None /\
  (exists v, rgba_comp_max_ref o = Some v /\ fits_u32 v).

Definition alpha_refs_got (o : rgba_descriptor) : Prop :=
  match rgba_alpha_min_ref o with
  | None => True
  | Some a => fits_u32 a /\ exists v, rgba_alpha_max_ref o = Some v /\ fits_u32 v
  end.

Definition rgba_descriptor_got (o : rgba_descriptor) : Prop :=
  did_descriptor_base_got (rgba_did o) /\
  pixel_layout_got (rgba_pixel_layout o) /\
  opt_ok fits_u64 (rgba_frame_index_offset o) /\
  comp_refs_got o /\
  alpha_refs_got o /\
  (rgba_has_comp_min_ref o = None -> rgba_comp_min_ref o = None) /\
  (rgba_has_comp_min_ref o = None -> rgba_has_comp_max_ref o = None) /\
  (rgba_has_comp_min_ref o = None -> rgba_comp_max_ref o = None) /\
  (rgba_alpha_min_ref o = None -> rgba_alpha_max_ref o = None).

Definition data_descriptor_got (o : data_descriptor) : Prop :=
  media_file_descriptor_base_got (datd_file o) /\
  fits_u64 (datd_offset_to_frame_indexes o) /\
  fits_s32 (datd_first_frame_offset o) /\
  fits_s32 (datd_min_sample_size o) /\
  fits_s32 (datd_max_sample_size o).

Definition anc_data_descriptor_got (o : anc_data_descriptor) : Prop :=
  data_descriptor_got (ancd_data o) /\
  fits_s32 (ancd_manifest_element_count o).

Definition setting_got (o : setting) : Prop :=
  str_got (aset_name o) /\
  str_got (aset_kind o) /\
  fits_s16 (aset_attr_count o) /\
  fits_s16 (aset_attr_type o) /\
  ref_in (aset_attributes o).

Definition bin_column_got (o : bin_column) : Prop :=
  str_got (bcol_title o) /\
  fits_s16 (bcol_format o) /\
  fits_s16 (bcol_type o).

Definition format_desc_got (o : format_desc) : Prop :=
  fits_s16 (fdsc_vcid_free_column_id o) /\
  Forall (fun c => 0 <= c < 0xD800 \/ 0xE000 <= c < 0x110000) (fdsc_format_descriptor o).

Definition format_descs_got (l : list format_desc) : Prop :=
  fits_u16 (len l) /\
  Forall format_desc_got l.

Definition bin_view_setting_got (o : bin_view_setting) : Prop :=
  setting_got (bvst_setting o) /\
  fits_u16 (len (bvst_columns o)) /\
  Forall bin_column_got (bvst_columns o) /\
  opt_ok format_descs_got (bvst_format_descriptors o) /\
  opt_ok (fun l => len l < 32768) (bvst_format_descriptors o).

Definition bin_item_got (o : bin_item) : Prop :=
  ref_in (item_mob o) /\ fits_s16 (item_x o) /\ fits_s16 (item_y o) /\
  fits_s32 (item_keyframe o).

Definition sift_item_got (o : sift_item) : Prop :=
  fits_s16 (sift_method o) /\
  str_got (sift_string o) /\
  str_got (sift_column o).

Definition sort_column_got (o : sort_column) : Prop :=
  fits_u8 (scol_direction o) /\
  str_got (scol_name o).

Definition object_count_got (o : bin) : Prop :=
  len (abin_items o) <= 4294967295.

Definition bin_base_got (o : bin) : Prop :=
  ref_in (abin_view_setting o) /\
  fits_u64 (abin_uid o) /\
  object_count_got o /\
  Forall bin_item_got (abin_items o) /\
  fits_s32 (abin_display_mask o) /\
  fits_s16 (abin_display_mode o) /\
  Forall sift_item_got (abin_sifted_settings o) /\
  fits_s16 (len (abin_sort_columns o)) /\
  Forall sort_column_got (abin_sort_columns o) /\
  fits_s16 (abin_mac_font o) /\
  fits_s16 (abin_mac_font_size o) /\
  fits_s16 (abin_mac_image_scale o) /\
  fits_rect (abin_home_rect o) /\
  fits_rgb (abin_background_color o) /\
  fits_rgb (abin_forground_color o) /\
  fits_s16 (abin_ql_image_scale o) /\
  ref_in (abin_attributes o) /\
  length (abin_sifted_settings o) = 6%nat /\
  (abin_large_bin o = false -> len (abin_items o) <= 0xffff).

Definition bin_got (o : bin) : Prop :=
  bin_base_got o.

Definition bin_first_got (o : bin_first) : Prop :=
  bin_base_got (binf_bin o) /\
  fits_s32 (binf_unknown_s32 o).

(** ** Tactics *)

Create HintDb got.
#[export] Hint Resolve got_u8 got_s8 got_u16 got_s16 got_u32 got_s32 got_u64 got_s64 got_double got_date
  got_rect got_rgb got_ref got_str got_utf8 got_mobid got_rawuuid got_rassert : got.

Lemma needs_bool : needs rbool. Proof. eexists. reflexivity. Qed.

Ltac got_needs := repeat first [ apply needs_tag | apply needs_u8 | apply needs_u32 | apply needs_s32
  | apply needs_s16 | apply needs_bool | apply needs_ext | apply needs_bind ].

Ltac got_reader :=
  lazymatch goal with
  | |- res _ (rassert _) => apply got_rassert
  | |- res _ (rlist _ _) => first [solve [eapply got_rlist; eauto 2 with got] | apply res_any; loc]
  | |- res _ (rflag _ _ _) => first [solve [eapply got_rflag; eauto 2 with got] | apply res_any; loc]
  | |- _ => first [solve [eauto 2 with got] | apply res_any; loc]
  end.

Ltac got_step fin :=
  lazymatch goal with
  | |- forall _, _ => intro
  | |- res _ (bind (fread _) _) =>
      first [ eapply got_fread_then; [solve [intro; got_needs]|] | eapply res_bind; [apply got_fread|] ]
  | |- res _ (bind (rfourcc _) _) => eapply got_fourcc_then; [solve [intro; got_needs]|]
  | |- res _ (bind (iter_ext _ _) _) => eapply res_bind; [apply res_iter_ext; [solve [eauto 2 with got]|fin]|]
  | |- res _ (bind _ _) => eapply res_bind; [got_reader|]
  | |- res _ (ret _) => apply res_ret; fin
  | |- res _ (fail _) => apply res_fail
  | |- res _ (iter_ext _ _) => apply res_iter_ext; [solve [eauto 2 with got]|fin]
  | |- res _ (match ?x with _ => _ end) => destruct x eqn:?
  | |- res _ (let _ := _ in _) => cbv zeta
  | |- _ => solve [eauto 2 with got]
  end.

Ltac got_split :=
  repeat match goal with H : _ /\ _ |- _ => destruct H end;
  repeat match goal with |- _ /\ _ => split end.

Ltac got_bool :=
  repeat match goal with
  | H : (_ || _) = true |- _ => apply orb_true_iff in H
  | H : (_ && _) = true |- _ => apply andb_true_iff in H
  | H : (_ =? _) = true |- _ => apply Z.eqb_eq in H
  | H : (_ <=? _) = true |- _ => apply Z.leb_le in H
  | H : (_ <? _) = true |- _ => apply Z.ltb_lt in H
  | H : _ = true \/ _ |- _ => destruct H
  end.

Ltac got_num := unfold fits_u8, fits_s8, fits_u16, fits_s16, fits_u32, fits_s32, fits_u64, fits_s64, fits_date, len in *;
  cbn [length] in *; first [lia | subst; lia | tauto].

Ltac got_ex := eexists; split; [reflexivity|assumption].

Ltac got_atom := first [ assumption | exact I | reflexivity | congruence | solve [split; congruence] | got_ex
  | solve [right; split; [got_ex|]; split; [discriminate|got_ex]]
  | solve [repeat (apply Forall_cons; [assumption|]); constructor] | solve [repeat constructor; assumption] | got_num ].

Ltac got_fin := cbn beta in *; cbn [opt_ok fst snd] in *; got_split; got_bool; got_split; try got_atom.

Section Readers.
Variable i : ictx.


Lemma got_rattr : res attr_got (rattr i).
Proof. unfold rattr. repeat got_step ltac:(unfold attr_got; cbn [fst snd]; got_fin). Qed.
Hint Resolve got_rattr : got.

Lemma dict_set_len : forall V (d : list (str * V)) k v, (length (dict_set d k v) <= S (length d))%nat.
Proof.
  intros V d k v. induction d as [|[k' v'] d IH]; cbn [dict_set length]; [lia|].
  destruct (str_eqb k' k); cbn [length]; lia.
Qed.

Lemma dict_set_keys : forall V (d : list (str * V)) k v x,
  In x (map fst (dict_set d k v)) <-> x = k \/ In x (map fst d).
Proof.
  intros V d k v x. induction d as [|[k' v'] d IH]; cbn [dict_set map fst In]; [intuition congruence|].
  unfold str_eqb. destruct (list_eq_dec Z.eq_dec k' k) as [->|N]; cbn [map fst In]; [intuition congruence|].
  rewrite IH. intuition congruence.
Qed.

Lemma dict_set_nodup : forall V (d : list (str * V)) k v, NoDup (map fst d) -> NoDup (map fst (dict_set d k v)).
Proof.
  intros V d k v. induction d as [|[k' v'] d IH]; cbn [dict_set map fst]; intros H.
  - constructor; [intros []|constructor].
  - inversion H; subst. unfold str_eqb. destruct (list_eq_dec Z.eq_dec k' k) as [->|N]; cbn [map fst].
    + now constructor.
    + constructor; [|now apply IH]. rewrite dict_set_keys. intros [E|E]; [congruence|contradiction].
Qed.

Lemma dict_set_all : forall V (P : str * V -> Prop) d k v, P (k, v) -> Forall P d -> Forall P (dict_set d k v).
Proof.
  intros V P d k v Hv. induction 1 as [|[k' v'] d Hx Hd IH]; cbn [dict_set]; [repeat constructor; exact Hv|].
  destruct (str_eqb k' k); constructor; auto.
Qed.

Lemma got_rattributes : res attributes_got (rattributes i).
Proof.
  unfold rattributes. repeat got_step idtac. cbv beta in *. destruct H2 as [Hl Ll].
  assert (forall l d, Forall attr_got l -> Forall attr_got d -> NoDup (map fst d) ->
    let r := fold_left (fun d p => dict_set d (fst p) (snd p)) l d in
    Forall attr_got r /\ NoDup (map fst r) /\ (length r <= length l + length d)%nat) as Hall.
  { intros l. induction l as [|p l IH]; intros d Al Ad Nd; cbn [fold_left]; [cbn; auto|].
    inversion Al; subst. cbn [length]. cbv zeta in *.
    destruct (IH (dict_set d (fst p) (snd p))) as (A & B & C); [assumption| |now apply dict_set_nodup|].
    - apply dict_set_all; [|assumption]. now destruct p.
    - split; [exact A|]. split; [exact B|]. pose proof (dict_set_len _ d (fst p) (snd p)). lia. }
  destruct (Hall a2 [] Hl (Forall_nil _) (NoDup_nil _)) as (A & B & C).
  split; [|split; assumption]. unfold fits_u32, fits_date in *. unfold len. cbn [length] in C. lia.
Qed.
Hint Resolve got_rattributes : got.

Lemma got_rparameter_list : res parameter_list_got (rparameter_list i).
Proof. unfold rparameter_list. repeat got_step ltac:(unfold parameter_list_got in *; got_fin). Qed.
Hint Resolve got_rparameter_list : got.

Lemma got_rtime_crumb_list : res time_crumb_list_got (rtime_crumb_list i).
Proof. unfold rtime_crumb_list. repeat got_step ltac:(unfold time_crumb_list_got in *; got_fin). Qed.
Hint Resolve got_rtime_crumb_list : got.

Lemma got_component_ext : forall tag o, component_got o -> res component_got (component_ext i tag o).
Proof. unfold component_ext. repeat got_step ltac:(unfold component_got in *; cbn [set_cpnt_param_list cpnt_left_bob cpnt_right_bob cpnt_media_kind_id cpnt_edit_rate cpnt_name cpnt_effect_id cpnt_attributes cpnt_session_attrs cpnt_precomputed cpnt_param_list] in *; got_fin). Qed.
Hint Resolve got_component_ext : got.

Lemma got_rcomponent : res component_got (rcomponent i).
Proof. unfold rcomponent. repeat got_step ltac:(unfold component_got in *; cbn [set_cpnt_param_list cpnt_left_bob cpnt_right_bob cpnt_media_kind_id cpnt_edit_rate cpnt_name cpnt_effect_id cpnt_attributes cpnt_session_attrs cpnt_precomputed cpnt_param_list] in *; got_fin). Qed.
Hint Resolve got_rcomponent : got.

Lemma got_rsequence : res sequence_got (rsequence i).
Proof. unfold rsequence. repeat got_step ltac:(unfold sequence_got in *; cbn [sequ_component sequ_components] in *; got_fin). Qed.
Hint Resolve got_rsequence : got.

Lemma got_rclip : res clip_got (rclip i).
Proof. unfold rclip. repeat got_step ltac:(unfold clip_got in *; cbn [clip_component clip_length] in *; got_fin). Qed.
Hint Resolve got_rclip : got.

Lemma got_source_clip_ext : forall tag o, source_clip_got o -> res source_clip_got (source_clip_ext i tag o).
Proof. unfold source_clip_ext. repeat got_step ltac:(unfold source_clip_got in *; cbn [set_sclp_mob_id sclp_clip sclp_track_id sclp_start_time sclp_mob_id] in *; got_fin). Qed.
Hint Resolve got_source_clip_ext : got.

Lemma got_rsource_clip : res source_clip_got (rsource_clip i).
Proof. unfold rsource_clip. repeat got_step ltac:(unfold source_clip_got in *; cbn [set_sclp_mob_id sclp_clip sclp_track_id sclp_start_time sclp_mob_id] in *; got_fin). Qed.
Hint Resolve got_rsource_clip : got.

Lemma got_rtimecode : res timecode_got (rtimecode i).
Proof. unfold rtimecode. repeat got_step ltac:(unfold timecode_got in *; cbn [tccp_clip tccp_flags tccp_fps tccp_start] in *; got_fin). Qed.
Hint Resolve got_rtimecode : got.

Lemma got_redgecode : res edgecode_got (redgecode i).
Proof. unfold redgecode. repeat got_step ltac:(unfold edgecode_got in *; cbn [eccp_clip eccp_header eccp_film_kind eccp_code_format eccp_base_perf eccp_start_ec] in *; got_fin). Qed.
Hint Resolve got_redgecode : got.

Lemma got_rtrack_ref : res track_ref_got (rtrack_ref i).
Proof. unfold rtrack_ref. repeat got_step ltac:(unfold track_ref_got in *; cbn [trkr_clip trkr_relative_scope trkr_relative_track] in *; got_fin). Qed.
Hint Resolve got_rtrack_ref : got.

Lemma got_rparam_point_property : res param_point_property_got (rparam_point_property i).
Proof.
  unfold rparam_point_property. eapply res_bind; [got_reader|]. intros code Hc.
  eapply res_bind; [got_reader|]. intros type Ht.
  eapply (res_bind _ _ (fun v => match v with CPInt n => type = 1 /\ fits_s32 n
    | CPDouble d => type = 2 /\ fits_double d | CPRef _ => False end)).
  - repeat got_step got_fin.
  - intros v Hv. apply res_ret. split; [exact Hc|exact Hv].
Qed.
Hint Resolve got_rparam_point_property : got.

Lemma got_rcp_value : forall value_type, res (cp_value_got value_type) (rcp_value i value_type).
Proof. unfold rcp_value. repeat got_step ltac:(unfold cp_value_got in *; got_fin). Qed.
Hint Resolve got_rcp_value : got.

Lemma got_rparam_control_point : forall value_type, res (param_control_point_got value_type) (rparam_control_point i value_type).
Proof. unfold rparam_control_point. repeat got_step ltac:(unfold param_control_point_got in *; cbn [pcp_offset_num pcp_offset_den pcp_timescale pcp_value pcp_pp] in *; got_fin). Qed.
Hint Resolve got_rparam_control_point : got.

Lemma got_param_clip_ext : forall tag o, param_clip_got o -> res param_clip_got (param_clip_ext i tag o).
Proof. unfold param_clip_ext. repeat got_step ltac:(unfold param_clip_got in *; cbn [set_prcl_extrap_kind set_prcl_fields prcl_clip prcl_interp_kind prcl_value_type prcl_control_points prcl_extrap_kind prcl_fields] in *; got_fin). Qed.
Hint Resolve got_param_clip_ext : got.

Lemma got_rparam_clip : res param_clip_got (rparam_clip i).
Proof. unfold rparam_clip. repeat got_step ltac:(unfold param_clip_got in *; cbn [set_prcl_extrap_kind set_prcl_fields prcl_clip prcl_interp_kind prcl_value_type prcl_control_points prcl_extrap_kind prcl_fields] in *; got_fin). Qed.
Hint Resolve got_rparam_clip : got.

Lemma got_rcontrol_point_property : res control_point_property_got (rcontrol_point_property i).
Proof. unfold rcontrol_point_property. repeat got_step ltac:(unfold control_point_property_got in *; cbn [cpp_code cpp_value_num cpp_value_den] in *; got_fin). Qed.
Hint Resolve got_rcontrol_point_property : got.

Lemma got_rcontrol_point : res control_point_got (rcontrol_point i).
Proof. unfold rcontrol_point. repeat got_step ltac:(unfold control_point_got in *; cbn [cp_offset_num cp_offset_den cp_time_scale cp_value_num cp_value_den cp_pp] in *; got_fin). Qed.
Hint Resolve got_rcontrol_point : got.

Lemma got_rcontrol_clip : res control_clip_got (rcontrol_clip i).
Proof. unfold rcontrol_clip. repeat got_step ltac:(unfold control_clip_got in *; cbn [ctrl_clip ctrl_interp_kind ctrl_control_points] in *; got_fin). Qed.
Hint Resolve got_rcontrol_clip : got.

Lemma got_rfiller : res filler_got (rfiller i).
Proof. unfold rfiller. repeat got_step ltac:(unfold filler_got in *; cbn [fill_clip] in *; got_fin). Qed.
Hint Resolve got_rfiller : got.

Lemma got_rtrack : res (fun t => track_got t /\ lock_got t) (rtrack i).
Proof.
  unfold rtrack. repeat got_step ltac:(unfold track_got, lock_got in *; cbn [set_trak_lock_number
    trak_index trak_attributes trak_session_attr trak_component trak_filler_proxy trak_bob_data
    trak_control_code trak_control_sub_code trak_start_pos trak_lock_number] in *; got_fin).
Qed.
Hint Resolve got_rtrack : got.

Lemma got_rlock : forall t, track_got t -> res (fun t => track_got t /\ lock_got t) (rlock i t).
Proof.
  unfold rlock. repeat got_step ltac:(unfold track_got, lock_got in *; cbn [set_trak_lock_number
    trak_index trak_attributes trak_session_attr trak_component trak_filler_proxy trak_bob_data
    trak_control_code trak_control_sub_code trak_start_pos trak_lock_number] in *; got_fin).
Qed.
Hint Resolve got_rlock : got.

Lemma res_rmapm_len : forall A B (P : A -> Prop) (Q : B -> Prop) r l,
  (forall a, P a -> res Q (r a)) -> Forall P l -> res (fun l' => Forall Q l' /\ length l' = length l) (rmapm r l).
Proof.
  intros A B P Q r l H Hl. induction Hl; cbn [rmapm]; [apply res_ret; split; constructor|].
  eapply res_bind; [now apply H|]. intros a Ha. eapply res_bind; [exact IHHl|].
  intros l' [Hl' L]. apply res_ret. split; [now constructor|]. cbn [length]. now rewrite L.
Qed.

Lemma Forall_both : forall A (P Q : A -> Prop) l, Forall (fun x => P x /\ Q x) l -> Forall P l /\ Forall Q l.
Proof. intros A P Q l H. split; (eapply Forall_impl; [|exact H]); cbn; tauto. Qed.

Lemma got_track_group_ext : forall tag o, track_group_got o -> res track_group_got (track_group_ext i tag o).
Proof.
  intros tag o H. unfold track_group_ext. destruct (tag =? 1); [|apply res_fail].
  destruct H as (A & B & C & D & E & F & G).
  eapply res_bind; [eapply (res_rmapm_len _ _ track_got); [exact got_rlock|exact F]|].
  intros l [Hl L]. apply res_ret. apply Forall_both in Hl as [Hl1 Hl2]. unfold track_group_got.
  cbn [set_trkg_tracks trkg_component trkg_mc_mode trkg_length trkg_num_scalars trkg_tracks].
  unfold len in *. rewrite L. auto 10.
Qed.
Hint Resolve got_track_group_ext : got.

Lemma got_rtrack_group : res track_group_got (rtrack_group i).
Proof.
  unfold rtrack_group. repeat got_step ltac:(unfold track_group_got in *;
    cbn [trkg_component trkg_mc_mode trkg_length trkg_num_scalars trkg_tracks] in *; got_fin).
  all: match goal with H : Forall (fun t => track_got t /\ lock_got t) _ |- _ => apply Forall_both in H; tauto end.
Qed.
Hint Resolve got_rtrack_group : got.

Lemma got_track_effect_ext : forall tag o, track_effect_base_got o -> res track_effect_base_got (track_effect_ext i tag o).
Proof. unfold track_effect_ext. repeat got_step ltac:(unfold track_effect_base_got, track_effect_base_got in *; cbn [set_tkfx_trackman tkfx_group tkfx_left_length tkfx_right_length tkfx_info_version tkfx_info_current tkfx_info_smooth tkfx_info_color_item tkfx_info_quality tkfx_info_is_reversed tkfx_info_aspect_on tkfx_keyframes tkfx_info_force_software tkfx_info_never_hardware tkfx_trackman] in *; got_fin). Qed.
Hint Resolve got_track_effect_ext : got.

Lemma got_rtrack_effect_base : res track_effect_base_got (rtrack_effect_base i).
Proof. unfold rtrack_effect_base. repeat got_step ltac:(unfold track_effect_base_got in *; cbn [set_tkfx_trackman tkfx_group tkfx_left_length tkfx_right_length tkfx_info_version tkfx_info_current tkfx_info_smooth tkfx_info_color_item tkfx_info_quality tkfx_info_is_reversed tkfx_info_aspect_on tkfx_keyframes tkfx_info_force_software tkfx_info_never_hardware tkfx_trackman] in *; got_fin). Qed.
Hint Resolve got_rtrack_effect_base : got.

Lemma got_rtrack_effect : res track_effect_got (rtrack_effect i).
Proof. unfold rtrack_effect. repeat got_step ltac:(unfold track_effect_got in *; cbn [set_tkfx_trackman tkfx_group tkfx_left_length tkfx_right_length tkfx_info_version tkfx_info_current tkfx_info_smooth tkfx_info_color_item tkfx_info_quality tkfx_info_is_reversed tkfx_info_aspect_on tkfx_keyframes tkfx_info_force_software tkfx_info_never_hardware tkfx_trackman] in *; got_fin). Qed.
Hint Resolve got_rtrack_effect : got.

Lemma got_pan_volume_effect_ext : forall tag o, pan_volume_effect_got o -> res pan_volume_effect_got (pan_volume_effect_ext i tag o).
Proof. unfold pan_volume_effect_ext. repeat got_step ltac:(unfold pan_volume_effect_got in *; cbn [set_pvol_supports_seperate_gain set_pvol_is_trim_gain_effect pvol_effect pvol_level pvol_pan pvol_suppress_validation pvol_level_set pvol_pan_set pvol_supports_seperate_gain pvol_is_trim_gain_effect] in *; got_fin). Qed.
Hint Resolve got_pan_volume_effect_ext : got.

Lemma got_rpan_volume_effect : res pan_volume_effect_got (rpan_volume_effect i).
Proof. unfold rpan_volume_effect. repeat got_step ltac:(unfold pan_volume_effect_got in *; cbn [set_pvol_supports_seperate_gain set_pvol_is_trim_gain_effect pvol_effect pvol_level pvol_pan pvol_suppress_validation pvol_level_set pvol_pan_set pvol_supports_seperate_gain pvol_is_trim_gain_effect] in *; got_fin). Qed.
Hint Resolve got_rpan_volume_effect : got.

Lemma got_raspi_chunk : res aspi_chunk_got (raspi_chunk i).
Proof. unfold raspi_chunk. repeat got_step ltac:(unfold aspi_chunk_got in *; cbn [aspc_version aspc_manufacturer_id aspc_product_id aspc_plugin_id aspc_chunk_id aspc_name aspc_data] in *; got_fin). Qed.
Hint Resolve got_raspi_chunk : got.

Lemma got_raspi_plugin : res aspi_plugin_got (raspi_plugin i).
Proof. unfold raspi_plugin. repeat got_step ltac:(unfold aspi_plugin_got in *; cbn [aspp_name aspp_manufacturer_id aspp_product_id aspp_plugin_id aspp_chunks] in *; got_fin). Qed.
Hint Resolve got_raspi_plugin : got.

Lemma got_rpreset_path : res preset_path_got (rpreset_path i).
Proof. unfold rpreset_path. repeat got_step ltac:(unfold preset_path_got in *; got_fin).
  eapply res_weaken; [apply got_fread|]. intros v [_ L]. unfold preset_path_got. cbv beta in *. got_bool. got_num.
Qed.
Hint Resolve got_rpreset_path : got.

Lemma got_audio_suite_effect_ext : forall tag o, audio_suite_effect_got o -> res audio_suite_effect_got (audio_suite_effect_ext i tag o).
Proof. unfold audio_suite_effect_ext. repeat got_step ltac:(unfold audio_suite_effect_got in *; cbn [set_aspi_mob_id set_aspi_mark_in set_aspi_mark_out set_aspi_tracks_to_affect set_aspi_rendering_mode set_aspi_padding_secs set_aspi_preset_path aspi_effect aspi_plugins aspi_mob_id aspi_mark_in aspi_mark_out aspi_tracks_to_affect aspi_rendering_mode aspi_padding_secs aspi_preset_path] in *; got_fin). Qed.
Hint Resolve got_audio_suite_effect_ext : got.

Lemma got_raudio_suite_effect : res audio_suite_effect_got (raudio_suite_effect i).
Proof. unfold raudio_suite_effect. repeat got_step ltac:(unfold audio_suite_effect_got in *; cbn [set_aspi_mob_id set_aspi_mark_in set_aspi_mark_out set_aspi_tracks_to_affect set_aspi_rendering_mode set_aspi_padding_secs set_aspi_preset_path aspi_effect aspi_plugins aspi_mob_id aspi_mark_in aspi_mark_out aspi_tracks_to_affect aspi_rendering_mode aspi_padding_secs aspi_preset_path] in *; got_fin). Qed.
Hint Resolve got_raudio_suite_effect : got.

Lemma got_requalizer_band : res equalizer_band_got (requalizer_band i).
Proof. unfold requalizer_band. repeat got_step ltac:(unfold equalizer_band_got in *; cbn [eqbd_type eqbd_freq eqbd_gain eqbd_q eqbd_enable] in *; got_fin). Qed.
Hint Resolve got_requalizer_band : got.

Lemma got_requalizer_multi_band : res equalizer_multi_band_got (requalizer_multi_band i).
Proof. unfold requalizer_multi_band. repeat got_step ltac:(unfold equalizer_multi_band_got in *; cbn [eqmb_effect eqmb_bands eqmb_effect_enable eqmb_filter_name] in *; got_fin). Qed.
Hint Resolve got_requalizer_multi_band : got.

Lemma got_rtime_warp : res time_warp_got (rtime_warp i).
Proof. unfold rtime_warp. repeat got_step ltac:(unfold time_warp_got in *; cbn [warp_group warp_phase_offset] in *; got_fin). Qed.
Hint Resolve got_rtime_warp : got.

Lemma got_rcapture_mask : res capture_mask_got (rcapture_mask i).
Proof. unfold rcapture_mask. repeat got_step ltac:(unfold capture_mask_got in *; cbn [mask_warp mask_is_double mask_mask_bits] in *; got_fin). Qed.
Hint Resolve got_rcapture_mask : got.

Lemma got_rstrobe_effect : res strobe_effect_got (rstrobe_effect i).
Proof. unfold rstrobe_effect. repeat got_step ltac:(unfold strobe_effect_got in *; cbn [strb_warp strb_strobe_value] in *; got_fin). Qed.
Hint Resolve got_rstrobe_effect : got.

Lemma got_motion_effect_ext : forall tag o, motion_effect_got o -> res motion_effect_got (motion_effect_ext i tag o).
Proof. unfold motion_effect_ext. repeat got_step ltac:(unfold motion_effect_got in *; cbn [set_sped_offset_adjust set_sped_source_param_list set_sped_new_source_calculation sped_warp sped_speed_num sped_speed_den sped_offset_adjust sped_source_param_list sped_new_source_calculation] in *; got_fin). Qed.
Hint Resolve got_motion_effect_ext : got.

Lemma got_rmotion_effect : res motion_effect_got (rmotion_effect i).
Proof. unfold rmotion_effect. repeat got_step ltac:(unfold motion_effect_got in *; cbn [set_sped_offset_adjust set_sped_source_param_list set_sped_new_source_calculation sped_warp sped_speed_num sped_speed_den sped_offset_adjust sped_source_param_list sped_new_source_calculation] in *; got_fin). Qed.
Hint Resolve got_rmotion_effect : got.

Lemma got_rrepeat_effect : res repeat_effect_got (rrepeat_effect i).
Proof. unfold rrepeat_effect. repeat got_step ltac:(unfold repeat_effect_got in *; cbn [rept_warp] in *; got_fin). Qed.
Hint Resolve got_rrepeat_effect : got.

Lemma got_essence_group_ext : forall tag o, essence_group_got o -> res essence_group_got (essence_group_ext i tag o).
Proof. unfold essence_group_ext. repeat got_step ltac:(unfold essence_group_got in *; cbn [set_rset_rep_set_type rset_group rset_rep_set_type] in *; got_fin). Qed.
Hint Resolve got_essence_group_ext : got.

Lemma got_ressence_group : res essence_group_got (ressence_group i).
Proof. unfold ressence_group. repeat got_step ltac:(unfold essence_group_got in *; cbn [set_rset_rep_set_type rset_group rset_rep_set_type] in *; got_fin). Qed.
Hint Resolve got_ressence_group : got.

Lemma got_transition_effect_ext : forall tag o, transition_effect_got o -> res transition_effect_got (transition_effect_ext i tag o).
Proof. unfold transition_effect_ext. repeat got_step ltac:(unfold transition_effect_got in *; cbn [set_tnfx_trackman tnfx_group tnfx_cutpoint tnfx_left_length tnfx_right_length tnfx_info_version tnfx_info_current tnfx_info_smooth tnfx_info_color_item tnfx_info_quality tnfx_info_is_reversed tnfx_info_aspect_on tnfx_keyframes tnfx_info_force_software tnfx_info_never_hardware tnfx_trackman] in *; got_fin). Qed.
Hint Resolve got_transition_effect_ext : got.

Lemma got_rtransition_effect : res transition_effect_got (rtransition_effect i).
Proof. unfold rtransition_effect. repeat got_step ltac:(unfold transition_effect_got in *; cbn [set_tnfx_trackman tnfx_group tnfx_cutpoint tnfx_left_length tnfx_right_length tnfx_info_version tnfx_info_current tnfx_info_smooth tnfx_info_color_item tnfx_info_quality tnfx_info_is_reversed tnfx_info_aspect_on tnfx_keyframes tnfx_info_force_software tnfx_info_never_hardware tnfx_trackman] in *; got_fin). Qed.
Hint Resolve got_rtransition_effect : got.

Lemma got_rselector : res selector_got (rselector i).
Proof. unfold rselector. repeat got_step ltac:(unfold selector_got in *; cbn [slct_group slct_is_ganged slct_selected] in *; got_fin). Qed.
Hint Resolve got_rselector : got.

Lemma got_composition_ext : forall tag o, composition_got o -> res composition_got (composition_ext i tag o).
Proof. unfold composition_ext. repeat got_step ltac:(unfold composition_got in *; cbn [set_cmpo_creation_time set_cmpo_mob_id cmpo_group cmpo_last_modified cmpo_mob_type_id cmpo_usage_code cmpo_descriptor cmpo_creation_time cmpo_mob_id] in *; got_fin). Qed.
Hint Resolve got_composition_ext : got.

Lemma got_rcomposition : res composition_got (rcomposition i).
Proof. unfold rcomposition. repeat got_step ltac:(unfold composition_got in *; cbn [set_cmpo_creation_time set_cmpo_mob_id cmpo_group cmpo_last_modified cmpo_mob_type_id cmpo_usage_code cmpo_descriptor cmpo_creation_time cmpo_mob_id] in *; got_fin). Qed.
Hint Resolve got_rcomposition : got.

Lemma got_file_locator_ext : forall tag o, file_locator_got o -> res file_locator_got (file_locator_ext i tag o).
Proof. unfold file_locator_ext. repeat got_step ltac:(unfold file_locator_got in *; cbn [set_file_path_posix set_file_path_utf8 set_file_path2_utf8 file_path file_path_posix file_path_utf8 file_path2_utf8] in *; got_fin). Qed.
Hint Resolve got_file_locator_ext : got.

Lemma got_rfile_locator : res file_locator_got (rfile_locator i).
Proof. unfold rfile_locator. repeat got_step ltac:(unfold file_locator_got in *; cbn [set_file_path_posix set_file_path_utf8 set_file_path2_utf8 file_path file_path_posix file_path_utf8 file_path2_utf8] in *; got_fin). Qed.
Hint Resolve got_rfile_locator : got.

Lemma got_rurl_locator : res url_locator_got (rurl_locator i).
Proof. unfold rurl_locator. repeat got_step ltac:(unfold url_locator_got in *; got_fin). Qed.
Hint Resolve got_rurl_locator : got.

Lemma got_rgraphic_effect : res graphic_effect_got (rgraphic_effect i).
Proof. unfold rgraphic_effect. repeat got_step ltac:(unfold graphic_effect_got in *; cbn [grfx_pict_data] in *; got_fin). Qed.
Hint Resolve got_rgraphic_effect : got.

Lemma got_rshape_list : res shape_list_got (rshape_list i).
Proof. unfold rshape_list. repeat got_step ltac:(unfold shape_list_got in *; cbn [shlp_shape_data] in *; got_fin). Qed.
Hint Resolve got_rshape_list : got.

Lemma got_rcolor_correction_effect : res color_correction_effect_got (rcolor_correction_effect i).
Proof. unfold rcolor_correction_effect. repeat got_step ltac:(unfold color_correction_effect_got in *; cbn [ccfx_color_correction] in *; got_fin). Qed.
Hint Resolve got_rcolor_correction_effect : got.

Lemma got_rbox : res box_got (rbox i).
Proof. unfold rbox. repeat got_step ltac:(unfold box_got; cbn [rc0 rc1 rc2 rc3]; got_fin). Qed.
Hint Resolve got_rbox : got.

Lemma got_reffect_param : res effect_param_got (reffect_param i).
Proof. unfold reffect_param. repeat got_step ltac:(unfold effect_param_got in *; cbn [fxp_percent_time fxp_level fxp_pos_x fxp_floor_x fxp_ceil_x fxp_pos_y fxp_floor_y fxp_ceil_y fxp_scale_x fxp_scale_y fxp_crop_left fxp_crop_right fxp_crop_top fxp_crop_bottom fxp_box fxp_box_xscale fxp_box_yscale fxp_box_xpos fxp_box_ypos fxp_border_width fxp_border_soft fxp_splill_gain2 fxp_splill_gain fxp_splill_soft2 fxp_splill_soft fxp_enable_key_flags fxp_colors fxp_user_param fxp_selected] in *; got_fin). Qed.
Hint Resolve got_reffect_param : got.

Lemma got_reffect_param_list : res effect_param_list_got (reffect_param_list i).
Proof. unfold reffect_param_list. repeat got_step ltac:(unfold effect_param_list_got in *; cbn [fxps_orig_length fxps_window_offset fxps_keyframe_size fxps_parameters] in *; got_fin). Qed.
Hint Resolve got_reffect_param_list : got.

Lemma got_rcf_user_param : res cf_user_param_got (rcf_user_param i).
Proof. unfold rcf_user_param. repeat got_step ltac:(unfold cf_user_param_got in *; cbn [avup_byte_order avup_uuid avup_data] in *; got_fin). Qed.
Hint Resolve got_rcf_user_param : got.

Lemma got_rprit_value : forall value_type, res (cp_value_got value_type) (rprit_value i value_type).
Proof. unfold rprit_value. repeat got_step ltac:(unfold cp_value_got in *; got_fin). Qed.
Hint Resolve got_rprit_value : got.

Lemma got_parameter_item_ext : forall tag o, parameter_item_got o -> res parameter_item_got (parameter_item_ext i tag o).
Proof. unfold parameter_item_ext. repeat got_step ltac:(unfold parameter_item_got in *; cbn [set_prit_contribs_to_sig prit_uuid prit_value_type prit_value prit_name prit_enable prit_control_track prit_contribs_to_sig] in *; got_fin). Qed.
Hint Resolve got_parameter_item_ext : got.

Lemma got_rparameter_item : res parameter_item_got (rparameter_item i).
Proof. unfold rparameter_item. repeat got_step ltac:(unfold parameter_item_got in *; cbn [set_prit_contribs_to_sig prit_uuid prit_value_type prit_value prit_name prit_enable prit_control_track prit_contribs_to_sig] in *; got_fin). Qed.
Hint Resolve got_rparameter_item : got.

Lemma got_msm_locator_ext : forall tag o, msm_locator_got o -> res msm_locator_got (msm_locator_ext i tag o).
Proof. unfold msm_locator_ext. repeat got_step ltac:(unfold msm_locator_got in *; cbn [set_msml_domain_type set_msml_mob_id set_msml_last_known_volume_utf8 msml_last_known_volume msml_domain_type msml_mob_id msml_last_known_volume_utf8] in *; got_fin). Qed.
Hint Resolve got_msm_locator_ext : got.

Lemma got_rmsm_locator : res msm_locator_got (rmsm_locator i).
Proof. unfold rmsm_locator. repeat got_step ltac:(unfold msm_locator_got in *; cbn [set_msml_domain_type set_msml_mob_id set_msml_last_known_volume_utf8 msml_last_known_volume msml_domain_type msml_mob_id msml_last_known_volume_utf8] in *; got_fin). Qed.
Hint Resolve got_rmsm_locator : got.

Lemma got_position_ext : forall tag o, position_base_got o -> res position_base_got (position_ext i tag o).
Proof. unfold position_ext. repeat got_step ltac:(unfold position_base_got, position_base_got in *; cbn [set_apos_mob_id apos_mob_id] in *; got_fin). Qed.
Hint Resolve got_position_ext : got.

Lemma got_rposition_base : res position_base_got (rposition_base i).
Proof. unfold rposition_base. repeat got_step ltac:(unfold position_base_got in *; cbn [set_apos_mob_id apos_mob_id] in *; got_fin). Qed.
Hint Resolve got_rposition_base : got.

Lemma got_rposition : res position_got (rposition i).
Proof. unfold rposition. repeat got_step ltac:(unfold position_got in *; cbn [set_apos_mob_id apos_mob_id] in *; got_fin). Qed.
Hint Resolve got_rposition : got.

Lemma got_rbob_position_base : res bob_position_base_got (rbob_position_base i).
Proof. unfold rbob_position_base. repeat got_step ltac:(unfold bob_position_base_got in *; cbn [abob_position abob_sample_num abob_length abob_track_type abob_track_index] in *; got_fin). Qed.
Hint Resolve got_rbob_position_base : got.

Lemma got_rbob_position : res bob_position_got (rbob_position i).
Proof. unfold rbob_position. repeat got_step ltac:(unfold bob_position_got in *; cbn [abob_position abob_sample_num abob_length abob_track_type abob_track_index] in *; got_fin). Qed.
Hint Resolve got_rbob_position : got.

Lemma got_rdid_position_base : res did_position_base_got (rdid_position_base i).
Proof. unfold rdid_position_base. repeat got_step ltac:(unfold did_position_base_got in *; cbn [didp_bob didp_strip didp_offset didp_byte_length didp_spos_invalid] in *; got_fin). Qed.
Hint Resolve got_rdid_position_base : got.

Lemma got_rdid_position : res did_position_got (rdid_position i).
Proof. unfold rdid_position. repeat got_step ltac:(unfold did_position_got in *; cbn [didp_bob didp_strip didp_offset didp_byte_length didp_spos_invalid] in *; got_fin). Qed.
Hint Resolve got_rdid_position : got.

Lemma got_rmpg_field : res mpg_field_got (rmpg_field i).
Proof. unfold rmpg_field. repeat got_step ltac:(unfold mpg_field_got; got_fin). Qed.
Hint Resolve got_rmpg_field : got.

Lemma got_rmpg_fields : res mpg_fields_got (rmpg_fields i).
Proof.
  unfold rmpg_fields. eapply res_bind; [got_reader|]. intros n Hn. destruct (Z.ltb_spec 0 n).
  - eapply res_bind; [got_reader|]. intros _ _. eapply res_weaken; [apply got_rlist, got_rmpg_field|].
    intros l [Hl L]. split; [|exact Hl]. got_num.
  - apply res_ret. split; [|constructor]. got_num.
Qed.
Hint Resolve got_rmpg_fields : got.

Lemma got_rmpg_position : res mpg_position_got (rmpg_position i).
Proof. unfold rmpg_position. repeat got_step ltac:(unfold mpg_position_got in *; cbn [mpgp_did mpgp_trailing_discards mpgp_need_seq_hdr mpgp_fields] in *; got_fin). Qed.
Hint Resolve got_rmpg_position : got.

Lemma got_bin_ref_ext : forall tag o, bin_ref_got o -> res bin_ref_got (bin_ref_ext i tag o).
Proof. unfold bin_ref_ext. repeat got_step ltac:(unfold bin_ref_got in *; cbn [set_mcbr_name_utf8 mcbr_uid_high mcbr_uid_low mcbr_name mcbr_name_utf8] in *; got_fin). Qed.
Hint Resolve got_bin_ref_ext : got.

Lemma got_rbin_ref : res bin_ref_got (rbin_ref i).
Proof. unfold rbin_ref. repeat got_step ltac:(unfold bin_ref_got in *; cbn [set_mcbr_name_utf8 mcbr_uid_high mcbr_uid_low mcbr_name mcbr_name_utf8] in *; got_fin). Qed.
Hint Resolve got_rbin_ref : got.

Lemma got_mob_ref_ext : forall tag o, mob_ref_base_got o -> res mob_ref_base_got (mob_ref_ext i tag o).
Proof. unfold mob_ref_ext. repeat got_step ltac:(unfold mob_ref_base_got, mob_ref_base_got in *; cbn [set_mcmr_mob_id mcmr_position mcmr_mob_id] in *; got_fin). Qed.
Hint Resolve got_mob_ref_ext : got.

Lemma got_rmob_ref_base : res mob_ref_base_got (rmob_ref_base i).
Proof. unfold rmob_ref_base. repeat got_step ltac:(unfold mob_ref_base_got in *; cbn [set_mcmr_mob_id mcmr_position mcmr_mob_id] in *; got_fin). Qed.
Hint Resolve got_rmob_ref_base : got.

Lemma got_rmob_ref : res mob_ref_got (rmob_ref i).
Proof. unfold rmob_ref. repeat got_step ltac:(unfold mob_ref_got in *; cbn [set_mcmr_mob_id mcmr_position mcmr_mob_id] in *; got_fin). Qed.
Hint Resolve got_rmob_ref : got.

Lemma got_marker_ext : forall tag o, marker_got o -> res marker_got (marker_ext i tag o).
Proof. unfold marker_ext. repeat got_step ltac:(unfold marker_got in *; cbn [set_tmbc_handled_codes tmbc_mob_ref tmbc_comp_offset tmbc_attributes tmbc_color tmbc_handled_codes] in *; got_fin). Qed.
Hint Resolve got_marker_ext : got.

Lemma got_rmarker : res marker_got (rmarker i).
Proof. unfold rmarker. repeat got_step ltac:(unfold marker_got in *; cbn [set_tmbc_handled_codes tmbc_mob_ref tmbc_comp_offset tmbc_attributes tmbc_color tmbc_handled_codes] in *; got_fin). Qed.
Hint Resolve got_rmarker : got.

Lemma got_rtracker_manager : res tracker_manager_got (rtracker_manager i).
Proof. unfold rtracker_manager. repeat got_step ltac:(unfold tracker_manager_got in *; cbn [tkmn_data_slots tkmn_param_slots] in *; got_fin). Qed.
Hint Resolve got_rtracker_manager : got.

Lemma got_tracker_data_slot_ext : forall tag o, tracker_data_slot_got o -> res tracker_data_slot_got (tracker_data_slot_ext i tag o).
Proof. unfold tracker_data_slot_ext. repeat got_step ltac:(unfold tracker_data_slot_got in *; cbn [set_tkds_track_fg tkds_tracker_data tkds_track_fg] in *; got_fin). Qed.
Hint Resolve got_tracker_data_slot_ext : got.

Lemma got_rtracker_data_slot : res tracker_data_slot_got (rtracker_data_slot i).
Proof. unfold rtracker_data_slot. repeat got_step ltac:(unfold tracker_data_slot_got in *; cbn [set_tkds_track_fg tkds_tracker_data tkds_track_fg] in *; got_fin). Qed.
Hint Resolve got_rtracker_data_slot : got.

Lemma got_rtracker_parameter_slot : res tracker_parameter_slot_got (rtracker_parameter_slot i).
Proof. unfold rtracker_parameter_slot. repeat got_step ltac:(unfold tracker_parameter_slot_got in *; cbn [tkps_settings tkps_params] in *; got_fin). Qed.
Hint Resolve got_rtracker_parameter_slot : got.

Lemma got_tracker_data_ext : forall tag o, tracker_data_got o -> res tracker_data_got (tracker_data_ext i tag o).
Proof. unfold tracker_data_ext. repeat got_step ltac:(unfold tracker_data_got in *; cbn [set_tkda_offset_tracking set_tkda_smoothing set_tkda_jitter_removal set_tkda_filter_amount set_tkda_clip5 set_tkda_clip6 tkda_settings tkda_clip_version tkda_clips tkda_offset_tracking tkda_smoothing tkda_jitter_removal tkda_filter_amount tkda_clip5 tkda_clip6] in *; got_fin). Qed.
Hint Resolve got_tracker_data_ext : got.

Lemma got_rtracker_data : res tracker_data_got (rtracker_data i).
Proof. unfold rtracker_data. repeat got_step ltac:(unfold tracker_data_got in *; cbn [set_tkda_offset_tracking set_tkda_smoothing set_tkda_jitter_removal set_tkda_filter_amount set_tkda_clip5 set_tkda_clip6 tkda_settings tkda_clip_version tkda_clips tkda_offset_tracking tkda_smoothing tkda_jitter_removal tkda_filter_amount tkda_clip5 tkda_clip6] in *; got_fin). Qed.
Hint Resolve got_rtracker_data : got.

Lemma got_rtracker_parameter : res tracker_parameter_got (rtracker_parameter i).
Proof. unfold rtracker_parameter. repeat got_step ltac:(unfold tracker_parameter_got in *; cbn [tkpa_settings] in *; got_fin). Qed.
Hint Resolve got_rtracker_parameter : got.

Lemma got_media_descriptor_ext : forall tag o, media_descriptor_base_got o ->
  resn media_descriptor_base_got (media_descriptor_ext i tag o).
Proof.
  intros tag o H. unfold media_descriptor_ext. destruct (tag =? 2) eqn:E2.
  - replace (tag =? 1) with false by (symmetry; apply Z.eqb_neq; apply Z.eqb_eq in E2; lia).
    intros b v rest Hb E. unfold bind in E.
    destruct (rtag 65 b) as [[a0 b1]|] eqn:R1; [|discriminate].
    destruct (res_any _ _ (loc_tag 65) _ _ _ Hb R1) as [_ Hb1].
    destruct (rs32 (ibo i) b1) as [[n b2]|] eqn:R2; [|discriminate].
    destruct (got_s32 _ _ _ _ Hb1 R2) as [Hn Hb2].
    destruct (fread n b2) as [[w b3]|] eqn:R3; [|discriminate].
    destruct (got_fread n _ _ _ Hb2 R3) as [[Hw Lw] Hb3].
    injection E as <- <-. split; [exact Hb3|]. intros Hne.
    assert (0 <= n) as Pn.
    { destruct (Z.ltb_spec n 0) as [Ln|]; [|assumption]. unfold fread in R3.
      apply Z.ltb_lt in Ln. rewrite Ln in R3. injection R3 as _ <-. congruence. }
    specialize (Lw Pn).
    unfold media_descriptor_base_got in *; cbn [set_mdes_uuid set_mdes_wchar set_mdes_attributes mdes_mob_kind mdes_locator mdes_intermediate mdes_physical_media mdes_uuid mdes_wchar mdes_attributes] in *; got_fin.
  - apply resn_res. repeat got_step ltac:(unfold media_descriptor_base_got in *; cbn [set_mdes_uuid set_mdes_wchar set_mdes_attributes mdes_mob_kind mdes_locator mdes_intermediate mdes_physical_media mdes_uuid mdes_wchar mdes_attributes] in *; got_fin).
Qed.
Hint Resolve got_media_descriptor_ext : got.

Lemma got_rmedia_descriptor_base : res media_descriptor_base_got (rmedia_descriptor_base i).
Proof.
  unfold rmedia_descriptor_base. do 6 (eapply res_bind; [got_reader|]; intro; intro).
  apply res_iter_resn; [exact got_media_descriptor_ext|].
  unfold media_descriptor_base_got in *; cbn [set_mdes_uuid set_mdes_wchar set_mdes_attributes mdes_mob_kind mdes_locator mdes_intermediate mdes_physical_media mdes_uuid mdes_wchar mdes_attributes] in *; got_fin.
Qed.
Hint Resolve got_rmedia_descriptor_base : got.

Lemma got_rmedia_descriptor : res media_descriptor_got (rmedia_descriptor i).
Proof. unfold rmedia_descriptor. repeat got_step ltac:(unfold media_descriptor_got in *; cbn [set_mdes_uuid set_mdes_wchar set_mdes_attributes mdes_mob_kind mdes_locator mdes_intermediate mdes_physical_media mdes_uuid mdes_wchar mdes_attributes] in *; got_fin). Qed.
Hint Resolve got_rmedia_descriptor : got.

Lemma got_rtape_descriptor : res tape_descriptor_got (rtape_descriptor i).
Proof. unfold rtape_descriptor. repeat got_step ltac:(unfold tape_descriptor_got in *; cbn [mdtp_media mdtp_cframe] in *; got_fin). Qed.
Hint Resolve got_rtape_descriptor : got.

Lemma got_rfilm_descriptor : res film_descriptor_got (rfilm_descriptor i).
Proof. unfold rfilm_descriptor. repeat got_step ltac:(unfold film_descriptor_got in *; cbn [mdes_mob_kind mdes_locator mdes_intermediate mdes_physical_media mdes_uuid mdes_wchar mdes_attributes] in *; got_fin). Qed.
Hint Resolve got_rfilm_descriptor : got.

Lemma got_rmedia_file_descriptor_base : res media_file_descriptor_base_got (rmedia_file_descriptor_base i).
Proof. unfold rmedia_file_descriptor_base. repeat got_step ltac:(unfold media_file_descriptor_base_got in *; cbn [mdfl_media mdfl_edit_rate mdfl_length mdfl_is_omfi mdfl_data_offset] in *; got_fin). Qed.
Hint Resolve got_rmedia_file_descriptor_base : got.

Lemma got_rmedia_file_descriptor : res media_file_descriptor_got (rmedia_file_descriptor i).
Proof. unfold rmedia_file_descriptor. repeat got_step ltac:(unfold media_file_descriptor_got in *; cbn [mdfl_media mdfl_edit_rate mdfl_length mdfl_is_omfi mdfl_data_offset] in *; got_fin). Qed.
Hint Resolve got_rmedia_file_descriptor : got.

Lemma got_rmulti_descriptor : res multi_descriptor_got (rmulti_descriptor i).
Proof. unfold rmulti_descriptor. repeat got_step ltac:(unfold multi_descriptor_got in *; cbn [muld_file muld_descriptors] in *; got_fin). Qed.
Hint Resolve got_rmulti_descriptor : got.

Lemma got_rwave_descriptor : res wave_descriptor_got (rwave_descriptor i).
Proof. unfold rwave_descriptor. repeat got_step ltac:(unfold wave_descriptor_got in *; cbn [wave_file wave_summary] in *; got_fin). Qed.
Hint Resolve got_rwave_descriptor : got.

Lemma got_aifc_descriptor_ext : forall tag o, aifc_descriptor_got o -> res aifc_descriptor_got (aifc_descriptor_ext i tag o).
Proof. unfold aifc_descriptor_ext. repeat got_step ltac:(unfold aifc_descriptor_got in *; cbn [set_aifc_data_pos aifc_file aifc_summary aifc_data_pos] in *; got_fin). Qed.
Hint Resolve got_aifc_descriptor_ext : got.

Lemma got_raifc_descriptor : res aifc_descriptor_got (raifc_descriptor i).
Proof. unfold raifc_descriptor. repeat got_step ltac:(unfold aifc_descriptor_got in *; cbn [set_aifc_data_pos aifc_file aifc_summary aifc_data_pos] in *; got_fin). Qed.
Hint Resolve got_raifc_descriptor : got.

Lemma got_pcma_descriptor_ext : forall tag o, pcma_descriptor_got o -> res pcma_descriptor_got (pcma_descriptor_ext i tag o).
Proof. unfold pcma_descriptor_ext. repeat got_step ltac:(unfold pcma_descriptor_got in *; cbn [set_pcma_ebu_timestamp set_pcma_timecode_framerate pcma_file pcma_channels pcma_quantization_bits pcma_sample_rate pcma_locked pcma_audio_ref_level pcma_electro_spatial_formulation pcma_dial_norm pcma_coding_format pcma_block_align pcma_sequence_offset pcma_average_bps pcma_has_peak_envelope_data pcma_peak_envelope_version pcma_peak_envelope_format pcma_points_per_peak_value pcma_peak_envelope_block_size pcma_peak_channel_count pcma_peak_frame_count pcma_peak_of_peaks_offset pcma_peak_envelope_timestamp pcma_ebu_timestamp pcma_timecode_framerate] in *; got_fin). Qed.
Hint Resolve got_pcma_descriptor_ext : got.

Lemma got_rpcma_descriptor : res pcma_descriptor_got (rpcma_descriptor i).
Proof. unfold rpcma_descriptor. repeat got_step ltac:(unfold pcma_descriptor_got in *; cbn [set_pcma_ebu_timestamp set_pcma_timecode_framerate pcma_file pcma_channels pcma_quantization_bits pcma_sample_rate pcma_locked pcma_audio_ref_level pcma_electro_spatial_formulation pcma_dial_norm pcma_coding_format pcma_block_align pcma_sequence_offset pcma_average_bps pcma_has_peak_envelope_data pcma_peak_envelope_version pcma_peak_envelope_format pcma_points_per_peak_value pcma_peak_envelope_block_size pcma_peak_channel_count pcma_peak_frame_count pcma_peak_of_peaks_offset pcma_peak_envelope_timestamp pcma_ebu_timestamp pcma_timecode_framerate] in *; got_fin). Qed.
Hint Resolve got_rpcma_descriptor : got.

Lemma got_mpga_descriptor_ext : forall tag o, mpga_descriptor_got o -> res mpga_descriptor_got (mpga_descriptor_ext i tag o).
Proof. unfold mpga_descriptor_ext. repeat got_step ltac:(unfold mpga_descriptor_got in *; cbn [set_mpga_sub_frame_alignment set_mpga_origin mpga_file mpga_channels mpga_quantization_bits mpga_sample_rate mpga_locked mpga_audio_ref_level mpga_electro_spatial_formulation mpga_dial_norm mpga_coding_format mpga_bit_rate mpga_sub_frame_alignment mpga_origin] in *; got_fin). Qed.
Hint Resolve got_mpga_descriptor_ext : got.

Lemma got_rmpga_descriptor : res mpga_descriptor_got (rmpga_descriptor i).
Proof. unfold rmpga_descriptor. repeat got_step ltac:(unfold mpga_descriptor_got in *; cbn [set_mpga_sub_frame_alignment set_mpga_origin mpga_file mpga_channels mpga_quantization_bits mpga_sample_rate mpga_locked mpga_audio_ref_level mpga_electro_spatial_formulation mpga_dial_norm mpga_coding_format mpga_bit_rate mpga_sub_frame_alignment mpga_origin] in *; got_fin). Qed.
Hint Resolve got_rmpga_descriptor : got.

Lemma got_rpoint : res (fun p => point_got (fst p) (snd p)) (rpoint i).
Proof. unfold rpoint. repeat got_step ltac:(unfold point_got; got_fin). Qed.
Hint Resolve got_rpoint : got.

Lemma got_rbounds_box : res bounds_box_got (rbounds_box i).
Proof.
  unfold rbounds_box. repeat got_step ltac:(unfold bounds_box_got;
    cbn [bb_x0 bb_y0 bb_x1 bb_y1 bb_x2 bb_y2 bb_x3 bb_y3]; got_fin).
Qed.
Hint Resolve got_rbounds_box : got.

Lemma got_rline_map : res line_map_got (rline_map i).
Proof.
  unfold rline_map. eapply res_bind; [got_reader|]. intros n Hn. destruct (n =? 0).
  - apply res_ret. split; [got_num|constructor].
  - eapply res_weaken; [apply got_rlist, got_s32|]. intros l [Hl L]. split; [|exact Hl].
    unfold fits_s32, len in *. rewrite L. pose proof (Z.mul_div_le n 4 ltac:(lia)).
    destruct (Z.leb_spec 0 (n / 4)); [rewrite Z2Nat.id by lia; lia|].
    destruct (n / 4); cbn; lia.
Qed.
Hint Resolve got_rline_map : got.

Lemma got_did_descriptor_ext : forall tag o, did_descriptor_base_got o -> res did_descriptor_base_got (did_descriptor_ext i tag o).
Proof. unfold did_descriptor_ext. repeat got_step ltac:(unfold did_descriptor_base_got, did_descriptor_base_got, client_fill_got, boxes_got, framing_got, color_got, same_presence in *; cbn [set_didd_frame_index_byte_order set_didd_frame_sample_size set_didd_first_frame_offset set_didd_client_fill_start set_didd_client_fill_end set_didd_offset_to_rle_frame_index set_didd_frame_start_offset set_didd_valid_box set_didd_essence_box set_didd_source_box set_didd_framing_box set_didd_reformatting_option set_didd_transfer_characteristic set_didd_color_primaries set_didd_coding_equations set_didd_essence_compression set_didd_essence_element_size_kind set_didd_frame_checked_with_mapper didd_file didd_stored_height didd_stored_width didd_sampled_height didd_sampled_width didd_sampled_x_offset didd_sampled_y_offset didd_display_height didd_display_width didd_display_x_offset didd_display_y_offset didd_frame_layout didd_aspect_num didd_aspect_den didd_line_map didd_alpha_transparency didd_uniformness didd_did_image_size didd_next_did_desc didd_compress_method didd_resolution_id didd_image_alignment_factor didd_frame_index_byte_order didd_frame_sample_size didd_first_frame_offset didd_client_fill_start didd_client_fill_end didd_offset_to_rle_frame_index didd_frame_start_offset didd_valid_box didd_essence_box didd_source_box didd_framing_box didd_reformatting_option didd_transfer_characteristic didd_color_primaries didd_coding_equations didd_essence_compression didd_essence_element_size_kind didd_frame_checked_with_mapper] in *; got_fin). Qed.
Hint Resolve got_did_descriptor_ext : got.

Lemma got_rdid_descriptor_base : res did_descriptor_base_got (rdid_descriptor_base i).
Proof. unfold rdid_descriptor_base. repeat got_step ltac:(unfold did_descriptor_base_got, client_fill_got, boxes_got, framing_got, color_got, same_presence in *; cbn [set_didd_frame_index_byte_order set_didd_frame_sample_size set_didd_first_frame_offset set_didd_client_fill_start set_didd_client_fill_end set_didd_offset_to_rle_frame_index set_didd_frame_start_offset set_didd_valid_box set_didd_essence_box set_didd_source_box set_didd_framing_box set_didd_reformatting_option set_didd_transfer_characteristic set_didd_color_primaries set_didd_coding_equations set_didd_essence_compression set_didd_essence_element_size_kind set_didd_frame_checked_with_mapper didd_file didd_stored_height didd_stored_width didd_sampled_height didd_sampled_width didd_sampled_x_offset didd_sampled_y_offset didd_display_height didd_display_width didd_display_x_offset didd_display_y_offset didd_frame_layout didd_aspect_num didd_aspect_den didd_line_map didd_alpha_transparency didd_uniformness didd_did_image_size didd_next_did_desc didd_compress_method didd_resolution_id didd_image_alignment_factor didd_frame_index_byte_order didd_frame_sample_size didd_first_frame_offset didd_client_fill_start didd_client_fill_end didd_offset_to_rle_frame_index didd_frame_start_offset didd_valid_box didd_essence_box didd_source_box didd_framing_box didd_reformatting_option didd_transfer_characteristic didd_color_primaries didd_coding_equations didd_essence_compression didd_essence_element_size_kind didd_frame_checked_with_mapper] in *; got_fin). Qed.
Hint Resolve got_rdid_descriptor_base : got.

Lemma got_rdid_descriptor : res did_descriptor_got (rdid_descriptor i).
Proof. unfold rdid_descriptor. repeat got_step ltac:(unfold did_descriptor_got in *; cbn [set_didd_frame_index_byte_order set_didd_frame_sample_size set_didd_first_frame_offset set_didd_client_fill_start set_didd_client_fill_end set_didd_offset_to_rle_frame_index set_didd_frame_start_offset set_didd_valid_box set_didd_essence_box set_didd_source_box set_didd_framing_box set_didd_reformatting_option set_didd_transfer_characteristic set_didd_color_primaries set_didd_coding_equations set_didd_essence_compression set_didd_essence_element_size_kind set_didd_frame_checked_with_mapper didd_file didd_stored_height didd_stored_width didd_sampled_height didd_sampled_width didd_sampled_x_offset didd_sampled_y_offset didd_display_height didd_display_width didd_display_x_offset didd_display_y_offset didd_frame_layout didd_aspect_num didd_aspect_den didd_line_map didd_alpha_transparency didd_uniformness didd_did_image_size didd_next_did_desc didd_compress_method didd_resolution_id didd_image_alignment_factor didd_frame_index_byte_order didd_frame_sample_size didd_first_frame_offset didd_client_fill_start didd_client_fill_end didd_offset_to_rle_frame_index didd_frame_start_offset didd_valid_box didd_essence_box didd_source_box didd_framing_box didd_reformatting_option didd_transfer_characteristic didd_color_primaries didd_coding_equations didd_essence_compression didd_essence_element_size_kind didd_frame_checked_with_mapper] in *; got_fin). Qed.
Hint Resolve got_rdid_descriptor : got.

Lemma got_cdci_descriptor_ext : forall tag o, cdci_descriptor_base_got o -> res cdci_descriptor_base_got (cdci_descriptor_ext i tag o).
Proof. unfold cdci_descriptor_ext. repeat got_step ltac:(unfold cdci_descriptor_base_got, cdci_descriptor_base_got in *; cbn [set_cdci_alpha_sampled_width set_cdci_ignore_bw cdci_did cdci_horizontal_subsampling cdci_vertical_subsampling cdci_component_width cdci_color_sitting cdci_black_ref_level cdci_white_ref_level cdci_color_range cdci_frame_index_offset cdci_alpha_sampled_width cdci_ignore_bw] in *; got_fin). Qed.
Hint Resolve got_cdci_descriptor_ext : got.

Lemma got_rcdci_descriptor_base : res cdci_descriptor_base_got (rcdci_descriptor_base i).
Proof. unfold rcdci_descriptor_base. repeat got_step ltac:(unfold cdci_descriptor_base_got in *; cbn [set_cdci_alpha_sampled_width set_cdci_ignore_bw cdci_did cdci_horizontal_subsampling cdci_vertical_subsampling cdci_component_width cdci_color_sitting cdci_black_ref_level cdci_white_ref_level cdci_color_range cdci_frame_index_offset cdci_alpha_sampled_width cdci_ignore_bw] in *; got_fin). Qed.
Hint Resolve got_rcdci_descriptor_base : got.

Lemma got_rcdci_descriptor : res cdci_descriptor_got (rcdci_descriptor i).
Proof. unfold rcdci_descriptor. repeat got_step ltac:(unfold cdci_descriptor_got in *; cbn [set_cdci_alpha_sampled_width set_cdci_ignore_bw cdci_did cdci_horizontal_subsampling cdci_vertical_subsampling cdci_component_width cdci_color_sitting cdci_black_ref_level cdci_white_ref_level cdci_color_range cdci_frame_index_offset cdci_alpha_sampled_width cdci_ignore_bw] in *; got_fin). Qed.
Hint Resolve got_rcdci_descriptor : got.

Lemma got_rmpgi_descriptor : res mpgi_descriptor_got (rmpgi_descriptor i).
Proof. unfold rmpgi_descriptor. repeat got_step ltac:(unfold mpgi_descriptor_got in *; cbn [mpgi_cdci mpgi_mpeg_version mpgi_profile mpgi_gop_structure mpgi_stream_type mpgi_random_access mpgi_leading_discard mpgi_trailing_discard mpgi_min_gop_length mpgi_max_gop_length mpgi_sequence_hdr] in *; got_fin). Qed.
Hint Resolve got_rmpgi_descriptor : got.

Lemma got_jped_descriptor_ext : forall tag o, jped_descriptor_got o -> res jped_descriptor_got (jped_descriptor_ext i tag o).
Proof. unfold jped_descriptor_ext. repeat got_step ltac:(unfold jped_descriptor_got in *; cbn [set_jped_image_start_align jped_cdci jped_jpeg_table_id jped_jpeg_frame_index_offset jped_quantization_tables jped_image_start_align] in *; got_fin). Qed.
Hint Resolve got_jped_descriptor_ext : got.

Lemma got_rjped_descriptor : res jped_descriptor_got (rjped_descriptor i).
Proof. unfold rjped_descriptor. repeat got_step ltac:(unfold jped_descriptor_got in *; cbn [set_jped_image_start_align jped_cdci jped_jpeg_table_id jped_jpeg_frame_index_offset jped_quantization_tables jped_image_start_align] in *; got_fin). Qed.
Hint Resolve got_rjped_descriptor : got.

Lemma got_rgba_descriptor_ext : forall tag o, rgba_descriptor_got o -> res rgba_descriptor_got (rgba_descriptor_ext i tag o).
Proof. unfold rgba_descriptor_ext. repeat got_step ltac:(unfold rgba_descriptor_got, comp_refs_got, alpha_refs_got in *; cbn [set_rgba_frame_index_offset set_rgba_has_comp_min_ref set_rgba_comp_min_ref set_rgba_has_comp_max_ref set_rgba_comp_max_ref set_rgba_alpha_min_ref set_rgba_alpha_max_ref rgba_did rgba_pixel_layout rgba_frame_index_offset rgba_has_comp_min_ref rgba_comp_min_ref rgba_has_comp_max_ref rgba_comp_max_ref rgba_alpha_min_ref rgba_alpha_max_ref] in *; got_fin). Qed.
Hint Resolve got_rgba_descriptor_ext : got.

Lemma got_rpixel_layout : res pixel_layout_got (rpixel_layout i).
Proof.
  unfold rpixel_layout. eapply res_bind; [got_reader|]. intros n Hn.
  eapply res_bind; [apply got_fread|]. intros a [Ha La].
  eapply res_bind; [got_reader|]. intros m Hm. eapply res_bind; [apply got_fread|]. intros b [Hb Lb].
  eapply res_bind; [got_reader|]. intros _ _. apply res_ret. split.
  - apply Forall_forall. intros [x y] Hxy. rewrite Forall_forall in Ha, Hb.
    pose proof (Ha x (in_combine_l _ _ _ _ Hxy)) as X. pose proof (Hb y (in_combine_r _ _ _ _ Hxy)) as Y.
    unfold is_byte, fits_u8 in *. cbn [fst snd]. lia.
  - unfold fits_u32, fits_date, len in *. rewrite combine_length. lia.
Qed.
Hint Resolve got_rpixel_layout : got.

Lemma got_rrgba_descriptor : res rgba_descriptor_got (rrgba_descriptor i).
Proof. unfold rrgba_descriptor. repeat got_step ltac:(unfold rgba_descriptor_got, comp_refs_got, alpha_refs_got in *; cbn [set_rgba_frame_index_offset set_rgba_has_comp_min_ref set_rgba_comp_min_ref set_rgba_has_comp_max_ref set_rgba_comp_max_ref set_rgba_alpha_min_ref set_rgba_alpha_max_ref rgba_did rgba_pixel_layout rgba_frame_index_offset rgba_has_comp_min_ref rgba_comp_min_ref rgba_has_comp_max_ref rgba_comp_max_ref rgba_alpha_min_ref rgba_alpha_max_ref] in *; got_fin). Qed.
Hint Resolve got_rrgba_descriptor : got.
Lemma got_rdata_descriptor : res data_descriptor_got (rdata_descriptor i).
Proof. unfold rdata_descriptor. repeat got_step ltac:(unfold data_descriptor_got in *; cbn [datd_file datd_is_offset_to_frame_indexes_valid datd_offset_to_frame_indexes datd_first_frame_offset datd_min_sample_size datd_max_sample_size] in *; got_fin). Qed.
Hint Resolve got_rdata_descriptor : got.
Lemma got_ranc_data_descriptor : res anc_data_descriptor_got (ranc_data_descriptor i).
Proof. unfold ranc_data_descriptor. repeat got_step ltac:(unfold anc_data_descriptor_got in *; cbn [ancd_data ancd_manifest_element_count] in *; got_fin). Qed.
Hint Resolve got_ranc_data_descriptor : got.

Lemma got_rsetting : res setting_got (rsetting i).
Proof. unfold rsetting. repeat got_step ltac:(unfold setting_got in *; cbn [aset_name aset_kind aset_attr_count aset_attr_type aset_attributes] in *; got_fin). Qed.
Hint Resolve got_rsetting : got.

Lemma got_rbin_column : res bin_column_got (rbin_column i).
Proof. unfold rbin_column. repeat got_step ltac:(unfold bin_column_got in *; cbn [bcol_title bcol_format bcol_type bcol_hidden] in *; got_fin). Qed.
Hint Resolve got_rbin_column : got.

Lemma got_rformat_desc : res format_desc_got (rformat_desc i).
Proof.
  unfold rformat_desc. do 6 (eapply res_bind; [got_reader|]; intro; intro).
  eapply res_bind; [apply got_fread|]. intros d [Hd _].
  eapply (res_bind _ _ (fun s => utf8_decode d = Ok s)); [now apply res_of_result|].
  intros s Hs. apply res_ret. split; [assumption|]. cbn [fdsc_format_descriptor].
  eapply utf8_encode_range. eapply utf8_dec1; eassumption.
Qed.
Hint Resolve got_rformat_desc : got.

Lemma got_bin_view_setting_ext : forall tag o, bin_view_setting_got o -> res bin_view_setting_got (bin_view_setting_ext i tag o).
Proof. unfold bin_view_setting_ext. repeat got_step ltac:(unfold bin_view_setting_got, format_descs_got in *; cbn [set_bvst_format_descriptors bvst_setting bvst_columns bvst_format_descriptors] in *; got_fin). Qed.
Hint Resolve got_bin_view_setting_ext : got.

Lemma got_rbin_view_setting : res bin_view_setting_got (rbin_view_setting i).
Proof. unfold rbin_view_setting. repeat got_step ltac:(unfold bin_view_setting_got, format_descs_got in *; cbn [set_bvst_format_descriptors bvst_setting bvst_columns bvst_format_descriptors] in *; got_fin). Qed.
Hint Resolve got_rbin_view_setting : got.

Lemma got_rbin_item : res bin_item_got (rbin_item i).
Proof. unfold rbin_item. repeat got_step ltac:(unfold bin_item_got in *; cbn [item_mob item_x item_y item_keyframe item_user_placed] in *; got_fin). Qed.
Hint Resolve got_rbin_item : got.

Lemma got_rsift_item : res sift_item_got (rsift_item i).
Proof. unfold rsift_item. repeat got_step ltac:(unfold sift_item_got in *; cbn [sift_method sift_string sift_column] in *; got_fin). Qed.
Hint Resolve got_rsift_item : got.

Lemma got_rsort_column : res sort_column_got (rsort_column i).
Proof. unfold rsort_column. repeat got_step ltac:(unfold sort_column_got in *; cbn [scol_direction scol_name] in *; got_fin). Qed.
Hint Resolve got_rsort_column : got.

Lemma got_robject_count : forall version,
  res (fun n => fits_u32 n /\ (version = 14 -> n <= 65535)) (robject_count i version).
Proof.
  intros v. unfold robject_count. destruct (Z.eqb_spec v 14).
  - eapply res_weaken; [apply got_u16|]. intros n Hn. split; [got_num|intros; got_num].
  - eapply res_weaken; [apply got_u32|]. intros k Hk. split; [exact Hk|lia].
Qed.
Hint Resolve got_robject_count : got.

Lemma got_rbin_base : res bin_base_got (rbin_base i).
Proof. unfold rbin_base. repeat got_step ltac:(unfold bin_base_got, object_count_got in *; cbn [abin_large_bin abin_view_setting abin_uid abin_items abin_display_mask abin_display_mode abin_sifted abin_sifted_settings abin_sort_columns abin_mac_font abin_mac_font_size abin_mac_image_scale abin_home_rect abin_background_color abin_forground_color abin_ql_image_scale abin_attributes abin_was_iconic] in *; got_fin). Qed.
Hint Resolve got_rbin_base : got.

Lemma got_rbin : res bin_got (rbin i).
Proof. unfold rbin. repeat got_step ltac:(unfold bin_got in *; cbn [abin_large_bin abin_view_setting abin_uid abin_items abin_display_mask abin_display_mode abin_sifted abin_sifted_settings abin_sort_columns abin_mac_font abin_mac_font_size abin_mac_image_scale abin_home_rect abin_background_color abin_forground_color abin_ql_image_scale abin_attributes abin_was_iconic] in *; got_fin). Qed.
Hint Resolve got_rbin : got.

Lemma got_rbin_first : res bin_first_got (rbin_first i).
Proof. unfold rbin_first. repeat got_step ltac:(unfold bin_first_got in *; cbn [binf_bin binf_unknown_s32] in *; got_fin). Qed.
Hint Resolve got_rbin_first : got.

End Readers.

#[export] Hint Resolve got_rattr got_rattributes got_rparameter_list got_rtime_crumb_list
  got_rcomponent got_rsequence got_rclip got_rsource_clip got_rtimecode got_redgecode got_rtrack_ref
  got_rparam_point_property got_rcp_value got_rparam_control_point got_rparam_clip
  got_rcontrol_point_property got_rcontrol_point got_rcontrol_clip got_rfiller got_rtrack got_rlock
  got_rtrack_group got_rtrack_effect_base got_rtrack_effect got_rpan_volume_effect got_raspi_chunk
  got_raspi_plugin got_rpreset_path got_raudio_suite_effect got_requalizer_band
  got_requalizer_multi_band got_rtime_warp got_rcapture_mask got_rstrobe_effect got_rmotion_effect
  got_rrepeat_effect got_ressence_group got_rtransition_effect got_rselector got_rcomposition
  got_rfile_locator got_rurl_locator got_rgraphic_effect got_rshape_list
  got_rcolor_correction_effect got_rbox got_reffect_param got_reffect_param_list got_rcf_user_param
  got_rprit_value got_rparameter_item got_rmsm_locator got_rposition_base got_rposition
  got_rbob_position_base got_rbob_position got_rdid_position_base got_rdid_position got_rmpg_field
  got_rmpg_fields got_rmpg_position got_rbin_ref got_rmob_ref_base got_rmob_ref got_rmarker
  got_rtracker_manager got_rtracker_data_slot got_rtracker_parameter_slot got_rtracker_data
  got_rtracker_parameter got_rmedia_descriptor_base got_rmedia_descriptor got_rtape_descriptor
  got_rfilm_descriptor got_rmedia_file_descriptor_base got_rmedia_file_descriptor
  got_rmulti_descriptor got_rwave_descriptor got_raifc_descriptor got_rpcma_descriptor
  got_rmpga_descriptor got_rpoint got_rbounds_box got_rline_map got_rdid_descriptor_base
  got_rdid_descriptor got_rcdci_descriptor_base got_rcdci_descriptor got_rmpgi_descriptor
  got_rjped_descriptor got_rgba_descriptor_ext got_rpixel_layout got_rrgba_descriptor
  got_rdata_descriptor got_ranc_data_descriptor got_rsetting
  got_rbin_column got_rformat_desc got_rbin_view_setting got_rbin_item got_rsift_item
  got_rsort_column got_robject_count got_rbin_base got_rbin got_rbin_first : got.
