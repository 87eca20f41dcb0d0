(** When the writers succeed: for each class the condition, property by property, that the
    writer accepts the object. This is a specification, not part of the code: the widths are
    those of the file format. The reference map [orefs c] gives the chunk numbers of the
    objects already stored. *)
From Coq Require Import ZArith List Bool.
From Verif Require Import Base IoCtx Text Exp10 MobId Storable Attributes Components TrackGroups
  Misc Essence BinModel.
Import ListNotations.
Open Scope Z_scope.

Definition fits_u8 (v : Z) : Prop := 0 <= v <= 255.
Definition fits_s8 (v : Z) : Prop := -128 <= v <= 127.
Definition fits_u16 (v : Z) : Prop := 0 <= v <= 65535.
Definition fits_s16 (v : Z) : Prop := -32768 <= v <= 32767.
Definition fits_u32 (v : Z) : Prop := 0 <= v <= 4294967295.
Definition fits_s32 (v : Z) : Prop := -2147483648 <= v <= 2147483647.
Definition fits_u64 (v : Z) : Prop := 0 <= v <= 18446744073709551615.
Definition fits_s64 (v : Z) : Prop := -9223372036854775808 <= v <= 9223372036854775807.

(** A time stamp. *)
Definition fits_date (v : Z) : Prop := 0 <= v <= 4294967295.

(** A 64-bit pattern. *)
Definition fits_double (v : Z) : Prop := 0 <= v <= 18446744073709551615.

(** Every character is one of Mac Roman's and the length has two bytes. *)
Definition fits_str (s : str) : Prop := Forall (fun c => In c mac_table) s /\ len s <= 65535.

(** No surrogates, and the two leading NULs are counted in the length. *)
Definition fits_utf8 (s : str) : Prop :=
  Forall (fun c => 0 <= c < 0xD800 \/ 0xE000 <= c < 0x110000) s /\ utf8_size s <= 65533.

Definition fits_exp10 (x : float64) : Prop :=
  exists m e, exp10_parts x = Ok (m, e) /\ fits_s32 m /\ fits_s16 e.

Definition fits_rect (v : rect) : Prop :=
  fits_s16 (rc0 v) /\ fits_s16 (rc1 v) /\ fits_s16 (rc2 v) /\ fits_s16 (rc3 v).

Definition fits_rgb (v : rgb) : Prop :=
  fits_u16 (rgb_r v) /\ fits_u16 (rgb_g v) /\ fits_u16 (rgb_b v).

(** None, or an object that has been stored. *)
Definition fits_ref (c : octx) (r : Z) : Prop :=
  r = 0 \/ exists x, orefs c r = Some x /\ fits_u32 x.


(** ** Classes of Attributes.v *)

(** An entry of a dictionary. *)
Definition attr_fits (c : octx) (p : str * attr_value) : Prop :=
  fits_str (fst p) /\
  match snd p with
  | AInt v => fits_s32 v
  | AStr s => fits_str s
  | ARef r => fits_ref c r
  | ABob v => fits_u32 (len v)
  end.

(** [wattributes]. *)
Definition attributes_fits (c : octx) (o : attributes) : Prop :=
  fits_u32 (len o) /\
  Forall (attr_fits c) o.

(** [wparameter_list]. *)
Definition parameter_list_fits (c : octx) (o : parameter_list) : Prop :=
  fits_s32 (len o) /\
  Forall (fits_ref c) o.

(** [wtime_crumb_list]. *)
Definition time_crumb_list_fits (c : octx) (o : time_crumb_list) : Prop :=
  fits_s16 (len o) /\
  Forall (fits_ref c) o.

(** ** Classes of Components.v *)

(** [wcomponent]. *)
Definition component_fits (c : octx) (o : component) : Prop :=
  fits_ref c (cpnt_left_bob o) /\
  fits_ref c (cpnt_right_bob o) /\
  fits_s16 (cpnt_media_kind_id o) /\
  fits_exp10 (cpnt_edit_rate o) /\
  fits_str (cpnt_name o) /\
  fits_str (cpnt_effect_id o) /\
  fits_ref c (cpnt_attributes o) /\
  fits_ref c (cpnt_session_attrs o) /\
  fits_ref c (cpnt_precomputed o) /\
  opt_ok (fits_ref c) (cpnt_param_list o).

(** [wsequence]. *)
Definition sequence_fits (c : octx) (o : sequence) : Prop :=
  component_fits c (sequ_component o) /\
  fits_u32 (len (sequ_components o)) /\
  Forall (fits_ref c) (sequ_components o).

(** [wclip]. *)
Definition clip_fits (c : octx) (o : clip) : Prop :=
  component_fits c (clip_component o) /\
  fits_u32 (clip_length o).

(** A source clip without a mob ID cannot be written. *)
Definition source_clip_fits (c : octx) (o : source_clip) : Prop :=
  clip_fits c (sclp_clip o) /\
  sclp_mob_id o <> None /\
  fits_s16 (sclp_track_id o) /\
  fits_s32 (sclp_start_time o).

(** [wtimecode]. *)
Definition timecode_fits (c : octx) (o : timecode) : Prop :=
  clip_fits c (tccp_clip o) /\
  fits_u32 (tccp_flags o) /\
  fits_u16 (tccp_fps o) /\
  fits_u32 (tccp_start o).

(** [wedgecode]. *)
Definition edgecode_fits (c : octx) (o : edgecode) : Prop :=
  clip_fits c (eccp_clip o) /\
  len (eccp_header o) = 8 /\
  fits_u8 (eccp_film_kind o) /\
  fits_u8 (eccp_code_format o) /\
  fits_u16 (eccp_base_perf o) /\
  fits_s32 (eccp_start_ec o).

(** [wtrack_ref]. *)
Definition track_ref_fits (c : octx) (o : track_ref) : Prop :=
  clip_fits c (trkr_clip o) /\
  fits_s16 (trkr_relative_scope o) /\
  fits_s16 (trkr_relative_track o).

Definition param_point_property_fits (c : octx) (o : param_point_property) : Prop :=
  fits_s16 (ppp_code o) /\
  match ppp_value o with
  | CPInt n => ppp_type o = 1 /\ fits_s32 n
  | CPDouble d => ppp_type o = 2 /\ fits_double d
  | CPRef _ => False
  end.

(** The value is of the declared type: 1 integer, 2 double, 4 reference. *)
Definition cp_value_fits (c : octx) (value_type : Z) (v : cp_value) : Prop :=
  match v with
  | CPInt n => value_type = 1 /\ fits_s32 n
  | CPDouble d => value_type = 2 /\ fits_double d
  | CPRef r => value_type = 4 /\ fits_ref c r
  end.

(** [wparam_control_point]. *)
Definition param_control_point_fits (c : octx) (value_type : Z) (o : param_control_point) : Prop :=
  fits_s32 (pcp_offset_num o) /\
  fits_s32 (pcp_offset_den o) /\
  fits_s32 (pcp_timescale o) /\
  cp_value_fits c value_type (pcp_value o) /\
  fits_s16 (len (pcp_pp o)) /\
  Forall (param_point_property_fits c) (pcp_pp o).

(** [wparam_clip]. *)
Definition param_clip_fits (c : octx) (o : param_clip) : Prop :=
  clip_fits c (prcl_clip o) /\
  fits_s32 (prcl_interp_kind o) /\
  fits_s16 (prcl_value_type o) /\
  fits_s32 (len (prcl_control_points o)) /\
  Forall (param_control_point_fits c (prcl_value_type o)) (prcl_control_points o) /\
  opt_ok fits_s32 (prcl_extrap_kind o) /\
  opt_ok fits_s32 (prcl_fields o).

(** [wcontrol_point_property]. *)
Definition control_point_property_fits (c : octx) (o : control_point_property) : Prop :=
  fits_s16 (cpp_code o) /\
  fits_s32 (cpp_value_num o) /\
  fits_s32 (cpp_value_den o).

(** [wcontrol_point]. *)
Definition control_point_fits (c : octx) (o : control_point) : Prop :=
  fits_s32 (cp_offset_num o) /\
  fits_s32 (cp_offset_den o) /\
  fits_s32 (cp_time_scale o) /\
  fits_s32 (cp_value_num o) /\
  fits_s32 (cp_value_den o) /\
  fits_s16 (len (cp_pp o)) /\
  Forall (control_point_property_fits c) (cp_pp o).

(** [wcontrol_clip]. *)
Definition control_clip_fits (c : octx) (o : control_clip) : Prop :=
  clip_fits c (ctrl_clip o) /\
  fits_s32 (ctrl_interp_kind o) /\
  fits_s32 (len (ctrl_control_points o)) /\
  Forall (control_point_fits c) (ctrl_control_points o).

(** [wfiller]. *)
Definition filler_fits (c : octx) (o : filler) : Prop :=
  clip_fits c (fill_clip o).

(** ** Classes of TrackGroups.v *)

(** Any subset of the ten optional parts. *)
Definition track_fits (c : octx) (t : track) : Prop :=
  opt_ok fits_s16 (trak_index t) /\
  opt_ok (fits_ref c) (trak_attributes t) /\
  opt_ok (fits_ref c) (trak_session_attr t) /\
  opt_ok (fits_ref c) (trak_component t) /\
  opt_ok (fits_ref c) (trak_filler_proxy t) /\
  opt_ok (fits_ref c) (trak_bob_data t) /\
  opt_ok fits_s16 (trak_control_code t) /\
  opt_ok fits_s16 (trak_control_sub_code t) /\
  opt_ok fits_s32 (trak_start_pos t).

Definition lock_fits (c : octx) (t : track) : Prop := opt_ok fits_s16 (trak_lock_number t).

Definition track_group_fits (c : octx) (o : track_group) : Prop :=
  component_fits c (trkg_component o) /\
  fits_u8 (trkg_mc_mode o) /\
  fits_s32 (trkg_length o) /\
  fits_s32 (trkg_num_scalars o) /\
  fits_s32 (len (trkg_tracks o)) /\
  Forall (track_fits c) (trkg_tracks o) /\
  Forall (lock_fits c) (trkg_tracks o).

(** [wtrack_effect_base]. *)
Definition track_effect_base_fits (c : octx) (o : track_effect) : Prop :=
  track_group_fits c (tkfx_group o) /\
  fits_s32 (tkfx_left_length o) /\
  fits_s32 (tkfx_right_length o) /\
  fits_s16 (tkfx_info_version o) /\
  fits_s32 (tkfx_info_current o) /\
  fits_s32 (tkfx_info_smooth o) /\
  fits_s16 (tkfx_info_color_item o) /\
  fits_s16 (tkfx_info_quality o) /\
  fits_s8 (tkfx_info_is_reversed o) /\
  fits_ref c (tkfx_keyframes o) /\
  opt_ok (fits_ref c) (tkfx_trackman o).

(** [wtrack_effect]. *)
Definition track_effect_fits (c : octx) (o : track_effect) : Prop :=
  track_effect_base_fits c o.

(** [wpan_volume_effect]. *)
Definition pan_volume_effect_fits (c : octx) (o : pan_volume_effect) : Prop :=
  track_effect_base_fits c (pvol_effect o) /\
  fits_s32 (pvol_level o) /\
  fits_s32 (pvol_pan o) /\
  opt_ok fits_s32 (pvol_supports_seperate_gain o) /\
  opt_ok fits_s32 (pvol_is_trim_gain_effect o).

(** [waspi_chunk]. *)
Definition aspi_chunk_fits (c : octx) (o : aspi_chunk) : Prop :=
  fits_s32 (len (aspc_data o)) /\
  fits_s32 (aspc_version o) /\
  fits_u32 (aspc_manufacturer_id o) /\
  fits_u32 (aspc_product_id o) /\
  fits_u32 (aspc_plugin_id o) /\
  fits_u32 (aspc_chunk_id o) /\
  fits_str (aspc_name o).

(** [waspi_plugin]. *)
Definition aspi_plugin_fits (c : octx) (o : aspi_plugin) : Prop :=
  fits_str (aspp_name o) /\
  fits_u32 (aspp_manufacturer_id o) /\
  fits_u32 (aspp_product_id o) /\
  fits_u32 (aspp_plugin_id o) /\
  fits_s32 (len (aspp_chunks o)) /\
  Forall (aspi_chunk_fits c) (aspp_chunks o).

Definition preset_path_fits (c : octx) (v : bytes) : Prop := fits_u32 (len v).

(** [waudio_suite_effect]. *)
Definition audio_suite_effect_fits (c : octx) (o : audio_suite_effect) : Prop :=
  track_effect_base_fits c (aspi_effect o) /\
  fits_s32 (len (aspi_plugins o)) /\
  Forall (aspi_plugin_fits c) (aspi_plugins o) /\
  opt_ok (fun m => fits_s32 (mob_lo m) /\ fits_s32 (mob_hi m)) (aspi_mob_id o) /\
  opt_ok fits_s64 (aspi_mark_in o) /\
  opt_ok fits_s64 (aspi_mark_out o) /\
  opt_ok fits_s32 (aspi_tracks_to_affect o) /\
  opt_ok fits_s32 (aspi_rendering_mode o) /\
  opt_ok fits_s32 (aspi_padding_secs o) /\
  opt_ok (preset_path_fits c) (aspi_preset_path o).

(** [wequalizer_band]. *)
Definition equalizer_band_fits (c : octx) (o : equalizer_band) : Prop :=
  fits_s32 (eqbd_type o) /\
  fits_s32 (eqbd_freq o) /\
  fits_s32 (eqbd_gain o) /\
  fits_s32 (eqbd_q o).

(** [wequalizer_multi_band]. *)
Definition equalizer_multi_band_fits (c : octx) (o : equalizer_multi_band) : Prop :=
  track_effect_base_fits c (eqmb_effect o) /\
  fits_s32 (len (eqmb_bands o)) /\
  Forall (equalizer_band_fits c) (eqmb_bands o) /\
  fits_str (eqmb_filter_name o).

(** [wtime_warp]. *)
Definition time_warp_fits (c : octx) (o : time_warp) : Prop :=
  track_group_fits c (warp_group o) /\
  fits_s32 (warp_phase_offset o).

(** [wcapture_mask]. *)
Definition capture_mask_fits (c : octx) (o : capture_mask) : Prop :=
  time_warp_fits c (mask_warp o) /\
  fits_u32 (mask_mask_bits o).

(** [wstrobe_effect]. *)
Definition strobe_effect_fits (c : octx) (o : strobe_effect) : Prop :=
  time_warp_fits c (strb_warp o) /\
  fits_s32 (strb_strobe_value o).

(** [wmotion_effect]. *)
Definition motion_effect_fits (c : octx) (o : motion_effect) : Prop :=
  time_warp_fits c (sped_warp o) /\
  fits_s32 (sped_speed_num o) /\
  fits_s32 (sped_speed_den o) /\
  opt_ok fits_double (sped_offset_adjust o) /\
  opt_ok (fits_ref c) (sped_source_param_list o).

(** [wrepeat_effect]. *)
Definition repeat_effect_fits (c : octx) (o : repeat_effect) : Prop :=
  time_warp_fits c (rept_warp o).

(** [wessence_group]. *)
Definition essence_group_fits (c : octx) (o : essence_group) : Prop :=
  track_group_fits c (rset_group o) /\
  opt_ok fits_s32 (rset_rep_set_type o).

(** [wtransition_effect]. *)
Definition transition_effect_fits (c : octx) (o : transition_effect) : Prop :=
  track_group_fits c (tnfx_group o) /\
  fits_s32 (tnfx_cutpoint o) /\
  fits_s32 (tnfx_left_length o) /\
  fits_s32 (tnfx_right_length o) /\
  fits_s16 (tnfx_info_version o) /\
  fits_s32 (tnfx_info_current o) /\
  fits_s32 (tnfx_info_smooth o) /\
  fits_s16 (tnfx_info_color_item o) /\
  fits_s16 (tnfx_info_quality o) /\
  fits_s8 (tnfx_info_is_reversed o) /\
  fits_ref c (tnfx_keyframes o) /\
  opt_ok (fits_ref c) (tnfx_trackman o).

(** [wselector]. *)
Definition selector_fits (c : octx) (o : selector) : Prop :=
  track_group_fits c (slct_group o) /\
  fits_u16 (slct_selected o).

(** A mob without an ID cannot be written. *)
Definition composition_fits (c : octx) (o : composition) : Prop :=
  track_group_fits c (cmpo_group o) /\
  cmpo_mob_id o <> None /\
  fits_date (cmpo_last_modified o) /\
  fits_u8 (cmpo_mob_type_id o) /\
  fits_s32 (cmpo_usage_code o) /\
  fits_ref c (cmpo_descriptor o) /\
  opt_ok fits_date (cmpo_creation_time o).

(** ** Classes of Misc.v *)

(** [wfile_locator]. *)
Definition file_locator_fits (c : octx) (o : file_locator) : Prop :=
  fits_str (file_path o) /\
  opt_ok fits_str (file_path_posix o) /\
  opt_ok fits_utf8 (file_path_utf8 o) /\
  opt_ok fits_utf8 (file_path2_utf8 o).

(** [wurl_locator]. *)
Definition url_locator_fits (c : octx) (o : url_locator) : Prop :=
  True.

(** [wgraphic_effect]. *)
Definition graphic_effect_fits (c : octx) (o : graphic_effect) : Prop :=
  fits_s32 (len (grfx_pict_data o)).

(** [wshape_list]. *)
Definition shape_list_fits (c : octx) (o : shape_list) : Prop :=
  fits_s32 (len (shlp_shape_data o)).

(** [wcolor_correction_effect]. *)
Definition color_correction_effect_fits (c : octx) (o : color_correction_effect) : Prop :=
  fits_s16 (len (ccfx_color_correction o)).

(** [wbox]. *)
Definition box_fits (c : octx) (v : rect) : Prop :=
  fits_s32 (rc0 v) /\
  fits_s32 (rc1 v) /\
  fits_s32 (rc2 v) /\
  fits_s32 (rc3 v).

(** [weffect_param]. *)
Definition effect_param_fits (c : octx) (o : effect_param) : Prop :=
  fits_s32 (fxp_percent_time o) /\
  fits_s32 (fxp_level o) /\
  fits_s32 (fxp_pos_x o) /\
  fits_s32 (fxp_floor_x o) /\
  fits_s32 (fxp_ceil_x o) /\
  fits_s32 (fxp_pos_y o) /\
  fits_s32 (fxp_floor_y o) /\
  fits_s32 (fxp_ceil_y o) /\
  fits_s32 (fxp_scale_x o) /\
  fits_s32 (fxp_scale_y o) /\
  fits_s32 (fxp_crop_left o) /\
  fits_s32 (fxp_crop_right o) /\
  fits_s32 (fxp_crop_top o) /\
  fits_s32 (fxp_crop_bottom o) /\
  box_fits c (fxp_box o) /\
  fits_s32 (fxp_border_width o) /\
  fits_s32 (fxp_border_soft o) /\
  fits_s16 (fxp_splill_gain2 o) /\
  fits_s16 (fxp_splill_gain o) /\
  fits_s16 (fxp_splill_soft2 o) /\
  fits_s16 (fxp_splill_soft o) /\
  fits_s8 (fxp_enable_key_flags o) /\
  fits_s32 (len (fxp_colors o)) /\
  Forall fits_s32 (fxp_colors o) /\
  fits_s32 (len (fxp_user_param o)).

(** [weffect_param_list]. *)
Definition effect_param_list_fits (c : octx) (o : effect_param_list) : Prop :=
  fits_s32 (fxps_orig_length o) /\
  fits_s32 (fxps_window_offset o) /\
  fits_s32 (len (fxps_parameters o)) /\
  fits_s32 (fxps_keyframe_size o) /\
  Forall (effect_param_fits c) (fxps_parameters o).

(** [wcf_user_param]. *)
Definition cf_user_param_fits (c : octx) (o : cf_user_param) : Prop :=
  fits_s32 (len (avup_data o) + 4) /\
  fits_s32 (len (avup_data o)).

Definition parameter_item_fits (c : octx) (o : parameter_item) : Prop :=
  cp_value_fits c (prit_value_type o) (prit_value o) /\
  fits_str (prit_name o) /\
  fits_ref c (prit_control_track o).

(** Without an ID the object cannot be written. *)
Definition mob_words_fits (c : octx) (m : option mobid) : Prop := m <> None.

(** [wmsm_locator]. *)
Definition msm_locator_fits (c : octx) (o : msm_locator) : Prop :=
  mob_words_fits c (msml_mob_id o) /\
  fits_str (msml_last_known_volume o) /\
  opt_ok fits_s32 (msml_domain_type o) /\
  opt_ok fits_utf8 (msml_last_known_volume_utf8 o).

(** [wposition_base]. *)
Definition position_base_fits (c : octx) (o : position) : Prop :=
  mob_words_fits c (apos_mob_id o).

(** [wposition]. *)
Definition position_fits (c : octx) (o : position) : Prop :=
  position_base_fits c o.

(** [wbob_position_base]. *)
Definition bob_position_base_fits (c : octx) (o : bob_position) : Prop :=
  position_base_fits c (abob_position o) /\
  fits_s32 (abob_sample_num o) /\
  fits_s32 (abob_length o) /\
  fits_s16 (abob_track_type o) /\
  fits_s16 (abob_track_index o).

(** [wbob_position]. *)
Definition bob_position_fits (c : octx) (o : bob_position) : Prop :=
  bob_position_base_fits c o.

(** [wdid_position_base]. *)
Definition did_position_base_fits (c : octx) (o : did_position) : Prop :=
  bob_position_base_fits c (didp_bob o) /\
  fits_s32 (didp_strip o) /\
  fits_u64 (didp_offset o) /\
  fits_u64 (didp_byte_length o).

(** [wdid_position]. *)
Definition did_position_fits (c : octx) (o : did_position) : Prop :=
  did_position_base_fits c o.

Definition mpg_field_fits (c : octx) (p : Z * Z) : Prop := fits_u8 (fst p) /\ fits_u32 (snd p).

(** Twice the count is stored as well. *)
Definition mpg_fields_fits (c : octx) (l : list (Z * Z)) : Prop :=
  fits_s16 (len l * 2) /\ Forall (mpg_field_fits c) l.

(** [wmpg_position]. *)
Definition mpg_position_fits (c : octx) (o : mpg_position) : Prop :=
  did_position_base_fits c (mpgp_did o) /\
  fits_s16 (mpgp_trailing_discards o) /\
  mpg_fields_fits c (mpgp_fields o).

(** [wbin_ref]. *)
Definition bin_ref_fits (c : octx) (o : bin_ref) : Prop :=
  fits_s32 (mcbr_uid_high o) /\
  fits_s32 (mcbr_uid_low o) /\
  fits_str (mcbr_name o) /\
  match mcbr_name_utf8 o with None => False | Some v => fits_utf8 v end.

(** [wmob_ref_base]. *)
Definition mob_ref_base_fits (c : octx) (o : mob_ref) : Prop :=
  mob_words_fits c (mcmr_mob_id o) /\
  fits_s32 (mcmr_position o).

(** [wmob_ref]. *)
Definition mob_ref_fits (c : octx) (o : mob_ref) : Prop :=
  mob_ref_base_fits c o.

(** [wmarker]. *)
Definition marker_fits (c : octx) (o : marker) : Prop :=
  mob_ref_base_fits c (tmbc_mob_ref o) /\
  fits_s32 (tmbc_comp_offset o) /\
  fits_ref c (tmbc_attributes o) /\
  Forall fits_u16 (tmbc_color o).

(** [wtracker_manager]. *)
Definition tracker_manager_fits (c : octx) (o : tracker_manager) : Prop :=
  fits_ref c (tkmn_data_slots o) /\
  fits_ref c (tkmn_param_slots o).

(** [wtracker_data_slot]. *)
Definition tracker_data_slot_fits (c : octx) (o : tracker_data_slot) : Prop :=
  fits_s32 (len (tkds_tracker_data o)) /\
  Forall (fits_ref c) (tkds_tracker_data o).

(** [wtracker_parameter_slot]. *)
Definition tracker_parameter_slot_fits (c : octx) (o : tracker_parameter_slot) : Prop :=
  fits_s16 (len (tkps_settings o)) /\
  fits_s32 (len (tkps_params o)) /\
  Forall (fits_ref c) (tkps_params o).

(** [wtracker_data]. *)
Definition tracker_data_fits (c : octx) (o : tracker_data) : Prop :=
  fits_s16 (len (tkda_settings o)) /\
  fits_u32 (tkda_clip_version o) /\
  fits_s16 (len (tkda_clips o)) /\
  Forall (fits_ref c) (tkda_clips o) /\
  opt_ok fits_u32 (tkda_offset_tracking o) /\
  opt_ok fits_u32 (tkda_smoothing o) /\
  opt_ok fits_u32 (tkda_jitter_removal o) /\
  opt_ok fits_double (tkda_filter_amount o) /\
  opt_ok (fits_ref c) (tkda_clip5 o) /\
  opt_ok (fits_ref c) (tkda_clip6 o).

(** [wtracker_parameter]. *)
Definition tracker_parameter_fits (c : octx) (o : tracker_parameter) : Prop :=
  fits_s16 (len (tkpa_settings o)).

(** ** Classes of Essence.v *)

(** [wmedia_descriptor_base]. *)
Definition media_descriptor_base_fits (c : octx) (o : media_descriptor) : Prop :=
  fits_u8 (mdes_mob_kind o) /\
  fits_ref c (mdes_locator o) /\
  fits_ref c (mdes_physical_media o) /\
  opt_ok (fun v => fits_s32 (len v)) (mdes_wchar o) /\
  opt_ok (fits_ref c) (mdes_attributes o).

(** [wmedia_descriptor]. *)
Definition media_descriptor_fits (c : octx) (o : media_descriptor) : Prop :=
  media_descriptor_base_fits c o.

(** [wtape_descriptor]. *)
Definition tape_descriptor_fits (c : octx) (o : tape_descriptor) : Prop :=
  media_descriptor_base_fits c (mdtp_media o) /\
  fits_s16 (mdtp_cframe o).

(** [wfilm_descriptor]. *)
Definition film_descriptor_fits (c : octx) (o : film_descriptor) : Prop :=
  media_descriptor_base_fits c o.

(** [wmedia_file_descriptor_base]. *)
Definition media_file_descriptor_base_fits (c : octx) (o : media_file_descriptor) : Prop :=
  media_descriptor_base_fits c (mdfl_media o) /\
  fits_exp10 (mdfl_edit_rate o) /\
  fits_s32 (mdfl_length o) /\
  fits_s16 (mdfl_is_omfi o) /\
  fits_s32 (mdfl_data_offset o).

(** [wmedia_file_descriptor]. *)
Definition media_file_descriptor_fits (c : octx) (o : media_file_descriptor) : Prop :=
  media_file_descriptor_base_fits c o.

(** [wmulti_descriptor]. *)
Definition multi_descriptor_fits (c : octx) (o : multi_descriptor) : Prop :=
  media_file_descriptor_base_fits c (muld_file o) /\
  fits_s32 (len (muld_descriptors o)) /\
  Forall (fits_ref c) (muld_descriptors o).

(** [wwave_descriptor]. *)
Definition wave_descriptor_fits (c : octx) (o : wave_descriptor) : Prop :=
  media_file_descriptor_base_fits c (wave_file o) /\
  fits_u32 (len (wave_summary o)).

(** [waifc_descriptor]. *)
Definition aifc_descriptor_fits (c : octx) (o : aifc_descriptor) : Prop :=
  media_file_descriptor_base_fits c (aifc_file o) /\
  fits_u32 (len (aifc_summary o)) /\
  opt_ok fits_s32 (aifc_data_pos o).

(** [wpcma_descriptor]. *)
Definition pcma_descriptor_fits (c : octx) (o : pcma_descriptor) : Prop :=
  media_file_descriptor_base_fits c (pcma_file o) /\
  fits_u16 (pcma_channels o) /\
  fits_u16 (pcma_quantization_bits o) /\
  fits_exp10 (pcma_sample_rate o) /\
  fits_s16 (pcma_audio_ref_level o) /\
  fits_s32 (pcma_electro_spatial_formulation o) /\
  fits_u16 (pcma_dial_norm o) /\
  fits_u32 (pcma_coding_format o) /\
  fits_u32 (pcma_block_align o) /\
  fits_u16 (pcma_sequence_offset o) /\
  fits_u32 (pcma_average_bps o) /\
  fits_s32 (pcma_peak_envelope_version o) /\
  fits_s32 (pcma_peak_envelope_format o) /\
  fits_s32 (pcma_points_per_peak_value o) /\
  fits_s32 (pcma_peak_envelope_block_size o) /\
  fits_s32 (pcma_peak_channel_count o) /\
  fits_s32 (pcma_peak_frame_count o) /\
  fits_u64 (pcma_peak_of_peaks_offset o) /\
  fits_s32 (pcma_peak_envelope_timestamp o) /\
  opt_ok fits_s64 (pcma_ebu_timestamp o) /\
  opt_ok fits_str (pcma_timecode_framerate o).

(** [wmpga_descriptor]. *)
Definition mpga_descriptor_fits (c : octx) (o : mpga_descriptor) : Prop :=
  media_file_descriptor_base_fits c (mpga_file o) /\
  fits_u16 (mpga_channels o) /\
  fits_u16 (mpga_quantization_bits o) /\
  fits_exp10 (mpga_sample_rate o) /\
  fits_s16 (mpga_audio_ref_level o) /\
  fits_s32 (mpga_electro_spatial_formulation o) /\
  fits_u16 (mpga_dial_norm o) /\
  fits_u32 (mpga_coding_format o) /\
  fits_u32 (mpga_bit_rate o) /\
  opt_ok fits_s64 (mpga_sub_frame_alignment o) /\
  opt_ok fits_u64 (mpga_origin o).

(** [wpoint]. *)
Definition point_fits (c : octx) (x y : Z) : Prop :=
  fits_s32 x /\
  fits_s32 y.

(** [wbounds_box]. *)
Definition bounds_box_fits (c : octx) (b : bounds_box) : Prop :=
  point_fits c (bb_x0 b) (bb_y0 b) /\
  point_fits c (bb_x1 b) (bb_y1 b) /\
  point_fits c (bb_x2 b) (bb_y2 b) /\
  point_fits c (bb_x3 b) (bb_y3 b).

(** The end alone is not written; the start alone cannot be. *)
Definition client_fill_fits (c : octx) (s e : option Z) : Prop :=
  match s with
  | None => True
  | Some a => fits_s32 a /\ match e with Some b => fits_s32 b | None => False end
  end.

(** Written when all three are there. *)
Definition boxes_fits (c : octx) (va es so : option bounds_box) : Prop :=
  match va, es, so with
  | Some a, Some b, Some d => bounds_box_fits c a /\ bounds_box_fits c b /\ bounds_box_fits c d
  | _, _, _ => True
  end.

Definition framing_fits (c : octx) (fb : option bounds_box) (ro : option Z) : Prop :=
  match fb, ro with
  | Some a, Some b => bounds_box_fits c a /\ fits_s32 b
  | _, _ => True
  end.

Definition color_fits (c : octx) (cp ce : option uuid) : Prop := True.

(** [wline_map]. *)
Definition line_map_fits (c : octx) (l : list Z) : Prop :=
  fits_s32 (len l * 4) /\
  Forall fits_s32 l.

(** [wdid_descriptor_base]. *)
Definition did_descriptor_base_fits (c : octx) (o : did_descriptor) : Prop :=
  media_file_descriptor_base_fits c (didd_file o) /\
  fits_s32 (didd_stored_height o) /\
  fits_s32 (didd_stored_width o) /\
  fits_s32 (didd_sampled_height o) /\
  fits_s32 (didd_sampled_width o) /\
  fits_s32 (didd_sampled_x_offset o) /\
  fits_s32 (didd_sampled_y_offset o) /\
  fits_s32 (didd_display_height o) /\
  fits_s32 (didd_display_width o) /\
  fits_s32 (didd_display_x_offset o) /\
  fits_s32 (didd_display_y_offset o) /\
  fits_s16 (didd_frame_layout o) /\
  fits_s32 (didd_aspect_num o) /\
  fits_s32 (didd_aspect_den o) /\
  line_map_fits c (didd_line_map o) /\
  fits_s32 (didd_alpha_transparency o) /\
  fits_s32 (didd_did_image_size o) /\
  fits_ref c (didd_next_did_desc o) /\
  len (didd_compress_method o) = 4 /\
  fits_s32 (didd_resolution_id o) /\
  fits_s32 (didd_image_alignment_factor o) /\
  opt_ok fits_s16 (didd_frame_index_byte_order o) /\
  opt_ok fits_s32 (didd_frame_sample_size o) /\
  opt_ok fits_s32 (didd_first_frame_offset o) /\
  client_fill_fits c (didd_client_fill_start o) (didd_client_fill_end o) /\
  opt_ok fits_s32 (didd_offset_to_rle_frame_index o) /\
  opt_ok fits_s32 (didd_frame_start_offset o) /\
  boxes_fits c (didd_valid_box o) (didd_essence_box o) (didd_source_box o) /\
  framing_fits c (didd_framing_box o) (didd_reformatting_option o) /\
  color_fits c (didd_color_primaries o) (didd_coding_equations o) /\
  opt_ok fits_u8 (didd_essence_element_size_kind o).

(** [wdid_descriptor]. *)
Definition did_descriptor_fits (c : octx) (o : did_descriptor) : Prop :=
  did_descriptor_base_fits c o.

(** [wcdci_descriptor_base]. *)
Definition cdci_descriptor_base_fits (c : octx) (o : cdci_descriptor) : Prop :=
  did_descriptor_base_fits c (cdci_did o) /\
  fits_u32 (cdci_horizontal_subsampling o) /\
  fits_u32 (cdci_vertical_subsampling o) /\
  fits_s32 (cdci_component_width o) /\
  fits_s16 (cdci_color_sitting o) /\
  fits_u32 (cdci_black_ref_level o) /\
  fits_u32 (cdci_white_ref_level o) /\
  fits_u32 (cdci_color_range o) /\
  fits_s64 (cdci_frame_index_offset o) /\
  opt_ok fits_u32 (cdci_alpha_sampled_width o) /\
  opt_ok fits_u32 (cdci_ignore_bw o).

(** [wcdci_descriptor]. *)
Definition cdci_descriptor_fits (c : octx) (o : cdci_descriptor) : Prop :=
  cdci_descriptor_base_fits c o.

(** [wmpgi_descriptor]. *)
Definition mpgi_descriptor_fits (c : octx) (o : mpgi_descriptor) : Prop :=
  cdci_descriptor_base_fits c (mpgi_cdci o) /\
  fits_u8 (mpgi_mpeg_version o) /\
  fits_u8 (mpgi_profile o) /\
  fits_u8 (mpgi_gop_structure o) /\
  fits_u8 (mpgi_stream_type o) /\
  fits_u16 (mpgi_min_gop_length o) /\
  fits_u16 (mpgi_max_gop_length o) /\
  fits_s32 (len (mpgi_sequence_hdr o)).

(** [wjped_descriptor]. *)
Definition jped_descriptor_fits (c : octx) (o : jped_descriptor) : Prop :=
  cdci_descriptor_base_fits c (jped_cdci o) /\
  fits_s32 (jped_jpeg_table_id o) /\
  fits_u64 (jped_jpeg_frame_index_offset o) /\
  fits_s32 (len (jped_quantization_tables o)) /\
  opt_ok fits_s32 (jped_image_start_align o).

Definition pixel_layout_fits (c : octx) (l : list (Z * Z)) : Prop :=
  Forall (fun p => fits_u8 (fst p) /\ fits_u8 (snd p)) l /\ len l <= 4294967295.

(** The first of the four decides. *)
Definition comp_refs_fits (c : octx) (o : rgba_descriptor) : Prop :=
  rgba_has_comp_min_ref o = None \/
  (exists v, rgba_comp_min_ref o = Some v /\ fits_u32 v) /\
  rgba_has_comp_max_ref o <> None /\
  (exists v, rgba_comp_max_ref o = Some v /\ fits_u32 v).

Definition alpha_refs_fits (c : octx) (o : rgba_descriptor) : Prop :=
  match rgba_alpha_min_ref o with
  | None => True
  | Some a => fits_u32 a /\ exists v, rgba_alpha_max_ref o = Some v /\ fits_u32 v
  end.

(** [wrgba_descriptor]. *)
Definition rgba_descriptor_fits (c : octx) (o : rgba_descriptor) : Prop :=
  did_descriptor_base_fits c (rgba_did o) /\
  pixel_layout_fits c (rgba_pixel_layout o) /\
  opt_ok fits_u64 (rgba_frame_index_offset o) /\
  comp_refs_fits c o /\
  alpha_refs_fits c o.

(** [wdata_descriptor]. *)
Definition data_descriptor_fits (c : octx) (o : data_descriptor) : Prop :=
  media_file_descriptor_base_fits c (datd_file o) /\
  fits_u64 (datd_offset_to_frame_indexes o) /\
  fits_s32 (datd_first_frame_offset o) /\
  fits_s32 (datd_min_sample_size o) /\
  fits_s32 (datd_max_sample_size o).

(** [wanc_data_descriptor]. *)
Definition anc_data_descriptor_fits (c : octx) (o : anc_data_descriptor) : Prop :=
  data_descriptor_fits c (ancd_data o) /\
  fits_s32 (ancd_manifest_element_count o).

(** ** Classes of BinModel.v *)

(** [wsetting]. *)
Definition setting_fits (c : octx) (o : setting) : Prop :=
  fits_str (aset_name o) /\
  fits_str (aset_kind o) /\
  fits_s16 (aset_attr_count o) /\
  fits_s16 (aset_attr_type o) /\
  fits_ref c (aset_attributes o).

(** [wbin_column]. *)
Definition bin_column_fits (c : octx) (o : bin_column) : Prop :=
  fits_str (bcol_title o) /\
  fits_s16 (bcol_format o) /\
  fits_s16 (bcol_type o).

(** Two more than the size is stored in two bytes. *)
Definition format_desc_fits (c : octx) (o : format_desc) : Prop :=
  fits_s16 (fdsc_vcid_free_column_id o) /\
  Forall (fun c => 0 <= c < 0xD800 \/ 0xE000 <= c < 0x110000) (fdsc_format_descriptor o) /\
  utf8_size (fdsc_format_descriptor o) <= 32765.

(** [wformat_descs]. *)
Definition format_descs_fits (c : octx) (l : list format_desc) : Prop :=
  fits_u16 (len l) /\
  Forall (format_desc_fits c) l.

(** [wbin_view_setting]. *)
Definition bin_view_setting_fits (c : octx) (o : bin_view_setting) : Prop :=
  setting_fits c (bvst_setting o) /\
  fits_u16 (len (bvst_columns o)) /\
  Forall (bin_column_fits c) (bvst_columns o) /\
  opt_ok (format_descs_fits c) (bvst_format_descriptors o).

Definition bin_item_fits (c : octx) (o : bin_item) : Prop :=
  fits_ref c (item_mob o) /\ fits_s16 (item_x o) /\ fits_s16 (item_y o) /\
  fits_s32 (item_keyframe o).

(** [wsift_item]. *)
Definition sift_item_fits (c : octx) (o : sift_item) : Prop :=
  fits_s16 (sift_method o) /\
  fits_str (sift_string o) /\
  fits_str (sift_column o).

(** [wsort_column]. *)
Definition sort_column_fits (c : octx) (o : sort_column) : Prop :=
  fits_u8 (scol_direction o) /\
  fits_str (scol_name o).

Definition object_count_fits (c : octx) (o : bin) : Prop := len (abin_items o) <= 4294967295.

Definition bin_base_fits (c : octx) (o : bin) : Prop :=
  fits_ref c (abin_view_setting o) /\
  fits_u64 (abin_uid o) /\
  object_count_fits c o /\
  Forall (bin_item_fits c) (abin_items o) /\
  fits_s32 (abin_display_mask o) /\
  fits_s16 (abin_display_mode o) /\
  Forall (sift_item_fits c) (abin_sifted_settings o) /\
  fits_s16 (len (abin_sort_columns o)) /\
  Forall (sort_column_fits c) (abin_sort_columns o) /\
  fits_s16 (abin_mac_font o) /\
  fits_s16 (abin_mac_font_size o) /\
  fits_s16 (abin_mac_image_scale o) /\
  fits_rect (abin_home_rect o) /\
  fits_rgb (abin_background_color o) /\
  fits_rgb (abin_forground_color o) /\
  fits_s16 (abin_ql_image_scale o) /\
  fits_ref c (abin_attributes o).

(** [wbin]. *)
Definition bin_fits (c : octx) (o : bin) : Prop :=
  bin_base_fits c o.

(** [wbin_first]. *)
Definition bin_first_fits (c : octx) (o : bin_first) : Prop :=
  bin_base_fits c (binf_bin o) /\
  fits_s32 (binf_unknown_s32 o).
