(** One object of each class with every property set, for the concrete cases shown beside the
    theorems. *)
From Coq Require Import ZArith List Bool.
From Verif Require Import Base IoCtx Text Exp10 MobId Storable Attributes Components TrackGroups
  Misc Essence BinModel.
Import ListNotations.
Open Scope Z_scope.

(** Objects 1 to 120 have been stored as chunks 4 to 123. *)
Definition sample_out (bo : border) : octx :=
  {| obo := bo; orefs := fun r => if (1 <=? r) && (r <=? 120) then Some (r + 3) else None |}.

(** A file of 123 chunks, references checked. *)
Definition sample_in (bo : border) : ictx := {| ibo := bo; inobj := Some 124 |}.

(** 29.97 frames per second. *)
Definition sample_rate : float64 :=
  Eval vm_compute in match exp10_value 2997 (-2) with Ok x => x | Err _ => SpecFloat.S754_zero false end.

Definition sample_rect : rect := {| rc0 := 1; rc1 := -2; rc2 := 3; rc3 := 4 |}.
Definition sample_rgb : rgb := {| rgb_r := 1; rgb_g := 2; rgb_b := 65535 |}.

Definition sample_attributes : attributes :=
  [([75; 49], AInt (-5)); ([75; 50], AStr [233; 8224]); ([75; 51], ARef 7); ([75; 52], ABob [1; 2; 255])].
Definition sample_parameter_list : parameter_list := [3; 0; 3; 9].
Definition sample_time_crumb_list : time_crumb_list := [8; 9; 10].
Definition sample_url_locator : url_locator := tt.

Definition sample_component : component := {|
  cpnt_left_bob := 9;
  cpnt_right_bob := 16;
  cpnt_media_kind_id := 23;
  cpnt_edit_rate := sample_rate;
  cpnt_name := [69; 233; 101];
  cpnt_effect_id := [70; 233; 102];
  cpnt_attributes := 44;
  cpnt_session_attrs := 51;
  cpnt_precomputed := 58;
  cpnt_param_list := (Some 65) |}.
Definition sample_sequence : sequence := {|
  sequ_component := sample_component;
  sequ_components := [72; 79] |}.
Definition sample_clip : clip := {|
  clip_component := sample_component;
  clip_length := 86 |}.
Definition sample_source_clip : source_clip := {|
  sclp_clip := sample_clip;
  sclp_track_id := 93;
  sclp_start_time := 3;
  sclp_mob_id := (Some [14; 23; 32; 41; 50; 59; 68; 77; 86; 95; 104; 113; 122; 131; 140; 149; 158; 167; 176; 185; 194; 203; 212; 221; 230; 239; 248; 1; 10; 19; 28; 37]) |}.
Definition sample_timecode : timecode := {|
  tccp_clip := sample_clip;
  tccp_flags := 10;
  tccp_fps := 17;
  tccp_start := 24 |}.
Definition sample_edgecode : edgecode := {|
  eccp_clip := sample_clip;
  eccp_header := [1; 2; 3; 4; 5; 6; 7; 8];
  eccp_film_kind := 31;
  eccp_code_format := 38;
  eccp_base_perf := 45;
  eccp_start_ec := 52 |}.
Definition sample_track_ref : track_ref := {|
  trkr_clip := sample_clip;
  trkr_relative_scope := 59;
  trkr_relative_track := 66 |}.
Definition sample_param_point_property : param_point_property := {|
  ppp_code := 73;
  ppp_type := 2;
  ppp_value := CPDouble 4614253070214989087 |}.
Definition sample_param_control_point : param_control_point := {|
  pcp_offset_num := 80;
  pcp_offset_den := 87;
  pcp_timescale := 94;
  pcp_value := CPDouble 4614253070214989087;
  pcp_pp := [sample_param_point_property; sample_param_point_property] |}.
Definition sample_param_clip : param_clip := {|
  prcl_clip := sample_clip;
  prcl_interp_kind := 4;
  prcl_value_type := 2;
  prcl_control_points := [sample_param_control_point; sample_param_control_point];
  prcl_extrap_kind := (Some 11);
  prcl_fields := (Some 18) |}.
Definition sample_control_point_property : control_point_property := {|
  cpp_code := 25;
  cpp_value_num := 32;
  cpp_value_den := 39 |}.
Definition sample_control_point : control_point := {|
  cp_offset_num := 46;
  cp_offset_den := 53;
  cp_time_scale := 60;
  cp_value_num := 67;
  cp_value_den := 74;
  cp_pp := [sample_control_point_property; sample_control_point_property] |}.
Definition sample_control_clip : control_clip := {|
  ctrl_clip := sample_clip;
  ctrl_interp_kind := 81;
  ctrl_control_points := [sample_control_point; sample_control_point] |}.
Definition sample_filler : filler := {|
  fill_clip := sample_clip |}.
Definition sample_track : track := {|
  trak_index := (Some 88);
  trak_attributes := (Some 95);
  trak_session_attr := (Some 5);
  trak_component := (Some 12);
  trak_filler_proxy := (Some 19);
  trak_bob_data := (Some 26);
  trak_control_code := (Some 33);
  trak_control_sub_code := (Some 40);
  trak_start_pos := (Some 47);
  trak_read_only := (Some true);
  trak_lock_number := (Some 54) |}.
Definition sample_track_group : track_group := {|
  trkg_component := sample_component;
  trkg_mc_mode := 61;
  trkg_length := 68;
  trkg_num_scalars := 75;
  trkg_tracks := [sample_track; sample_track] |}.
Definition sample_track_effect : track_effect := {|
  tkfx_group := sample_track_group;
  tkfx_left_length := 82;
  tkfx_right_length := 89;
  tkfx_info_version := 96;
  tkfx_info_current := 6;
  tkfx_info_smooth := 13;
  tkfx_info_color_item := 20;
  tkfx_info_quality := 27;
  tkfx_info_is_reversed := 34;
  tkfx_info_aspect_on := true;
  tkfx_keyframes := 41;
  tkfx_info_force_software := true;
  tkfx_info_never_hardware := true;
  tkfx_trackman := (Some 48) |}.
Definition sample_pan_volume_effect : pan_volume_effect := {|
  pvol_effect := sample_track_effect;
  pvol_level := 55;
  pvol_pan := 62;
  pvol_suppress_validation := true;
  pvol_level_set := true;
  pvol_pan_set := true;
  pvol_supports_seperate_gain := (Some 69);
  pvol_is_trim_gain_effect := (Some 76) |}.
Definition sample_aspi_chunk : aspi_chunk := {|
  aspc_version := 83;
  aspc_manufacturer_id := 90;
  aspc_product_id := 97;
  aspc_plugin_id := 7;
  aspc_chunk_id := 14;
  aspc_name := [85; 233; 117];
  aspc_data := [28; 35; 42] |}.
Definition sample_aspi_plugin : aspi_plugin := {|
  aspp_name := [89; 233; 121];
  aspp_manufacturer_id := 56;
  aspp_product_id := 63;
  aspp_plugin_id := 70;
  aspp_chunks := [sample_aspi_chunk; sample_aspi_chunk] |}.
Definition sample_audio_suite_effect : audio_suite_effect := {|
  aspi_effect := sample_track_effect;
  aspi_plugins := [sample_aspi_plugin];
  aspi_mob_id := (Some [1; 2; 3; 4; 5; 6; 7; 8; 9; 10; 11; 12; 13; 14; 15; 16; 17; 18; 19; 20; 21; 22; 23; 24; 25; 26; 27; 28; 29; 30; 31; 32]);
  aspi_mark_in := (Some 77);
  aspi_mark_out := (Some 84);
  aspi_tracks_to_affect := (Some 91);
  aspi_rendering_mode := (Some 98);
  aspi_padding_secs := (Some 8);
  aspi_preset_path := (Some [15; 22; 29]) |}.
Definition sample_equalizer_band : equalizer_band := {|
  eqbd_type := 36;
  eqbd_freq := 43;
  eqbd_gain := 50;
  eqbd_q := 57;
  eqbd_enable := true |}.
Definition sample_equalizer_multi_band : equalizer_multi_band := {|
  eqmb_effect := sample_track_effect;
  eqmb_bands := [sample_equalizer_band; sample_equalizer_band];
  eqmb_effect_enable := true;
  eqmb_filter_name := [79; 233; 111] |}.
Definition sample_time_warp : time_warp := {|
  warp_group := sample_track_group;
  warp_phase_offset := 71 |}.
Definition sample_capture_mask : capture_mask := {|
  mask_warp := sample_time_warp;
  mask_is_double := true;
  mask_mask_bits := 78 |}.
Definition sample_strobe_effect : strobe_effect := {|
  strb_warp := sample_time_warp;
  strb_strobe_value := 85 |}.
Definition sample_motion_effect : motion_effect := {|
  sped_warp := sample_time_warp;
  sped_speed_num := 92;
  sped_speed_den := 2;
  sped_offset_adjust := (Some 9);
  sped_source_param_list := (Some 16);
  sped_new_source_calculation := (Some true) |}.
Definition sample_repeat_effect : repeat_effect := {|
  rept_warp := sample_time_warp |}.
Definition sample_essence_group : essence_group := {|
  rset_group := sample_track_group;
  rset_rep_set_type := (Some 23) |}.
Definition sample_transition_effect : transition_effect := {|
  tnfx_group := sample_track_group;
  tnfx_cutpoint := 30;
  tnfx_left_length := 37;
  tnfx_right_length := 44;
  tnfx_info_version := 51;
  tnfx_info_current := 58;
  tnfx_info_smooth := 65;
  tnfx_info_color_item := 72;
  tnfx_info_quality := 79;
  tnfx_info_is_reversed := 86;
  tnfx_info_aspect_on := true;
  tnfx_keyframes := 93;
  tnfx_info_force_software := true;
  tnfx_info_never_hardware := true;
  tnfx_trackman := (Some 3) |}.
Definition sample_selector : selector := {|
  slct_group := sample_track_group;
  slct_is_ganged := true;
  slct_selected := 1 |}.
Definition sample_composition : composition := {|
  cmpo_group := sample_track_group;
  cmpo_last_modified := 10;
  cmpo_mob_type_id := 17;
  cmpo_usage_code := 24;
  cmpo_descriptor := 31;
  cmpo_creation_time := (Some 38);
  cmpo_mob_id := (Some [116; 125; 134; 143; 152; 161; 170; 179; 188; 197; 206; 215; 224; 233; 242; 251; 4; 13; 22; 31; 40; 49; 58; 67; 76; 85; 94; 103; 112; 121; 130; 139]) |}.
Definition sample_file_locator : file_locator := {|
  file_path := [78; 233; 110];
  file_path_posix := (Some [79; 233; 111]);
  file_path_utf8 := (Some [80; 233; 112]);
  file_path2_utf8 := (Some [81; 233; 113]) |}.
Definition sample_graphic_effect : graphic_effect := {|
  grfx_pict_data := [73; 80; 87] |}.
Definition sample_shape_list : shape_list := {|
  shlp_shape_data := [94; 4; 11] |}.
Definition sample_color_correction_effect : color_correction_effect := {|
  ccfx_color_correction := [18; 25; 32] |}.
Definition sample_effect_param : effect_param := {|
  fxp_percent_time := 39;
  fxp_level := 46;
  fxp_pos_x := 53;
  fxp_floor_x := 60;
  fxp_ceil_x := 67;
  fxp_pos_y := 74;
  fxp_floor_y := 81;
  fxp_ceil_y := 88;
  fxp_scale_x := 95;
  fxp_scale_y := 5;
  fxp_crop_left := 12;
  fxp_crop_right := 19;
  fxp_crop_top := 26;
  fxp_crop_bottom := 33;
  fxp_box := sample_rect;
  fxp_box_xscale := true;
  fxp_box_yscale := true;
  fxp_box_xpos := true;
  fxp_box_ypos := true;
  fxp_border_width := 40;
  fxp_border_soft := 47;
  fxp_splill_gain2 := 54;
  fxp_splill_gain := 61;
  fxp_splill_soft2 := 68;
  fxp_splill_soft := 75;
  fxp_enable_key_flags := 82;
  fxp_colors := [89; 96];
  fxp_user_param := [6; 13; 20];
  fxp_selected := true |}.
Definition sample_effect_param_list : effect_param_list := {|
  fxps_orig_length := 27;
  fxps_window_offset := 34;
  fxps_keyframe_size := 41;
  fxps_parameters := [sample_effect_param; sample_effect_param] |}.
Definition sample_cf_user_param : cf_user_param := {|
  avup_byte_order := 0x4949;
  avup_uuid := [158; 175; 192; 209; 226; 243; 4; 21; 38; 55; 72; 89; 106; 123; 140; 157];
  avup_data := [48; 55; 62] |}.
Definition sample_parameter_item : parameter_item := {|
  prit_uuid := [161; 178; 195; 212; 229; 246; 7; 24; 41; 58; 75; 92; 109; 126; 143; 160];
  prit_value_type := 2;
  prit_value := CPDouble 4614253070214989087;
  prit_name := [71; 233; 103];
  prit_enable := true;
  prit_control_track := 76;
  prit_contribs_to_sig := (Some true) |}.
Definition sample_msm_locator : msm_locator := {|
  msml_last_known_volume := [73; 233; 105];
  msml_domain_type := (Some 90);
  msml_mob_id := (Some [165; 174; 183; 192; 201; 210; 219; 228; 237; 246; 255; 8; 17; 26; 35; 44; 53; 62; 71; 80; 89; 98; 107; 116; 125; 134; 143; 152; 161; 170; 179; 188]);
  msml_last_known_volume_utf8 := (Some [75; 233; 107]) |}.
Definition sample_position : position := {|
  apos_mob_id := (Some [166; 175; 184; 193; 202; 211; 220; 229; 238; 247; 0; 9; 18; 27; 36; 45; 54; 63; 72; 81; 90; 99; 108; 117; 126; 135; 144; 153; 162; 171; 180; 189]) |}.
Definition sample_bob_position : bob_position := {|
  abob_position := sample_position;
  abob_sample_num := 7;
  abob_length := 14;
  abob_track_type := 21;
  abob_track_index := 28 |}.
Definition sample_did_position : did_position := {|
  didp_bob := sample_bob_position;
  didp_strip := 35;
  didp_offset := 42;
  didp_byte_length := 49;
  didp_spos_invalid := true |}.
Definition sample_mpg_position : mpg_position := {|
  mpgp_did := sample_did_position;
  mpgp_trailing_discards := 56;
  mpgp_need_seq_hdr := true;
  mpgp_fields := [(63, 70); (77, 84)] |}.
Definition sample_bin_ref : bin_ref := {|
  mcbr_uid_high := 91;
  mcbr_uid_low := 98;
  mcbr_name := [90; 233; 122];
  mcbr_name_utf8 := (Some [65; 233; 97]) |}.
Definition sample_mob_ref : mob_ref := {|
  mcmr_position := 22;
  mcmr_mob_id := (Some [183; 192; 201; 210; 219; 228; 237; 246; 255; 8; 17; 26; 35; 44; 53; 62; 71; 80; 89; 98; 107; 116; 125; 134; 143; 152; 161; 170; 179; 188; 197; 206]) |}.
Definition sample_marker : marker := {|
  tmbc_mob_ref := sample_mob_ref;
  tmbc_comp_offset := 29;
  tmbc_attributes := 36;
  tmbc_color := [1; 2; 3];
  tmbc_handled_codes := (Some true) |}.
Definition sample_tracker_manager : tracker_manager := {|
  tkmn_data_slots := 43;
  tkmn_param_slots := 50 |}.
Definition sample_tracker_data_slot : tracker_data_slot := {|
  tkds_tracker_data := [57; 64];
  tkds_track_fg := (Some true) |}.
Definition sample_tracker_parameter_slot : tracker_parameter_slot := {|
  tkps_settings := [71; 78; 85];
  tkps_params := [92; 2] |}.
Definition sample_tracker_data : tracker_data := {|
  tkda_settings := [9; 16; 23];
  tkda_clip_version := 30;
  tkda_clips := [37; 44];
  tkda_offset_tracking := (Some 51);
  tkda_smoothing := (Some 58);
  tkda_jitter_removal := (Some 65);
  tkda_filter_amount := (Some 72);
  tkda_clip5 := (Some 79);
  tkda_clip6 := (Some 86) |}.
Definition sample_tracker_parameter : tracker_parameter := {|
  tkpa_settings := [93; 3; 10] |}.
Definition sample_media_descriptor : media_descriptor := {|
  mdes_mob_kind := 17;
  mdes_locator := 24;
  mdes_intermediate := true;
  mdes_physical_media := 31;
  mdes_uuid := (Some [212; 229; 246; 7; 24; 41; 58; 75; 92; 109; 126; 143; 160; 177; 194; 211]);
  mdes_wchar := (Some [38; 45; 52]);
  mdes_attributes := (Some 59) |}.
Definition sample_tape_descriptor : tape_descriptor := {|
  mdtp_media := sample_media_descriptor;
  mdtp_cframe := 66 |}.
Definition sample_media_file_descriptor : media_file_descriptor := {|
  mdfl_media := sample_media_descriptor;
  mdfl_edit_rate := sample_rate;
  mdfl_length := 73;
  mdfl_is_omfi := 80;
  mdfl_data_offset := 87 |}.
Definition sample_multi_descriptor : multi_descriptor := {|
  muld_file := sample_media_file_descriptor;
  muld_descriptors := [94; 4] |}.
Definition sample_wave_descriptor : wave_descriptor := {|
  wave_file := sample_media_file_descriptor;
  wave_summary := [11; 18; 25] |}.
Definition sample_aifc_descriptor : aifc_descriptor := {|
  aifc_file := sample_media_file_descriptor;
  aifc_summary := [32; 39; 46];
  aifc_data_pos := (Some 53) |}.
Definition sample_pcma_descriptor : pcma_descriptor := {|
  pcma_file := sample_media_file_descriptor;
  pcma_channels := 60;
  pcma_quantization_bits := 67;
  pcma_sample_rate := sample_rate;
  pcma_locked := true;
  pcma_audio_ref_level := 74;
  pcma_electro_spatial_formulation := 81;
  pcma_dial_norm := 88;
  pcma_coding_format := 95;
  pcma_block_align := 5;
  pcma_sequence_offset := 12;
  pcma_average_bps := 19;
  pcma_has_peak_envelope_data := true;
  pcma_peak_envelope_version := 26;
  pcma_peak_envelope_format := 33;
  pcma_points_per_peak_value := 40;
  pcma_peak_envelope_block_size := 47;
  pcma_peak_channel_count := 54;
  pcma_peak_frame_count := 61;
  pcma_peak_of_peaks_offset := 68;
  pcma_peak_envelope_timestamp := 75;
  pcma_ebu_timestamp := (Some 82);
  pcma_timecode_framerate := (Some [79; 233; 111]) |}.
Definition sample_mpga_descriptor : mpga_descriptor := {|
  mpga_file := sample_media_file_descriptor;
  mpga_channels := 96;
  mpga_quantization_bits := 6;
  mpga_sample_rate := sample_rate;
  mpga_locked := true;
  mpga_audio_ref_level := 13;
  mpga_electro_spatial_formulation := 20;
  mpga_dial_norm := 27;
  mpga_coding_format := 34;
  mpga_bit_rate := 41;
  mpga_sub_frame_alignment := (Some 48);
  mpga_origin := (Some 55) |}.
Definition sample_did_descriptor : did_descriptor := {|
  didd_file := sample_media_file_descriptor;
  didd_stored_height := 62;
  didd_stored_width := 69;
  didd_sampled_height := 76;
  didd_sampled_width := 83;
  didd_sampled_x_offset := 90;
  didd_sampled_y_offset := 97;
  didd_display_height := 7;
  didd_display_width := 14;
  didd_display_x_offset := 21;
  didd_display_y_offset := 28;
  didd_frame_layout := 35;
  didd_aspect_num := 42;
  didd_aspect_den := 49;
  didd_line_map := [56; 63];
  didd_alpha_transparency := 70;
  didd_uniformness := true;
  didd_did_image_size := 77;
  didd_next_did_desc := 84;
  didd_compress_method := [74; 80; 69; 71];
  didd_resolution_id := 91;
  didd_image_alignment_factor := 98;
  didd_frame_index_byte_order := (Some 8);
  didd_frame_sample_size := (Some 15);
  didd_first_frame_offset := (Some 22);
  didd_client_fill_start := (Some 29);
  didd_client_fill_end := (Some 36);
  didd_offset_to_rle_frame_index := (Some 43);
  didd_frame_start_offset := (Some 50);
  didd_valid_box := (Some {| bb_x0 := 57; bb_y0 := 64; bb_x1 := 71; bb_y1 := 78; bb_x2 := 85; bb_y2 := 92; bb_x3 := 2; bb_y3 := 9 |});
  didd_essence_box := (Some {| bb_x0 := 16; bb_y0 := 23; bb_x1 := 30; bb_y1 := 37; bb_x2 := 44; bb_y2 := 51; bb_x3 := 58; bb_y3 := 65 |});
  didd_source_box := (Some {| bb_x0 := 72; bb_y0 := 79; bb_x1 := 86; bb_y1 := 93; bb_x2 := 3; bb_y2 := 10; bb_x3 := 17; bb_y3 := 24 |});
  didd_framing_box := (Some {| bb_x0 := 31; bb_y0 := 38; bb_x1 := 45; bb_y1 := 52; bb_x2 := 59; bb_y2 := 66; bb_x3 := 73; bb_y3 := 80 |});
  didd_reformatting_option := (Some 87);
  didd_transfer_characteristic := (Some [61; 78; 95; 112; 129; 146; 163; 180; 197; 214; 231; 248; 9; 26; 43; 60]);
  didd_color_primaries := (Some [61; 78; 95; 112; 129; 146; 163; 180; 197; 214; 231; 248; 9; 26; 43; 60]);
  didd_coding_equations := (Some [61; 78; 95; 112; 129; 146; 163; 180; 197; 214; 231; 248; 9; 26; 43; 60]);
  didd_essence_compression := (Some [61; 78; 95; 112; 129; 146; 163; 180; 197; 214; 231; 248; 9; 26; 43; 60]);
  didd_essence_element_size_kind := (Some 94);
  didd_frame_checked_with_mapper := (Some true) |}.
Definition sample_cdci_descriptor : cdci_descriptor := {|
  cdci_did := sample_did_descriptor;
  cdci_horizontal_subsampling := 4;
  cdci_vertical_subsampling := 11;
  cdci_component_width := 18;
  cdci_color_sitting := 25;
  cdci_black_ref_level := 32;
  cdci_white_ref_level := 39;
  cdci_color_range := 46;
  cdci_frame_index_offset := 53;
  cdci_alpha_sampled_width := (Some 60);
  cdci_ignore_bw := (Some 67) |}.
Definition sample_mpgi_descriptor : mpgi_descriptor := {|
  mpgi_cdci := sample_cdci_descriptor;
  mpgi_mpeg_version := 74;
  mpgi_profile := 81;
  mpgi_gop_structure := 88;
  mpgi_stream_type := 95;
  mpgi_random_access := true;
  mpgi_leading_discard := true;
  mpgi_trailing_discard := true;
  mpgi_min_gop_length := 5;
  mpgi_max_gop_length := 12;
  mpgi_sequence_hdr := [19; 26; 33] |}.
Definition sample_jped_descriptor : jped_descriptor := {|
  jped_cdci := sample_cdci_descriptor;
  jped_jpeg_table_id := 40;
  jped_jpeg_frame_index_offset := 47;
  jped_quantization_tables := [54; 61; 68];
  jped_image_start_align := (Some 75) |}.
Definition sample_rgba_descriptor : rgba_descriptor := {|
  rgba_did := sample_did_descriptor;
  rgba_pixel_layout := [(82, 89); (96, 6)];
  rgba_frame_index_offset := (Some 13);
  rgba_has_comp_min_ref := (Some true);
  rgba_comp_min_ref := (Some 20);
  rgba_has_comp_max_ref := (Some true);
  rgba_comp_max_ref := (Some 27);
  rgba_alpha_min_ref := (Some 34);
  rgba_alpha_max_ref := (Some 41) |}.
Definition sample_data_descriptor : data_descriptor := {|
  datd_file := sample_media_file_descriptor;
  datd_is_offset_to_frame_indexes_valid := true;
  datd_offset_to_frame_indexes := 48;
  datd_first_frame_offset := 55;
  datd_min_sample_size := 62;
  datd_max_sample_size := 69 |}.
Definition sample_anc_data_descriptor : anc_data_descriptor := {|
  ancd_data := sample_data_descriptor;
  ancd_manifest_element_count := 76 |}.
Definition sample_setting : setting := {|
  aset_name := [85; 233; 117];
  aset_kind := [86; 233; 118];
  aset_attr_count := 97;
  aset_attr_type := 7;
  aset_attributes := 14 |}.
Definition sample_bin_column : bin_column := {|
  bcol_title := [90; 233; 122];
  bcol_format := 28;
  bcol_type := 35;
  bcol_hidden := true |}.
Definition sample_format_desc : format_desc := {|
  fdsc_vcid_free_column_id := 42;
  fdsc_format_descriptor := [68; 233; 100] |}.
Definition sample_bin_view_setting : bin_view_setting := {|
  bvst_setting := sample_setting;
  bvst_columns := [sample_bin_column; sample_bin_column];
  bvst_format_descriptors := (Some [sample_format_desc; sample_format_desc]) |}.
Definition sample_bin_item : bin_item := {|
  item_mob := 56;
  item_x := 63;
  item_y := 70;
  item_keyframe := 77;
  item_user_placed := true |}.
Definition sample_sift_item : sift_item := {|
  sift_method := 84;
  sift_string := [74; 233; 106];
  sift_column := [75; 233; 107] |}.
Definition sample_sort_column : sort_column := {|
  scol_direction := 8;
  scol_name := [77; 233; 109] |}.
Definition sample_bin : bin := {|
  abin_large_bin := true;
  abin_view_setting := 22;
  abin_uid := 29;
  abin_items := [sample_bin_item; sample_bin_item];
  abin_display_mask := 36;
  abin_display_mode := 43;
  abin_sifted := true;
  abin_sifted_settings := repeat sample_sift_item 6;
  abin_sort_columns := [sample_sort_column; sample_sort_column];
  abin_mac_font := 50;
  abin_mac_font_size := 57;
  abin_mac_image_scale := 64;
  abin_home_rect := sample_rect;
  abin_background_color := sample_rgb;
  abin_forground_color := sample_rgb;
  abin_ql_image_scale := 71;
  abin_attributes := 78;
  abin_was_iconic := true |}.
Definition sample_bin_first : bin_first := {|
  binf_bin := sample_bin;
  binf_unknown_s32 := 85 |}.
