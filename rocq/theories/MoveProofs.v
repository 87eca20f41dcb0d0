(** What is written does not depend on the addresses of the objects referred to, only on their
    numbers. *)
From Coq Require Import ZArith List Bool Lia.
From Verif Require Import Base IoCtx Text Exp10 MobId Storable Attributes Components TrackGroups
  Misc Essence BinModel RoundTrip Objects ObjSpec ObjProofs.
Import ListNotations.
Open Scope Z_scope.

Lemma wlist_map : forall A B (g : A -> B) (w : B -> writer) (w' : A -> writer) l,
  (forall x, w (g x) = w' x) -> wlist w (map g l) = wlist w' l.
Proof. intros A B g w w' l H. induction l; cbn [wlist map]; [reflexivity|now rewrite H, IHl]. Qed.

Lemma wlist_same : forall A (w w' : A -> writer) l, (forall x, w x = w' x) -> wlist w l = wlist w' l.
Proof. intros A w w' l H. induction l; cbn [wlist]; [reflexivity|now rewrite H, IHl]. Qed.

Lemma wfirst_map : forall A B (g : A -> B) (w : B -> writer) (w' : A -> writer) n l,
  (forall x, w (g x) = w' x) -> wfirst n w (map g l) = wfirst n w' l.
Proof. intros A B g w w' n. induction n; intros [|x l] H; cbn [wfirst map]; try reflexivity. now rewrite H, IHn. Qed.

Lemma len_map : forall A B (g : A -> B) l, len (map g l) = len l.
Proof. intros. unfold len. now rewrite map_length. Qed.

Create HintDb mv.

Ltac mv_step :=
  match goal with
  | |- forall _, _ => intro
  | |- ?a = ?a => reflexivity
  | |- _ +++ _ = _ +++ _ => f_equal
  | |- wlist _ (map _ _) = wlist _ _ => apply wlist_map
  | |- wlist _ ?l = wlist _ ?l => apply wlist_same
  | |- wfirst _ _ (map _ _) = wfirst _ _ _ => apply wfirst_map
  | |- wopt (option_map _ ?x) _ = wopt ?x _ => destruct x; cbn [option_map wopt]
  | |- wopt ?x _ = wopt ?x _ => destruct x; cbn [wopt]
  | |- wattr_of (option_map _ ?x) _ = wattr_of ?x _ => destruct x; cbn [option_map wattr_of]
  | |- wattr_of ?x _ = wattr_of ?x _ => destruct x; cbn [wattr_of]
  | |- wext _ _ = wext _ _ => unfold wext
  | |- _ => solve [auto with mv]
  | |- match option_map _ ?x with _ => _ end = _ => destruct x; cbn [option_map]
  | |- match ?x with _ => _ end = match ?x with _ => _ end => destruct x
  end.
Ltac mv := rewrite ?len_map; repeat mv_step.

Section Classes.
Variables c c' : octx.
Variable f : Z -> Z.
Hypothesis Hbo : obo c' = obo c.
Hypothesis Hf : forall r, wref c' (f r) = wref c r.
Hint Resolve Hf : mv.
Hint Rewrite Hf : mvb.

(** ** Attributes.v *)

Lemma mv_wattr : forall p, wattr c' (fst p, attr_value_map f (snd p)) = wattr c p.
Proof. intros [k []]; unfold wattr; cbn [fst snd attr_value_map]; rewrite ?Hbo; mv. Qed.
Hint Resolve mv_wattr : mv.

Lemma mv_wattributes : forall o, wattributes c' (attributes_map f o) = wattributes c o.
Proof. intros. unfold wattributes. rewrite ?Hbo. autorewrite with mvb. unfold attributes_map. mv. Qed.
Hint Resolve mv_wattributes : mv.

Lemma mv_wparameter_list : forall o, wparameter_list c' (parameter_list_map f o) = wparameter_list c o.
Proof. intros. unfold wparameter_list. rewrite ?Hbo. autorewrite with mvb. unfold parameter_list_map. mv. Qed.
Hint Resolve mv_wparameter_list : mv.

Lemma mv_wtime_crumb_list : forall o, wtime_crumb_list c' (time_crumb_list_map f o) = wtime_crumb_list c o.
Proof. intros. unfold wtime_crumb_list. rewrite ?Hbo. autorewrite with mvb. unfold time_crumb_list_map. mv. Qed.
Hint Resolve mv_wtime_crumb_list : mv.

(** ** Components.v *)

Lemma mv_wcomponent : forall o, wcomponent c' (component_map f o) = wcomponent c o.
Proof. intros. unfold wcomponent. rewrite ?Hbo. autorewrite with mvb. unfold component_map. cbn [cpnt_left_bob cpnt_right_bob cpnt_media_kind_id cpnt_edit_rate cpnt_name cpnt_effect_id cpnt_attributes cpnt_session_attrs cpnt_precomputed cpnt_param_list]. mv. Qed.
Hint Resolve mv_wcomponent : mv.

Lemma mv_wsequence : forall o, wsequence c' (sequence_map f o) = wsequence c o.
Proof. intros. unfold wsequence. rewrite ?Hbo. autorewrite with mvb. unfold sequence_map. cbn [sequ_component sequ_components]. mv. Qed.
Hint Resolve mv_wsequence : mv.

Lemma mv_wclip : forall o, wclip c' (clip_map f o) = wclip c o.
Proof. intros. unfold wclip. rewrite ?Hbo. autorewrite with mvb. unfold clip_map. cbn [clip_component clip_length]. mv. Qed.
Hint Resolve mv_wclip : mv.

Lemma mv_wsource_clip : forall o, wsource_clip c' (source_clip_map f o) = wsource_clip c o.
Proof. intros. unfold wsource_clip. rewrite ?Hbo. autorewrite with mvb. unfold source_clip_map. cbn [sclp_clip sclp_track_id sclp_start_time sclp_mob_id]. mv. Qed.
Hint Resolve mv_wsource_clip : mv.

Lemma mv_wtimecode : forall o, wtimecode c' (timecode_map f o) = wtimecode c o.
Proof. intros. unfold wtimecode. rewrite ?Hbo. autorewrite with mvb. unfold timecode_map. cbn [tccp_clip tccp_flags tccp_fps tccp_start]. mv. Qed.
Hint Resolve mv_wtimecode : mv.

Lemma mv_wedgecode : forall o, wedgecode c' (edgecode_map f o) = wedgecode c o.
Proof. intros. unfold wedgecode. rewrite ?Hbo. autorewrite with mvb. unfold edgecode_map. cbn [eccp_clip eccp_header eccp_film_kind eccp_code_format eccp_base_perf eccp_start_ec]. mv. Qed.
Hint Resolve mv_wedgecode : mv.

Lemma mv_wtrack_ref : forall o, wtrack_ref c' (track_ref_map f o) = wtrack_ref c o.
Proof. intros. unfold wtrack_ref. rewrite ?Hbo. autorewrite with mvb. unfold track_ref_map. cbn [trkr_clip trkr_relative_scope trkr_relative_track]. mv. Qed.
Hint Resolve mv_wtrack_ref : mv.

Lemma mv_wparam_point_property : forall o, wparam_point_property c' (param_point_property_map f o) = wparam_point_property c o.
Proof. intros [a b v]. unfold wparam_point_property, param_point_property_map. cbn [ppp_code ppp_type ppp_value]. rewrite ?Hbo. destruct v; reflexivity. Qed.
Hint Resolve mv_wparam_point_property : mv.

Lemma mv_wcp_value : forall value_type v, wcp_value c' value_type (cp_value_map f v) = wcp_value c value_type v.
Proof. intros t []; unfold wcp_value; cbn [cp_value_map]; rewrite ?Hbo, ?Hf; reflexivity. Qed.
Hint Resolve mv_wcp_value : mv.

Lemma mv_wparam_control_point : forall value_type o, wparam_control_point c' value_type (param_control_point_map f o) = wparam_control_point c value_type o.
Proof. intros. unfold wparam_control_point. rewrite ?Hbo. autorewrite with mvb. unfold param_control_point_map. cbn [pcp_offset_num pcp_offset_den pcp_timescale pcp_value pcp_pp]. mv. Qed.
Hint Resolve mv_wparam_control_point : mv.

Lemma mv_wparam_clip : forall o, wparam_clip c' (param_clip_map f o) = wparam_clip c o.
Proof. intros. unfold wparam_clip. rewrite ?Hbo. autorewrite with mvb. unfold param_clip_map. cbn [prcl_clip prcl_interp_kind prcl_value_type prcl_control_points prcl_extrap_kind prcl_fields]. mv. Qed.
Hint Resolve mv_wparam_clip : mv.

Lemma mv_wcontrol_point_property : forall o, wcontrol_point_property c' (control_point_property_map f o) = wcontrol_point_property c o.
Proof. intros. unfold wcontrol_point_property. rewrite ?Hbo. autorewrite with mvb. unfold control_point_property_map. cbn [cpp_code cpp_value_num cpp_value_den]. mv. Qed.
Hint Resolve mv_wcontrol_point_property : mv.

Lemma mv_wcontrol_point : forall o, wcontrol_point c' (control_point_map f o) = wcontrol_point c o.
Proof. intros. unfold wcontrol_point. rewrite ?Hbo. autorewrite with mvb. unfold control_point_map. cbn [cp_offset_num cp_offset_den cp_time_scale cp_value_num cp_value_den cp_pp]. mv. Qed.
Hint Resolve mv_wcontrol_point : mv.

Lemma mv_wcontrol_clip : forall o, wcontrol_clip c' (control_clip_map f o) = wcontrol_clip c o.
Proof. intros. unfold wcontrol_clip. rewrite ?Hbo. autorewrite with mvb. unfold control_clip_map. cbn [ctrl_clip ctrl_interp_kind ctrl_control_points]. mv. Qed.
Hint Resolve mv_wcontrol_clip : mv.

Lemma mv_wfiller : forall o, wfiller c' (filler_map f o) = wfiller c o.
Proof. intros. unfold wfiller. rewrite ?Hbo. autorewrite with mvb. unfold filler_map. cbn [fill_clip]. mv. Qed.
Hint Resolve mv_wfiller : mv.

(** ** TrackGroups.v *)

Lemma track_flags_map : forall t, track_flags (track_map f t) = track_flags t.
Proof.
  intros t. assert (forall x : option Z, is_some (option_map f x) = is_some x) as E by (intros []; reflexivity).
  unfold track_flags, track_map. cbn [trak_index trak_attributes trak_session_attr trak_component trak_filler_proxy
    trak_bob_data trak_control_code trak_control_sub_code trak_start_pos trak_read_only]. now rewrite !E.
Qed.

Lemma mv_flag : forall fl b x, wflag fl b (option_map f x) (wref c') = wflag fl b x (wref c).
Proof. intros fl b [x|]; unfold wflag; cbn [option_map]; now rewrite ?Hf. Qed.

Lemma mv_wtrack : forall t, wtrack c' (track_map f t) = wtrack c t.
Proof. intros t. unfold wtrack. rewrite track_flags_map, Hbo. unfold track_map. cbn [trak_index trak_attributes trak_session_attr trak_component trak_filler_proxy trak_bob_data trak_control_code trak_control_sub_code trak_start_pos trak_read_only]. destruct (negb _); [reflexivity|]. rewrite !mv_flag. reflexivity. Qed.
Hint Resolve mv_wtrack : mv.

Lemma mv_wlock : forall t, wlock c' (track_map f t) = wlock c t.
Proof. intros t. unfold wlock, track_map. cbn [trak_lock_number]. rewrite Hbo. destruct (trak_lock_number t); reflexivity. Qed.
Hint Resolve mv_wlock : mv.

Lemma mv_wtrack_group : forall o, wtrack_group c' (track_group_map f o) = wtrack_group c o.
Proof. intros o. unfold wtrack_group, track_group_map. cbn [trkg_component trkg_mc_mode trkg_length trkg_num_scalars trkg_tracks]. rewrite Hbo. mv. destruct (trkg_tracks o) as [|t l]; [reflexivity|]. cbn [map]. change (track_map f t :: map (track_map f) l) with (map (track_map f) (t :: l)). mv. Qed.
Hint Resolve mv_wtrack_group : mv.

Lemma mv_wtrack_effect_base : forall o, wtrack_effect_base c' (track_effect_map f o) = wtrack_effect_base c o.
Proof. intros. unfold wtrack_effect_base. rewrite ?Hbo. autorewrite with mvb. unfold track_effect_map. cbn [tkfx_group tkfx_left_length tkfx_right_length tkfx_info_version tkfx_info_current tkfx_info_smooth tkfx_info_color_item tkfx_info_quality tkfx_info_is_reversed tkfx_info_aspect_on tkfx_keyframes tkfx_info_force_software tkfx_info_never_hardware tkfx_trackman]. mv. Qed.
Hint Resolve mv_wtrack_effect_base : mv.
Hint Rewrite mv_wtrack_effect_base : mvb.

Lemma mv_wtrack_effect : forall o, wtrack_effect c' (track_effect_map f o) = wtrack_effect c o.
Proof. intros. unfold wtrack_effect. rewrite ?Hbo. autorewrite with mvb. unfold track_effect_map. cbn [tkfx_group tkfx_left_length tkfx_right_length tkfx_info_version tkfx_info_current tkfx_info_smooth tkfx_info_color_item tkfx_info_quality tkfx_info_is_reversed tkfx_info_aspect_on tkfx_keyframes tkfx_info_force_software tkfx_info_never_hardware tkfx_trackman]. mv. Qed.
Hint Resolve mv_wtrack_effect : mv.

Lemma mv_wpan_volume_effect : forall o, wpan_volume_effect c' (pan_volume_effect_map f o) = wpan_volume_effect c o.
Proof. intros. unfold wpan_volume_effect. rewrite ?Hbo. autorewrite with mvb. unfold pan_volume_effect_map. cbn [pvol_effect pvol_level pvol_pan pvol_suppress_validation pvol_level_set pvol_pan_set pvol_supports_seperate_gain pvol_is_trim_gain_effect]. mv. Qed.
Hint Resolve mv_wpan_volume_effect : mv.

Lemma mv_waspi_chunk : forall o, waspi_chunk c' (aspi_chunk_map f o) = waspi_chunk c o.
Proof. intros. unfold waspi_chunk. rewrite ?Hbo. autorewrite with mvb. unfold aspi_chunk_map. cbn [aspc_version aspc_manufacturer_id aspc_product_id aspc_plugin_id aspc_chunk_id aspc_name aspc_data]. mv. Qed.
Hint Resolve mv_waspi_chunk : mv.

Lemma mv_waspi_plugin : forall o, waspi_plugin c' (aspi_plugin_map f o) = waspi_plugin c o.
Proof. intros. unfold waspi_plugin. rewrite ?Hbo. autorewrite with mvb. unfold aspi_plugin_map. cbn [aspp_name aspp_manufacturer_id aspp_product_id aspp_plugin_id aspp_chunks]. mv. Qed.
Hint Resolve mv_waspi_plugin : mv.

Lemma mv_wpreset_path : forall v, wpreset_path c' v = wpreset_path c v.
Proof. intros. unfold wpreset_path. rewrite ?Hbo. mv. Qed.
Hint Resolve mv_wpreset_path : mv.

Lemma mv_waudio_suite_effect : forall o, waudio_suite_effect c' (audio_suite_effect_map f o) = waudio_suite_effect c o.
Proof. intros. unfold waudio_suite_effect. rewrite ?Hbo. autorewrite with mvb. unfold audio_suite_effect_map. cbn [aspi_effect aspi_plugins aspi_mob_id aspi_mark_in aspi_mark_out aspi_tracks_to_affect aspi_rendering_mode aspi_padding_secs aspi_preset_path]. mv. Qed.
Hint Resolve mv_waudio_suite_effect : mv.

Lemma mv_wequalizer_band : forall o, wequalizer_band c' (equalizer_band_map f o) = wequalizer_band c o.
Proof. intros. unfold wequalizer_band. rewrite ?Hbo. autorewrite with mvb. unfold equalizer_band_map. cbn [eqbd_type eqbd_freq eqbd_gain eqbd_q eqbd_enable]. mv. Qed.
Hint Resolve mv_wequalizer_band : mv.

Lemma mv_wequalizer_multi_band : forall o, wequalizer_multi_band c' (equalizer_multi_band_map f o) = wequalizer_multi_band c o.
Proof. intros. unfold wequalizer_multi_band. rewrite ?Hbo. autorewrite with mvb. unfold equalizer_multi_band_map. cbn [eqmb_effect eqmb_bands eqmb_effect_enable eqmb_filter_name]. mv. Qed.
Hint Resolve mv_wequalizer_multi_band : mv.

Lemma mv_wtime_warp : forall o, wtime_warp c' (time_warp_map f o) = wtime_warp c o.
Proof. intros. unfold wtime_warp. rewrite ?Hbo. autorewrite with mvb. unfold time_warp_map. cbn [warp_group warp_phase_offset]. mv. Qed.
Hint Resolve mv_wtime_warp : mv.

Lemma mv_wcapture_mask : forall o, wcapture_mask c' (capture_mask_map f o) = wcapture_mask c o.
Proof. intros. unfold wcapture_mask. rewrite ?Hbo. autorewrite with mvb. unfold capture_mask_map. cbn [mask_warp mask_is_double mask_mask_bits]. mv. Qed.
Hint Resolve mv_wcapture_mask : mv.

Lemma mv_wstrobe_effect : forall o, wstrobe_effect c' (strobe_effect_map f o) = wstrobe_effect c o.
Proof. intros. unfold wstrobe_effect. rewrite ?Hbo. autorewrite with mvb. unfold strobe_effect_map. cbn [strb_warp strb_strobe_value]. mv. Qed.
Hint Resolve mv_wstrobe_effect : mv.

Lemma mv_wmotion_effect : forall o, wmotion_effect c' (motion_effect_map f o) = wmotion_effect c o.
Proof. intros. unfold wmotion_effect. rewrite ?Hbo. autorewrite with mvb. unfold motion_effect_map. cbn [sped_warp sped_speed_num sped_speed_den sped_offset_adjust sped_source_param_list sped_new_source_calculation]. mv. Qed.
Hint Resolve mv_wmotion_effect : mv.

Lemma mv_wrepeat_effect : forall o, wrepeat_effect c' (repeat_effect_map f o) = wrepeat_effect c o.
Proof. intros. unfold wrepeat_effect. rewrite ?Hbo. autorewrite with mvb. unfold repeat_effect_map. cbn [rept_warp]. mv. Qed.
Hint Resolve mv_wrepeat_effect : mv.

Lemma mv_wessence_group : forall o, wessence_group c' (essence_group_map f o) = wessence_group c o.
Proof. intros. unfold wessence_group. rewrite ?Hbo. autorewrite with mvb. unfold essence_group_map. cbn [rset_group rset_rep_set_type]. mv. Qed.
Hint Resolve mv_wessence_group : mv.

Lemma mv_wtransition_effect : forall o, wtransition_effect c' (transition_effect_map f o) = wtransition_effect c o.
Proof. intros. unfold wtransition_effect. rewrite ?Hbo. autorewrite with mvb. unfold transition_effect_map. cbn [tnfx_group tnfx_cutpoint tnfx_left_length tnfx_right_length tnfx_info_version tnfx_info_current tnfx_info_smooth tnfx_info_color_item tnfx_info_quality tnfx_info_is_reversed tnfx_info_aspect_on tnfx_keyframes tnfx_info_force_software tnfx_info_never_hardware tnfx_trackman]. mv. Qed.
Hint Resolve mv_wtransition_effect : mv.

Lemma mv_wselector : forall o, wselector c' (selector_map f o) = wselector c o.
Proof. intros. unfold wselector. rewrite ?Hbo. autorewrite with mvb. unfold selector_map. cbn [slct_group slct_is_ganged slct_selected]. mv. Qed.
Hint Resolve mv_wselector : mv.

Lemma mv_wcomposition : forall o, wcomposition c' (composition_map f o) = wcomposition c o.
Proof. intros. unfold wcomposition. rewrite ?Hbo. autorewrite with mvb. unfold composition_map. cbn [cmpo_group cmpo_last_modified cmpo_mob_type_id cmpo_usage_code cmpo_descriptor cmpo_creation_time cmpo_mob_id]. mv. Qed.
Hint Resolve mv_wcomposition : mv.

(** ** Misc.v *)

Lemma mv_wfile_locator : forall o, wfile_locator c' (file_locator_map f o) = wfile_locator c o.
Proof. intros. unfold wfile_locator. rewrite ?Hbo. autorewrite with mvb. unfold file_locator_map. cbn [file_path file_path_posix file_path_utf8 file_path2_utf8]. mv. Qed.
Hint Resolve mv_wfile_locator : mv.

Lemma mv_wurl_locator : forall o, wurl_locator c' (url_locator_map f o) = wurl_locator c o.
Proof. intros. unfold wurl_locator. rewrite ?Hbo. autorewrite with mvb. unfold url_locator_map. mv. Qed.
Hint Resolve mv_wurl_locator : mv.

Lemma mv_wgraphic_effect : forall o, wgraphic_effect c' (graphic_effect_map f o) = wgraphic_effect c o.
Proof. intros. unfold wgraphic_effect. rewrite ?Hbo. autorewrite with mvb. unfold graphic_effect_map. cbn [grfx_pict_data]. mv. Qed.
Hint Resolve mv_wgraphic_effect : mv.

Lemma mv_wshape_list : forall o, wshape_list c' (shape_list_map f o) = wshape_list c o.
Proof. intros. unfold wshape_list. rewrite ?Hbo. autorewrite with mvb. unfold shape_list_map. cbn [shlp_shape_data]. mv. Qed.
Hint Resolve mv_wshape_list : mv.

Lemma mv_wcolor_correction_effect : forall o, wcolor_correction_effect c' (color_correction_effect_map f o) = wcolor_correction_effect c o.
Proof. intros. unfold wcolor_correction_effect. rewrite ?Hbo. autorewrite with mvb. unfold color_correction_effect_map. cbn [ccfx_color_correction]. mv. Qed.
Hint Resolve mv_wcolor_correction_effect : mv.

Lemma mv_wbox : forall v, wbox c' v = wbox c v.
Proof. intros. unfold wbox. rewrite ?Hbo. mv. Qed.
Hint Resolve mv_wbox : mv.

Lemma mv_weffect_param : forall o, weffect_param c' (effect_param_map f o) = weffect_param c o.
Proof. intros. unfold weffect_param. rewrite ?Hbo. autorewrite with mvb. unfold effect_param_map. cbn [fxp_percent_time fxp_level fxp_pos_x fxp_floor_x fxp_ceil_x fxp_pos_y fxp_floor_y fxp_ceil_y fxp_scale_x fxp_scale_y fxp_crop_left fxp_crop_right fxp_crop_top fxp_crop_bottom fxp_box fxp_box_xscale fxp_box_yscale fxp_box_xpos fxp_box_ypos fxp_border_width fxp_border_soft fxp_splill_gain2 fxp_splill_gain fxp_splill_soft2 fxp_splill_soft fxp_enable_key_flags fxp_colors fxp_user_param fxp_selected]. mv. Qed.
Hint Resolve mv_weffect_param : mv.

Lemma mv_weffect_param_list : forall o, weffect_param_list c' (effect_param_list_map f o) = weffect_param_list c o.
Proof. intros. unfold weffect_param_list. rewrite ?Hbo. autorewrite with mvb. unfold effect_param_list_map. cbn [fxps_orig_length fxps_window_offset fxps_keyframe_size fxps_parameters]. mv. Qed.
Hint Resolve mv_weffect_param_list : mv.

Lemma mv_wcf_user_param : forall o, wcf_user_param c' (cf_user_param_map f o) = wcf_user_param c o.
Proof. intros. unfold wcf_user_param. rewrite ?Hbo. autorewrite with mvb. unfold cf_user_param_map. cbn [avup_byte_order avup_uuid avup_data]. mv. Qed.
Hint Resolve mv_wcf_user_param : mv.

Lemma mv_wprit_value : forall value_type v, wprit_value c' value_type (cp_value_map f v) = wprit_value c value_type v.
Proof. intros t []; unfold wprit_value; cbn [cp_value_map]; rewrite ?Hbo, ?Hf; reflexivity. Qed.
Hint Resolve mv_wprit_value : mv.

Lemma mv_wparameter_item : forall o, wparameter_item c' (parameter_item_map f o) = wparameter_item c o.
Proof. intros. unfold wparameter_item. rewrite ?Hbo. autorewrite with mvb. unfold parameter_item_map. cbn [prit_uuid prit_value_type prit_value prit_name prit_enable prit_control_track prit_contribs_to_sig]. mv. Qed.
Hint Resolve mv_wparameter_item : mv.

Lemma mv_wmob_words : forall m, wmob_words c' m = wmob_words c m.
Proof. intros. unfold wmob_words. rewrite ?Hbo. mv. Qed.
Hint Resolve mv_wmob_words : mv.

Lemma mv_wmsm_locator : forall o, wmsm_locator c' (msm_locator_map f o) = wmsm_locator c o.
Proof. intros. unfold wmsm_locator. rewrite ?Hbo. autorewrite with mvb. unfold msm_locator_map. cbn [msml_last_known_volume msml_domain_type msml_mob_id msml_last_known_volume_utf8]. mv. Qed.
Hint Resolve mv_wmsm_locator : mv.

Lemma mv_wposition_base : forall o, wposition_base c' (position_map f o) = wposition_base c o.
Proof. intros. unfold wposition_base. rewrite ?Hbo. autorewrite with mvb. unfold position_map. cbn [apos_mob_id]. mv. Qed.
Hint Resolve mv_wposition_base : mv.
Hint Rewrite mv_wposition_base : mvb.

Lemma mv_wposition : forall o, wposition c' (position_map f o) = wposition c o.
Proof. intros. unfold wposition. rewrite ?Hbo. autorewrite with mvb. unfold position_map. cbn [apos_mob_id]. mv. Qed.
Hint Resolve mv_wposition : mv.

Lemma mv_wbob_position_base : forall o, wbob_position_base c' (bob_position_map f o) = wbob_position_base c o.
Proof. intros. unfold wbob_position_base. rewrite ?Hbo. autorewrite with mvb. unfold bob_position_map. cbn [abob_position abob_sample_num abob_length abob_track_type abob_track_index]. mv. Qed.
Hint Resolve mv_wbob_position_base : mv.
Hint Rewrite mv_wbob_position_base : mvb.

Lemma mv_wbob_position : forall o, wbob_position c' (bob_position_map f o) = wbob_position c o.
Proof. intros. unfold wbob_position. rewrite ?Hbo. autorewrite with mvb. unfold bob_position_map. cbn [abob_position abob_sample_num abob_length abob_track_type abob_track_index]. mv. Qed.
Hint Resolve mv_wbob_position : mv.

Lemma mv_wdid_position_base : forall o, wdid_position_base c' (did_position_map f o) = wdid_position_base c o.
Proof. intros. unfold wdid_position_base. rewrite ?Hbo. autorewrite with mvb. unfold did_position_map. cbn [didp_bob didp_strip didp_offset didp_byte_length didp_spos_invalid]. mv. Qed.
Hint Resolve mv_wdid_position_base : mv.
Hint Rewrite mv_wdid_position_base : mvb.

Lemma mv_wdid_position : forall o, wdid_position c' (did_position_map f o) = wdid_position c o.
Proof. intros. unfold wdid_position. rewrite ?Hbo. autorewrite with mvb. unfold did_position_map. cbn [didp_bob didp_strip didp_offset didp_byte_length didp_spos_invalid]. mv. Qed.
Hint Resolve mv_wdid_position : mv.

Lemma mv_wmpg_field : forall p, wmpg_field c' p = wmpg_field c p.
Proof. intros. unfold wmpg_field. rewrite ?Hbo. mv. Qed.
Hint Resolve mv_wmpg_field : mv.

Lemma mv_wmpg_fields : forall l, wmpg_fields c' l = wmpg_fields c l.
Proof. intros. unfold wmpg_fields. rewrite ?Hbo. mv. Qed.
Hint Resolve mv_wmpg_fields : mv.

Lemma mv_wmpg_position : forall o, wmpg_position c' (mpg_position_map f o) = wmpg_position c o.
Proof. intros. unfold wmpg_position. rewrite ?Hbo. autorewrite with mvb. unfold mpg_position_map. cbn [mpgp_did mpgp_trailing_discards mpgp_need_seq_hdr mpgp_fields]. mv. Qed.
Hint Resolve mv_wmpg_position : mv.

Lemma mv_wbin_ref : forall o, wbin_ref c' (bin_ref_map f o) = wbin_ref c o.
Proof. intros. unfold wbin_ref. rewrite ?Hbo. autorewrite with mvb. unfold bin_ref_map. cbn [mcbr_uid_high mcbr_uid_low mcbr_name mcbr_name_utf8]. mv. Qed.
Hint Resolve mv_wbin_ref : mv.

Lemma mv_wmob_ref_base : forall o, wmob_ref_base c' (mob_ref_map f o) = wmob_ref_base c o.
Proof. intros. unfold wmob_ref_base. rewrite ?Hbo. autorewrite with mvb. unfold mob_ref_map. cbn [mcmr_position mcmr_mob_id]. mv. Qed.
Hint Resolve mv_wmob_ref_base : mv.
Hint Rewrite mv_wmob_ref_base : mvb.

Lemma mv_wmob_ref : forall o, wmob_ref c' (mob_ref_map f o) = wmob_ref c o.
Proof. intros. unfold wmob_ref. rewrite ?Hbo. autorewrite with mvb. unfold mob_ref_map. cbn [mcmr_position mcmr_mob_id]. mv. Qed.
Hint Resolve mv_wmob_ref : mv.

Lemma mv_wmarker : forall o, wmarker c' (marker_map f o) = wmarker c o.
Proof. intros. unfold wmarker. rewrite ?Hbo. autorewrite with mvb. unfold marker_map. cbn [tmbc_mob_ref tmbc_comp_offset tmbc_attributes tmbc_color tmbc_handled_codes]. mv. Qed.
Hint Resolve mv_wmarker : mv.

Lemma mv_wtracker_manager : forall o, wtracker_manager c' (tracker_manager_map f o) = wtracker_manager c o.
Proof. intros. unfold wtracker_manager. rewrite ?Hbo. autorewrite with mvb. unfold tracker_manager_map. cbn [tkmn_data_slots tkmn_param_slots]. mv. Qed.
Hint Resolve mv_wtracker_manager : mv.

Lemma mv_wtracker_data_slot : forall o, wtracker_data_slot c' (tracker_data_slot_map f o) = wtracker_data_slot c o.
Proof. intros. unfold wtracker_data_slot. rewrite ?Hbo. autorewrite with mvb. unfold tracker_data_slot_map. cbn [tkds_tracker_data tkds_track_fg]. mv. Qed.
Hint Resolve mv_wtracker_data_slot : mv.

Lemma mv_wtracker_parameter_slot : forall o, wtracker_parameter_slot c' (tracker_parameter_slot_map f o) = wtracker_parameter_slot c o.
Proof. intros. unfold wtracker_parameter_slot. rewrite ?Hbo. autorewrite with mvb. unfold tracker_parameter_slot_map. cbn [tkps_settings tkps_params]. mv. Qed.
Hint Resolve mv_wtracker_parameter_slot : mv.

Lemma mv_wtracker_data : forall o, wtracker_data c' (tracker_data_map f o) = wtracker_data c o.
Proof. intros. unfold wtracker_data. rewrite ?Hbo. autorewrite with mvb. unfold tracker_data_map. cbn [tkda_settings tkda_clip_version tkda_clips tkda_offset_tracking tkda_smoothing tkda_jitter_removal tkda_filter_amount tkda_clip5 tkda_clip6]. mv. Qed.
Hint Resolve mv_wtracker_data : mv.

Lemma mv_wtracker_parameter : forall o, wtracker_parameter c' (tracker_parameter_map f o) = wtracker_parameter c o.
Proof. intros. unfold wtracker_parameter. rewrite ?Hbo. autorewrite with mvb. unfold tracker_parameter_map. cbn [tkpa_settings]. mv. Qed.
Hint Resolve mv_wtracker_parameter : mv.

(** ** Essence.v *)

Lemma mv_wmedia_descriptor_base : forall o, wmedia_descriptor_base c' (media_descriptor_map f o) = wmedia_descriptor_base c o.
Proof. intros. unfold wmedia_descriptor_base. rewrite ?Hbo. autorewrite with mvb. unfold media_descriptor_map. cbn [mdes_mob_kind mdes_locator mdes_intermediate mdes_physical_media mdes_uuid mdes_wchar mdes_attributes]. mv. Qed.
Hint Resolve mv_wmedia_descriptor_base : mv.
Hint Rewrite mv_wmedia_descriptor_base : mvb.

Lemma mv_wmedia_descriptor : forall o, wmedia_descriptor c' (media_descriptor_map f o) = wmedia_descriptor c o.
Proof. intros. unfold wmedia_descriptor. rewrite ?Hbo. autorewrite with mvb. unfold media_descriptor_map. cbn [mdes_mob_kind mdes_locator mdes_intermediate mdes_physical_media mdes_uuid mdes_wchar mdes_attributes]. mv. Qed.
Hint Resolve mv_wmedia_descriptor : mv.

Lemma mv_wtape_descriptor : forall o, wtape_descriptor c' (tape_descriptor_map f o) = wtape_descriptor c o.
Proof. intros. unfold wtape_descriptor. rewrite ?Hbo. autorewrite with mvb. unfold tape_descriptor_map. cbn [mdtp_media mdtp_cframe]. mv. Qed.
Hint Resolve mv_wtape_descriptor : mv.

Lemma mv_wfilm_descriptor : forall o, wfilm_descriptor c' (film_descriptor_map f o) = wfilm_descriptor c o.
Proof. intros. unfold wfilm_descriptor. rewrite ?Hbo. autorewrite with mvb. unfold film_descriptor_map. mv. Qed.
Hint Resolve mv_wfilm_descriptor : mv.

Lemma mv_wmedia_file_descriptor_base : forall o, wmedia_file_descriptor_base c' (media_file_descriptor_map f o) = wmedia_file_descriptor_base c o.
Proof. intros. unfold wmedia_file_descriptor_base. rewrite ?Hbo. autorewrite with mvb. unfold media_file_descriptor_map. cbn [mdfl_media mdfl_edit_rate mdfl_length mdfl_is_omfi mdfl_data_offset]. mv. Qed.
Hint Resolve mv_wmedia_file_descriptor_base : mv.
Hint Rewrite mv_wmedia_file_descriptor_base : mvb.

Lemma mv_wmedia_file_descriptor : forall o, wmedia_file_descriptor c' (media_file_descriptor_map f o) = wmedia_file_descriptor c o.
Proof. intros. unfold wmedia_file_descriptor. rewrite ?Hbo. autorewrite with mvb. unfold media_file_descriptor_map. cbn [mdfl_media mdfl_edit_rate mdfl_length mdfl_is_omfi mdfl_data_offset]. mv. Qed.
Hint Resolve mv_wmedia_file_descriptor : mv.

Lemma mv_wmulti_descriptor : forall o, wmulti_descriptor c' (multi_descriptor_map f o) = wmulti_descriptor c o.
Proof. intros. unfold wmulti_descriptor. rewrite ?Hbo. autorewrite with mvb. unfold multi_descriptor_map. cbn [muld_file muld_descriptors]. mv. Qed.
Hint Resolve mv_wmulti_descriptor : mv.

Lemma mv_wwave_descriptor : forall o, wwave_descriptor c' (wave_descriptor_map f o) = wwave_descriptor c o.
Proof. intros. unfold wwave_descriptor. rewrite ?Hbo. autorewrite with mvb. unfold wave_descriptor_map. cbn [wave_file wave_summary]. mv. Qed.
Hint Resolve mv_wwave_descriptor : mv.

Lemma mv_waifc_descriptor : forall o, waifc_descriptor c' (aifc_descriptor_map f o) = waifc_descriptor c o.
Proof. intros. unfold waifc_descriptor. rewrite ?Hbo. autorewrite with mvb. unfold aifc_descriptor_map. cbn [aifc_file aifc_summary aifc_data_pos]. mv. Qed.
Hint Resolve mv_waifc_descriptor : mv.

Lemma mv_wpcma_descriptor : forall o, wpcma_descriptor c' (pcma_descriptor_map f o) = wpcma_descriptor c o.
Proof. intros. unfold wpcma_descriptor. rewrite ?Hbo. autorewrite with mvb. unfold pcma_descriptor_map. cbn [pcma_file pcma_channels pcma_quantization_bits pcma_sample_rate pcma_locked pcma_audio_ref_level pcma_electro_spatial_formulation pcma_dial_norm pcma_coding_format pcma_block_align pcma_sequence_offset pcma_average_bps pcma_has_peak_envelope_data pcma_peak_envelope_version pcma_peak_envelope_format pcma_points_per_peak_value pcma_peak_envelope_block_size pcma_peak_channel_count pcma_peak_frame_count pcma_peak_of_peaks_offset pcma_peak_envelope_timestamp pcma_ebu_timestamp pcma_timecode_framerate]. mv. Qed.
Hint Resolve mv_wpcma_descriptor : mv.

Lemma mv_wmpga_descriptor : forall o, wmpga_descriptor c' (mpga_descriptor_map f o) = wmpga_descriptor c o.
Proof. intros. unfold wmpga_descriptor. rewrite ?Hbo. autorewrite with mvb. unfold mpga_descriptor_map. cbn [mpga_file mpga_channels mpga_quantization_bits mpga_sample_rate mpga_locked mpga_audio_ref_level mpga_electro_spatial_formulation mpga_dial_norm mpga_coding_format mpga_bit_rate mpga_sub_frame_alignment mpga_origin]. mv. Qed.
Hint Resolve mv_wmpga_descriptor : mv.

Lemma mv_wpoint : forall x y, wpoint c' x y = wpoint c x y.
Proof. intros. unfold wpoint. rewrite ?Hbo. mv. Qed.
Hint Resolve mv_wpoint : mv.

Lemma mv_wbounds_box : forall b, wbounds_box c' b = wbounds_box c b.
Proof. intros. unfold wbounds_box. rewrite ?Hbo. mv. Qed.
Hint Resolve mv_wbounds_box : mv.

Lemma mv_wclient_fill : forall s e, wclient_fill c' s e = wclient_fill c s e.
Proof. intros. unfold wclient_fill. rewrite ?Hbo. mv. Qed.
Hint Resolve mv_wclient_fill : mv.

Lemma mv_wboxes : forall va es so, wboxes c' va es so = wboxes c va es so.
Proof. intros. unfold wboxes. rewrite ?Hbo. mv. Qed.
Hint Resolve mv_wboxes : mv.

Lemma mv_wframing : forall fb ro, wframing c' fb ro = wframing c fb ro.
Proof. intros. unfold wframing. rewrite ?Hbo. mv. Qed.
Hint Resolve mv_wframing : mv.

Lemma mv_wcolor : forall cp ce, wcolor c' cp ce = wcolor c cp ce.
Proof. intros. unfold wcolor. rewrite ?Hbo. mv. Qed.
Hint Resolve mv_wcolor : mv.

Lemma mv_wline_map : forall l, wline_map c' l = wline_map c l.
Proof. intros. unfold wline_map. rewrite ?Hbo. mv. Qed.
Hint Resolve mv_wline_map : mv.

Lemma mv_wdid_descriptor_base : forall o, wdid_descriptor_base c' (did_descriptor_map f o) = wdid_descriptor_base c o.
Proof. intros. unfold wdid_descriptor_base. rewrite ?Hbo. autorewrite with mvb. unfold did_descriptor_map. cbn [didd_file didd_stored_height didd_stored_width didd_sampled_height didd_sampled_width didd_sampled_x_offset didd_sampled_y_offset didd_display_height didd_display_width didd_display_x_offset didd_display_y_offset didd_frame_layout didd_aspect_num didd_aspect_den didd_line_map didd_alpha_transparency didd_uniformness didd_did_image_size didd_next_did_desc didd_compress_method didd_resolution_id didd_image_alignment_factor didd_frame_index_byte_order didd_frame_sample_size didd_first_frame_offset didd_client_fill_start didd_client_fill_end didd_offset_to_rle_frame_index didd_frame_start_offset didd_valid_box didd_essence_box didd_source_box didd_framing_box didd_reformatting_option didd_transfer_characteristic didd_color_primaries didd_coding_equations didd_essence_compression didd_essence_element_size_kind didd_frame_checked_with_mapper]. mv. Qed.
Hint Resolve mv_wdid_descriptor_base : mv.
Hint Rewrite mv_wdid_descriptor_base : mvb.

Lemma mv_wdid_descriptor : forall o, wdid_descriptor c' (did_descriptor_map f o) = wdid_descriptor c o.
Proof. intros. unfold wdid_descriptor. rewrite ?Hbo. autorewrite with mvb. unfold did_descriptor_map. cbn [didd_file didd_stored_height didd_stored_width didd_sampled_height didd_sampled_width didd_sampled_x_offset didd_sampled_y_offset didd_display_height didd_display_width didd_display_x_offset didd_display_y_offset didd_frame_layout didd_aspect_num didd_aspect_den didd_line_map didd_alpha_transparency didd_uniformness didd_did_image_size didd_next_did_desc didd_compress_method didd_resolution_id didd_image_alignment_factor didd_frame_index_byte_order didd_frame_sample_size didd_first_frame_offset didd_client_fill_start didd_client_fill_end didd_offset_to_rle_frame_index didd_frame_start_offset didd_valid_box didd_essence_box didd_source_box didd_framing_box didd_reformatting_option didd_transfer_characteristic didd_color_primaries didd_coding_equations didd_essence_compression didd_essence_element_size_kind didd_frame_checked_with_mapper]. mv. Qed.
Hint Resolve mv_wdid_descriptor : mv.

Lemma mv_wcdci_descriptor_base : forall o, wcdci_descriptor_base c' (cdci_descriptor_map f o) = wcdci_descriptor_base c o.
Proof. intros. unfold wcdci_descriptor_base. rewrite ?Hbo. autorewrite with mvb. unfold cdci_descriptor_map. cbn [cdci_did cdci_horizontal_subsampling cdci_vertical_subsampling cdci_component_width cdci_color_sitting cdci_black_ref_level cdci_white_ref_level cdci_color_range cdci_frame_index_offset cdci_alpha_sampled_width cdci_ignore_bw]. mv. Qed.
Hint Resolve mv_wcdci_descriptor_base : mv.
Hint Rewrite mv_wcdci_descriptor_base : mvb.

Lemma mv_wcdci_descriptor : forall o, wcdci_descriptor c' (cdci_descriptor_map f o) = wcdci_descriptor c o.
Proof. intros. unfold wcdci_descriptor. rewrite ?Hbo. autorewrite with mvb. unfold cdci_descriptor_map. cbn [cdci_did cdci_horizontal_subsampling cdci_vertical_subsampling cdci_component_width cdci_color_sitting cdci_black_ref_level cdci_white_ref_level cdci_color_range cdci_frame_index_offset cdci_alpha_sampled_width cdci_ignore_bw]. mv. Qed.
Hint Resolve mv_wcdci_descriptor : mv.

Lemma mv_wmpgi_descriptor : forall o, wmpgi_descriptor c' (mpgi_descriptor_map f o) = wmpgi_descriptor c o.
Proof. intros. unfold wmpgi_descriptor. rewrite ?Hbo. autorewrite with mvb. unfold mpgi_descriptor_map. cbn [mpgi_cdci mpgi_mpeg_version mpgi_profile mpgi_gop_structure mpgi_stream_type mpgi_random_access mpgi_leading_discard mpgi_trailing_discard mpgi_min_gop_length mpgi_max_gop_length mpgi_sequence_hdr]. mv. Qed.
Hint Resolve mv_wmpgi_descriptor : mv.

Lemma mv_wjped_descriptor : forall o, wjped_descriptor c' (jped_descriptor_map f o) = wjped_descriptor c o.
Proof. intros. unfold wjped_descriptor. rewrite ?Hbo. autorewrite with mvb. unfold jped_descriptor_map. cbn [jped_cdci jped_jpeg_table_id jped_jpeg_frame_index_offset jped_quantization_tables jped_image_start_align]. mv. Qed.
Hint Resolve mv_wjped_descriptor : mv.

Lemma mv_wpixel_layout : forall l, wpixel_layout c' l = wpixel_layout c l.
Proof. intros. unfold wpixel_layout. rewrite ?Hbo. mv. Qed.
Hint Resolve mv_wpixel_layout : mv.

Lemma mv_wcomp_refs : forall o, wcomp_refs c' (rgba_descriptor_map f o) = wcomp_refs c o.
Proof. intros. unfold wcomp_refs. rewrite ?Hbo. autorewrite with mvb. unfold rgba_descriptor_map. cbn [rgba_did rgba_pixel_layout rgba_frame_index_offset rgba_has_comp_min_ref rgba_comp_min_ref rgba_has_comp_max_ref rgba_comp_max_ref rgba_alpha_min_ref rgba_alpha_max_ref]. mv. Qed.
Hint Resolve mv_wcomp_refs : mv.
Hint Rewrite mv_wcomp_refs : mvb.

Lemma mv_walpha_refs : forall o, walpha_refs c' (rgba_descriptor_map f o) = walpha_refs c o.
Proof. intros. unfold walpha_refs. rewrite ?Hbo. autorewrite with mvb. unfold rgba_descriptor_map. cbn [rgba_did rgba_pixel_layout rgba_frame_index_offset rgba_has_comp_min_ref rgba_comp_min_ref rgba_has_comp_max_ref rgba_comp_max_ref rgba_alpha_min_ref rgba_alpha_max_ref]. mv. Qed.
Hint Resolve mv_walpha_refs : mv.
Hint Rewrite mv_walpha_refs : mvb.

Lemma mv_wrgba_descriptor : forall o, wrgba_descriptor c' (rgba_descriptor_map f o) = wrgba_descriptor c o.
Proof. intros. unfold wrgba_descriptor. rewrite ?Hbo. autorewrite with mvb. unfold rgba_descriptor_map. cbn [rgba_did rgba_pixel_layout rgba_frame_index_offset rgba_has_comp_min_ref rgba_comp_min_ref rgba_has_comp_max_ref rgba_comp_max_ref rgba_alpha_min_ref rgba_alpha_max_ref]. mv. Qed.
Hint Resolve mv_wrgba_descriptor : mv.

Lemma mv_wdata_descriptor : forall o, wdata_descriptor c' (data_descriptor_map f o) = wdata_descriptor c o.
Proof. intros. unfold wdata_descriptor. rewrite ?Hbo. autorewrite with mvb. unfold data_descriptor_map. cbn [datd_file datd_is_offset_to_frame_indexes_valid datd_offset_to_frame_indexes datd_first_frame_offset datd_min_sample_size datd_max_sample_size]. mv. Qed.
Hint Resolve mv_wdata_descriptor : mv.

Lemma mv_wanc_data_descriptor : forall o, wanc_data_descriptor c' (anc_data_descriptor_map f o) = wanc_data_descriptor c o.
Proof. intros. unfold wanc_data_descriptor. rewrite ?Hbo. autorewrite with mvb. unfold anc_data_descriptor_map. cbn [ancd_data ancd_manifest_element_count]. mv. Qed.
Hint Resolve mv_wanc_data_descriptor : mv.

(** ** BinModel.v *)

Lemma mv_wsetting : forall o, wsetting c' (setting_map f o) = wsetting c o.
Proof. intros. unfold wsetting. rewrite ?Hbo. autorewrite with mvb. unfold setting_map. cbn [aset_name aset_kind aset_attr_count aset_attr_type aset_attributes]. mv. Qed.
Hint Resolve mv_wsetting : mv.

Lemma mv_wbin_column : forall o, wbin_column c' (bin_column_map f o) = wbin_column c o.
Proof. intros. unfold wbin_column. rewrite ?Hbo. autorewrite with mvb. unfold bin_column_map. cbn [bcol_title bcol_format bcol_type bcol_hidden]. mv. Qed.
Hint Resolve mv_wbin_column : mv.

Lemma mv_wformat_desc : forall o, wformat_desc c' (format_desc_map f o) = wformat_desc c o.
Proof. intros. unfold wformat_desc. rewrite ?Hbo. autorewrite with mvb. unfold format_desc_map. cbn [fdsc_vcid_free_column_id fdsc_format_descriptor]. mv. Qed.
Hint Resolve mv_wformat_desc : mv.

Lemma mv_wformat_descs : forall l, wformat_descs c' (map (format_desc_map f) l) = wformat_descs c l.
Proof. intros. unfold wformat_descs. rewrite ?Hbo. mv. Qed.
Hint Resolve mv_wformat_descs : mv.

Lemma mv_wbin_view_setting : forall o, wbin_view_setting c' (bin_view_setting_map f o) = wbin_view_setting c o.
Proof. intros. unfold wbin_view_setting. rewrite ?Hbo. autorewrite with mvb. unfold bin_view_setting_map. cbn [bvst_setting bvst_columns bvst_format_descriptors]. mv. Qed.
Hint Resolve mv_wbin_view_setting : mv.

Lemma mv_wbin_item : forall o, wbin_item c' (bin_item_map f o) = wbin_item c o.
Proof. intros. unfold wbin_item. rewrite ?Hbo. autorewrite with mvb. unfold bin_item_map. cbn [item_mob item_x item_y item_keyframe item_user_placed]. mv. Qed.
Hint Resolve mv_wbin_item : mv.

Lemma mv_wsift_item : forall o, wsift_item c' (sift_item_map f o) = wsift_item c o.
Proof. intros. unfold wsift_item. rewrite ?Hbo. autorewrite with mvb. unfold sift_item_map. cbn [sift_method sift_string sift_column]. mv. Qed.
Hint Resolve mv_wsift_item : mv.

Lemma mv_wsort_column : forall o, wsort_column c' (sort_column_map f o) = wsort_column c o.
Proof. intros. unfold wsort_column. rewrite ?Hbo. autorewrite with mvb. unfold sort_column_map. cbn [scol_direction scol_name]. mv. Qed.
Hint Resolve mv_wsort_column : mv.

Lemma mv_wobject_count : forall o, wobject_count c' (bin_map f o) = wobject_count c o.
Proof. intros o. unfold wobject_count, large_form, bin_map. cbn [abin_large_bin abin_items]. now rewrite len_map, Hbo. Qed.
Hint Rewrite mv_wobject_count : mvb.

Lemma large_form_map : forall o, large_form (bin_map f o) = large_form o.
Proof. intros o. unfold large_form, bin_map. cbn [abin_large_bin abin_items]. now rewrite len_map. Qed.
Hint Rewrite large_form_map : mvb.

Lemma mv_wbin_base : forall o, wbin_base c' (bin_map f o) = wbin_base c o.
Proof. intros. unfold wbin_base. rewrite ?Hbo. autorewrite with mvb. unfold bin_map. cbn [abin_large_bin abin_view_setting abin_uid abin_items abin_display_mask abin_display_mode abin_sifted abin_sifted_settings abin_sort_columns abin_mac_font abin_mac_font_size abin_mac_image_scale abin_home_rect abin_background_color abin_forground_color abin_ql_image_scale abin_attributes abin_was_iconic]. mv. Qed.
Hint Resolve mv_wbin_base : mv.
Hint Rewrite mv_wbin_base : mvb.

Lemma mv_wbin : forall o, wbin c' (bin_map f o) = wbin c o.
Proof. intros. unfold wbin. rewrite ?Hbo. autorewrite with mvb. unfold bin_map. cbn [abin_large_bin abin_view_setting abin_uid abin_items abin_display_mask abin_display_mode abin_sifted abin_sifted_settings abin_sort_columns abin_mac_font abin_mac_font_size abin_mac_image_scale abin_home_rect abin_background_color abin_forground_color abin_ql_image_scale abin_attributes abin_was_iconic]. mv. Qed.
Hint Resolve mv_wbin : mv.

Lemma mv_wbin_first : forall o, wbin_first c' (bin_first_map f o) = wbin_first c o.
Proof. intros. unfold wbin_first. rewrite ?Hbo. autorewrite with mvb. unfold bin_first_map. cbn [binf_bin binf_unknown_s32]. mv. Qed.
Hint Resolve mv_wbin_first : mv.

End Classes.

Lemma move_global : forall c c' f o, obo c' = obo c -> (forall r, wref c' (f r) = wref c r) ->
  wbody c' (obj_map f o) = wbody c o.
Proof.
  intros c c' f [k v] Hb Hf. unfold wbody, obj_map. cbn [okind oval]. destruct k; cbn [class_of C_write C_map].
  - now apply mv_wattributes.
  - now apply mv_wparameter_list.
  - now apply mv_wtime_crumb_list.
  - now apply mv_wbin_view_setting.
  - now apply mv_wbin.
  - now apply mv_wbin_first.
  - now apply mv_wsequence.
  - now apply mv_wsource_clip.
  - now apply mv_wtimecode.
  - now apply mv_wedgecode.
  - now apply mv_wtrack_ref.
  - now apply mv_wparam_clip.
  - now apply mv_wcontrol_clip.
  - now apply mv_wfiller.
  - now apply mv_wmedia_descriptor.
  - now apply mv_wtape_descriptor.
  - now apply mv_wfilm_descriptor.
  - now apply mv_wfilm_descriptor.
  - now apply mv_wmedia_file_descriptor.
  - now apply mv_wmulti_descriptor.
  - now apply mv_wwave_descriptor.
  - now apply mv_waifc_descriptor.
  - now apply mv_wpcma_descriptor.
  - now apply mv_wmpga_descriptor.
  - now apply mv_wdid_descriptor.
  - now apply mv_wcdci_descriptor.
  - now apply mv_wmpgi_descriptor.
  - now apply mv_wjped_descriptor.
  - now apply mv_wrgba_descriptor.
  - now apply mv_wdata_descriptor.
  - now apply mv_wanc_data_descriptor.
  - now apply mv_wfile_locator.
  - now apply mv_wfile_locator.
  - now apply mv_wurl_locator.
  - now apply mv_wgraphic_effect.
  - now apply mv_wshape_list.
  - now apply mv_wcolor_correction_effect.
  - now apply mv_weffect_param_list.
  - now apply mv_wcf_user_param.
  - now apply mv_wparameter_item.
  - now apply mv_wmsm_locator.
  - now apply mv_wposition.
  - now apply mv_wbob_position.
  - now apply mv_wdid_position.
  - now apply mv_wmpg_position.
  - now apply mv_wbin_ref.
  - now apply mv_wmob_ref.
  - now apply mv_wmarker.
  - now apply mv_wtracker_manager.
  - now apply mv_wtracker_data_slot.
  - now apply mv_wtracker_parameter_slot.
  - now apply mv_wtracker_data.
  - now apply mv_wtracker_parameter.
  - now apply mv_wtrack_group.
  - now apply mv_wtrack_effect.
  - now apply mv_wpan_volume_effect.
  - now apply mv_waudio_suite_effect.
  - now apply mv_wequalizer_multi_band.
  - now apply mv_wcapture_mask.
  - now apply mv_wstrobe_effect.
  - now apply mv_wmotion_effect.
  - now apply mv_wrepeat_effect.
  - now apply mv_wessence_group.
  - now apply mv_wtransition_effect.
  - now apply mv_wselector.
  - now apply mv_wcomposition.
Qed.

(** It is enough that the references of the object have the same numbers. *)
Lemma move_refs : forall c c' f o, obo c' = obo c ->
  (forall r, In r (obj_refs o) -> wref c' (f r) = wref c r) -> wbody c' (obj_map f o) = wbody c o.
Proof.
  intros c c' f o Hb Hf.
  set (inr r := if in_dec Z.eq_dec r (obj_refs o) then true else false).
  set (g r := if inr r then f r else 0). set (g' r := if inr r then r else 0).
  set (c1 := {| obo := obo c; orefs := fun r => if g' r =? 0 then Some 0 else orefs c r |}).
  assert (forall r, wref c (g' r) = wref c1 r) as E1.
  { intros r. unfold wref, c1. cbn [obo orefs]. destruct (Z.eqb_spec r 0) as [->|N].
    - unfold g'. destruct (inr 0); reflexivity.
    - unfold g'. destruct (inr r).
      + destruct (Z.eqb_spec r 0); [contradiction|reflexivity].
      + reflexivity. }
  assert (forall r, wref c' (g r) = wref c1 r) as E2.
  { intros r. rewrite <- E1. unfold g, g', inr. destruct (in_dec Z.eq_dec r (obj_refs o)); [now apply Hf|].
    unfold wref. cbn [Z.eqb]. now rewrite Hb. }
  rewrite (map_ext_obj f g); [|intros r Hr; unfold g, inr; destruct (in_dec Z.eq_dec r (obj_refs o)); tauto].
  rewrite (move_global c1 c' g o Hb E2), <- (move_global c1 c g' o eq_refl E1).
  rewrite (map_ext_obj g' (fun r => r)); [|intros r Hr; unfold g', inr; destruct (in_dec Z.eq_dec r (obj_refs o)); tauto].
  now apply move_global.
Qed.

(** ** What is storable stays so when the references are renumbered *)

Lemma Forall_map_imp : forall A (P : A -> Prop) g l, (forall x, P x -> P (g x)) -> Forall P l -> Forall P (map g l).
Proof. intros A P g l H F. induction F; cbn [map]; constructor; auto. Qed.
Ltac okm := 
  repeat match goal with
  | H : _ /\ _ |- _ => destruct H
  | |- _ /\ _ => split
  | |- Forall _ (map _ _) => apply Forall_map_imp
  | H : ?P |- ?P => exact H
  | |- True => exact I
  end.
Ltac okf F := 
  match goal with |- Forall ?P (?p ?x) =>
    let y := eval hnf in (p x) in change (Forall P y); eapply Forall_map_imp; [|eassumption] end; intros; F.
Lemma ok_pcpp : forall f x, param_point_property_ok x -> param_point_property_ok (param_point_property_map f x).
Proof. intros f x H. exact H. Qed.
Lemma ok_pcp : forall f x, param_control_point_ok x -> param_control_point_ok (param_control_point_map f x).
Proof. intros f x [H H0]. split; [exact H|]. exact (Forall_map_imp _ _ _ _ (ok_pcpp f) H0). Qed.
Lemma ok_cpp : forall f x, control_point_property_ok x -> control_point_property_ok (control_point_property_map f x).
Proof. intros f x H. exact H. Qed.
Lemma ok_cp : forall f x, control_point_ok x -> control_point_ok (control_point_map f x).
Proof. intros f x H. exact (Forall_map_imp _ _ _ _ (ok_cpp f) H). Qed.
Lemma ok_chunk : forall f x, aspi_chunk_ok x -> aspi_chunk_ok (aspi_chunk_map f x).
Proof. intros f x H. exact H. Qed.
Lemma ok_plugin : forall f x, aspi_plugin_ok x -> aspi_plugin_ok (aspi_plugin_map f x).
Proof. intros f x [H H0]. split; [exact H|]. exact (Forall_map_imp _ _ _ _ (ok_chunk f) H0). Qed.
Lemma len_mapped : forall A B (g : A -> B) l, len (map g l) = len l.
Proof. intros A B g l. unfold len. rewrite map_length. reflexivity. Qed.
Lemma ok_attributes : forall f o, attributes_ok o -> attributes_ok (attributes_map f o).
Proof.
  intros f o [H H0]. unfold attributes_ok, attributes_map. split.
  - rewrite map_map. cbn [fst]. exact H.
  - apply Forall_map_imp; [|exact H0]. intros [k v] [A B]. split; [exact A|].
    destruct v; exact B.
Qed.
Lemma ok_map : forall f o, obj_ok o -> obj_ok (obj_map f o).
Proof.
  intros f [k v]. unfold obj_ok, obj_map. cbn [okind oval]. intros [C H]. split; [exact C|]. clear C.
  destruct k; cbn [ok_of class_of C_type C_map] in *; try exact H.
  all: unfold bin_view_setting_ok, bin_first_ok, bin_ok, param_clip_ok, control_clip_ok, effect_param_list_ok,
    audio_suite_effect_ok, equalizer_multi_band_ok, capture_mask_ok, strobe_effect_ok, motion_effect_ok, repeat_effect_ok,
    essence_group_ok, transition_effect_ok, selector_ok, composition_ok, pan_volume_effect_ok, track_effect_ok, time_warp_ok,
    track_group_ok, opt_ok in *; okm.
  all: try (okf ltac:(first [exact I|assumption|apply ok_pcp; assumption|apply ok_cp; assumption|apply ok_plugin; assumption])).
  - apply ok_attributes. exact H.
  - unfold bin_view_setting_map; cbn [bvst_format_descriptors]. destruct (bvst_format_descriptors v); cbn [option_map]; [|exact I].
    eapply Forall_map_imp; [|eassumption]. intros; exact I.
  - unfold bin_view_setting_map; cbn [bvst_format_descriptors]. destruct (bvst_format_descriptors v); cbn [option_map]; [|exact I].
    rewrite len_mapped. assumption.
  - unfold bin_map; cbn [abin_sifted_settings]. rewrite map_length. assumption.
  - unfold bin_map; cbn [abin_large_bin abin_items]. rewrite len_mapped. assumption.
  - unfold bin_first_map, bin_map; cbn [binf_bin abin_sifted_settings]. rewrite map_length. assumption.
  - unfold bin_first_map, bin_map; cbn [binf_bin abin_large_bin abin_items]. rewrite len_mapped. assumption.
  - unfold audio_suite_effect_map; cbn [aspi_plugins]. rewrite map_length. assumption.
  - unfold selector_map, track_group_map; cbn [slct_group slct_selected trkg_tracks]. rewrite len_mapped. assumption.
Qed.
