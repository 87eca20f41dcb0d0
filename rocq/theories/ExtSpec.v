(** What an object read by the standard readers holds, property by property, and when the
    properties found by the accelerated readers are the same. *)
From Coq Require Import ZArith String List Bool.
From Verif Require Import Base IoCtx Text Exp10 MobId Attributes Components TrackGroups Essence Misc.
From Verif Require Import Objects Ext.
Import ListNotations.
Open Scope string_scope.
Open Scope list_scope.
Open Scope Z_scope.

(** ** The properties of an object *)

(** A property of an object, or of the tracks and parameters it owns. *)
Inductive vprop := VOne (c : cell) | VMany (l : list (list (string * option cell))).

(** Names with values; [None]: not set. *)
Definition view := list (string * option vprop).

Fixpoint vlook {V} (l : list (string * option V)) (n : string) : option V :=
  match l with
  | [] => None
  | (k, o) :: l' =>
    if String.eqb k n then match o with Some v => Some v | None => vlook l' n end else vlook l' n
  end.

Definition int_ (v : Z) := Some (VOne (CInt v)).
Definition ref_ (v : Z) := Some (VOne (CRef v)).
Definition bool_ (v : bool) := Some (VOne (CBool v)).
Definition opt_ {A} (f : A -> cell) (o : option A) : option vprop :=
  match o with Some v => Some (VOne (f v)) | None => None end.
Definition opt1_ {A} (f : A -> cell) (o : option A) : option cell :=
  match o with Some v => Some (f v) | None => None end.

Definition component_view (o : component) : view := [
  ("left_bob", ref_ (cpnt_left_bob o)); ("right_bob", ref_ (cpnt_right_bob o));
  ("media_kind_id", int_ (cpnt_media_kind_id o));
  ("edit_rate", Some (VOne (CFloat (cpnt_edit_rate o))));
  ("name", Some (VOne (CText (cpnt_name o))));
  ("effect_id", Some (VOne (CText (cpnt_effect_id o))));
  ("attributes", ref_ (cpnt_attributes o)); ("session_attrs", ref_ (cpnt_session_attrs o));
  ("precomputed", ref_ (cpnt_precomputed o)); ("param_list", opt_ CRef (cpnt_param_list o)) ].

Definition sequence_view (o : sequence) : view :=
  component_view (sequ_component o) ++ [
  ("components", Some (VOne (CRefs (sequ_components o)))) ].

Definition clip_view (o : clip) : view :=
  component_view (clip_component o) ++ [ ("length", int_ (clip_length o)) ].

Definition filler_view (o : filler) : view := clip_view (fill_clip o).

Definition source_clip_view (o : source_clip) : view :=
  clip_view (sclp_clip o) ++ [
  ("track_id", int_ (sclp_track_id o)); ("start_time", int_ (sclp_start_time o));
  ("mob_id", opt_ CMob (sclp_mob_id o)) ].

Definition param_clip_view (o : param_clip) : view :=
  clip_view (prcl_clip o) ++ [
  ("interp_kind", int_ (prcl_interp_kind o)); ("value_type", int_ (prcl_value_type o));
  ("control_points", Some (VOne (CPoints (prcl_control_points o))));
  ("extrap_kind", opt_ CInt (prcl_extrap_kind o)); ("fields", opt_ CInt (prcl_fields o)) ].

Definition track_ref_view (o : track_ref) : view :=
  clip_view (trkr_clip o) ++ [
  ("relative_scope", int_ (trkr_relative_scope o));
  ("relative_track", int_ (trkr_relative_track o)) ].

(** The value of a parameter item. *)
Definition value_cell (v : cp_value) : cell :=
  match v with CPInt v => CInt v | CPDouble v => CDouble v | CPRef r => CRef r end.

Definition parameter_item_view (o : parameter_item) : view := [
  ("uuid", Some (VOne (CUuid (prit_uuid o)))); ("value_type", int_ (prit_value_type o));
  ("value", Some (VOne (value_cell (prit_value o))));
  ("name", Some (VOne (CText (prit_name o)))); ("enable", bool_ (prit_enable o));
  ("control_track", ref_ (prit_control_track o));
  ("contribs_to_sig", opt_ CBool (prit_contribs_to_sig o)) ].

Definition track_view (o : track) : list (string * option cell) := [
  ("index", opt1_ CInt (trak_index o)); ("attributes", opt1_ CRef (trak_attributes o));
  ("session_attr", opt1_ CRef (trak_session_attr o));
  ("component", opt1_ CRef (trak_component o));
  ("filler_proxy", opt1_ CRef (trak_filler_proxy o)); ("bob_data", opt1_ CRef (trak_bob_data o));
  ("control_code", opt1_ CInt (trak_control_code o));
  ("control_sub_code", opt1_ CInt (trak_control_sub_code o));
  ("start_pos", opt1_ CInt (trak_start_pos o)); ("read_only", opt1_ CBool (trak_read_only o));
  ("lock_number", opt1_ CInt (trak_lock_number o)) ].

Definition track_group_view (o : track_group) : view :=
  component_view (trkg_component o) ++ [
  ("mc_mode", int_ (trkg_mc_mode o)); ("length", int_ (trkg_length o));
  ("num_scalars", int_ (trkg_num_scalars o));
  ("tracks", Some (VMany (map track_view (trkg_tracks o)))) ].

Definition track_effect_view (o : track_effect) : view :=
  track_group_view (tkfx_group o) ++ [
  ("left_length", int_ (tkfx_left_length o)); ("right_length", int_ (tkfx_right_length o));
  ("info_version", int_ (tkfx_info_version o)); ("info_current", int_ (tkfx_info_current o));
  ("info_smooth", int_ (tkfx_info_smooth o)); ("info_color_item", int_ (tkfx_info_color_item o));
  ("info_quality", int_ (tkfx_info_quality o));
  ("info_is_reversed", int_ (tkfx_info_is_reversed o));
  ("info_aspect_on", bool_ (tkfx_info_aspect_on o)); ("keyframes", ref_ (tkfx_keyframes o));
  ("info_force_software", bool_ (tkfx_info_force_software o));
  ("info_never_hardware", bool_ (tkfx_info_never_hardware o));
  ("trackman", opt_ CRef (tkfx_trackman o)) ].

Definition selector_view (o : selector) : view :=
  track_group_view (slct_group o) ++ [
  ("is_ganged", bool_ (slct_is_ganged o)); ("selected", int_ (slct_selected o)) ].

Definition composition_view (o : composition) : view :=
  track_group_view (cmpo_group o) ++ [
  ("last_modified", Some (VOne (CDate (cmpo_last_modified o))));
  ("mob_type_id", int_ (cmpo_mob_type_id o)); ("usage_code", int_ (cmpo_usage_code o));
  ("descriptor", ref_ (cmpo_descriptor o)); ("creation_time", opt_ CDate (cmpo_creation_time o));
  ("mob_id", opt_ CMob (cmpo_mob_id o)) ].

Definition media_descriptor_view (o : media_descriptor) : view := [
  ("mob_kind", int_ (mdes_mob_kind o)); ("locator", ref_ (mdes_locator o));
  ("intermediate", bool_ (mdes_intermediate o)); ("physical_media", ref_ (mdes_physical_media o));
  ("uuid", opt_ CUuid (mdes_uuid o)); ("wchar", opt_ CBytes (mdes_wchar o));
  ("attributes", opt_ CRef (mdes_attributes o)) ].

Definition media_file_descriptor_view (o : media_file_descriptor) : view :=
  media_descriptor_view (mdfl_media o) ++ [
  ("edit_rate", Some (VOne (CFloat (mdfl_edit_rate o)))); ("length", int_ (mdfl_length o));
  ("is_omfi", int_ (mdfl_is_omfi o)); ("data_offset", int_ (mdfl_data_offset o)) ].

Definition box_cell (b : bounds_box) : cell :=
  CPairs [(bb_x0 b, bb_y0 b); (bb_x1 b, bb_y1 b); (bb_x2 b, bb_y2 b); (bb_x3 b, bb_y3 b)].

Definition did_descriptor_view (o : did_descriptor) : view :=
  media_file_descriptor_view (didd_file o) ++ [
  ("stored_height", int_ (didd_stored_height o)); ("stored_width", int_ (didd_stored_width o));
  ("sampled_height", int_ (didd_sampled_height o));
  ("sampled_width", int_ (didd_sampled_width o));
  ("sampled_x_offset", int_ (didd_sampled_x_offset o));
  ("sampled_y_offset", int_ (didd_sampled_y_offset o));
  ("display_height", int_ (didd_display_height o));
  ("display_width", int_ (didd_display_width o));
  ("display_x_offset", int_ (didd_display_x_offset o));
  ("display_y_offset", int_ (didd_display_y_offset o));
  ("frame_layout", int_ (didd_frame_layout o));
  ("aspect_ratio", Some (VOne (CInts [didd_aspect_num o; didd_aspect_den o])));
  ("line_map", Some (VOne (CInts (didd_line_map o))));
  ("alpha_transparency", int_ (didd_alpha_transparency o));
  ("uniformness", bool_ (didd_uniformness o)); ("did_image_size", int_ (didd_did_image_size o));
  ("next_did_desc", ref_ (didd_next_did_desc o));
  ("compress_method", Some (VOne (CBytes (didd_compress_method o))));
  ("resolution_id", int_ (didd_resolution_id o));
  ("image_alignment_factor", int_ (didd_image_alignment_factor o));
  ("frame_index_byte_order", opt_ CInt (didd_frame_index_byte_order o));
  ("frame_sample_size", opt_ CInt (didd_frame_sample_size o));
  ("first_frame_offset", opt_ CInt (didd_first_frame_offset o));
  ("client_fill_start", opt_ CInt (didd_client_fill_start o));
  ("client_fill_end", opt_ CInt (didd_client_fill_end o));
  ("offset_to_rle_frame_index", opt_ CInt (didd_offset_to_rle_frame_index o));
  ("frame_start_offset", opt_ CInt (didd_frame_start_offset o));
  ("valid_box", opt_ box_cell (didd_valid_box o));
  ("essence_box", opt_ box_cell (didd_essence_box o));
  ("source_box", opt_ box_cell (didd_source_box o));
  ("framing_box", opt_ box_cell (didd_framing_box o));
  ("reformatting_option", opt_ CInt (didd_reformatting_option o));
  ("transfer_characteristic", opt_ CUuid (didd_transfer_characteristic o));
  ("color_primaries", opt_ CUuid (didd_color_primaries o));
  ("coding_equations", opt_ CUuid (didd_coding_equations o));
  ("essence_compression", opt_ CUuid (didd_essence_compression o));
  ("essence_element_size_kind", opt_ CInt (didd_essence_element_size_kind o));
  ("frame_checked_with_mapper", opt_ CBool (didd_frame_checked_with_mapper o)) ].

Definition cdci_descriptor_view (o : cdci_descriptor) : view :=
  did_descriptor_view (cdci_did o) ++ [
  ("horizontal_subsampling", int_ (cdci_horizontal_subsampling o));
  ("vertical_subsampling", int_ (cdci_vertical_subsampling o));
  ("component_width", int_ (cdci_component_width o));
  ("color_sitting", int_ (cdci_color_sitting o));
  ("black_ref_level", int_ (cdci_black_ref_level o));
  ("white_ref_level", int_ (cdci_white_ref_level o)); ("color_range", int_ (cdci_color_range o));
  ("frame_index_offset", int_ (cdci_frame_index_offset o));
  ("alpha_sampled_width", opt_ CInt (cdci_alpha_sampled_width o));
  ("ignore_bw", opt_ CInt (cdci_ignore_bw o)) ].

Definition effect_param_view (o : effect_param) : list (string * option cell) := [
  ("percent_time", Some (CInt (fxp_percent_time o))); ("level", Some (CInt (fxp_level o)));
  ("pos_x", Some (CInt (fxp_pos_x o))); ("floor_x", Some (CInt (fxp_floor_x o)));
  ("ceil_x", Some (CInt (fxp_ceil_x o))); ("pos_y", Some (CInt (fxp_pos_y o)));
  ("floor_y", Some (CInt (fxp_floor_y o))); ("ceil_y", Some (CInt (fxp_ceil_y o)));
  ("scale_x", Some (CInt (fxp_scale_x o))); ("scale_y", Some (CInt (fxp_scale_y o)));
  ("crop_left", Some (CInt (fxp_crop_left o))); ("crop_right", Some (CInt (fxp_crop_right o)));
  ("crop_top", Some (CInt (fxp_crop_top o))); ("crop_bottom", Some (CInt (fxp_crop_bottom o)));
  ("box", Some (CInts [rc0 (fxp_box o); rc1 (fxp_box o); rc2 (fxp_box o); rc3 (fxp_box o)]));
  ("box_xscale", Some (CBool (fxp_box_xscale o))); ("box_yscale", Some (CBool (fxp_box_yscale o)));
  ("box_xpos", Some (CBool (fxp_box_xpos o))); ("box_ypos", Some (CBool (fxp_box_ypos o)));
  ("border_width", Some (CInt (fxp_border_width o)));
  ("border_soft", Some (CInt (fxp_border_soft o)));
  ("splill_gain2", Some (CInt (fxp_splill_gain2 o)));
  ("splill_gain", Some (CInt (fxp_splill_gain o)));
  ("splill_soft2", Some (CInt (fxp_splill_soft2 o)));
  ("splill_soft", Some (CInt (fxp_splill_soft o)));
  ("enable_key_flags", Some (CInt (fxp_enable_key_flags o)));
  ("colors", Some (CInts (fxp_colors o))); ("user_param", Some (CBytes (fxp_user_param o)));
  ("selected", Some (CBool (fxp_selected o))) ].

Definition effect_param_list_view (o : effect_param_list) : view := [
  ("orig_length", int_ (fxps_orig_length o)); ("window_offset", int_ (fxps_window_offset o));
  ("keyframe_size", int_ (fxps_keyframe_size o));
  ("parameters", Some (VMany (map effect_param_view (fxps_parameters o)))) ].

(** ** When the properties are the same *)

(** A stored unsigned number of [w] bits read as a signed one. *)
Definition as_signed (w v : Z) : Z := if v <? 2 ^ (w - 1) then v else v - 2 ^ w.

Definition signed_value (v : cp_value) : cp_value :=
  match v with CPInt v => CPInt (as_signed 32 v) | _ => v end.

Definition signed_point (p : param_control_point) : param_control_point := {|
  pcp_offset_num := pcp_offset_num p; pcp_offset_den := pcp_offset_den p;
  pcp_timescale := pcp_timescale p; pcp_value := signed_value (pcp_value p);
  pcp_pp := map (fun q => {| ppp_code := ppp_code q; ppp_type := ppp_type q;
                             ppp_value := signed_value (ppp_value q) |}) (pcp_pp p) |}.

(** What the standard reader would have made of a value of the accelerated one: the names of the
    numbers it takes as signed ones, the numbers of control points, which are signed, and the texts,
    which lose the zero characters at their ends. *)
Definition standard (n : string) (c : cell) : cell :=
  match c with
  | CInt v =>
    if String.eqb n "media_kind_id" then CInt (as_signed 16 v)
    else if String.eqb n "usage_code" || String.eqb n "component_width" then CInt (as_signed 32 v)
    else c
  | CText s => CText (strip0 s)
  | CPoints l => CPoints (map signed_point l)
  | _ => c
  end.

(** Two collections of properties of a track or parameter. *)
Definition same_child (v : list (string * option cell)) (d : child) : Prop :=
  forall n, vlook v n = lookup d n.

Definition same_prop (n : string) (v : option vprop) (d : option prop) : Prop :=
  match v, d with
  | None, None => True
  | Some (VOne c), Some (One c') => c = standard n c'
  | Some (VMany l), Some (Many l') => Forall2 same_child l l'
  | _, _ => False
  end.

(** The properties [d] found by an accelerated reader are those of the view [v]: the same names,
    the same values. *)
Definition alike (v : view) (d : props) : Prop :=
  forall n, same_prop n (vlook v n) (lookup d n).

(** An entry of an attribute dictionary without the zero characters at the ends of its texts. *)
Definition standard_entry (e : str * attr_value) : str * attr_value :=
  (strip0 (fst e), match snd e with AStr s => AStr (strip0 s) | v => v end).

(** The dictionary of a list of assignments. *)
Definition dict_of (l : list (str * attr_value)) : attributes :=
  fold_left (fun d e => dict_set d (fst e) (snd e)) l [].

(** The object of a class and what an accelerated reader found, compared by [same] where the reader
    sets properties and by [dict] where it fills an attribute dictionary. *)
Definition agree_by (same : view -> props -> Prop) (dict : attributes -> attributes -> Prop)
    (k : kind) : C_type (class_of k) -> loaded -> Prop :=
  let all (v : view) (d : loaded) := exists p, d = Props p /\ same v p in
  match k return C_type (class_of k) -> loaded -> Prop with
  | K_ATTR => fun o d => exists l, d = Attrs l /\ dict o l
  | K_SEQU => fun o => all (sequence_view o)
  | K_SCLP => fun o => all (source_clip_view o)
  | K_TRKR => fun o => all (track_ref_view o)
  | K_PRCL => fun o => all (param_clip_view o)
  | K_FILL => fun o => all (filler_view o)
  | K_PRIT => fun o => all (parameter_item_view o)
  | K_TKFX => fun o => all (track_effect_view o)
  | K_SLCT => fun o => all (selector_view o)
  | K_CMPO => fun o => all (composition_view o)
  | K_MDES => fun o => all (media_descriptor_view o)
  | K_DIDD => fun o => all (did_descriptor_view o)
  | K_CDCI => fun o => all (cdci_descriptor_view o)
  | K_FXPS => fun o => all (effect_param_list_view o)
  | _ => fun _ _ => False
  end.

(** The object has all of what the accelerated reader found. Attribute dictionaries come from
    assignments [l] in the one case and from the same ones without zero characters at the ends of
    texts in the other. *)
Definition agrees : forall k, C_type (class_of k) -> loaded -> Prop :=
  agree_by alike (fun o d => exists l, d = dict_of l /\ o = dict_of (map standard_entry l)).

(** ** When they are the same without any allowance *)

Definition exact_prop (v : option vprop) (d : option prop) : Prop :=
  match v, d with
  | None, None => True
  | Some (VOne c), Some (One c') => c = c'
  | Some (VMany l), Some (Many l') => Forall2 same_child l l'
  | _, _ => False
  end.

Definition exact (v : view) (d : props) : Prop := forall n, exact_prop (vlook v n) (lookup d n).

(** The object is the one the accelerated reader made: every property, and nothing else. *)
Definition exactly : forall k, C_type (class_of k) -> loaded -> Prop := agree_by exact eq.

(** No number that one reader takes for a signed one and the other one for an unsigned one is
    negative. *)
Definition plain_value (v : cp_value) : Prop := match v with CPInt v => 0 <= v | _ => True end.
Definition plain_point (p : param_control_point) : Prop :=
  plain_value (pcp_value p) /\ Forall (fun q => plain_value (ppp_value q)) (pcp_pp p).
Definition plain_component (o : component) : Prop := 0 <= cpnt_media_kind_id o.
Definition plain (k : kind) : C_type (class_of k) -> Prop :=
  match k return C_type (class_of k) -> Prop with
  | K_SEQU => fun o => plain_component (sequ_component o)
  | K_FILL => fun o => plain_component (clip_component (fill_clip o))
  | K_SCLP => fun o => plain_component (clip_component (sclp_clip o))
  | K_TRKR => fun o => plain_component (clip_component (trkr_clip o))
  | K_PRCL => fun o => plain_component (clip_component (prcl_clip o)) /\
      Forall plain_point (prcl_control_points o)
  | K_TKFX => fun o => plain_component (trkg_component (tkfx_group o))
  | K_SLCT => fun o => plain_component (trkg_component (slct_group o))
  | K_CMPO => fun o => plain_component (trkg_component (cmpo_group o)) /\ 0 <= cmpo_usage_code o
  | K_CDCI => fun o => 0 <= cdci_component_width o
  | _ => fun _ => True
  end.

(** The lists whose stored number of elements may be negative. *)
Definition countless (k : kind) : C_type (class_of k) -> Prop :=
  match k return C_type (class_of k) -> Prop with
  | K_TKFX => fun o => trkg_tracks (tkfx_group o) = []
  | K_CMPO => fun o => trkg_tracks (cmpo_group o) = []
  | K_DIDD => fun o => didd_line_map o = []
  | K_CDCI => fun o => didd_line_map (cdci_did o) = []
  | K_FXPS => fun o => fxps_parameters o = []
  | _ => fun _ => False
  end.
