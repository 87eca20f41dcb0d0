(** The standard readers, which may refuse what the accelerated ones take differently.

    With [strict] they refuse negative numbers of elements; with [plain] they refuse texts with zero
    characters at their ends and the negative numbers that the accelerated readers take for unsigned
    ones. Without the two they are those of the model. *)
From Coq Require Import ZArith List Bool Lia.
From Verif Require Import Base IoCtx Text Exp10 MobId Attributes Components TrackGroups Essence Misc.
From Verif Require Import Objects LocProofs.
Import ListNotations.
Open Scope Z_scope.

Open Scope reader_scope.
(** The bytes of a text. *)
Definition rraw (bo : border) : reader bytes :=
  size <- ru16 bo ;;
  if 65535 <=? size then ret [] else fread size.

Definition no_outer_zeros (b : bytes) : bool := if list_eq_dec Z.eq_dec (strip0 b) b then true else false.

Definition rstr_p (plain : bool) (bo : border) : reader str :=
  if plain then s <- rraw bo ;; rassert (no_outer_zeros s) ;;; ret (map mac_dec1 s)
  else rstr bo.
Definition rs16_p (plain : bool) (bo : border) : reader Z :=
  if plain then v <- rs16 bo ;; rassert (0 <=? v) ;;; ret v else rs16 bo.
Definition rs32_p (plain : bool) (bo : border) : reader Z :=
  if plain then v <- rs32 bo ;; rassert (0 <=? v) ;;; ret v else rs32 bo.

Definition rcomponent_s (plain : bool) (i : ictx) : reader component :=
  rtag 2 ;;; rtag 3 ;;;
  left_bob <- rref i ;;
  right_bob <- rref i ;;
  media_kind_id <- rs16_p plain (ibo i) ;;
  edit_rate <- rexp10 (ibo i) ;;
  name <- rstr_p plain (ibo i) ;;
  effect_id <- rstr_p plain (ibo i) ;;
  attributes <- rref i ;;
  session_attrs <- rref i ;;
  precomputed <- rref i ;;
  iter_ext (component_ext i) {|
    cpnt_left_bob := left_bob; cpnt_right_bob := right_bob;
    cpnt_media_kind_id := media_kind_id; cpnt_edit_rate := edit_rate;
    cpnt_name := name; cpnt_effect_id := effect_id; cpnt_attributes := attributes;
    cpnt_session_attrs := session_attrs; cpnt_precomputed := precomputed;
    cpnt_param_list := None |}.

Definition rclip_s (plain : bool) (i : ictx) : reader clip :=
  p <- rcomponent_s plain i ;;
  rtag 2 ;;; rtag 1 ;;;
  length <- ru32 (ibo i) ;;
  ret {| clip_component := p; clip_length := length |}.

Definition rsequence_s (plain : bool) (i : ictx) : reader sequence :=
  p <- rcomponent_s plain i ;;
  rtag 2 ;;; rtag 3 ;;;
  count <- ru32 (ibo i) ;;
  components <- rlist (Z.to_nat count) (rref i) ;;
  rtag 3 ;;;
  ret {| sequ_component := p; sequ_components := components |}.

Definition rfiller_s (plain : bool) (i : ictx) : reader filler :=
  p <- rclip_s plain i ;;
  rtag 2 ;;; rtag 1 ;;; rtag 3 ;;;
  ret {| fill_clip := p |}.

Definition rsource_clip_s (plain : bool) (i : ictx) : reader source_clip :=
  p <- rclip_s plain i ;;
  rtag 2 ;;; rtag 3 ;;;
  _ <- ru32 (ibo i) ;;
  _ <- ru32 (ibo i) ;;
  track_id <- rs16 (ibo i) ;;
  start_time <- rs32 (ibo i) ;;
  o <- iter_ext (source_clip_ext i) {|
    sclp_clip := p; sclp_track_id := track_id; sclp_start_time := start_time;
    sclp_mob_id := None |} ;;
  rtag 3 ;;; ret o.

Definition rtrack_ref_s (plain : bool) (i : ictx) : reader track_ref :=
  p <- rclip_s plain i ;;
  rtag 2 ;;; rtag 1 ;;;
  relative_scope <- rs16 (ibo i) ;;
  relative_track <- rs16 (ibo i) ;;
  rtag 3 ;;;
  ret {| trkr_clip := p; trkr_relative_scope := relative_scope;
         trkr_relative_track := relative_track |}.

Definition rcp_value_s (plain : bool) (i : ictx) (value_type : Z) : reader cp_value :=
  if value_type =? 1 then v <- rs32_p plain (ibo i) ;; ret (CPInt v)
  else if value_type =? 2 then v <- rdouble ;; ret (CPDouble v)
  else if value_type =? 4 then v <- rref i ;; ret (CPRef v)
  else fail ValueErr.

Definition rparam_point_property_s (plain : bool) (i : ictx) : reader param_point_property :=
  code <- rs16 (ibo i) ;;
  type <- rs16 (ibo i) ;;
  value <- (if type =? 2 then v <- rdouble ;; ret (CPDouble v)
            else if type =? 1 then v <- rs32_p plain (ibo i) ;; ret (CPInt v)
            else fail ValueErr) ;;
  ret {| ppp_code := code; ppp_type := type; ppp_value := value |}.

Definition rparam_control_point_s (plain : bool) (i : ictx) (value_type : Z) : reader param_control_point :=
  num <- rs32 (ibo i) ;;
  den <- rs32 (ibo i) ;;
  timescale <- rs32 (ibo i) ;;
  value <- rcp_value_s plain i value_type ;;
  pp_count <- rs16 (ibo i) ;;
  rassert (0 <=? pp_count) ;;;
  pp <- rlist (Z.to_nat pp_count) (rparam_point_property_s plain i) ;;
  ret {| pcp_offset_num := num; pcp_offset_den := den; pcp_timescale := timescale;
         pcp_value := value; pcp_pp := pp |}.

Definition rparam_clip_s (plain : bool) (i : ictx) : reader param_clip :=
  p <- rclip_s plain i ;;
  rtag 2 ;;; rtag 1 ;;;
  interp_kind <- rs32 (ibo i) ;;
  value_type <- rs16 (ibo i) ;;
  rassert ((value_type =? 1) || (value_type =? 2) || (value_type =? 4)) ;;;
  point_count <- rs32 (ibo i) ;;
  rassert (0 <=? point_count) ;;;
  control_points <- rlist (Z.to_nat point_count) (rparam_control_point_s plain i value_type) ;;
  o <- iter_ext (param_clip_ext i) {|
    prcl_clip := p; prcl_interp_kind := interp_kind; prcl_value_type := value_type;
    prcl_control_points := control_points; prcl_extrap_kind := None; prcl_fields := None |} ;;
  rtag 3 ;;; ret o.

Definition rparameter_item_s (plain : bool) (i : ictx) : reader parameter_item :=
  rtag 2 ;;; rtag 2 ;;;
  uuid <- rrawuuid (ibo i) ;;
  value_type <- rs16 (ibo i) ;;
  value <- rprit_value i value_type ;;
  name <- rstr_p plain (ibo i) ;;
  enable <- rbool ;;
  control_track <- rref i ;;
  o <- iter_ext (parameter_item_ext i) {| prit_uuid := uuid; prit_value_type := value_type;
    prit_value := value; prit_name := name; prit_enable := enable;
    prit_control_track := control_track; prit_contribs_to_sig := None |} ;;
  rtag 3 ;;;
  ret o.

Definition rattr_s (plain : bool) (i : ictx) : reader (str * attr_value) :=
  attr_type <- ru32 (ibo i) ;;
  attr_name <- rstr_p plain (ibo i) ;;
  if attr_type =? 1 then v <- rs32 (ibo i) ;; ret (attr_name, AInt v)
  else if attr_type =? 2 then v <- rstr_p plain (ibo i) ;; ret (attr_name, AStr v)
  else if attr_type =? 3 then v <- rref i ;; ret (attr_name, ARef v)
  else if attr_type =? 4 then
    size <- ru32 (ibo i) ;; v <- fread size ;; ret (attr_name, ABob v)
  else fail GenericErr.

Definition rattributes_s (plain : bool) (i : ictx) : reader attributes :=
  rtag 2 ;;; rtag 1 ;;;
  count <- ru32 (ibo i) ;;
  l <- rlist (Z.to_nat count) (rattr_s plain i) ;;
  rtag 3 ;;;
  ret (fold_left (fun d p => dict_set d (fst p) (snd p)) l []).

Definition rtrack_group_s (strict plain : bool) (i : ictx) : reader track_group :=
  p <- rcomponent_s plain i ;;
  rtag 2 ;;; rtag 8 ;;;
  mc_mode <- ru8 ;;
  length <- rs32 (ibo i) ;;
  num_scalars <- rs32 (ibo i) ;;
  track_count <- rs32 (ibo i) ;;
  rassert (negb strict || (0 <=? track_count)) ;;;
  tracks <- rlist (Z.to_nat track_count) (rtrack i) ;;
  iter_ext (track_group_ext i) {|
    trkg_component := p; trkg_mc_mode := mc_mode; trkg_length := length;
    trkg_num_scalars := num_scalars; trkg_tracks := tracks |}.

Definition rtrack_effect_s (strict plain : bool) (i : ictx) : reader track_effect :=
  p <- rtrack_group_s strict plain i ;;
  rtag 2 ;;; rtag 6 ;;;
  left_length <- rs32 (ibo i) ;;
  right_length <- rs32 (ibo i) ;;
  info_version <- rs16 (ibo i) ;;
  info_current <- rs32 (ibo i) ;;
  info_smooth <- rs32 (ibo i) ;;
  info_color_item <- rs16 (ibo i) ;;
  info_quality <- rs16 (ibo i) ;;
  info_is_reversed <- rs8 ;;
  info_aspect_on <- rbool ;;
  keyframes <- rref i ;;
  info_force_software <- rbool ;;
  info_never_hardware <- rbool ;;
  iter_ext (track_effect_ext i) {|
    tkfx_group := p; tkfx_left_length := left_length; tkfx_right_length := right_length;
    tkfx_info_version := info_version; tkfx_info_current := info_current;
    tkfx_info_smooth := info_smooth; tkfx_info_color_item := info_color_item;
    tkfx_info_quality := info_quality; tkfx_info_is_reversed := info_is_reversed;
    tkfx_info_aspect_on := info_aspect_on; tkfx_keyframes := keyframes;
    tkfx_info_force_software := info_force_software;
    tkfx_info_never_hardware := info_never_hardware; tkfx_trackman := None |}.

Definition rcomposition_s (strict plain : bool) (i : ictx) : reader composition :=
  p <- rtrack_group_s strict plain i ;;
  rtag 2 ;;; rtag 2 ;;;
  _ <- ru32 (ibo i) ;;
  _ <- ru32 (ibo i) ;;
  last_modified <- rdate (ibo i) ;;
  mob_type_id <- ru8 ;;
  usage_code <- rs32_p plain (ibo i) ;;
  descriptor <- rref i ;;
  o <- iter_ext (composition_ext i) {|
    cmpo_group := p; cmpo_last_modified := last_modified; cmpo_mob_type_id := mob_type_id;
    cmpo_usage_code := usage_code; cmpo_descriptor := descriptor;
    cmpo_creation_time := None; cmpo_mob_id := None |} ;;
  rtag 3 ;;; ret o.

Definition rselector_s (strict plain : bool) (i : ictx) : reader selector :=
  p <- rtrack_group_s strict plain i ;;
  rtag 2 ;;; rtag 1 ;;;
  is_ganged <- rbool ;;
  selected <- ru16 (ibo i) ;;
  rassert (selected <? len (trkg_tracks p)) ;;;
  rtag 3 ;;;
  ret {| slct_group := p; slct_is_ganged := is_ganged; slct_selected := selected |}.

Definition rline_map_s (strict : bool) (i : ictx) : reader (list Z) :=
  line_map_byte_size <- rs32 (ibo i) ;;
  rassert (negb strict || (0 <=? line_map_byte_size)) ;;;
  if line_map_byte_size =? 0 then ret []
  else rlist (Z.to_nat (line_map_byte_size / 4)) (rs32 (ibo i)).

Definition rdid_descriptor_s (strict : bool) (i : ictx) : reader did_descriptor :=
  file <- rmedia_file_descriptor_base i ;;
  rtag 2 ;;; rtag 2 ;;;
  stored_height <- rs32 (ibo i) ;;
  stored_width <- rs32 (ibo i) ;;
  sampled_height <- rs32 (ibo i) ;;
  sampled_width <- rs32 (ibo i) ;;
  sampled_x_offset <- rs32 (ibo i) ;;
  sampled_y_offset <- rs32 (ibo i) ;;
  display_height <- rs32 (ibo i) ;;
  display_width <- rs32 (ibo i) ;;
  display_x_offset <- rs32 (ibo i) ;;
  display_y_offset <- rs32 (ibo i) ;;
  frame_layout <- rs16 (ibo i) ;;
  aspect_num <- rs32 (ibo i) ;;
  aspect_den <- rs32 (ibo i) ;;
  line_map <- rline_map_s strict i ;;
  alpha_transparency <- rs32 (ibo i) ;;
  uniformness <- rbool ;;
  did_image_size <- rs32 (ibo i) ;;
  next_did_desc <- rref i ;;
  compress_method <- rfourcc (ibo i) ;;
  resolution_id <- rs32 (ibo i) ;;
  image_alignment_factor <- rs32 (ibo i) ;;
  iter_ext (did_descriptor_ext i) {| didd_file := file; didd_stored_height := stored_height;
    didd_stored_width := stored_width; didd_sampled_height := sampled_height;
    didd_sampled_width := sampled_width; didd_sampled_x_offset := sampled_x_offset;
    didd_sampled_y_offset := sampled_y_offset; didd_display_height := display_height;
    didd_display_width := display_width; didd_display_x_offset := display_x_offset;
    didd_display_y_offset := display_y_offset; didd_frame_layout := frame_layout;
    didd_aspect_num := aspect_num; didd_aspect_den := aspect_den; didd_line_map := line_map;
    didd_alpha_transparency := alpha_transparency; didd_uniformness := uniformness;
    didd_did_image_size := did_image_size; didd_next_did_desc := next_did_desc;
    didd_compress_method := compress_method; didd_resolution_id := resolution_id;
    didd_image_alignment_factor := image_alignment_factor; didd_frame_index_byte_order := None;
    didd_frame_sample_size := None; didd_first_frame_offset := None;
    didd_client_fill_start := None; didd_client_fill_end := None;
    didd_offset_to_rle_frame_index := None; didd_frame_start_offset := None;
    didd_valid_box := None; didd_essence_box := None; didd_source_box := None;
    didd_framing_box := None; didd_reformatting_option := None;
    didd_transfer_characteristic := None; didd_color_primaries := None;
    didd_coding_equations := None; didd_essence_compression := None;
    didd_essence_element_size_kind := None; didd_frame_checked_with_mapper := None |}.

Definition rcdci_descriptor_s (strict plain : bool) (i : ictx) : reader cdci_descriptor :=
  did <- rdid_descriptor_s strict i ;;
  rtag 2 ;;; rtag 2 ;;;
  horizontal_subsampling <- ru32 (ibo i) ;;
  vertical_subsampling <- ru32 (ibo i) ;;
  component_width <- rs32_p plain (ibo i) ;;
  color_sitting <- rs16 (ibo i) ;;
  black_ref_level <- ru32 (ibo i) ;;
  white_ref_level <- ru32 (ibo i) ;;
  color_range <- ru32 (ibo i) ;;
  frame_index_offset <- rs64 (ibo i) ;;
  iter_ext (cdci_descriptor_ext i) {| cdci_did := did;
    cdci_horizontal_subsampling := horizontal_subsampling;
    cdci_vertical_subsampling := vertical_subsampling; cdci_component_width := component_width;
    cdci_color_sitting := color_sitting; cdci_black_ref_level := black_ref_level;
    cdci_white_ref_level := white_ref_level; cdci_color_range := color_range;
    cdci_frame_index_offset := frame_index_offset; cdci_alpha_sampled_width := None;
    cdci_ignore_bw := None |}.

Definition reffect_param_list_s (strict : bool) (i : ictx) : reader effect_param_list :=
  rtag 2 ;;; rtag 18 ;;;
  orig_length <- rs32 (ibo i) ;;
  window_offset <- rs32 (ibo i) ;;
  count <- rs32 (ibo i) ;;
  rassert (negb strict || (0 <=? count)) ;;;
  keyframe_size <- rs32 (ibo i) ;;
  parameters <- rlist (Z.to_nat count) (reffect_param i) ;;
  rtag 3 ;;;
  ret {| fxps_orig_length := orig_length; fxps_window_offset := window_offset;
    fxps_keyframe_size := keyframe_size; fxps_parameters := parameters |}.

(** The reader of a class. *)
Definition strict_read (s p : bool) (k : kind) (i : ictx) : reader (C_type (class_of k)) :=
  match k return reader (C_type (class_of k)) with
  | K_SEQU => rsequence_s p i
  | K_SCLP => rsource_clip_s p i
  | K_TRKR => rtrack_ref_s p i
  | K_PRCL => rparam_clip_s p i
  | K_FILL => rfiller_s p i
  | K_PRIT => rparameter_item_s p i
  | K_ATTR => rattributes_s p i
  | K_SLCT => rselector_s s p i
  | K_TKFX => o <- rtrack_effect_s s p i ;; rtag 3 ;;; ret o
  | K_CMPO => rcomposition_s s p i
  | K_DIDD => o <- rdid_descriptor_s s i ;; rtag 3 ;;; ret o
  | K_CDCI => o <- rcdci_descriptor_s s p i ;; rtag 3 ;;; ret o
  | K_FXPS => reffect_param_list_s s i
  | k => C_read (class_of k) i
  end.
Close Scope reader_scope.

Lemma strict_read_false k i : strict_read false false k i = C_read (class_of k) i.
Proof. destruct k; reflexivity. Qed.

(** ** They look no further than they read *)

Lemma loc_rassert b : loc (rassert b).
Proof. destruct b; [apply loc_ret|apply loc_fail]. Qed.
#[export] Hint Resolve loc_rassert : loc.

Lemma loc_rstr_p p bo : loc (rstr_p p bo).
Proof. destruct p; cbn [rstr_p]; [unfold rraw|]; loc. Qed.
Lemma loc_rs16_p p bo : loc (rs16_p p bo).
Proof. destruct p; cbn [rs16_p]; loc. Qed.
Lemma loc_rs32_p p bo : loc (rs32_p p bo).
Proof. destruct p; cbn [rs32_p]; loc. Qed.
#[export] Hint Resolve loc_rstr_p loc_rs16_p loc_rs32_p : loc.

Lemma loc_rcomponent_s p i : loc (rcomponent_s p i).
Proof. unfold rcomponent_s. loc. Qed.
#[export] Hint Resolve loc_rcomponent_s : loc.
Lemma loc_rclip_s p i : loc (rclip_s p i).
Proof. unfold rclip_s. loc. Qed.
#[export] Hint Resolve loc_rclip_s : loc.
Lemma loc_rcp_value_s p i t : loc (rcp_value_s p i t).
Proof. unfold rcp_value_s. loc. Qed.
#[export] Hint Resolve loc_rcp_value_s : loc.
Lemma loc_rparam_point_property_s p i : loc (rparam_point_property_s p i).
Proof. unfold rparam_point_property_s. loc. Qed.
#[export] Hint Resolve loc_rparam_point_property_s : loc.
Lemma loc_rparam_control_point_s p i t : loc (rparam_control_point_s p i t).
Proof. unfold rparam_control_point_s. loc. Qed.
#[export] Hint Resolve loc_rparam_control_point_s : loc.
Lemma loc_rattr_s p i : loc (rattr_s p i).
Proof. unfold rattr_s. loc. Qed.
#[export] Hint Resolve loc_rattr_s : loc.

Lemma loc_rtrack_group_s s p i : loc (rtrack_group_s s p i).
Proof. unfold rtrack_group_s. loc. Qed.
#[export] Hint Resolve loc_rtrack_group_s : loc.
Lemma loc_rline_map_s s i : loc (rline_map_s s i).
Proof. unfold rline_map_s. loc. Qed.
#[export] Hint Resolve loc_rline_map_s : loc.
Lemma loc_rdid_descriptor_s s i : loc (rdid_descriptor_s s i).
Proof. unfold rdid_descriptor_s. loc. Qed.
#[export] Hint Resolve loc_rdid_descriptor_s : loc.
