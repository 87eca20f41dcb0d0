(** Model of the readers and writers of src/avb/misc.py. *)
From Coq Require Import ZArith List Bool.
From Verif Require Import Base IoCtx Text Exp10 MobId Storable Components.
Import ListNotations.
Open Scope Z_scope.

(** ** FileLocator, misc.py:15-75, used unchanged by MacFileLocator (FILE) and
    WinFileLocator (WINF), misc.py:77-87 *)

(** misc.py:18-23: the properties. *)
Record file_locator := {
  file_path : str;
  file_path_posix : option str;
  file_path_utf8 : option str;
  file_path2_utf8 : option str }.

(** [file_locator] with its references renamed by [f]; misc.py:18-23. *)
Definition file_locator_map (f : Z -> Z) (o : file_locator) : file_locator := {|
  file_path := file_path o;
  file_path_posix := file_path_posix o;
  file_path_utf8 := file_path_utf8 o;
  file_path2_utf8 := file_path2_utf8 o |}.

(** The references of [file_locator]; misc.py:18-23. *)
Definition file_locator_refs (o : file_locator) : list Z :=
  [].

(** What [file_locator] has to satisfy to be stored exactly; misc.py:18-23. *)
Definition file_locator_ok (o : file_locator) : Prop :=
  str_ok (file_path o) /\
  opt_ok str_ok (file_path_posix o) /\
  opt_ok utf8_ok (file_path_utf8 o) /\
  opt_ok utf8_ok (file_path2_utf8 o).

(** [self.path_posix = v]; misc.py:37. *)
Definition set_file_path_posix (o : file_locator) (v : option str) : file_locator := {|
  file_path := file_path o;
  file_path_posix := v;
  file_path_utf8 := file_path_utf8 o;
  file_path2_utf8 := file_path2_utf8 o |}.

(** [self.path_utf8 = v]; misc.py:40. *)
Definition set_file_path_utf8 (o : file_locator) (v : option str) : file_locator := {|
  file_path := file_path o;
  file_path_posix := file_path_posix o;
  file_path_utf8 := v;
  file_path2_utf8 := file_path2_utf8 o |}.

(** [self.path2_utf8 = v]; misc.py:43. *)
Definition set_file_path2_utf8 (o : file_locator) (v : option str) : file_locator := {|
  file_path := file_path o;
  file_path_posix := file_path_posix o;
  file_path_utf8 := file_path_utf8 o;
  file_path2_utf8 := v |}.

(** misc.py:34-45. *)
Definition file_locator_ext (i : ictx) (tag : Z) (o : file_locator) : reader file_locator :=
  if tag =? 1 then rtag 76 ;;; v <- rstr (ibo i) ;; ret (set_file_path_posix o (Some v))
  else if tag =? 2 then
    rtag 76 ;;; v <- rstr_enc (ibo i) Utf8 ;; ret (set_file_path_utf8 o (Some v))
  else if tag =? 3 then
    rtag 76 ;;; v <- rstr_enc (ibo i) Utf8 ;; ret (set_file_path2_utf8 o (Some v))
  else fail ValueErr.

(** misc.py:26-47. *)
Definition rfile_locator (i : ictx) : reader file_locator :=
  rtag 2 ;;; rtag 2 ;;;
  path <- rstr (ibo i) ;;
  o <- iter_ext (file_locator_ext i) {| file_path := path; file_path_posix := None;
    file_path_utf8 := None; file_path2_utf8 := None |} ;;
  rtag 3 ;;;
  ret o.

(** misc.py:49-75. *)
Definition wfile_locator (c : octx) (o : file_locator) : writer :=
  wu8 2 +++ wu8 2 +++
  wstr (obo c) (file_path o) +++
  wopt (file_path_posix o) (fun v => wext 1 (wu8 76 +++ wstr (obo c) v)) +++
  wopt (file_path_utf8 o) (fun v => wext 2 (wu8 76 +++ wstr_enc (obo c) Utf8 v)) +++
  wopt (file_path2_utf8 o) (fun v => wext 3 (wu8 76 +++ wstr_enc (obo c) Utf8 v)) +++
  wu8 3.

(** ** URLLocator, misc.py:89-103: no properties. *)

(** misc.py:89-93: no properties. *)
Definition url_locator := unit.
(** [url_locator] with its references renamed by [f]; misc.py:92. *)
Definition url_locator_map (f : Z -> Z) (o : url_locator) : url_locator := o.
(** The references of [url_locator]; misc.py:92. *)
Definition url_locator_refs (o : url_locator) : list Z := [].
(** What [url_locator] has to satisfy to be stored exactly; misc.py:92. *)
Definition url_locator_ok (o : url_locator) : Prop := True.
(** misc.py:95-98 [URLLocator.read]. *)
Definition rurl_locator (i : ictx) : reader url_locator := rtag 3 ;;; ret tt.
(** misc.py:100-103 [URLLocator.write]. *)
Definition wurl_locator (c : octx) (o : url_locator) : writer := wu8 3.

(** ** GraphicEffect, misc.py:105-137 (read 114-126, write 128-137) *)

(** misc.py:109-111: the properties. *)
Record graphic_effect := {
  grfx_pict_data : bytes }.

(** [graphic_effect] with its references renamed by [f]; misc.py:109-111. *)
Definition graphic_effect_map (f : Z -> Z) (o : graphic_effect) : graphic_effect := {|
  grfx_pict_data := grfx_pict_data o |}.

(** The references of [graphic_effect]; misc.py:109-111. *)
Definition graphic_effect_refs (o : graphic_effect) : list Z :=
  [].

(** What [graphic_effect] has to satisfy to be stored exactly; misc.py:109-111. *)
Definition graphic_effect_ok (o : graphic_effect) : Prop :=
  True.

(** misc.py:114-126 [GraphicEffect.read]. *)
Definition rgraphic_effect (i : ictx) : reader graphic_effect :=
  rtag 2 ;;; rtag 1 ;;;
  pict_size <- rs32 (ibo i) ;;
  rassert (0 <=? pict_size) ;;;
  pict_data <- fread pict_size ;;
  rassert (len pict_data =? pict_size) ;;;
  rtag 3 ;;;
  ret {| grfx_pict_data := pict_data |}.

(** misc.py:128-137 [GraphicEffect.write]. *)
Definition wgraphic_effect (c : octx) (o : graphic_effect) : writer :=
  wu8 2 +++ wu8 1 +++
  ws32 (obo c) (len (grfx_pict_data o)) +++
  wbytes (grfx_pict_data o) +++
  wu8 3.

(** ** ShapeList, misc.py:139-169 (read 147-158, write 160-169) *)

(** misc.py:143-145: the properties. *)
Record shape_list := {
  shlp_shape_data : bytes }.

(** [shape_list] with its references renamed by [f]; misc.py:143-145. *)
Definition shape_list_map (f : Z -> Z) (o : shape_list) : shape_list := {|
  shlp_shape_data := shlp_shape_data o |}.

(** The references of [shape_list]; misc.py:143-145. *)
Definition shape_list_refs (o : shape_list) : list Z :=
  [].

(** What [shape_list] has to satisfy to be stored exactly; misc.py:143-145. *)
Definition shape_list_ok (o : shape_list) : Prop :=
  True.

(** misc.py:147-158 [ShapeList.read]. *)
Definition rshape_list (i : ictx) : reader shape_list :=
  rtag 2 ;;; rtag 1 ;;;
  data_size <- rs32 (ibo i) ;;
  rassert (0 <=? data_size) ;;;
  shape_data <- fread data_size ;;
  rassert (len shape_data =? data_size) ;;;
  rtag 3 ;;;
  ret {| shlp_shape_data := shape_data |}.

(** misc.py:160-169 [ShapeList.write]. *)
Definition wshape_list (c : octx) (o : shape_list) : writer :=
  wu8 2 +++ wu8 1 +++
  ws32 (obo c) (len (shlp_shape_data o)) +++
  wbytes (shlp_shape_data o) +++
  wu8 3.

(** ** ColorCorrectionEffect, misc.py:171-202 (read 180-191, write 193-202) *)

(** misc.py:175-177: the properties. *)
Record color_correction_effect := {
  ccfx_color_correction : bytes }.

(** [color_correction_effect] with its references renamed by [f]; misc.py:175-177. *)
Definition color_correction_effect_map (f : Z -> Z) (o : color_correction_effect)
  : color_correction_effect := {|
  ccfx_color_correction := ccfx_color_correction o |}.

(** The references of [color_correction_effect]; misc.py:175-177. *)
Definition color_correction_effect_refs (o : color_correction_effect) : list Z :=
  [].

(** What [color_correction_effect] has to satisfy to be stored exactly; misc.py:175-177. *)
Definition color_correction_effect_ok (o : color_correction_effect) : Prop :=
  True.

(** misc.py:180-191 [ColorCorrectionEffect.read]. *)
Definition rcolor_correction_effect (i : ictx) : reader color_correction_effect :=
  rtag 2 ;;; rtag 1 ;;;
  data_size <- rs16 (ibo i) ;;
  rassert (0 <=? data_size) ;;;
  color_correction <- fread data_size ;;
  rassert (len color_correction =? data_size) ;;;
  rtag 3 ;;;
  ret {| ccfx_color_correction := color_correction |}.

(** misc.py:193-202 [ColorCorrectionEffect.write]. *)
Definition wcolor_correction_effect (c : octx) (o : color_correction_effect) : writer :=
  wu8 2 +++ wu8 1 +++
  ws16 (obo c) (len (ccfx_color_correction o)) +++
  wbytes (ccfx_color_correction o) +++
  wu8 3.

(** ** EffectParamList, misc.py:204-389 *)

(** misc.py:204-238 [EffectParam]; [box] is a list of four of which the writer takes
    [box[0]]..[box[3]]. *)
Record effect_param := {
  fxp_percent_time : Z;
  fxp_level : Z;
  fxp_pos_x : Z;
  fxp_floor_x : Z;
  fxp_ceil_x : Z;
  fxp_pos_y : Z;
  fxp_floor_y : Z;
  fxp_ceil_y : Z;
  fxp_scale_x : Z;
  fxp_scale_y : Z;
  fxp_crop_left : Z;
  fxp_crop_right : Z;
  fxp_crop_top : Z;
  fxp_crop_bottom : Z;
  fxp_box : rect;
  fxp_box_xscale : bool;
  fxp_box_yscale : bool;
  fxp_box_xpos : bool;
  fxp_box_ypos : bool;
  fxp_border_width : Z;
  fxp_border_soft : Z;
  fxp_splill_gain2 : Z;
  fxp_splill_gain : Z;
  fxp_splill_soft2 : Z;
  fxp_splill_soft : Z;
  fxp_enable_key_flags : Z;
  fxp_colors : list Z;
  fxp_user_param : bytes;
  fxp_selected : bool }.

(** [effect_param] with its references renamed by [f]; misc.py:207-237. *)
Definition effect_param_map (f : Z -> Z) (o : effect_param) : effect_param := {|
  fxp_percent_time := fxp_percent_time o;
  fxp_level := fxp_level o;
  fxp_pos_x := fxp_pos_x o;
  fxp_floor_x := fxp_floor_x o;
  fxp_ceil_x := fxp_ceil_x o;
  fxp_pos_y := fxp_pos_y o;
  fxp_floor_y := fxp_floor_y o;
  fxp_ceil_y := fxp_ceil_y o;
  fxp_scale_x := fxp_scale_x o;
  fxp_scale_y := fxp_scale_y o;
  fxp_crop_left := fxp_crop_left o;
  fxp_crop_right := fxp_crop_right o;
  fxp_crop_top := fxp_crop_top o;
  fxp_crop_bottom := fxp_crop_bottom o;
  fxp_box := fxp_box o;
  fxp_box_xscale := fxp_box_xscale o;
  fxp_box_yscale := fxp_box_yscale o;
  fxp_box_xpos := fxp_box_xpos o;
  fxp_box_ypos := fxp_box_ypos o;
  fxp_border_width := fxp_border_width o;
  fxp_border_soft := fxp_border_soft o;
  fxp_splill_gain2 := fxp_splill_gain2 o;
  fxp_splill_gain := fxp_splill_gain o;
  fxp_splill_soft2 := fxp_splill_soft2 o;
  fxp_splill_soft := fxp_splill_soft o;
  fxp_enable_key_flags := fxp_enable_key_flags o;
  fxp_colors := fxp_colors o;
  fxp_user_param := fxp_user_param o;
  fxp_selected := fxp_selected o |}.

(** The references of [effect_param]; misc.py:207-237. *)
Definition effect_param_refs (o : effect_param) : list Z :=
  [].

(** What [effect_param] has to satisfy to be stored exactly; misc.py:207-237. *)
Definition effect_param_ok (o : effect_param) : Prop :=
  True.

(** misc.py:244-249: the properties. *)
Record effect_param_list := {
  fxps_orig_length : Z;
  fxps_window_offset : Z;
  fxps_keyframe_size : Z;
  fxps_parameters : list effect_param }.

(** [effect_param_list] with its references renamed by [f]; misc.py:244-249. *)
Definition effect_param_list_map (f : Z -> Z) (o : effect_param_list) : effect_param_list := {|
  fxps_orig_length := fxps_orig_length o;
  fxps_window_offset := fxps_window_offset o;
  fxps_keyframe_size := fxps_keyframe_size o;
  fxps_parameters := map (effect_param_map f) (fxps_parameters o) |}.

(** The references of [effect_param_list]; misc.py:244-249. *)
Definition effect_param_list_refs (o : effect_param_list) : list Z :=
  flat_map effect_param_refs (fxps_parameters o).

(** What [effect_param_list] has to satisfy to be stored exactly; misc.py:244-249. *)
Definition effect_param_list_ok (o : effect_param_list) : Prop :=
  Forall effect_param_ok (fxps_parameters o).

(** misc.py:284-292. *)
Definition rbox (i : ictx) : reader rect :=
  a <- rs32 (ibo i) ;; b <- rs32 (ibo i) ;; d <- rs32 (ibo i) ;; e <- rs32 (ibo i) ;;
  ret {| rc0 := a; rc1 := b; rc2 := d; rc3 := e |}.

(** misc.py:356-363. *)
Definition wbox (c : octx) (v : rect) : writer :=
  ws32 (obo c) (rc0 v) +++ ws32 (obo c) (rc1 v) +++ ws32 (obo c) (rc2 v) +++
  ws32 (obo c) (rc3 v).

(** misc.py:266-322; the length of [user_param] is not checked. *)
Definition reffect_param (i : ictx) : reader effect_param :=
  percent_time <- rs32 (ibo i) ;;
  level <- rs32 (ibo i) ;;
  pos_x <- rs32 (ibo i) ;;
  floor_x <- rs32 (ibo i) ;;
  ceil_x <- rs32 (ibo i) ;;
  pos_y <- rs32 (ibo i) ;;
  floor_y <- rs32 (ibo i) ;;
  ceil_y <- rs32 (ibo i) ;;
  scale_x <- rs32 (ibo i) ;;
  scale_y <- rs32 (ibo i) ;;
  crop_left <- rs32 (ibo i) ;;
  crop_right <- rs32 (ibo i) ;;
  crop_top <- rs32 (ibo i) ;;
  crop_bottom <- rs32 (ibo i) ;;
  box <- rbox i ;;
  box_xscale <- rbool ;;
  box_yscale <- rbool ;;
  box_xpos <- rbool ;;
  box_ypos <- rbool ;;
  border_width <- rs32 (ibo i) ;;
  border_soft <- rs32 (ibo i) ;;
  splill_gain2 <- rs16 (ibo i) ;;
  splill_gain <- rs16 (ibo i) ;;
  splill_soft2 <- rs16 (ibo i) ;;
  splill_soft <- rs16 (ibo i) ;;
  enable_key_flags <- rs8 ;;
  color_count <- rs32 (ibo i) ;;
  rassert (0 <=? color_count) ;;;
  colors <- rlist (Z.to_nat color_count) (rs32 (ibo i)) ;;
  param_size <- rs32 (ibo i) ;;
  rassert (0 <=? param_size) ;;;
  user_param <- fread param_size ;;
  selected <- rbool ;;
  ret {| fxp_percent_time := percent_time; fxp_level := level; fxp_pos_x := pos_x;
    fxp_floor_x := floor_x; fxp_ceil_x := ceil_x; fxp_pos_y := pos_y; fxp_floor_y := floor_y;
    fxp_ceil_y := ceil_y; fxp_scale_x := scale_x; fxp_scale_y := scale_y;
    fxp_crop_left := crop_left; fxp_crop_right := crop_right; fxp_crop_top := crop_top;
    fxp_crop_bottom := crop_bottom; fxp_box := box; fxp_box_xscale := box_xscale;
    fxp_box_yscale := box_yscale; fxp_box_xpos := box_xpos; fxp_box_ypos := box_ypos;
    fxp_border_width := border_width; fxp_border_soft := border_soft;
    fxp_splill_gain2 := splill_gain2; fxp_splill_gain := splill_gain;
    fxp_splill_soft2 := splill_soft2; fxp_splill_soft := splill_soft;
    fxp_enable_key_flags := enable_key_flags; fxp_colors := colors;
    fxp_user_param := user_param; fxp_selected := selected |}.

(** misc.py:252-324. *)
Definition reffect_param_list (i : ictx) : reader effect_param_list :=
  rtag 2 ;;; rtag 18 ;;;
  orig_length <- rs32 (ibo i) ;;
  window_offset <- rs32 (ibo i) ;;
  count <- rs32 (ibo i) ;;
  keyframe_size <- rs32 (ibo i) ;;
  parameters <- rlist (Z.to_nat count) (reffect_param i) ;;
  rtag 3 ;;;
  ret {| fxps_orig_length := orig_length; fxps_window_offset := window_offset;
    fxps_keyframe_size := keyframe_size; fxps_parameters := parameters |}.

(** misc.py:338-387. *)
Definition weffect_param (c : octx) (o : effect_param) : writer :=
  ws32 (obo c) (fxp_percent_time o) +++
  ws32 (obo c) (fxp_level o) +++
  ws32 (obo c) (fxp_pos_x o) +++
  ws32 (obo c) (fxp_floor_x o) +++
  ws32 (obo c) (fxp_ceil_x o) +++
  ws32 (obo c) (fxp_pos_y o) +++
  ws32 (obo c) (fxp_floor_y o) +++
  ws32 (obo c) (fxp_ceil_y o) +++
  ws32 (obo c) (fxp_scale_x o) +++
  ws32 (obo c) (fxp_scale_y o) +++
  ws32 (obo c) (fxp_crop_left o) +++
  ws32 (obo c) (fxp_crop_right o) +++
  ws32 (obo c) (fxp_crop_top o) +++
  ws32 (obo c) (fxp_crop_bottom o) +++
  wbox c (fxp_box o) +++
  wbool (fxp_box_xscale o) +++
  wbool (fxp_box_yscale o) +++
  wbool (fxp_box_xpos o) +++
  wbool (fxp_box_ypos o) +++
  ws32 (obo c) (fxp_border_width o) +++
  ws32 (obo c) (fxp_border_soft o) +++
  ws16 (obo c) (fxp_splill_gain2 o) +++
  ws16 (obo c) (fxp_splill_gain o) +++
  ws16 (obo c) (fxp_splill_soft2 o) +++
  ws16 (obo c) (fxp_splill_soft o) +++
  ws8 (fxp_enable_key_flags o) +++
  ws32 (obo c) (len (fxp_colors o)) +++
  wlist (ws32 (obo c)) (fxp_colors o) +++
  ws32 (obo c) (len (fxp_user_param o)) +++
  wbytes (fxp_user_param o) +++
  wbool (fxp_selected o).

(** misc.py:326-389. *)
Definition weffect_param_list (c : octx) (o : effect_param_list) : writer :=
  wu8 2 +++ wu8 18 +++
  ws32 (obo c) (fxps_orig_length o) +++
  ws32 (obo c) (fxps_window_offset o) +++
  ws32 (obo c) (len (fxps_parameters o)) +++
  ws32 (obo c) (fxps_keyframe_size o) +++
  wlist (weffect_param c) (fxps_parameters o) +++
  wu8 3.

(** ** CFUserParam, misc.py:391-438 *)

(** The writer writes 0x4949 whatever [byte_order] is, and the reader accepts nothing
    else; misc.py:395-399. *)
Record cf_user_param := {
  avup_byte_order : Z;
  avup_uuid : uuid;
  avup_data : bytes }.

(** [cf_user_param] with its references renamed by [f]; misc.py:395-399. *)
Definition cf_user_param_map (f : Z -> Z) (o : cf_user_param) : cf_user_param := {|
  avup_byte_order := avup_byte_order o;
  avup_uuid := avup_uuid o;
  avup_data := avup_data o |}.

(** The references of [cf_user_param]; misc.py:395-399. *)
Definition cf_user_param_refs (o : cf_user_param) : list Z :=
  [].

(** What [cf_user_param] has to satisfy to be stored exactly; misc.py:395-399. *)
Definition cf_user_param_ok (o : cf_user_param) : Prop :=
  uuid_wf (avup_uuid o) /\
  avup_byte_order o = 0x4949.

(** misc.py:402-421; a negative size reads everything that is left. *)
Definition rcf_user_param (i : ictx) : reader cf_user_param :=
  rtag 2 ;;; rtag 1 ;;;
  byte_order <- rs16 (ibo i) ;;
  rassert (byte_order =? 0x4949) ;;;
  uuid <- rrawuuid (ibo i) ;;
  value_size1 <- rs32 (ibo i) ;;
  value_size2 <- rs32 (ibo i) ;;
  rassert (value_size2 =? value_size1 - 4) ;;;
  data <- fread value_size2 ;;
  rtag 3 ;;;
  ret {| avup_byte_order := byte_order; avup_uuid := uuid; avup_data := data |}.

(** misc.py:423-438. *)
Definition wcf_user_param (c : octx) (o : cf_user_param) : writer :=
  wu8 2 +++ wu8 1 +++
  ws16 (obo c) 0x4949 +++
  wrawuuid (obo c) (avup_uuid o) +++
  ws32 (obo c) (len (avup_data o) + 4) +++
  ws32 (obo c) (len (avup_data o)) +++
  wbytes (avup_data o) +++
  wu8 3.

(** ** ParameterItem, misc.py:440-517 *)

(** [value] carries its Python type, as in ParamClip; misc.py:444-452. *)
Record parameter_item := {
  prit_uuid : uuid;
  prit_value_type : Z;
  prit_value : cp_value;
  prit_name : str;
  prit_enable : bool;
  prit_control_track : Z;
  prit_contribs_to_sig : option bool }.

(** [parameter_item] with its references renamed by [f]; misc.py:444-452. *)
Definition parameter_item_map (f : Z -> Z) (o : parameter_item) : parameter_item := {|
  prit_uuid := prit_uuid o;
  prit_value_type := prit_value_type o;
  prit_value := cp_value_map f (prit_value o);
  prit_name := prit_name o;
  prit_enable := prit_enable o;
  prit_control_track := f (prit_control_track o);
  prit_contribs_to_sig := prit_contribs_to_sig o |}.

(** The references of [parameter_item]; misc.py:444-452. *)
Definition parameter_item_refs (o : parameter_item) : list Z :=
  cp_value_refs (prit_value o)
  ++ [prit_control_track o].

(** What [parameter_item] has to satisfy to be stored exactly; misc.py:444-452. *)
Definition parameter_item_ok (o : parameter_item) : Prop :=
  uuid_wf (prit_uuid o) /\
  cp_value_ok (prit_value o) /\
  str_ok (prit_name o).

(** [self.contribs_to_sig = v]; misc.py:479. *)
Definition set_prit_contribs_to_sig (o : parameter_item) (v : option bool) : parameter_item := {|
  prit_uuid := prit_uuid o;
  prit_value_type := prit_value_type o;
  prit_value := prit_value o;
  prit_name := prit_name o;
  prit_enable := prit_enable o;
  prit_control_track := prit_control_track o;
  prit_contribs_to_sig := v |}.

(** misc.py:463-470. *)
Definition rprit_value (i : ictx) (value_type : Z) : reader cp_value :=
  if value_type =? 1 then v <- rs32 (ibo i) ;; ret (CPInt v)
  else if value_type =? 2 then v <- rdouble ;; ret (CPDouble v)
  else if value_type =? 4 then v <- rref i ;; ret (CPRef v)
  else fail ValueErr.

(** misc.py:494-501. A value of another Python type makes [struct.pack] or
    [write_object_ref] raise; simplified: Python would accept an integer as a double. *)
Definition wprit_value (c : octx) (value_type : Z) (v : cp_value) : writer :=
  if value_type =? 1 then match v with CPInt v => ws32 (obo c) v | _ => Err StructError end
  else if value_type =? 2 then match v with CPDouble v => wdouble v | _ => Err StructError end
  else if value_type =? 4 then match v with CPRef r => wref c r | _ => Err AttributeErr end
  else Err ValueErr.

(** misc.py:476-481. *)
Definition parameter_item_ext (i : ictx) (tag : Z) (o : parameter_item) : reader parameter_item :=
  if tag =? 1 then rtag 66 ;;; v <- rbool ;; ret (set_prit_contribs_to_sig o (Some v))
  else fail ValueErr.

(** misc.py:455-483. *)
Definition rparameter_item (i : ictx) : reader parameter_item :=
  rtag 2 ;;; rtag 2 ;;;
  uuid <- rrawuuid (ibo i) ;;
  value_type <- rs16 (ibo i) ;;
  value <- rprit_value i value_type ;;
  name <- rstr (ibo i) ;;
  enable <- rbool ;;
  control_track <- rref i ;;
  o <- iter_ext (parameter_item_ext i) {| prit_uuid := uuid; prit_value_type := value_type;
    prit_value := value; prit_name := name; prit_enable := enable;
    prit_control_track := control_track; prit_contribs_to_sig := None |} ;;
  rtag 3 ;;;
  ret o.

(** misc.py:485-517. *)
Definition wparameter_item (c : octx) (o : parameter_item) : writer :=
  wu8 2 +++ wu8 2 +++
  wrawuuid (obo c) (prit_uuid o) +++
  ws16 (obo c) (prit_value_type o) +++
  wprit_value c (prit_value_type o) (prit_value o) +++
  wname (obo c) (prit_name o) +++
  wbool (prit_enable o) +++
  wref c (prit_control_track o) +++
  wopt (prit_contribs_to_sig o) (fun v => wext 1 (wu8 66 +++ wbool v)) +++
  wu8 3.

(** misc.py:523-532 [value_type_name], as the code points of the returned text. *)
Definition value_type_name (value_type : Z) : str :=
  if value_type =? 1 then [105; 110; 116]
  else if value_type =? 2 then [100; 111; 117; 98; 108; 101]
  else if value_type =? 4 then [114; 101; 102; 101; 114; 101; 110; 99; 101]
  else [117; 110; 107; 110; 111; 119; 110].

(** ** MSMLocator, misc.py:534-602 *)

(** misc.py:538-543: the properties. *)
Record msm_locator := {
  msml_last_known_volume : str;
  msml_domain_type : option Z;
  msml_mob_id : option mobid;
  msml_last_known_volume_utf8 : option str }.

(** [msm_locator] with its references renamed by [f]; misc.py:538-543. *)
Definition msm_locator_map (f : Z -> Z) (o : msm_locator) : msm_locator := {|
  msml_last_known_volume := msml_last_known_volume o;
  msml_domain_type := msml_domain_type o;
  msml_mob_id := msml_mob_id o;
  msml_last_known_volume_utf8 := msml_last_known_volume_utf8 o |}.

(** The references of [msm_locator]; misc.py:538-543. *)
Definition msm_locator_refs (o : msm_locator) : list Z :=
  [].

(** What [msm_locator] has to satisfy to be stored exactly; misc.py:538-543. *)
Definition msm_locator_ok (o : msm_locator) : Prop :=
  str_ok (msml_last_known_volume o) /\
  opt_ok mobid_wf (msml_mob_id o) /\
  opt_ok utf8_ok (msml_last_known_volume_utf8 o).

(** [self.domain_type = v]; misc.py:561. *)
Definition set_msml_domain_type (o : msm_locator) (v : option Z) : msm_locator := {|
  msml_last_known_volume := msml_last_known_volume o;
  msml_domain_type := v;
  msml_mob_id := msml_mob_id o;
  msml_last_known_volume_utf8 := msml_last_known_volume_utf8 o |}.

(** [self.mob_id = v]; misc.py:563. *)
Definition set_msml_mob_id (o : msm_locator) (v : option mobid) : msm_locator := {|
  msml_last_known_volume := msml_last_known_volume o;
  msml_domain_type := msml_domain_type o;
  msml_mob_id := v;
  msml_last_known_volume_utf8 := msml_last_known_volume_utf8 o |}.

(** [self.last_known_volume_utf8 = v]; misc.py:566. *)
Definition set_msml_last_known_volume_utf8 (o : msm_locator) (v : option str) : msm_locator := {|
  msml_last_known_volume := msml_last_known_volume o;
  msml_domain_type := msml_domain_type o;
  msml_mob_id := msml_mob_id o;
  msml_last_known_volume_utf8 := v |}.

(** misc.py:557-568. *)
Definition msm_locator_ext (i : ictx) (tag : Z) (o : msm_locator) : reader msm_locator :=
  if tag =? 1 then rtag 71 ;;; v <- rs32 (ibo i) ;; ret (set_msml_domain_type o (Some v))
  else if tag =? 2 then v <- rmobid (ibo i) ;; ret (set_msml_mob_id o (Some v))
  else if tag =? 3 then
    rtag 76 ;;; v <- rstr_enc (ibo i) Utf8 ;; ret (set_msml_last_known_volume_utf8 o (Some v))
  else fail ValueErr.

(** misc.py:546-570; the two words are read and dropped. *)
Definition rmsm_locator (i : ictx) : reader msm_locator :=
  rtag 2 ;;; rtag 2 ;;;
  _ <- ru32 (ibo i) ;;
  _ <- ru32 (ibo i) ;;
  last_known_volume <- rstr (ibo i) ;;
  o <- iter_ext (msm_locator_ext i) {| msml_last_known_volume := last_known_volume;
    msml_domain_type := None; msml_mob_id := None; msml_last_known_volume_utf8 := None |} ;;
  rtag 3 ;;;
  ret o.

(** The two words derived from the mob ID; an object without [mob_id] raises
    AttributeError (misc.py:578-581, 637-640, 866-870). *)
Definition wmob_words (c : octx) (m : option mobid) : writer :=
  match m with
  | None => Err AttributeErr
  | Some m => wu32 (obo c) (mob_lo m) +++ wu32 (obo c) (mob_hi m)
  end.

(** misc.py:572-602. *)
Definition wmsm_locator (c : octx) (o : msm_locator) : writer :=
  wu8 2 +++ wu8 2 +++
  wmob_words c (msml_mob_id o) +++
  wstr (obo c) (msml_last_known_volume o) +++
  wopt (msml_domain_type o) (fun v => wext 1 (wu8 71 +++ ws32 (obo c) v)) +++
  wopt (msml_mob_id o) (fun v => wext 2 (wmobid (obo c) v)) +++
  wopt (msml_last_known_volume_utf8 o) (fun v => wext 3 (wu8 76 +++ wstr_enc (obo c) Utf8 v)) +++
  wu8 3.

(** ** Position (APOS), misc.py:604-648 *)

(** misc.py:608-610: the properties. *)
Record position := {
  apos_mob_id : option mobid }.

(** [position] with its references renamed by [f]; misc.py:608-610. *)
Definition position_map (f : Z -> Z) (o : position) : position := {|
  apos_mob_id := apos_mob_id o |}.

(** The references of [position]; misc.py:608-610. *)
Definition position_refs (o : position) : list Z :=
  [].

(** What [position] has to satisfy to be stored exactly; misc.py:608-610. *)
Definition position_ok (o : position) : Prop :=
  opt_ok mobid_wf (apos_mob_id o).

(** [self.mob_id = v]; misc.py:624. *)
Definition set_apos_mob_id (o : position) (v : option mobid) : position := {|
  apos_mob_id := v |}.

(** misc.py:622-626. *)
Definition position_ext (i : ictx) (tag : Z) (o : position) : reader position :=
  if tag =? 1 then v <- rmobid (ibo i) ;; ret (set_apos_mob_id o (Some v))
  else fail ValueErr.

(** misc.py:613-626, without the closing tag that only a plain APOS object has. *)
Definition rposition_base (i : ictx) : reader position :=
  rtag 2 ;;; rtag 1 ;;;
  _ <- ru32 (ibo i) ;;
  _ <- ru32 (ibo i) ;;
  iter_ext (position_ext i) {| apos_mob_id := None |}.

(** misc.py:631-645. *)
Definition wposition_base (c : octx) (o : position) : writer :=
  wu8 2 +++ wu8 1 +++
  wmob_words c (apos_mob_id o) +++
  wopt (apos_mob_id o) (fun v => wext 1 (wmobid (obo c) v)).

(** misc.py:628-629, 647-648: class APOS itself. *)
Definition rposition (i : ictx) : reader position :=
  o <- rposition_base i ;; rtag 3 ;;; ret o.

(** misc.py:631-648 [Position.write]. *)
Definition wposition (c : octx) (o : position) : writer := wposition_base c o +++ wu8 3.

(** ** BOBPosition (ABOB), misc.py:650-688 *)

(** misc.py:654-659: the properties. *)
Record bob_position := {
  abob_position : position;
  abob_sample_num : Z;
  abob_length : Z;
  abob_track_type : Z;
  abob_track_index : Z }.

(** [bob_position] with its references renamed by [f]; misc.py:654-659. *)
Definition bob_position_map (f : Z -> Z) (o : bob_position) : bob_position := {|
  abob_position := position_map f (abob_position o);
  abob_sample_num := abob_sample_num o;
  abob_length := abob_length o;
  abob_track_type := abob_track_type o;
  abob_track_index := abob_track_index o |}.

(** The references of [bob_position]; misc.py:654-659. *)
Definition bob_position_refs (o : bob_position) : list Z :=
  position_refs (abob_position o).

(** What [bob_position] has to satisfy to be stored exactly; misc.py:654-659. *)
Definition bob_position_ok (o : bob_position) : Prop :=
  position_ok (abob_position o).

(** misc.py:662-671. *)
Definition rbob_position_base (i : ictx) : reader bob_position :=
  position <- rposition_base i ;;
  rtag 2 ;;; rtag 1 ;;;
  sample_num <- rs32 (ibo i) ;;
  length <- rs32 (ibo i) ;;
  track_type <- rs16 (ibo i) ;;
  track_index <- rs16 (ibo i) ;;
  ret {| abob_position := position; abob_sample_num := sample_num; abob_length := length;
    abob_track_type := track_type; abob_track_index := track_index |}.

(** misc.py:676-685. *)
Definition wbob_position_base (c : octx) (o : bob_position) : writer :=
  wposition_base c (abob_position o) +++
  wu8 2 +++ wu8 1 +++
  ws32 (obo c) (abob_sample_num o) +++
  ws32 (obo c) (abob_length o) +++
  ws16 (obo c) (abob_track_type o) +++
  ws16 (obo c) (abob_track_index o).

(** misc.py:673-674, 687-688. *)
Definition rbob_position (i : ictx) : reader bob_position :=
  o <- rbob_position_base i ;; rtag 3 ;;; ret o.

(** misc.py:676-688 [BOBPosition.write]. *)
Definition wbob_position (c : octx) (o : bob_position) : writer :=
  wbob_position_base c o +++ wu8 3.

(** ** DIDPosition (DIDP), misc.py:690-728 *)

(** misc.py:694-699: the properties. *)
Record did_position := {
  didp_bob : bob_position;
  didp_strip : Z;
  didp_offset : Z;
  didp_byte_length : Z;
  didp_spos_invalid : bool }.

(** [did_position] with its references renamed by [f]; misc.py:694-699. *)
Definition did_position_map (f : Z -> Z) (o : did_position) : did_position := {|
  didp_bob := bob_position_map f (didp_bob o);
  didp_strip := didp_strip o;
  didp_offset := didp_offset o;
  didp_byte_length := didp_byte_length o;
  didp_spos_invalid := didp_spos_invalid o |}.

(** The references of [did_position]; misc.py:694-699. *)
Definition did_position_refs (o : did_position) : list Z :=
  bob_position_refs (didp_bob o).

(** What [did_position] has to satisfy to be stored exactly; misc.py:694-699. *)
Definition did_position_ok (o : did_position) : Prop :=
  bob_position_ok (didp_bob o).

(** misc.py:702-711. *)
Definition rdid_position_base (i : ictx) : reader did_position :=
  bob <- rbob_position_base i ;;
  rtag 2 ;;; rtag 1 ;;;
  strip <- rs32 (ibo i) ;;
  offset <- ru64 (ibo i) ;;
  byte_length <- ru64 (ibo i) ;;
  spos_invalid <- rbool ;;
  ret {| didp_bob := bob; didp_strip := strip; didp_offset := offset;
    didp_byte_length := byte_length; didp_spos_invalid := spos_invalid |}.

(** misc.py:716-725. *)
Definition wdid_position_base (c : octx) (o : did_position) : writer :=
  wbob_position_base c (didp_bob o) +++
  wu8 2 +++ wu8 1 +++
  ws32 (obo c) (didp_strip o) +++
  wu64 (obo c) (didp_offset o) +++
  wu64 (obo c) (didp_byte_length o) +++
  wbool (didp_spos_invalid o).

(** misc.py:713-714, 727-728. *)
Definition rdid_position (i : ictx) : reader did_position :=
  o <- rdid_position_base i ;; rtag 3 ;;; ret o.

(** misc.py:716-728 [DIDPosition.write]. *)
Definition wdid_position (c : octx) (o : did_position) : writer :=
  wdid_position_base c o +++ wu8 3.

(** ** MPGPosition (MPGP), misc.py:730-781 *)

(** [fields] is a list of pairs; the declared property [leader_length] is never set;
    misc.py:734-739. *)
Record mpg_position := {
  mpgp_did : did_position;
  mpgp_trailing_discards : Z;
  mpgp_need_seq_hdr : bool;
  mpgp_fields : list (Z * Z) }.

(** [mpg_position] with its references renamed by [f]; misc.py:734-739. *)
Definition mpg_position_map (f : Z -> Z) (o : mpg_position) : mpg_position := {|
  mpgp_did := did_position_map f (mpgp_did o);
  mpgp_trailing_discards := mpgp_trailing_discards o;
  mpgp_need_seq_hdr := mpgp_need_seq_hdr o;
  mpgp_fields := mpgp_fields o |}.

(** The references of [mpg_position]; misc.py:734-739. *)
Definition mpg_position_refs (o : mpg_position) : list Z :=
  did_position_refs (mpgp_did o).

(** What [mpg_position] has to satisfy to be stored exactly; misc.py:734-739. *)
Definition mpg_position_ok (o : mpg_position) : Prop :=
  did_position_ok (mpgp_did o).

(** misc.py:756-759. *)
Definition rmpg_field (i : ictx) : reader (Z * Z) :=
  picture_type <- ru8 ;; length <- ru32 (ibo i) ;; ret (picture_type, length).

(** misc.py:752-759. *)
Definition rmpg_fields (i : ictx) : reader (list (Z * Z)) :=
  leader_length <- rs16 (ibo i) ;;
  if 0 <? leader_length then
    _ <- rs16 (ibo i) ;;
    rlist (Z.to_nat leader_length) (rmpg_field i)
  else ret [].

(** misc.py:742-761. *)
Definition rmpg_position (i : ictx) : reader mpg_position :=
  did <- rdid_position_base i ;;
  rtag 2 ;;; rtag 1 ;;;
  trailing_discards <- rs16 (ibo i) ;;
  need_seq_hdr <- rbool ;;
  fields <- rmpg_fields i ;;
  rtag 3 ;;;
  ret {| mpgp_did := did; mpgp_trailing_discards := trailing_discards;
    mpgp_need_seq_hdr := need_seq_hdr; mpgp_fields := fields |}.

(** misc.py:777-779. *)
Definition wmpg_field (c : octx) (p : Z * Z) : writer :=
  let '(picture_type, length) := p in wu8 picture_type +++ wu32 (obo c) length.

(** misc.py:772-779. *)
Definition wmpg_fields (c : octx) (l : list (Z * Z)) : writer :=
  ws16 (obo c) (len l) +++
  if 0 <? len l then ws16 (obo c) (len l * 2) +++ wlist (wmpg_field c) l else wnil.

(** misc.py:763-781. *)
Definition wmpg_position (c : octx) (o : mpg_position) : writer :=
  wdid_position_base c (mpgp_did o) +++
  wu8 2 +++ wu8 1 +++
  ws16 (obo c) (mpgp_trailing_discards o) +++
  wbool (mpgp_need_seq_hdr o) +++
  wmpg_fields c (mpgp_fields o) +++
  wu8 3.

(** ** BinRef (MCBR), misc.py:783-829 *)

(** misc.py:787-792: the properties. *)
Record bin_ref := {
  mcbr_uid_high : Z;
  mcbr_uid_low : Z;
  mcbr_name : str;
  mcbr_name_utf8 : option str }.

(** [bin_ref] with its references renamed by [f]; misc.py:787-792. *)
Definition bin_ref_map (f : Z -> Z) (o : bin_ref) : bin_ref := {|
  mcbr_uid_high := mcbr_uid_high o;
  mcbr_uid_low := mcbr_uid_low o;
  mcbr_name := mcbr_name o;
  mcbr_name_utf8 := mcbr_name_utf8 o |}.

(** The references of [bin_ref]; misc.py:787-792. *)
Definition bin_ref_refs (o : bin_ref) : list Z :=
  [].

(** What [bin_ref] has to satisfy to be stored exactly; misc.py:787-792. *)
Definition bin_ref_ok (o : bin_ref) : Prop :=
  str_ok (mcbr_name o) /\
  opt_ok utf8_ok (mcbr_name_utf8 o).

(** [self.name_utf8 = v]; misc.py:808. *)
Definition set_mcbr_name_utf8 (o : bin_ref) (v : option str) : bin_ref := {|
  mcbr_uid_high := mcbr_uid_high o;
  mcbr_uid_low := mcbr_uid_low o;
  mcbr_name := mcbr_name o;
  mcbr_name_utf8 := v |}.

(** misc.py:805-810. *)
Definition bin_ref_ext (i : ictx) (tag : Z) (o : bin_ref) : reader bin_ref :=
  if tag =? 1 then rtag 76 ;;; v <- rstr_enc (ibo i) Utf8 ;; ret (set_mcbr_name_utf8 o (Some v))
  else fail ValueErr.

(** misc.py:795-812. *)
Definition rbin_ref (i : ictx) : reader bin_ref :=
  rtag 2 ;;; rtag 1 ;;;
  uid_high <- rs32 (ibo i) ;;
  uid_low <- rs32 (ibo i) ;;
  name <- rstr (ibo i) ;;
  o <- iter_ext (bin_ref_ext i) {| mcbr_uid_high := uid_high; mcbr_uid_low := uid_low;
    mcbr_name := name; mcbr_name_utf8 := None |} ;;
  rtag 3 ;;;
  ret o.

(** misc.py:814-829. [name_utf8] is written without asking whether it is there: an object
    read without it raises AttributeError. *)
Definition wbin_ref (c : octx) (o : bin_ref) : writer :=
  wu8 2 +++ wu8 1 +++
  ws32 (obo c) (mcbr_uid_high o) +++
  ws32 (obo c) (mcbr_uid_low o) +++
  wstr (obo c) (mcbr_name o) +++
  match mcbr_name_utf8 o with
  | None => Err AttributeErr
  | Some v => wext 1 (wu8 76 +++ wstr_enc (obo c) Utf8 v)
  end +++
  wu8 3.

(** ** MobRef (MCMR), misc.py:831-879 *)

(** misc.py:835-838: the properties. *)
Record mob_ref := {
  mcmr_position : Z;
  mcmr_mob_id : option mobid }.

(** [mob_ref] with its references renamed by [f]; misc.py:835-838. *)
Definition mob_ref_map (f : Z -> Z) (o : mob_ref) : mob_ref := {|
  mcmr_position := mcmr_position o;
  mcmr_mob_id := mcmr_mob_id o |}.

(** The references of [mob_ref]; misc.py:835-838. *)
Definition mob_ref_refs (o : mob_ref) : list Z :=
  [].

(** What [mob_ref] has to satisfy to be stored exactly; misc.py:835-838. *)
Definition mob_ref_ok (o : mob_ref) : Prop :=
  opt_ok mobid_wf (mcmr_mob_id o).

(** [self.mob_id = v]; misc.py:853. *)
Definition set_mcmr_mob_id (o : mob_ref) (v : option mobid) : mob_ref := {|
  mcmr_position := mcmr_position o;
  mcmr_mob_id := v |}.

(** misc.py:851-855. *)
Definition mob_ref_ext (i : ictx) (tag : Z) (o : mob_ref) : reader mob_ref :=
  if tag =? 1 then v <- rmobid (ibo i) ;; ret (set_mcmr_mob_id o (Some v))
  else fail ValueErr.

(** misc.py:841-855, without the closing tag that only a plain MCMR object has. *)
Definition rmob_ref_base (i : ictx) : reader mob_ref :=
  rtag 2 ;;; rtag 1 ;;;
  _ <- ru32 (ibo i) ;;
  _ <- ru32 (ibo i) ;;
  position <- rs32 (ibo i) ;;
  iter_ext (mob_ref_ext i) {| mcmr_position := position; mcmr_mob_id := None |}.

(** misc.py:860-876. *)
Definition wmob_ref_base (c : octx) (o : mob_ref) : writer :=
  wu8 2 +++ wu8 1 +++
  wmob_words c (mcmr_mob_id o) +++
  ws32 (obo c) (mcmr_position o) +++
  wopt (mcmr_mob_id o) (fun v => wext 1 (wmobid (obo c) v)).

(** misc.py:857-858, 878-879. *)
Definition rmob_ref (i : ictx) : reader mob_ref :=
  o <- rmob_ref_base i ;; rtag 3 ;;; ret o.

(** misc.py:860-879 [MobRef.write]. *)
Definition wmob_ref (c : octx) (o : mob_ref) : writer := wmob_ref_base c o +++ wu8 3.

(** ** Marker (TMBC), misc.py:881-943 *)

(** The writer writes however many colour values there are, the reader reads three;
    misc.py:886-891. *)
Record marker := {
  tmbc_mob_ref : mob_ref;
  tmbc_comp_offset : Z;
  tmbc_attributes : Z;
  tmbc_color : list Z;
  tmbc_handled_codes : option bool }.

(** [marker] with its references renamed by [f]; misc.py:886-891. *)
Definition marker_map (f : Z -> Z) (o : marker) : marker := {|
  tmbc_mob_ref := mob_ref_map f (tmbc_mob_ref o);
  tmbc_comp_offset := tmbc_comp_offset o;
  tmbc_attributes := f (tmbc_attributes o);
  tmbc_color := tmbc_color o;
  tmbc_handled_codes := tmbc_handled_codes o |}.

(** The references of [marker]; misc.py:886-891. *)
Definition marker_refs (o : marker) : list Z :=
  mob_ref_refs (tmbc_mob_ref o)
  ++ [tmbc_attributes o].

(** What [marker] has to satisfy to be stored exactly; misc.py:886-891. *)
Definition marker_ok (o : marker) : Prop :=
  mob_ref_ok (tmbc_mob_ref o) /\
  length (tmbc_color o) = 3%nat.

(** [self.handled_codes = v]; misc.py:916. *)
Definition set_tmbc_handled_codes (o : marker) (v : option bool) : marker := {|
  tmbc_mob_ref := tmbc_mob_ref o;
  tmbc_comp_offset := tmbc_comp_offset o;
  tmbc_attributes := tmbc_attributes o;
  tmbc_color := tmbc_color o;
  tmbc_handled_codes := v |}.

(** misc.py:912-918. *)
Definition marker_ext (i : ictx) (tag : Z) (o : marker) : reader marker :=
  if tag =? 1 then rtag 66 ;;; v <- rbool ;; ret (set_tmbc_handled_codes o (Some v))
  else fail ValueErr.

(** misc.py:894-920. *)
Definition rmarker (i : ictx) : reader marker :=
  mob_ref <- rmob_ref_base i ;;
  rtag 2 ;;; rtag 3 ;;;
  comp_offset <- rs32 (ibo i) ;;
  attributes <- rref i ;;
  version <- rs16 (ibo i) ;;
  rassert (version =? 1) ;;;
  red <- ru16 (ibo i) ;;
  green <- ru16 (ibo i) ;;
  blue <- ru16 (ibo i) ;;
  o <- iter_ext (marker_ext i) {| tmbc_mob_ref := mob_ref; tmbc_comp_offset := comp_offset;
    tmbc_attributes := attributes; tmbc_color := [red; green; blue];
    tmbc_handled_codes := None |} ;;
  rtag 3 ;;;
  ret o.

(** misc.py:922-943. *)
Definition wmarker (c : octx) (o : marker) : writer :=
  wmob_ref_base c (tmbc_mob_ref o) +++
  wu8 2 +++ wu8 3 +++
  ws32 (obo c) (tmbc_comp_offset o) +++
  wref c (tmbc_attributes o) +++
  ws16 (obo c) 1 +++
  wlist (wu16 (obo c)) (tmbc_color o) +++
  wopt (tmbc_handled_codes o) (fun v => wext 1 (wu8 66 +++ wbool v)) +++
  wu8 3.

(** ** TrackerManager (TKMN), misc.py:945-975 (read 955-964, write 966-975) *)

(** misc.py:949-952: the properties. *)
Record tracker_manager := {
  tkmn_data_slots : Z;
  tkmn_param_slots : Z }.

(** [tracker_manager] with its references renamed by [f]; misc.py:949-952. *)
Definition tracker_manager_map (f : Z -> Z) (o : tracker_manager) : tracker_manager := {|
  tkmn_data_slots := f (tkmn_data_slots o);
  tkmn_param_slots := f (tkmn_param_slots o) |}.

(** The references of [tracker_manager]; misc.py:949-952. *)
Definition tracker_manager_refs (o : tracker_manager) : list Z :=
  [tkmn_data_slots o]
  ++ [tkmn_param_slots o].

(** What [tracker_manager] has to satisfy to be stored exactly; misc.py:949-952. *)
Definition tracker_manager_ok (o : tracker_manager) : Prop :=
  True.

(** misc.py:955-964 [TrackerManager.read]. *)
Definition rtracker_manager (i : ictx) : reader tracker_manager :=
  rtag 2 ;;; rtag 1 ;;;
  data_slots <- rref i ;;
  param_slots <- rref i ;;
  rtag 3 ;;;
  ret {| tkmn_data_slots := data_slots; tkmn_param_slots := param_slots |}.

(** misc.py:966-975 [TrackerManager.write]. *)
Definition wtracker_manager (c : octx) (o : tracker_manager) : writer :=
  wu8 2 +++ wu8 1 +++
  wref c (tkmn_data_slots o) +++
  wref c (tkmn_param_slots o) +++
  wu8 3.

(** ** TrackerDataSlot (TKDS), misc.py:977-1025 *)

(** misc.py:981-984: the properties. *)
Record tracker_data_slot := {
  tkds_tracker_data : list Z;
  tkds_track_fg : option bool }.

(** [tracker_data_slot] with its references renamed by [f]; misc.py:981-984. *)
Definition tracker_data_slot_map (f : Z -> Z) (o : tracker_data_slot) : tracker_data_slot := {|
  tkds_tracker_data := map f (tkds_tracker_data o);
  tkds_track_fg := tkds_track_fg o |}.

(** The references of [tracker_data_slot]; misc.py:981-984. *)
Definition tracker_data_slot_refs (o : tracker_data_slot) : list Z :=
  tkds_tracker_data o.

(** What [tracker_data_slot] has to satisfy to be stored exactly; misc.py:981-984. *)
Definition tracker_data_slot_ok (o : tracker_data_slot) : Prop :=
  True.

(** [self.track_fg = v]; misc.py:1002. *)
Definition set_tkds_track_fg (o : tracker_data_slot) (v : option bool) : tracker_data_slot := {|
  tkds_tracker_data := tkds_tracker_data o;
  tkds_track_fg := v |}.

(** misc.py:999-1004. *)
Definition tracker_data_slot_ext (i : ictx) (tag : Z) (o : tracker_data_slot)
  : reader tracker_data_slot :=
  if tag =? 1 then rtag 66 ;;; v <- rbool ;; ret (set_tkds_track_fg o (Some v))
  else fail ValueErr.

(** misc.py:987-1006. *)
Definition rtracker_data_slot (i : ictx) : reader tracker_data_slot :=
  rtag 2 ;;; rtag 1 ;;;
  count <- rs32 (ibo i) ;;
  tracker_data <- rlist (Z.to_nat count) (rref i) ;;
  o <- iter_ext (tracker_data_slot_ext i) {| tkds_tracker_data := tracker_data;
    tkds_track_fg := None |} ;;
  rtag 3 ;;;
  ret o.

(** misc.py:1008-1025. *)
Definition wtracker_data_slot (c : octx) (o : tracker_data_slot) : writer :=
  wu8 2 +++ wu8 1 +++
  ws32 (obo c) (len (tkds_tracker_data o)) +++
  wlist (wref c) (tkds_tracker_data o) +++
  wopt (tkds_track_fg o) (fun v => wext 1 (wu8 66 +++ wbool v)) +++
  wu8 3.

(** ** TrackerParameterSlot (TKPS), misc.py:1027-1068 (read 1037-1053, write 1055-1068) *)

(** misc.py:1031-1034: the properties. *)
Record tracker_parameter_slot := {
  tkps_settings : bytes;
  tkps_params : list Z }.

(** [tracker_parameter_slot] with its references renamed by [f]; misc.py:1031-1034. *)
Definition tracker_parameter_slot_map (f : Z -> Z) (o : tracker_parameter_slot)
  : tracker_parameter_slot := {|
  tkps_settings := tkps_settings o;
  tkps_params := map f (tkps_params o) |}.

(** The references of [tracker_parameter_slot]; misc.py:1031-1034. *)
Definition tracker_parameter_slot_refs (o : tracker_parameter_slot) : list Z :=
  tkps_params o.

(** What [tracker_parameter_slot] has to satisfy to be stored exactly; misc.py:1031-1034. *)
Definition tracker_parameter_slot_ok (o : tracker_parameter_slot) : Prop :=
  True.

(** misc.py:1037-1053 [TrackerParameterSlot.read]. *)
Definition rtracker_parameter_slot (i : ictx) : reader tracker_parameter_slot :=
  rtag 2 ;;; rtag 1 ;;;
  size <- rs16 (ibo i) ;;
  rassert (0 <=? size) ;;;
  settings <- fread size ;;
  count <- rs32 (ibo i) ;;
  rassert (0 <=? count) ;;;
  params <- rlist (Z.to_nat count) (rref i) ;;
  rtag 3 ;;;
  ret {| tkps_settings := settings; tkps_params := params |}.

(** misc.py:1055-1068 [TrackerParameterSlot.write]. *)
Definition wtracker_parameter_slot (c : octx) (o : tracker_parameter_slot) : writer :=
  wu8 2 +++ wu8 1 +++
  ws16 (obo c) (len (tkps_settings o)) +++
  wbytes (tkps_settings o) +++
  ws32 (obo c) (len (tkps_params o)) +++
  wlist (wref c) (tkps_params o) +++
  wu8 3.

(** ** TrackerData (TKDA), misc.py:1070-1179 *)

(** misc.py:1074-1084: the properties. *)
Record tracker_data := {
  tkda_settings : bytes;
  tkda_clip_version : Z;
  tkda_clips : list Z;
  tkda_offset_tracking : option Z;
  tkda_smoothing : option Z;
  tkda_jitter_removal : option Z;
  tkda_filter_amount : option Z;
  tkda_clip5 : option Z;
  tkda_clip6 : option Z }.

(** [tracker_data] with its references renamed by [f]; misc.py:1074-1084. *)
Definition tracker_data_map (f : Z -> Z) (o : tracker_data) : tracker_data := {|
  tkda_settings := tkda_settings o;
  tkda_clip_version := tkda_clip_version o;
  tkda_clips := map f (tkda_clips o);
  tkda_offset_tracking := tkda_offset_tracking o;
  tkda_smoothing := tkda_smoothing o;
  tkda_jitter_removal := tkda_jitter_removal o;
  tkda_filter_amount := tkda_filter_amount o;
  tkda_clip5 := option_map f (tkda_clip5 o);
  tkda_clip6 := option_map f (tkda_clip6 o) |}.

(** The references of [tracker_data]; misc.py:1074-1084. *)
Definition tracker_data_refs (o : tracker_data) : list Z :=
  tkda_clips o
  ++ (match tkda_clip5 o with Some v => [v] | None => [] end)
  ++ (match tkda_clip6 o with Some v => [v] | None => [] end).

(** What [tracker_data] has to satisfy to be stored exactly; misc.py:1074-1084. *)
Definition tracker_data_ok (o : tracker_data) : Prop :=
  True.

(** [self.offset_tracking = v]; misc.py:1106. *)
Definition set_tkda_offset_tracking (o : tracker_data) (v : option Z) : tracker_data := {|
  tkda_settings := tkda_settings o;
  tkda_clip_version := tkda_clip_version o;
  tkda_clips := tkda_clips o;
  tkda_offset_tracking := v;
  tkda_smoothing := tkda_smoothing o;
  tkda_jitter_removal := tkda_jitter_removal o;
  tkda_filter_amount := tkda_filter_amount o;
  tkda_clip5 := tkda_clip5 o;
  tkda_clip6 := tkda_clip6 o |}.

(** [self.smoothing = v]; misc.py:1109. *)
Definition set_tkda_smoothing (o : tracker_data) (v : option Z) : tracker_data := {|
  tkda_settings := tkda_settings o;
  tkda_clip_version := tkda_clip_version o;
  tkda_clips := tkda_clips o;
  tkda_offset_tracking := tkda_offset_tracking o;
  tkda_smoothing := v;
  tkda_jitter_removal := tkda_jitter_removal o;
  tkda_filter_amount := tkda_filter_amount o;
  tkda_clip5 := tkda_clip5 o;
  tkda_clip6 := tkda_clip6 o |}.

(** [self.jitter_removal = v]; misc.py:1112. *)
Definition set_tkda_jitter_removal (o : tracker_data) (v : option Z) : tracker_data := {|
  tkda_settings := tkda_settings o;
  tkda_clip_version := tkda_clip_version o;
  tkda_clips := tkda_clips o;
  tkda_offset_tracking := tkda_offset_tracking o;
  tkda_smoothing := tkda_smoothing o;
  tkda_jitter_removal := v;
  tkda_filter_amount := tkda_filter_amount o;
  tkda_clip5 := tkda_clip5 o;
  tkda_clip6 := tkda_clip6 o |}.

(** [self.filter_amount = v]; misc.py:1115. *)
Definition set_tkda_filter_amount (o : tracker_data) (v : option Z) : tracker_data := {|
  tkda_settings := tkda_settings o;
  tkda_clip_version := tkda_clip_version o;
  tkda_clips := tkda_clips o;
  tkda_offset_tracking := tkda_offset_tracking o;
  tkda_smoothing := tkda_smoothing o;
  tkda_jitter_removal := tkda_jitter_removal o;
  tkda_filter_amount := v;
  tkda_clip5 := tkda_clip5 o;
  tkda_clip6 := tkda_clip6 o |}.

(** [self.clip5 = v]; misc.py:1118. *)
Definition set_tkda_clip5 (o : tracker_data) (v : option Z) : tracker_data := {|
  tkda_settings := tkda_settings o;
  tkda_clip_version := tkda_clip_version o;
  tkda_clips := tkda_clips o;
  tkda_offset_tracking := tkda_offset_tracking o;
  tkda_smoothing := tkda_smoothing o;
  tkda_jitter_removal := tkda_jitter_removal o;
  tkda_filter_amount := tkda_filter_amount o;
  tkda_clip5 := v;
  tkda_clip6 := tkda_clip6 o |}.

(** [self.clip6 = v]; misc.py:1121. *)
Definition set_tkda_clip6 (o : tracker_data) (v : option Z) : tracker_data := {|
  tkda_settings := tkda_settings o;
  tkda_clip_version := tkda_clip_version o;
  tkda_clips := tkda_clips o;
  tkda_offset_tracking := tkda_offset_tracking o;
  tkda_smoothing := tkda_smoothing o;
  tkda_jitter_removal := tkda_jitter_removal o;
  tkda_filter_amount := tkda_filter_amount o;
  tkda_clip5 := tkda_clip5 o;
  tkda_clip6 := v |}.

(** misc.py:1103-1123. *)
Definition tracker_data_ext (i : ictx) (tag : Z) (o : tracker_data) : reader tracker_data :=
  if tag =? 1 then rtag 72 ;;; v <- ru32 (ibo i) ;; ret (set_tkda_offset_tracking o (Some v))
  else if tag =? 2 then rtag 72 ;;; v <- ru32 (ibo i) ;; ret (set_tkda_smoothing o (Some v))
  else if tag =? 3 then rtag 72 ;;; v <- ru32 (ibo i) ;; ret (set_tkda_jitter_removal o (Some v))
  else if tag =? 4 then rtag 75 ;;; v <- rdouble ;; ret (set_tkda_filter_amount o (Some v))
  else if tag =? 5 then rtag 72 ;;; v <- rref i ;; ret (set_tkda_clip5 o (Some v))
  else if tag =? 6 then rtag 72 ;;; v <- rref i ;; ret (set_tkda_clip6 o (Some v))
  else fail ValueErr.

(** misc.py:1087-1125. *)
Definition rtracker_data (i : ictx) : reader tracker_data :=
  rtag 2 ;;; rtag 1 ;;;
  setting_size <- rs16 (ibo i) ;;
  settings <- fread setting_size ;;
  clip_version <- ru32 (ibo i) ;;
  count <- rs16 (ibo i) ;;
  clips <- rlist (Z.to_nat count) (rref i) ;;
  o <- iter_ext (tracker_data_ext i) {| tkda_settings := settings;
    tkda_clip_version := clip_version; tkda_clips := clips; tkda_offset_tracking := None;
    tkda_smoothing := None; tkda_jitter_removal := None; tkda_filter_amount := None;
    tkda_clip5 := None; tkda_clip6 := None |} ;;
  rtag 3 ;;;
  ret o.

(** misc.py:1127-1179. *)
Definition wtracker_data (c : octx) (o : tracker_data) : writer :=
  wu8 2 +++ wu8 1 +++
  ws16 (obo c) (len (tkda_settings o)) +++
  wbytes (tkda_settings o) +++
  wu32 (obo c) (tkda_clip_version o) +++
  ws16 (obo c) (len (tkda_clips o)) +++
  wlist (wref c) (tkda_clips o) +++
  wopt (tkda_offset_tracking o) (fun v => wext 1 (wu8 72 +++ wu32 (obo c) v)) +++
  wopt (tkda_smoothing o) (fun v => wext 2 (wu8 72 +++ wu32 (obo c) v)) +++
  wopt (tkda_jitter_removal o) (fun v => wext 3 (wu8 72 +++ wu32 (obo c) v)) +++
  wopt (tkda_filter_amount o) (fun v => wext 4 (wu8 75 +++ wdouble v)) +++
  wopt (tkda_clip5 o) (fun v => wext 5 (wu8 72 +++ wref c v)) +++
  wopt (tkda_clip6 o) (fun v => wext 6 (wu8 72 +++ wref c v)) +++
  wu8 3.

(** ** TrackerParameter (TKPA), misc.py:1182-1212 (read 1191-1200, write 1203-1212) *)

(** misc.py:1186-1188: the properties. *)
Record tracker_parameter := {
  tkpa_settings : bytes }.

(** [tracker_parameter] with its references renamed by [f]; misc.py:1186-1188. *)
Definition tracker_parameter_map (f : Z -> Z) (o : tracker_parameter) : tracker_parameter := {|
  tkpa_settings := tkpa_settings o |}.

(** The references of [tracker_parameter]; misc.py:1186-1188. *)
Definition tracker_parameter_refs (o : tracker_parameter) : list Z :=
  [].

(** What [tracker_parameter] has to satisfy to be stored exactly; misc.py:1186-1188. *)
Definition tracker_parameter_ok (o : tracker_parameter) : Prop :=
  True.

(** misc.py:1191-1200 [TrackerParameter.read]. *)
Definition rtracker_parameter (i : ictx) : reader tracker_parameter :=
  rtag 2 ;;; rtag 1 ;;;
  size <- rs16 (ibo i) ;;
  rassert (0 <=? size) ;;;
  settings <- fread size ;;
  rtag 3 ;;;
  ret {| tkpa_settings := settings |}.

(** misc.py:1203-1212 [TrackerParameter.write]. *)
Definition wtracker_parameter (c : octx) (o : tracker_parameter) : writer :=
  wu8 2 +++ wu8 1 +++
  ws16 (obo c) (len (tkpa_settings o)) +++
  wbytes (tkpa_settings o) +++
  wu8 3.
