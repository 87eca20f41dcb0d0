(** Model of the readers and writers of src/avb/bin.py. *)
From Coq Require Import ZArith List Bool.
From Verif Require Import Base IoCtx Text Exp10 MobId Storable.
Import ListNotations.
Open Scope Z_scope.

(** ** Setting (not a class of its own in files), bin.py:13-51 (read 25-36, write 38-51) *)

(** bin.py:16-22: the properties. *)
Record setting := {
  aset_name : str;
  aset_kind : str;
  aset_attr_count : Z;
  aset_attr_type : Z;
  aset_attributes : Z }.

(** [setting] with its references renamed by [f]; bin.py:16-22. *)
Definition setting_map (f : Z -> Z) (o : setting) : setting := {|
  aset_name := aset_name o;
  aset_kind := aset_kind o;
  aset_attr_count := aset_attr_count o;
  aset_attr_type := aset_attr_type o;
  aset_attributes := f (aset_attributes o) |}.

(** The references of [setting]; bin.py:16-22. *)
Definition setting_refs (o : setting) : list Z :=
  [aset_attributes o].

(** What [setting] has to satisfy to be stored exactly; bin.py:16-22. *)
Definition setting_ok (o : setting) : Prop :=
  str_ok (aset_name o) /\
  str_ok (aset_kind o).

(** bin.py:25-36 [Setting.read]. *)
Definition rsetting (i : ictx) : reader setting :=
  rtag 2 ;;; rtag 6 ;;;
  name <- rstr (ibo i) ;;
  kind <- rstr (ibo i) ;;
  attr_count <- rs16 (ibo i) ;;
  attr_type <- rs16 (ibo i) ;;
  attributes <- rref i ;;
  ret {| aset_name := name; aset_kind := kind; aset_attr_count := attr_count;
    aset_attr_type := attr_type; aset_attributes := attributes |}.

(** bin.py:38-51 [Setting.write]. *)
Definition wsetting (c : octx) (o : setting) : writer :=
  wu8 2 +++ wu8 6 +++
  wstr (obo c) (aset_name o) +++
  wstr (obo c) (aset_kind o) +++
  ws16 (obo c) (aset_attr_count o) +++
  ws16 (obo c) (aset_attr_type o) +++
  wref c (aset_attributes o).

(** ** BinViewSetting (BVst), bin.py:73-171 *)

(** A dictionary of [columns], bin.py:102-107. *)
Record bin_column := {
  bcol_title : str;
  bcol_format : Z;
  bcol_type : Z;
  bcol_hidden : bool }.

(** [bin_column] with its references renamed by [f]; bin.py:73-171. *)
Definition bin_column_map (f : Z -> Z) (o : bin_column) : bin_column := {|
  bcol_title := bcol_title o;
  bcol_format := bcol_format o;
  bcol_type := bcol_type o;
  bcol_hidden := bcol_hidden o |}.

(** The references of [bin_column]; bin.py:73-171. *)
Definition bin_column_refs (o : bin_column) : list Z :=
  [].

(** What [bin_column] has to satisfy to be stored exactly; bin.py:73-171. *)
Definition bin_column_ok (o : bin_column) : Prop :=
  str_ok (bcol_title o).

(** A dictionary of [format_descriptors], bin.py:116-131. The text may be any. *)
Record format_desc := {
  fdsc_vcid_free_column_id : Z;
  fdsc_format_descriptor : str }.

(** [format_desc] with its references renamed by [f]; bin.py:73-171. *)
Definition format_desc_map (f : Z -> Z) (o : format_desc) : format_desc := {|
  fdsc_vcid_free_column_id := fdsc_vcid_free_column_id o;
  fdsc_format_descriptor := fdsc_format_descriptor o |}.

(** The references of [format_desc]; bin.py:73-171. *)
Definition format_desc_refs (o : format_desc) : list Z :=
  [].

(** What [format_desc] has to satisfy to be stored exactly; bin.py:73-171. *)
Definition format_desc_ok (o : format_desc) : Prop :=
  True.

(** The number of format descriptors is written unsigned and read signed; bin.py:77-80. *)
Record bin_view_setting := {
  bvst_setting : setting;
  bvst_columns : list bin_column;
  bvst_format_descriptors : option (list format_desc) }.

(** [bin_view_setting] with its references renamed by [f]; bin.py:77-80. *)
Definition bin_view_setting_map (f : Z -> Z) (o : bin_view_setting) : bin_view_setting := {|
  bvst_setting := setting_map f (bvst_setting o);
  bvst_columns := map (bin_column_map f) (bvst_columns o);
  bvst_format_descriptors := option_map (fun x => map (format_desc_map f) x) (bvst_format_descriptors o) |}.

(** The references of [bin_view_setting]; bin.py:77-80. *)
Definition bin_view_setting_refs (o : bin_view_setting) : list Z :=
  setting_refs (bvst_setting o)
  ++ flat_map bin_column_refs (bvst_columns o)
  ++ (match bvst_format_descriptors o with Some v => flat_map format_desc_refs v | None => [] end).

(** What [bin_view_setting] has to satisfy to be stored exactly; bin.py:77-80. *)
Definition bin_view_setting_ok (o : bin_view_setting) : Prop :=
  setting_ok (bvst_setting o) /\
  Forall bin_column_ok (bvst_columns o) /\
  opt_ok (Forall format_desc_ok) (bvst_format_descriptors o) /\
  opt_ok (fun l => len l < 32768) (bvst_format_descriptors o).

(** [self.format_descriptors = v]; bin.py:114. *)
Definition set_bvst_format_descriptors (o : bin_view_setting) (v : option (list format_desc))
  : bin_view_setting := {|
  bvst_setting := bvst_setting o;
  bvst_columns := bvst_columns o;
  bvst_format_descriptors := v |}.

(** bin.py:101-107. *)
Definition rbin_column (i : ictx) : reader bin_column :=
  title <- rstr (ibo i) ;;
  format <- rs16 (ibo i) ;;
  type <- rs16 (ibo i) ;;
  hidden <- rbool ;;
  ret {| bcol_title := title; bcol_format := format; bcol_type := type;
    bcol_hidden := hidden |}.

(** bin.py:115-131; four bytes are skipped before the text. *)
Definition rformat_desc (i : ictx) : reader format_desc :=
  rtag 69 ;;;
  vcid_free_column_id <- rs16 (ibo i) ;;
  rtag 71 ;;;
  format_descriptor_size <- rs32 (ibo i) ;;
  rtag 76 ;;;
  _ <- rs32 (ibo i) ;;
  data <- fread format_descriptor_size ;;
  format_descriptor <- of_result (utf8_decode data) ;;
  ret {| fdsc_vcid_free_column_id := vcid_free_column_id;
    fdsc_format_descriptor := format_descriptor |}.

(** bin.py:109-133. *)
Definition bin_view_setting_ext (i : ictx) (tag : Z) (o : bin_view_setting)
  : reader bin_view_setting :=
  if tag =? 1 then
  rtag 69 ;;; n <- rs16 (ibo i) ;; rassert (0 <=? n) ;;;
  l <- rlist (Z.to_nat n) (rformat_desc i) ;;
  ret (set_bvst_format_descriptors o (Some l))
  else fail ValueErr.

(** bin.py:92-135. *)
Definition rbin_view_setting (i : ictx) : reader bin_view_setting :=
  setting <- rsetting i ;;
  rtag 2 ;;; rtag 10 ;;;
  column_count <- ru16 (ibo i) ;;
  columns <- rlist (Z.to_nat column_count) (rbin_column i) ;;
  o <- iter_ext (bin_view_setting_ext i) {| bvst_setting := setting; bvst_columns := columns;
    bvst_format_descriptors := None |} ;;
  rtag 3 ;;;
  ret o.

(** bin.py:145-149. *)
Definition wbin_column (c : octx) (o : bin_column) : writer :=
  wstr (obo c) (bcol_title o) +++
  ws16 (obo c) (bcol_format o) +++
  ws16 (obo c) (bcol_type o) +++
  wbool (bcol_hidden o).

(** bin.py:157-169. *)
Definition wformat_desc (c : octx) (o : format_desc) : writer :=
  wu8 69 +++
  ws16 (obo c) (fdsc_vcid_free_column_id o) +++
  match utf8_encode (fdsc_format_descriptor o) with
  | Err e => Err e
  | Ok format_data =>
    wu8 71 +++
    ws32 (obo c) (len format_data) +++
    wu8 76 +++
    ws16 (obo c) (len format_data + 2) +++
    ws16 (obo c) 0 +++
    wbytes format_data
  end.

(** bin.py:154-157. *)
Definition wformat_descs (c : octx) (l : list format_desc) : writer :=
  wu8 69 +++ wu16 (obo c) (len l) +++ wlist (wformat_desc c) l.

(** bin.py:137-171. *)
Definition wbin_view_setting (c : octx) (o : bin_view_setting) : writer :=
  wsetting c (bvst_setting o) +++
  wu8 2 +++ wu8 10 +++
  wu16 (obo c) (len (bvst_columns o)) +++
  wlist (wbin_column c) (bvst_columns o) +++
  wopt (bvst_format_descriptors o) (fun l => wext 1 (wformat_descs c l)) +++
  wu8 3.

(** ** Bin (ABIN), bin.py:195-370 *)

(** bin.py:173-183. [user_placed] is taken to be a Boolean. *)
Record bin_item := {
  item_mob : Z;
  item_x : Z;
  item_y : Z;
  item_keyframe : Z;
  item_user_placed : bool }.

(** [bin_item] with its references renamed by [f]; bin.py:176-182. *)
Definition bin_item_map (f : Z -> Z) (o : bin_item) : bin_item := {|
  item_mob := f (item_mob o);
  item_x := item_x o;
  item_y := item_y o;
  item_keyframe := item_keyframe o;
  item_user_placed := item_user_placed o |}.

(** The references of [bin_item]; bin.py:176-182. *)
Definition bin_item_refs (o : bin_item) : list Z :=
  [item_mob o].

(** What [bin_item] has to satisfy to be stored exactly; bin.py:176-182. *)
Definition bin_item_ok (o : bin_item) : Prop :=
  True.

(** bin.py:185-193. *)
Record sift_item := {
  sift_method : Z;
  sift_string : str;
  sift_column : str }.

(** [sift_item] with its references renamed by [f]; bin.py:188-192. *)
Definition sift_item_map (f : Z -> Z) (o : sift_item) : sift_item := {|
  sift_method := sift_method o;
  sift_string := sift_string o;
  sift_column := sift_column o |}.

(** The references of [sift_item]; bin.py:188-192. *)
Definition sift_item_refs (o : sift_item) : list Z :=
  [].

(** What [sift_item] has to satisfy to be stored exactly; bin.py:188-192. *)
Definition sift_item_ok (o : sift_item) : Prop :=
  str_ok (sift_string o) /\
  str_ok (sift_column o).

(** A pair of [sort_columns], bin.py:288-290. *)
Record sort_column := {
  scol_direction : Z;
  scol_name : str }.

(** [sort_column] with its references renamed by [f]; bin.py:195-370. *)
Definition sort_column_map (f : Z -> Z) (o : sort_column) : sort_column := {|
  scol_direction := scol_direction o;
  scol_name := scol_name o |}.

(** The references of [sort_column]; bin.py:195-370. *)
Definition sort_column_refs (o : sort_column) : list Z :=
  [].

(** What [sort_column] has to satisfy to be stored exactly; bin.py:195-370. *)
Definition sort_column_ok (o : sort_column) : Prop :=
  str_ok (scol_name o).

(** The writer takes the first six of [sifted_settings]. A bin of more than 65535 items is
    written, and so comes back, as a large bin; bin.py:199-218. *)
Record bin := {
  abin_large_bin : bool;
  abin_view_setting : Z;
  abin_uid : Z;
  abin_items : list bin_item;
  abin_display_mask : Z;
  abin_display_mode : Z;
  abin_sifted : bool;
  abin_sifted_settings : list sift_item;
  abin_sort_columns : list sort_column;
  abin_mac_font : Z;
  abin_mac_font_size : Z;
  abin_mac_image_scale : Z;
  abin_home_rect : rect;
  abin_background_color : rgb;
  abin_forground_color : rgb;
  abin_ql_image_scale : Z;
  abin_attributes : Z;
  abin_was_iconic : bool }.

(** [bin] with its references renamed by [f]; bin.py:199-218. *)
Definition bin_map (f : Z -> Z) (o : bin) : bin := {|
  abin_large_bin := abin_large_bin o;
  abin_view_setting := f (abin_view_setting o);
  abin_uid := abin_uid o;
  abin_items := map (bin_item_map f) (abin_items o);
  abin_display_mask := abin_display_mask o;
  abin_display_mode := abin_display_mode o;
  abin_sifted := abin_sifted o;
  abin_sifted_settings := map (sift_item_map f) (abin_sifted_settings o);
  abin_sort_columns := map (sort_column_map f) (abin_sort_columns o);
  abin_mac_font := abin_mac_font o;
  abin_mac_font_size := abin_mac_font_size o;
  abin_mac_image_scale := abin_mac_image_scale o;
  abin_home_rect := abin_home_rect o;
  abin_background_color := abin_background_color o;
  abin_forground_color := abin_forground_color o;
  abin_ql_image_scale := abin_ql_image_scale o;
  abin_attributes := f (abin_attributes o);
  abin_was_iconic := abin_was_iconic o |}.

(** The references of [bin]; bin.py:199-218. *)
Definition bin_refs (o : bin) : list Z :=
  [abin_view_setting o]
  ++ flat_map bin_item_refs (abin_items o)
  ++ flat_map sift_item_refs (abin_sifted_settings o)
  ++ flat_map sort_column_refs (abin_sort_columns o)
  ++ [abin_attributes o].

(** What [bin] has to satisfy to be stored exactly; bin.py:199-218. *)
Definition bin_ok (o : bin) : Prop :=
  Forall bin_item_ok (abin_items o) /\
  Forall sift_item_ok (abin_sifted_settings o) /\
  Forall sort_column_ok (abin_sort_columns o) /\
  length (abin_sifted_settings o) = 6%nat /\
  (abin_large_bin o = false -> len (abin_items o) <= 0xffff).

(** bin.py:261-268. *)
Definition rbin_item (i : ictx) : reader bin_item :=
  mob <- rref i ;;
  x <- rs16 (ibo i) ;;
  y <- rs16 (ibo i) ;;
  keyframe <- rs32 (ibo i) ;;
  user_placed <- rbool ;;
  ret {| item_mob := mob; item_x := x; item_y := y; item_keyframe := keyframe;
    item_user_placed := user_placed |}.

(** bin.py:278-283. *)
Definition rsift_item (i : ictx) : reader sift_item :=
  method <- rs16 (ibo i) ;;
  string <- rstr (ibo i) ;;
  column <- rstr (ibo i) ;;
  ret {| sift_method := method; sift_string := string; sift_column := column |}.

(** bin.py:287-290. *)
Definition rsort_column (i : ictx) : reader sort_column :=
  direction <- ru8 ;;
  name <- rstr (ibo i) ;;
  ret {| scol_direction := direction; scol_name := name |}.

(** bin.py:252-257. *)
Definition robject_count (i : ictx) (version : Z) : reader Z :=
  if version =? 0x0e then ru16 (ibo i) else ru32 (ibo i).

(** bin.py:237-305, without the closing tag that only a plain ABIN object has. *)
Definition rbin_base (i : ictx) : reader bin :=
  rtag 2 ;;;
  version <- ru8 ;;
  rassert ((version =? 0x0e) || (version =? 0x0f)) ;;;
  view_setting <- rref i ;;
  uid <- ru64 (ibo i) ;;
  object_count <- robject_count i version ;;
  items <- rlist (Z.to_nat object_count) (rbin_item i) ;;
  display_mask <- rs32 (ibo i) ;;
  display_mode <- rs16 (ibo i) ;;
  sifted <- rbool ;;
  sifted_settings <- rlist 6 (rsift_item i) ;;
  sort_column_count <- rs16 (ibo i) ;;
  sort_columns <- rlist (Z.to_nat sort_column_count) (rsort_column i) ;;
  mac_font <- rs16 (ibo i) ;;
  mac_font_size <- rs16 (ibo i) ;;
  mac_image_scale <- rs16 (ibo i) ;;
  home_rect <- rrect (ibo i) ;;
  background_color <- rrgb (ibo i) ;;
  forground_color <- rrgb (ibo i) ;;
  ql_image_scale <- rs16 (ibo i) ;;
  attributes <- rref i ;;
  was_iconic <- rbool ;;
  ret {| abin_large_bin := version =? 0x0f; abin_view_setting := view_setting; abin_uid := uid;
    abin_items := items; abin_display_mask := display_mask; abin_display_mode := display_mode;
    abin_sifted := sifted; abin_sifted_settings := sifted_settings;
    abin_sort_columns := sort_columns; abin_mac_font := mac_font;
    abin_mac_font_size := mac_font_size; abin_mac_image_scale := mac_image_scale;
    abin_home_rect := home_rect; abin_background_color := background_color;
    abin_forground_color := forground_color; abin_ql_image_scale := ql_image_scale;
    abin_attributes := attributes; abin_was_iconic := was_iconic |}.

(** bin.py:332-337. *)
Definition wbin_item (c : octx) (o : bin_item) : writer :=
  wref c (item_mob o) +++
  ws16 (obo c) (item_x o) +++
  ws16 (obo c) (item_y o) +++
  ws32 (obo c) (item_keyframe o) +++
  wu8 (if item_user_placed o then 1 else 0).

(** bin.py:343-347. *)
Definition wsift_item (c : octx) (o : sift_item) : writer :=
  ws16 (obo c) (sift_method o) +++
  wstr (obo c) (sift_string o) +++
  wstr (obo c) (sift_column o).

(** bin.py:352-354. *)
Definition wsort_column (c : octx) (o : sort_column) : writer :=
  wu8 (scol_direction o) +++
  wstr (obo c) (scol_name o).

(** [for i in range(n): w(l[i])], bin.py:343-344. *)
Fixpoint wfirst {A} (n : nat) (w : A -> writer) (l : list A) : writer :=
  match n with
  | O => wnil
  | S n' => match l with [] => Err IndexErr | x :: l' => w x +++ wfirst n' w l' end
  end.

(** bin.py:316-318, 327: whether the large form is written. *)
Definition large_form (o : bin) : bool := abin_large_bin o || (0xffff <? len (abin_items o)).

(** bin.py:327-330. *)
Definition wobject_count (c : octx) (o : bin) : writer :=
  if large_form o then wu32 (obo c) (len (abin_items o)) else wu16 (obo c) (len (abin_items o)).

(** bin.py:310-367. *)
Definition wbin_base (c : octx) (o : bin) : writer :=
  wu8 2 +++
  wu8 (if large_form o then 0x0f else 0x0e) +++
  wref c (abin_view_setting o) +++
  wu64 (obo c) (abin_uid o) +++
  wobject_count c o +++
  wlist (wbin_item c) (abin_items o) +++
  ws32 (obo c) (abin_display_mask o) +++
  ws16 (obo c) (abin_display_mode o) +++
  wbool (abin_sifted o) +++
  wfirst 6 (wsift_item c) (abin_sifted_settings o) +++
  ws16 (obo c) (len (abin_sort_columns o)) +++
  wlist (wsort_column c) (abin_sort_columns o) +++
  ws16 (obo c) (abin_mac_font o) +++
  ws16 (obo c) (abin_mac_font_size o) +++
  ws16 (obo c) (abin_mac_image_scale o) +++
  wrect (obo c) (abin_home_rect o) +++
  wrgb (obo c) (abin_background_color o) +++
  wrgb (obo c) (abin_forground_color o) +++
  ws16 (obo c) (abin_ql_image_scale o) +++
  wref c (abin_attributes o) +++
  wbool (abin_was_iconic o).

(** bin.py:307-308, 369-370: class ABIN itself. *)
Definition rbin (i : ictx) : reader bin := o <- rbin_base i ;; rtag 3 ;;; ret o.

(** bin.py:310-370 [Bin.write]. *)
Definition wbin (c : octx) (o : bin) : writer := wbin_base c o +++ wu8 3.

(** ** BinFirst (BINF), bin.py:412-440 (read 421-429, write 431-440) *)

(** bin.py:416-418: the properties. *)
Record bin_first := {
  binf_bin : bin;
  binf_unknown_s32 : Z }.

(** [bin_first] with its references renamed by [f]; bin.py:416-418. *)
Definition bin_first_map (f : Z -> Z) (o : bin_first) : bin_first := {|
  binf_bin := bin_map f (binf_bin o);
  binf_unknown_s32 := binf_unknown_s32 o |}.

(** The references of [bin_first]; bin.py:416-418. *)
Definition bin_first_refs (o : bin_first) : list Z :=
  bin_refs (binf_bin o).

(** What [bin_first] has to satisfy to be stored exactly; bin.py:416-418. *)
Definition bin_first_ok (o : bin_first) : Prop :=
  bin_ok (binf_bin o).

(** bin.py:421-429 [BinFirst.read]. *)
Definition rbin_first (i : ictx) : reader bin_first :=
  bin <- rbin_base i ;;
  rtag 2 ;;; rtag 1 ;;;
  unknown_s32 <- rs32 (ibo i) ;;
  rtag 3 ;;;
  ret {| binf_bin := bin; binf_unknown_s32 := unknown_s32 |}.

(** bin.py:431-440 [BinFirst.write]. *)
Definition wbin_first (c : octx) (o : bin_first) : writer :=
  wbin_base c (binf_bin o) +++
  wu8 2 +++ wu8 1 +++
  ws32 (obo c) (binf_unknown_s32 o) +++
  wu8 3.
