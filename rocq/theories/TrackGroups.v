(** Model of the readers and writers of src/avb/trackgroups.py. *)
From Coq Require Import ZArith List Bool.
From Verif Require Import Base IoCtx Text Exp10 MobId Storable Components.
Import ListNotations.
Open Scope Z_scope.

(** ** Track, trackgroups.py:29-85 *)

(** [None] is a property that is not set; trackgroups.py:32-44. *)
Record track := {
  trak_index : option Z;
  trak_attributes : option Z;
  trak_session_attr : option Z;
  trak_component : option Z;
  trak_filler_proxy : option Z;
  trak_bob_data : option Z;
  trak_control_code : option Z;
  trak_control_sub_code : option Z;
  trak_start_pos : option Z;
  trak_read_only : option bool;
  trak_lock_number : option Z }.

(** [track] as it is read back: its references renamed by [f], and [trak_lock_number] 0
    if it had none (the writer then stores 0); trackgroups.py:32-44. *)
Definition track_map (f : Z -> Z) (o : track) : track := {|
  trak_index := trak_index o;
  trak_attributes := option_map f (trak_attributes o);
  trak_session_attr := option_map f (trak_session_attr o);
  trak_component := option_map f (trak_component o);
  trak_filler_proxy := option_map f (trak_filler_proxy o);
  trak_bob_data := option_map f (trak_bob_data o);
  trak_control_code := trak_control_code o;
  trak_control_sub_code := trak_control_sub_code o;
  trak_start_pos := trak_start_pos o;
  trak_read_only := trak_read_only o;
  trak_lock_number := Some (match trak_lock_number o with Some v => v | None => 0 end) |}.

(** The references of [track]; trackgroups.py:32-44. *)
Definition track_refs (o : track) : list Z :=
  (match trak_attributes o with Some v => [v] | None => [] end)
  ++ (match trak_session_attr o with Some v => [v] | None => [] end)
  ++ (match trak_component o with Some v => [v] | None => [] end)
  ++ (match trak_filler_proxy o with Some v => [v] | None => [] end)
  ++ (match trak_bob_data o with Some v => [v] | None => [] end).

(** What [track] has to satisfy to be stored exactly; trackgroups.py:32-44. *)
Definition track_ok (o : track) : Prop :=
  True.

(** [self.index = v]; trackgroups.py:29-85. *)
Definition set_trak_index (o : track) (v : option Z) : track := {|
  trak_index := v;
  trak_attributes := trak_attributes o;
  trak_session_attr := trak_session_attr o;
  trak_component := trak_component o;
  trak_filler_proxy := trak_filler_proxy o;
  trak_bob_data := trak_bob_data o;
  trak_control_code := trak_control_code o;
  trak_control_sub_code := trak_control_sub_code o;
  trak_start_pos := trak_start_pos o;
  trak_read_only := trak_read_only o;
  trak_lock_number := trak_lock_number o |}.

(** [self.attributes = v]; trackgroups.py:29-85. *)
Definition set_trak_attributes (o : track) (v : option Z) : track := {|
  trak_index := trak_index o;
  trak_attributes := v;
  trak_session_attr := trak_session_attr o;
  trak_component := trak_component o;
  trak_filler_proxy := trak_filler_proxy o;
  trak_bob_data := trak_bob_data o;
  trak_control_code := trak_control_code o;
  trak_control_sub_code := trak_control_sub_code o;
  trak_start_pos := trak_start_pos o;
  trak_read_only := trak_read_only o;
  trak_lock_number := trak_lock_number o |}.

(** [self.session_attr = v]; trackgroups.py:29-85. *)
Definition set_trak_session_attr (o : track) (v : option Z) : track := {|
  trak_index := trak_index o;
  trak_attributes := trak_attributes o;
  trak_session_attr := v;
  trak_component := trak_component o;
  trak_filler_proxy := trak_filler_proxy o;
  trak_bob_data := trak_bob_data o;
  trak_control_code := trak_control_code o;
  trak_control_sub_code := trak_control_sub_code o;
  trak_start_pos := trak_start_pos o;
  trak_read_only := trak_read_only o;
  trak_lock_number := trak_lock_number o |}.

(** [self.component = v]; trackgroups.py:29-85. *)
Definition set_trak_component (o : track) (v : option Z) : track := {|
  trak_index := trak_index o;
  trak_attributes := trak_attributes o;
  trak_session_attr := trak_session_attr o;
  trak_component := v;
  trak_filler_proxy := trak_filler_proxy o;
  trak_bob_data := trak_bob_data o;
  trak_control_code := trak_control_code o;
  trak_control_sub_code := trak_control_sub_code o;
  trak_start_pos := trak_start_pos o;
  trak_read_only := trak_read_only o;
  trak_lock_number := trak_lock_number o |}.

(** [self.filler_proxy = v]; trackgroups.py:29-85. *)
Definition set_trak_filler_proxy (o : track) (v : option Z) : track := {|
  trak_index := trak_index o;
  trak_attributes := trak_attributes o;
  trak_session_attr := trak_session_attr o;
  trak_component := trak_component o;
  trak_filler_proxy := v;
  trak_bob_data := trak_bob_data o;
  trak_control_code := trak_control_code o;
  trak_control_sub_code := trak_control_sub_code o;
  trak_start_pos := trak_start_pos o;
  trak_read_only := trak_read_only o;
  trak_lock_number := trak_lock_number o |}.

(** [self.bob_data = v]; trackgroups.py:29-85. *)
Definition set_trak_bob_data (o : track) (v : option Z) : track := {|
  trak_index := trak_index o;
  trak_attributes := trak_attributes o;
  trak_session_attr := trak_session_attr o;
  trak_component := trak_component o;
  trak_filler_proxy := trak_filler_proxy o;
  trak_bob_data := v;
  trak_control_code := trak_control_code o;
  trak_control_sub_code := trak_control_sub_code o;
  trak_start_pos := trak_start_pos o;
  trak_read_only := trak_read_only o;
  trak_lock_number := trak_lock_number o |}.

(** [self.control_code = v]; trackgroups.py:29-85. *)
Definition set_trak_control_code (o : track) (v : option Z) : track := {|
  trak_index := trak_index o;
  trak_attributes := trak_attributes o;
  trak_session_attr := trak_session_attr o;
  trak_component := trak_component o;
  trak_filler_proxy := trak_filler_proxy o;
  trak_bob_data := trak_bob_data o;
  trak_control_code := v;
  trak_control_sub_code := trak_control_sub_code o;
  trak_start_pos := trak_start_pos o;
  trak_read_only := trak_read_only o;
  trak_lock_number := trak_lock_number o |}.

(** [self.control_sub_code = v]; trackgroups.py:29-85. *)
Definition set_trak_control_sub_code (o : track) (v : option Z) : track := {|
  trak_index := trak_index o;
  trak_attributes := trak_attributes o;
  trak_session_attr := trak_session_attr o;
  trak_component := trak_component o;
  trak_filler_proxy := trak_filler_proxy o;
  trak_bob_data := trak_bob_data o;
  trak_control_code := trak_control_code o;
  trak_control_sub_code := v;
  trak_start_pos := trak_start_pos o;
  trak_read_only := trak_read_only o;
  trak_lock_number := trak_lock_number o |}.

(** [self.start_pos = v]; trackgroups.py:29-85. *)
Definition set_trak_start_pos (o : track) (v : option Z) : track := {|
  trak_index := trak_index o;
  trak_attributes := trak_attributes o;
  trak_session_attr := trak_session_attr o;
  trak_component := trak_component o;
  trak_filler_proxy := trak_filler_proxy o;
  trak_bob_data := trak_bob_data o;
  trak_control_code := trak_control_code o;
  trak_control_sub_code := trak_control_sub_code o;
  trak_start_pos := v;
  trak_read_only := trak_read_only o;
  trak_lock_number := trak_lock_number o |}.

(** [self.read_only = v]; trackgroups.py:29-85. *)
Definition set_trak_read_only (o : track) (v : option bool) : track := {|
  trak_index := trak_index o;
  trak_attributes := trak_attributes o;
  trak_session_attr := trak_session_attr o;
  trak_component := trak_component o;
  trak_filler_proxy := trak_filler_proxy o;
  trak_bob_data := trak_bob_data o;
  trak_control_code := trak_control_code o;
  trak_control_sub_code := trak_control_sub_code o;
  trak_start_pos := trak_start_pos o;
  trak_read_only := v;
  trak_lock_number := trak_lock_number o |}.

(** [self.lock_number = v]; trackgroups.py:29-85. *)
Definition set_trak_lock_number (o : track) (v : option Z) : track := {|
  trak_index := trak_index o;
  trak_attributes := trak_attributes o;
  trak_session_attr := trak_session_attr o;
  trak_component := trak_component o;
  trak_filler_proxy := trak_filler_proxy o;
  trak_bob_data := trak_bob_data o;
  trak_control_code := trak_control_code o;
  trak_control_sub_code := trak_control_sub_code o;
  trak_start_pos := trak_start_pos o;
  trak_read_only := trak_read_only o;
  trak_lock_number := v |}.

(** trackgroups.py:16-25: the bit of each optional part. *)
Definition label_bit := 0.
(** A bit of the flags of a track, trackgroups.py:15-24. *)
Definition attributes_bit := 1.
(** A bit of the flags of a track, trackgroups.py:15-24. *)
Definition component_bit := 2.
(** A bit of the flags of a track, trackgroups.py:15-24. *)
Definition filler_proxy_bit := 3.
(** A bit of the flags of a track, trackgroups.py:15-24. *)
Definition bob_data_bit := 4.
(** A bit of the flags of a track, trackgroups.py:15-24. *)
Definition control_code_bit := 5.
(** A bit of the flags of a track, trackgroups.py:15-24. *)
Definition control_sub_code_bit := 6.
(** A bit of the flags of a track, trackgroups.py:15-24. *)
Definition start_pos_bit := 7.
(** A bit of the flags of a track, trackgroups.py:15-24. *)
Definition read_only_bit := 8.
(** A bit of the flags of a track, trackgroups.py:15-24. *)
Definition session_attr_bit := 9.

(** trackgroups.py:27. *)
Definition unknown_flags := 0xFC00.

(** ['index' in self.property_data] and so on, trackgroups.py:55-83. *)
Definition is_some {A} (o : option A) : bool := match o with Some _ => true | None => false end.

(** [flags |= ...] if there is such a property, trackgroups.py:55-83. *)
Definition flag_if (b : bool) (bit : Z) : Z := if b then Z.shiftl 1 bit else 0.

(** trackgroups.py:52-85 [Track.flags]. *)
Definition track_flags (t : track) : Z :=
  Z.lor (flag_if (is_some (trak_index t)) label_bit) (
  Z.lor (flag_if (is_some (trak_attributes t)) attributes_bit) (
  Z.lor (flag_if (is_some (trak_session_attr t)) session_attr_bit) (
  Z.lor (flag_if (is_some (trak_component t)) component_bit) (
  Z.lor (flag_if (is_some (trak_filler_proxy t)) filler_proxy_bit) (
  Z.lor (flag_if (is_some (trak_bob_data t)) bob_data_bit) (
  Z.lor (flag_if (is_some (trak_control_code t)) control_code_bit) (
  Z.lor (flag_if (is_some (trak_control_sub_code t)) control_sub_code_bit) (
  Z.lor (flag_if (is_some (trak_start_pos t)) start_pos_bit)
        (flag_if (is_some (trak_read_only t)) read_only_bit))))))))).

(** A part that is present when its flag is set (trackgroups.py:124-152). *)
Definition rflag {A} (flags bit : Z) (r : reader A) : reader (option A) :=
  if Z.testbit flags bit then v <- r ;; ret (Some v) else ret None.

(** A property written if its flag is set, trackgroups.py:187-215. *)
Definition wflag {A} (flags bit : Z) (o : option A) (w : A -> writer) : writer :=
  if Z.testbit flags bit then match o with Some v => w v | None => Err AttributeErr end
  else wnil.

(** trackgroups.py:121-159. *)
Definition rtrack (i : ictx) : reader track :=
  flags <- ru16 (ibo i) ;;
  index <- rflag flags label_bit (rs16 (ibo i)) ;;
  attributes <- rflag flags attributes_bit (rref i) ;;
  session_attr <- rflag flags session_attr_bit (rref i) ;;
  component <- rflag flags component_bit (rref i) ;;
  filler_proxy <- rflag flags filler_proxy_bit (rref i) ;;
  bob_data <- rflag flags bob_data_bit (rref i) ;;
  control_code <- rflag flags control_code_bit (rs16 (ibo i)) ;;
  control_sub_code <- rflag flags control_sub_code_bit (rs16 (ibo i)) ;;
  start_pos <- rflag flags start_pos_bit (rs32 (ibo i)) ;;
  read_only <- rflag flags read_only_bit rbool ;;
  let t := {|
    trak_index := index; trak_attributes := attributes; trak_session_attr := session_attr;
    trak_component := component; trak_filler_proxy := filler_proxy; trak_bob_data := bob_data;
    trak_control_code := control_code; trak_control_sub_code := control_sub_code;
    trak_start_pos := start_pos; trak_read_only := read_only; trak_lock_number := None |} in
  if negb (Z.land flags unknown_flags =? 0) then fail ValueErr
  else rassert (track_flags t =? flags) ;;; ret t.

(** trackgroups.py:182-215. *)
Definition wtrack (c : octx) (t : track) : writer :=
  let flags := track_flags t in
  if negb (Z.land flags unknown_flags =? 0) then Err ValueErr
  else
    wu16 (obo c) flags +++
    wflag flags label_bit (trak_index t) (ws16 (obo c)) +++
    wflag flags attributes_bit (trak_attributes t) (wref c) +++
    wflag flags session_attr_bit (trak_session_attr t) (wref c) +++
    wflag flags component_bit (trak_component t) (wref c) +++
    wflag flags filler_proxy_bit (trak_filler_proxy t) (wref c) +++
    wflag flags bob_data_bit (trak_bob_data t) (wref c) +++
    wflag flags control_code_bit (trak_control_code t) (ws16 (obo c)) +++
    wflag flags control_sub_code_bit (trak_control_sub_code t) (ws16 (obo c)) +++
    wflag flags start_pos_bit (trak_start_pos t) (ws32 (obo c)) +++
    wflag flags read_only_bit (trak_read_only t) wbool.

(** ** TrackGroup, trackgroups.py:88-226 *)

(** trackgroups.py:92-97: the properties. *)
Record track_group := {
  trkg_component : component;
  trkg_mc_mode : Z;
  trkg_length : Z;
  trkg_num_scalars : Z;
  trkg_tracks : list track }.

(** [track_group] with its references renamed by [f]; trackgroups.py:92-97. *)
Definition track_group_map (f : Z -> Z) (o : track_group) : track_group := {|
  trkg_component := component_map f (trkg_component o);
  trkg_mc_mode := trkg_mc_mode o;
  trkg_length := trkg_length o;
  trkg_num_scalars := trkg_num_scalars o;
  trkg_tracks := map (track_map f) (trkg_tracks o) |}.

(** The references of [track_group]; trackgroups.py:92-97. *)
Definition track_group_refs (o : track_group) : list Z :=
  component_refs (trkg_component o)
  ++ flat_map track_refs (trkg_tracks o).

(** What [track_group] has to satisfy to be stored exactly; trackgroups.py:92-97. *)
Definition track_group_ok (o : track_group) : Prop :=
  component_ok (trkg_component o) /\
  Forall track_ok (trkg_tracks o).

(** [self.tracks = v]; trackgroups.py:115. *)
Definition set_trkg_tracks (o : track_group) (v : list track) : track_group := {|
  trkg_component := trkg_component o;
  trkg_mc_mode := trkg_mc_mode o;
  trkg_length := trkg_length o;
  trkg_num_scalars := trkg_num_scalars o;
  trkg_tracks := v |}.

(** trackgroups.py:163-165. *)
Definition rlock (i : ictx) (t : track) : reader track :=
  rtag 69 ;;; v <- rs16 (ibo i) ;; ret (set_trak_lock_number t (Some v)).

(** trackgroups.py:161-167. *)
Definition track_group_ext (i : ictx) (tag : Z) (o : track_group) : reader track_group :=
  if tag =? 1 then
    l <- rmapm (rlock i) (trkg_tracks o) ;; ret (set_trkg_tracks o l)
  else fail ValueErr.

(** trackgroups.py:104-167 [TrackGroup.read]. *)
Definition rtrack_group (i : ictx) : reader track_group :=
  p <- rcomponent i ;;
  rtag 2 ;;; rtag 8 ;;;
  mc_mode <- ru8 ;;
  length <- rs32 (ibo i) ;;
  num_scalars <- rs32 (ibo i) ;;
  track_count <- rs32 (ibo i) ;;
  tracks <- rlist (Z.to_nat track_count) (rtrack i) ;;
  iter_ext (track_group_ext i) {|
    trkg_component := p; trkg_mc_mode := mc_mode; trkg_length := length;
    trkg_num_scalars := num_scalars; trkg_tracks := tracks |}.

(** trackgroups.py:222-226. *)
Definition wlock (c : octx) (t : track) : writer :=
  wu8 69 +++ match trak_lock_number t with
             | Some v => ws16 (obo c) v
             | None => ws16 (obo c) 0
             end.

(** trackgroups.py:169-226 [TrackGroup.write]. *)
Definition wtrack_group (c : octx) (o : track_group) : writer :=
  wcomponent c (trkg_component o) +++
  wu8 2 +++ wu8 8 +++
  wu8 (trkg_mc_mode o) +++
  ws32 (obo c) (trkg_length o) +++
  ws32 (obo c) (trkg_num_scalars o) +++
  ws32 (obo c) (len (trkg_tracks o)) +++
  wlist (wtrack c) (trkg_tracks o) +++
  match trkg_tracks o with
  | [] => wnil
  | _ :: _ => wext 1 (wlist (wlock c) (trkg_tracks o))
  end.

(** ** TrackEffect, trackgroups.py:257-337 *)

(** trackgroups.py:261-275: the properties. *)
Record track_effect := {
  tkfx_group : track_group;
  tkfx_left_length : Z;
  tkfx_right_length : Z;
  tkfx_info_version : Z;
  tkfx_info_current : Z;
  tkfx_info_smooth : Z;
  tkfx_info_color_item : Z;
  tkfx_info_quality : Z;
  tkfx_info_is_reversed : Z;
  tkfx_info_aspect_on : bool;
  tkfx_keyframes : Z;
  tkfx_info_force_software : bool;
  tkfx_info_never_hardware : bool;
  tkfx_trackman : option Z }.

(** [track_effect] with its references renamed by [f]; trackgroups.py:261-275. *)
Definition track_effect_map (f : Z -> Z) (o : track_effect) : track_effect := {|
  tkfx_group := track_group_map f (tkfx_group o);
  tkfx_left_length := tkfx_left_length o;
  tkfx_right_length := tkfx_right_length o;
  tkfx_info_version := tkfx_info_version o;
  tkfx_info_current := tkfx_info_current o;
  tkfx_info_smooth := tkfx_info_smooth o;
  tkfx_info_color_item := tkfx_info_color_item o;
  tkfx_info_quality := tkfx_info_quality o;
  tkfx_info_is_reversed := tkfx_info_is_reversed o;
  tkfx_info_aspect_on := tkfx_info_aspect_on o;
  tkfx_keyframes := f (tkfx_keyframes o);
  tkfx_info_force_software := tkfx_info_force_software o;
  tkfx_info_never_hardware := tkfx_info_never_hardware o;
  tkfx_trackman := option_map f (tkfx_trackman o) |}.

(** The references of [track_effect]; trackgroups.py:261-275. *)
Definition track_effect_refs (o : track_effect) : list Z :=
  track_group_refs (tkfx_group o)
  ++ [tkfx_keyframes o]
  ++ (match tkfx_trackman o with Some v => [v] | None => [] end).

(** What [track_effect] has to satisfy to be stored exactly; trackgroups.py:261-275. *)
Definition track_effect_ok (o : track_effect) : Prop :=
  track_group_ok (tkfx_group o).

(** [self.trackman = v]; trackgroups.py:302. *)
Definition set_tkfx_trackman (o : track_effect) (v : option Z) : track_effect := {|
  tkfx_group := tkfx_group o;
  tkfx_left_length := tkfx_left_length o;
  tkfx_right_length := tkfx_right_length o;
  tkfx_info_version := tkfx_info_version o;
  tkfx_info_current := tkfx_info_current o;
  tkfx_info_smooth := tkfx_info_smooth o;
  tkfx_info_color_item := tkfx_info_color_item o;
  tkfx_info_quality := tkfx_info_quality o;
  tkfx_info_is_reversed := tkfx_info_is_reversed o;
  tkfx_info_aspect_on := tkfx_info_aspect_on o;
  tkfx_keyframes := tkfx_keyframes o;
  tkfx_info_force_software := tkfx_info_force_software o;
  tkfx_info_never_hardware := tkfx_info_never_hardware o;
  tkfx_trackman := v |}.

(** trackgroups.py:299-304. *)
Definition track_effect_ext (i : ictx) (tag : Z) (o : track_effect) : reader track_effect :=
  if tag =? 2 then rtag 72 ;;; v <- rref i ;; ret (set_tkfx_trackman o (Some v))
  else fail ValueErr.

(** trackgroups.py:278-307 [TrackEffect.read], without the closing tag that only a plain
    TKFX object has. *)
Definition rtrack_effect_base (i : ictx) : reader track_effect :=
  p <- rtrack_group i ;;
  rtag 2 ;;; rtag 6 ;;;
  left_length <- rs32 (ibo i) ;;
  right_length <- rs32 (ibo i) ;;
  info_version <- rs16 (ibo i) ;;
  info_current <- rs32 (ibo i) ;;
  info_smooth <- rs32 (ibo i) ;;
  info_color_item <- rs16 (ibo i) ;;
  info_quality <- rs16 (ibo i) ;;
  info_is_reversed <- rs8 ;;
  info_aspect_on <- rbool ;;
  keyframes <- rref i ;;
  info_force_software <- rbool ;;
  info_never_hardware <- rbool ;;
  iter_ext (track_effect_ext i) {|
    tkfx_group := p; tkfx_left_length := left_length; tkfx_right_length := right_length;
    tkfx_info_version := info_version; tkfx_info_current := info_current;
    tkfx_info_smooth := info_smooth; tkfx_info_color_item := info_color_item;
    tkfx_info_quality := info_quality; tkfx_info_is_reversed := info_is_reversed;
    tkfx_info_aspect_on := info_aspect_on; tkfx_keyframes := keyframes;
    tkfx_info_force_software := info_force_software;
    tkfx_info_never_hardware := info_never_hardware; tkfx_trackman := None |}.

(** trackgroups.py:309-334. *)
Definition wtrack_effect_base (c : octx) (o : track_effect) : writer :=
  wtrack_group c (tkfx_group o) +++
  wu8 2 +++ wu8 6 +++
  ws32 (obo c) (tkfx_left_length o) +++
  ws32 (obo c) (tkfx_right_length o) +++
  ws16 (obo c) (tkfx_info_version o) +++
  ws32 (obo c) (tkfx_info_current o) +++
  ws32 (obo c) (tkfx_info_smooth o) +++
  ws16 (obo c) (tkfx_info_color_item o) +++
  ws16 (obo c) (tkfx_info_quality o) +++
  ws8 (tkfx_info_is_reversed o) +++
  wbool (tkfx_info_aspect_on o) +++
  wref c (tkfx_keyframes o) +++
  wbool (tkfx_info_force_software o) +++
  wbool (tkfx_info_never_hardware o) +++
  wopt (tkfx_trackman o) (fun v => wext 2 (wu8 72 +++ wref c v)).

(** trackgroups.py:306-307, 336-337: class TKFX itself. *)
Definition rtrack_effect (i : ictx) : reader track_effect :=
  o <- rtrack_effect_base i ;; rtag 3 ;;; ret o.

(** trackgroups.py:309-337 [TrackEffect.write]. *)
Definition wtrack_effect (c : octx) (o : track_effect) : writer :=
  wtrack_effect_base c o +++ wu8 3.

(** ** PanVolumeEffect, trackgroups.py:339-403 *)

(** trackgroups.py:343-351: the properties. *)
Record pan_volume_effect := {
  pvol_effect : track_effect;
  pvol_level : Z;
  pvol_pan : Z;
  pvol_suppress_validation : bool;
  pvol_level_set : bool;
  pvol_pan_set : bool;
  pvol_supports_seperate_gain : option Z;
  pvol_is_trim_gain_effect : option Z }.

(** [pan_volume_effect] with its references renamed by [f]; trackgroups.py:343-351. *)
Definition pan_volume_effect_map (f : Z -> Z) (o : pan_volume_effect) : pan_volume_effect := {|
  pvol_effect := track_effect_map f (pvol_effect o);
  pvol_level := pvol_level o;
  pvol_pan := pvol_pan o;
  pvol_suppress_validation := pvol_suppress_validation o;
  pvol_level_set := pvol_level_set o;
  pvol_pan_set := pvol_pan_set o;
  pvol_supports_seperate_gain := pvol_supports_seperate_gain o;
  pvol_is_trim_gain_effect := pvol_is_trim_gain_effect o |}.

(** The references of [pan_volume_effect]; trackgroups.py:343-351. *)
Definition pan_volume_effect_refs (o : pan_volume_effect) : list Z :=
  track_effect_refs (pvol_effect o).

(** What [pan_volume_effect] has to satisfy to be stored exactly; trackgroups.py:343-351. *)
Definition pan_volume_effect_ok (o : pan_volume_effect) : Prop :=
  track_effect_ok (pvol_effect o).

(** [self.supports_seperate_gain = v]; trackgroups.py:370. *)
Definition set_pvol_supports_seperate_gain (o : pan_volume_effect) (v : option Z)
  : pan_volume_effect := {|
  pvol_effect := pvol_effect o;
  pvol_level := pvol_level o;
  pvol_pan := pvol_pan o;
  pvol_suppress_validation := pvol_suppress_validation o;
  pvol_level_set := pvol_level_set o;
  pvol_pan_set := pvol_pan_set o;
  pvol_supports_seperate_gain := v;
  pvol_is_trim_gain_effect := pvol_is_trim_gain_effect o |}.

(** [self.is_trim_gain_effect = v]; trackgroups.py:373. *)
Definition set_pvol_is_trim_gain_effect (o : pan_volume_effect) (v : option Z)
  : pan_volume_effect := {|
  pvol_effect := pvol_effect o;
  pvol_level := pvol_level o;
  pvol_pan := pvol_pan o;
  pvol_suppress_validation := pvol_suppress_validation o;
  pvol_level_set := pvol_level_set o;
  pvol_pan_set := pvol_pan_set o;
  pvol_supports_seperate_gain := pvol_supports_seperate_gain o;
  pvol_is_trim_gain_effect := v |}.

(** trackgroups.py:367-375. *)
Definition pan_volume_effect_ext (i : ictx) (tag : Z) (o : pan_volume_effect)
  : reader pan_volume_effect :=
  if tag =? 1 then
    rtag 71 ;;; v <- rs32 (ibo i) ;; ret (set_pvol_supports_seperate_gain o (Some v))
  else if tag =? 2 then
    rtag 71 ;;; v <- rs32 (ibo i) ;; ret (set_pvol_is_trim_gain_effect o (Some v))
  else fail ValueErr.

(** trackgroups.py:354-377. *)
Definition rpan_volume_effect (i : ictx) : reader pan_volume_effect :=
  p <- rtrack_effect_base i ;;
  rtag 2 ;;; rtag 5 ;;;
  level <- rs32 (ibo i) ;;
  pan <- rs32 (ibo i) ;;
  suppress_validation <- rbool ;;
  level_set <- rbool ;;
  pan_set <- rbool ;;
  o <- iter_ext (pan_volume_effect_ext i) {|
    pvol_effect := p; pvol_level := level; pvol_pan := pan;
    pvol_suppress_validation := suppress_validation; pvol_level_set := level_set;
    pvol_pan_set := pan_set; pvol_supports_seperate_gain := None;
    pvol_is_trim_gain_effect := None |} ;;
  rtag 3 ;;; ret o.

(** trackgroups.py:379-403. *)
Definition wpan_volume_effect (c : octx) (o : pan_volume_effect) : writer :=
  wtrack_effect_base c (pvol_effect o) +++
  wu8 2 +++ wu8 5 +++
  ws32 (obo c) (pvol_level o) +++
  ws32 (obo c) (pvol_pan o) +++
  wbool (pvol_suppress_validation o) +++
  wbool (pvol_level_set o) +++
  wbool (pvol_pan_set o) +++
  wopt (pvol_supports_seperate_gain o) (fun v => wext 1 (wu8 71 +++ ws32 (obo c) v)) +++
  wopt (pvol_is_trim_gain_effect o) (fun v => wext 2 (wu8 71 +++ ws32 (obo c) v)) +++
  wu8 3.

(** ** AudioSuitePluginEffect, trackgroups.py:405-621 *)

(** trackgroups.py:421-433 [ASPIPluginChunk]. *)
Record aspi_chunk := {
  aspc_version : Z;
  aspc_manufacturer_id : Z;
  aspc_product_id : Z;
  aspc_plugin_id : Z;
  aspc_chunk_id : Z;
  aspc_name : str;
  aspc_data : bytes }.

(** [aspi_chunk] with its references renamed by [f]; trackgroups.py:424-432. *)
Definition aspi_chunk_map (f : Z -> Z) (o : aspi_chunk) : aspi_chunk := {|
  aspc_version := aspc_version o;
  aspc_manufacturer_id := aspc_manufacturer_id o;
  aspc_product_id := aspc_product_id o;
  aspc_plugin_id := aspc_plugin_id o;
  aspc_chunk_id := aspc_chunk_id o;
  aspc_name := aspc_name o;
  aspc_data := aspc_data o |}.

(** The references of [aspi_chunk]; trackgroups.py:424-432. *)
Definition aspi_chunk_refs (o : aspi_chunk) : list Z :=
  [].

(** What [aspi_chunk] has to satisfy to be stored exactly; trackgroups.py:424-432. *)
Definition aspi_chunk_ok (o : aspi_chunk) : Prop :=
  str_ok (aspc_name o).

(** trackgroups.py:405-415 [ASPIPlugin]. *)
Record aspi_plugin := {
  aspp_name : str;
  aspp_manufacturer_id : Z;
  aspp_product_id : Z;
  aspp_plugin_id : Z;
  aspp_chunks : list aspi_chunk }.

(** [aspi_plugin] with its references renamed by [f]; trackgroups.py:408-414. *)
Definition aspi_plugin_map (f : Z -> Z) (o : aspi_plugin) : aspi_plugin := {|
  aspp_name := aspp_name o;
  aspp_manufacturer_id := aspp_manufacturer_id o;
  aspp_product_id := aspp_product_id o;
  aspp_plugin_id := aspp_plugin_id o;
  aspp_chunks := map (aspi_chunk_map f) (aspp_chunks o) |}.

(** The references of [aspi_plugin]; trackgroups.py:408-414. *)
Definition aspi_plugin_refs (o : aspi_plugin) : list Z :=
  flat_map aspi_chunk_refs (aspp_chunks o).

(** What [aspi_plugin] has to satisfy to be stored exactly; trackgroups.py:408-414. *)
Definition aspi_plugin_ok (o : aspi_plugin) : Prop :=
  str_ok (aspp_name o) /\
  Forall aspi_chunk_ok (aspp_chunks o).

(** The reader takes exactly one plug-in, the writer any number; trackgroups.py:439-448. *)
Record audio_suite_effect := {
  aspi_effect : track_effect;
  aspi_plugins : list aspi_plugin;
  aspi_mob_id : option mobid;
  aspi_mark_in : option Z;
  aspi_mark_out : option Z;
  aspi_tracks_to_affect : option Z;
  aspi_rendering_mode : option Z;
  aspi_padding_secs : option Z;
  aspi_preset_path : option bytes }.

(** [audio_suite_effect] with its references renamed by [f]; trackgroups.py:439-448. *)
Definition audio_suite_effect_map (f : Z -> Z) (o : audio_suite_effect) : audio_suite_effect := {|
  aspi_effect := track_effect_map f (aspi_effect o);
  aspi_plugins := map (aspi_plugin_map f) (aspi_plugins o);
  aspi_mob_id := aspi_mob_id o;
  aspi_mark_in := aspi_mark_in o;
  aspi_mark_out := aspi_mark_out o;
  aspi_tracks_to_affect := aspi_tracks_to_affect o;
  aspi_rendering_mode := aspi_rendering_mode o;
  aspi_padding_secs := aspi_padding_secs o;
  aspi_preset_path := aspi_preset_path o |}.

(** The references of [audio_suite_effect]; trackgroups.py:439-448. *)
Definition audio_suite_effect_refs (o : audio_suite_effect) : list Z :=
  track_effect_refs (aspi_effect o)
  ++ flat_map aspi_plugin_refs (aspi_plugins o).

(** What [audio_suite_effect] has to satisfy to be stored exactly; trackgroups.py:439-448. *)
Definition audio_suite_effect_ok (o : audio_suite_effect) : Prop :=
  track_effect_ok (aspi_effect o) /\
  Forall aspi_plugin_ok (aspi_plugins o) /\
  opt_ok mobid_wf (aspi_mob_id o) /\
  length (aspi_plugins o) = 1%nat.

(** [self.mob_id = v]; trackgroups.py:522. *)
Definition set_aspi_mob_id (o : audio_suite_effect) (v : option mobid) : audio_suite_effect := {|
  aspi_effect := aspi_effect o;
  aspi_plugins := aspi_plugins o;
  aspi_mob_id := v;
  aspi_mark_in := aspi_mark_in o;
  aspi_mark_out := aspi_mark_out o;
  aspi_tracks_to_affect := aspi_tracks_to_affect o;
  aspi_rendering_mode := aspi_rendering_mode o;
  aspi_padding_secs := aspi_padding_secs o;
  aspi_preset_path := aspi_preset_path o |}.

(** [self.mark_in = v]; trackgroups.py:508. *)
Definition set_aspi_mark_in (o : audio_suite_effect) (v : option Z) : audio_suite_effect := {|
  aspi_effect := aspi_effect o;
  aspi_plugins := aspi_plugins o;
  aspi_mob_id := aspi_mob_id o;
  aspi_mark_in := v;
  aspi_mark_out := aspi_mark_out o;
  aspi_tracks_to_affect := aspi_tracks_to_affect o;
  aspi_rendering_mode := aspi_rendering_mode o;
  aspi_padding_secs := aspi_padding_secs o;
  aspi_preset_path := aspi_preset_path o |}.

(** [self.mark_out = v]; trackgroups.py:511. *)
Definition set_aspi_mark_out (o : audio_suite_effect) (v : option Z) : audio_suite_effect := {|
  aspi_effect := aspi_effect o;
  aspi_plugins := aspi_plugins o;
  aspi_mob_id := aspi_mob_id o;
  aspi_mark_in := aspi_mark_in o;
  aspi_mark_out := v;
  aspi_tracks_to_affect := aspi_tracks_to_affect o;
  aspi_rendering_mode := aspi_rendering_mode o;
  aspi_padding_secs := aspi_padding_secs o;
  aspi_preset_path := aspi_preset_path o |}.

(** [self.tracks_to_affect = v]; trackgroups.py:514. *)
Definition set_aspi_tracks_to_affect (o : audio_suite_effect) (v : option Z)
  : audio_suite_effect := {|
  aspi_effect := aspi_effect o;
  aspi_plugins := aspi_plugins o;
  aspi_mob_id := aspi_mob_id o;
  aspi_mark_in := aspi_mark_in o;
  aspi_mark_out := aspi_mark_out o;
  aspi_tracks_to_affect := v;
  aspi_rendering_mode := aspi_rendering_mode o;
  aspi_padding_secs := aspi_padding_secs o;
  aspi_preset_path := aspi_preset_path o |}.

(** [self.rendering_mode = v]; trackgroups.py:517. *)
Definition set_aspi_rendering_mode (o : audio_suite_effect) (v : option Z)
  : audio_suite_effect := {|
  aspi_effect := aspi_effect o;
  aspi_plugins := aspi_plugins o;
  aspi_mob_id := aspi_mob_id o;
  aspi_mark_in := aspi_mark_in o;
  aspi_mark_out := aspi_mark_out o;
  aspi_tracks_to_affect := aspi_tracks_to_affect o;
  aspi_rendering_mode := v;
  aspi_padding_secs := aspi_padding_secs o;
  aspi_preset_path := aspi_preset_path o |}.

(** [self.padding_secs = v]; trackgroups.py:520. *)
Definition set_aspi_padding_secs (o : audio_suite_effect) (v : option Z)
  : audio_suite_effect := {|
  aspi_effect := aspi_effect o;
  aspi_plugins := aspi_plugins o;
  aspi_mob_id := aspi_mob_id o;
  aspi_mark_in := aspi_mark_in o;
  aspi_mark_out := aspi_mark_out o;
  aspi_tracks_to_affect := aspi_tracks_to_affect o;
  aspi_rendering_mode := aspi_rendering_mode o;
  aspi_padding_secs := v;
  aspi_preset_path := aspi_preset_path o |}.

(** [self.preset_path = v]; trackgroups.py:531. *)
Definition set_aspi_preset_path (o : audio_suite_effect) (v : option bytes)
  : audio_suite_effect := {|
  aspi_effect := aspi_effect o;
  aspi_plugins := aspi_plugins o;
  aspi_mob_id := aspi_mob_id o;
  aspi_mark_in := aspi_mark_in o;
  aspi_mark_out := aspi_mark_out o;
  aspi_tracks_to_affect := aspi_tracks_to_affect o;
  aspi_rendering_mode := aspi_rendering_mode o;
  aspi_padding_secs := aspi_padding_secs o;
  aspi_preset_path := v |}.

(** trackgroups.py:478-492. *)
Definition raspi_chunk (i : ictx) : reader aspi_chunk :=
  chunk_size <- rs32 (ibo i) ;;
  rassert (0 <=? chunk_size) ;;;
  version <- rs32 (ibo i) ;;
  manufacturer_id <- ru32 (ibo i) ;;
  product_id <- ru32 (ibo i) ;;
  plugin_id <- ru32 (ibo i) ;;
  chunk_id <- ru32 (ibo i) ;;
  name <- rstr (ibo i) ;;
  data <- fread chunk_size ;;
  ret {| aspc_version := version; aspc_manufacturer_id := manufacturer_id;
         aspc_product_id := product_id; aspc_plugin_id := plugin_id;
         aspc_chunk_id := chunk_id; aspc_name := name; aspc_data := data |}.

(** trackgroups.py:464-492. *)
Definition raspi_plugin (i : ictx) : reader aspi_plugin :=
  name <- rstr (ibo i) ;;
  manufacturer_id <- ru32 (ibo i) ;;
  product_id <- ru32 (ibo i) ;;
  plugin_id <- ru32 (ibo i) ;;
  num_of_chunks <- rs32 (ibo i) ;;
  rassert (0 <=? num_of_chunks) ;;;
  chunks <- rlist (Z.to_nat num_of_chunks) (raspi_chunk i) ;;
  ret {| aspp_name := name; aspp_manufacturer_id := manufacturer_id;
         aspp_product_id := product_id; aspp_plugin_id := plugin_id; aspp_chunks := chunks |}.

(** trackgroups.py:525-533. *)
Definition rpreset_path (i : ictx) : reader bytes :=
  rtag 72 ;;;
  preset_path_length <- ru32 (ibo i) ;;
  if 0 <? preset_path_length then
    rtag 65 ;;;
    length <- ru32 (ibo i) ;;
    rassert (preset_path_length =? length) ;;;
    fread length
  else ret [].

(** trackgroups.py:499-535. *)
Definition audio_suite_effect_ext (i : ictx) (tag : Z) (o : audio_suite_effect)
  : reader audio_suite_effect :=
  if tag =? 1 then
    rtag 71 ;;; _ <- rs32 (ibo i) ;; rtag 71 ;;; _ <- rs32 (ibo i) ;; ret o
  else if tag =? 2 then
    rtag 77 ;;; v <- rs64 (ibo i) ;; ret (set_aspi_mark_in o (Some v))
  else if tag =? 3 then
    rtag 77 ;;; v <- rs64 (ibo i) ;; ret (set_aspi_mark_out o (Some v))
  else if tag =? 4 then
    rtag 72 ;;; v <- rs32 (ibo i) ;; ret (set_aspi_tracks_to_affect o (Some v))
  else if tag =? 5 then
    rtag 71 ;;; v <- rs32 (ibo i) ;; ret (set_aspi_rendering_mode o (Some v))
  else if tag =? 6 then
    rtag 71 ;;; v <- rs32 (ibo i) ;; ret (set_aspi_padding_secs o (Some v))
  else if tag =? 8 then
    v <- rmobid (ibo i) ;; ret (set_aspi_mob_id o (Some v))
  else if tag =? 9 then
    v <- rpreset_path i ;; ret (set_aspi_preset_path o (Some v))
  else fail ValueErr.

(** trackgroups.py:451-537. *)
Definition raudio_suite_effect (i : ictx) : reader audio_suite_effect :=
  p <- rtrack_effect_base i ;;
  rtag 2 ;;; rtag 1 ;;;
  number_of_plugins <- rs32 (ibo i) ;;
  rassert (number_of_plugins =? 1) ;;;
  plugin <- raspi_plugin i ;;
  o <- iter_ext (audio_suite_effect_ext i) {|
    aspi_effect := p; aspi_plugins := [plugin]; aspi_mob_id := None; aspi_mark_in := None;
    aspi_mark_out := None; aspi_tracks_to_affect := None; aspi_rendering_mode := None;
    aspi_padding_secs := None; aspi_preset_path := None |} ;;
  rtag 3 ;;; ret o.

(** trackgroups.py:556-566. *)
Definition waspi_chunk (c : octx) (o : aspi_chunk) : writer :=
  ws32 (obo c) (len (aspc_data o)) +++
  ws32 (obo c) (aspc_version o) +++
  wu32 (obo c) (aspc_manufacturer_id o) +++
  wu32 (obo c) (aspc_product_id o) +++
  wu32 (obo c) (aspc_plugin_id o) +++
  wu32 (obo c) (aspc_chunk_id o) +++
  wstr (obo c) (aspc_name o) +++
  wbytes (aspc_data o).

(** trackgroups.py:547-566. *)
Definition waspi_plugin (c : octx) (o : aspi_plugin) : writer :=
  wstr (obo c) (aspp_name o) +++
  wu32 (obo c) (aspp_manufacturer_id o) +++
  wu32 (obo c) (aspp_product_id o) +++
  wu32 (obo c) (aspp_plugin_id o) +++
  ws32 (obo c) (len (aspp_chunks o)) +++
  wlist (waspi_chunk c) (aspp_chunks o).

(** trackgroups.py:613-619. *)
Definition wpreset_path (c : octx) (v : bytes) : writer :=
  wu8 72 +++
  wu32 (obo c) (len v) +++
  if 0 <? len v then wu8 65 +++ wu32 (obo c) (len v) +++ wbytes v else wnil.

(** trackgroups.py:539-621. *)
Definition waudio_suite_effect (c : octx) (o : audio_suite_effect) : writer :=
  wtrack_effect_base c (aspi_effect o) +++
  wu8 2 +++ wu8 1 +++
  ws32 (obo c) (len (aspi_plugins o)) +++
  wlist (waspi_plugin c) (aspi_plugins o) +++
  wopt (aspi_mob_id o) (fun m =>
    wext 1 (wu8 71 +++ ws32 (obo c) (mob_lo m) +++ wu8 71 +++ ws32 (obo c) (mob_hi m))) +++
  wopt (aspi_mob_id o) (fun m => wext 8 (wmobid (obo c) m)) +++
  wopt (aspi_mark_in o) (fun v => wext 2 (wu8 77 +++ ws64 (obo c) v)) +++
  wopt (aspi_mark_out o) (fun v => wext 3 (wu8 77 +++ ws64 (obo c) v)) +++
  wopt (aspi_tracks_to_affect o) (fun v => wext 4 (wu8 72 +++ ws32 (obo c) v)) +++
  wopt (aspi_rendering_mode o) (fun v => wext 5 (wu8 71 +++ ws32 (obo c) v)) +++
  wopt (aspi_padding_secs o) (fun v => wext 6 (wu8 71 +++ ws32 (obo c) v)) +++
  wopt (aspi_preset_path o) (fun v => wext 9 (wpreset_path c v)) +++
  wu8 3.

(** ** EqualizerMultiBand, trackgroups.py:623-687 *)

(** trackgroups.py:623-633 [EqualizerBand]. *)
Record equalizer_band := {
  eqbd_type : Z;
  eqbd_freq : Z;
  eqbd_gain : Z;
  eqbd_q : Z;
  eqbd_enable : bool }.

(** [equalizer_band] with its references renamed by [f]; trackgroups.py:626-632. *)
Definition equalizer_band_map (f : Z -> Z) (o : equalizer_band) : equalizer_band := {|
  eqbd_type := eqbd_type o;
  eqbd_freq := eqbd_freq o;
  eqbd_gain := eqbd_gain o;
  eqbd_q := eqbd_q o;
  eqbd_enable := eqbd_enable o |}.

(** The references of [equalizer_band]; trackgroups.py:626-632. *)
Definition equalizer_band_refs (o : equalizer_band) : list Z :=
  [].

(** What [equalizer_band] has to satisfy to be stored exactly; trackgroups.py:626-632. *)
Definition equalizer_band_ok (o : equalizer_band) : Prop :=
  True.

(** trackgroups.py:639-643: the properties. *)
Record equalizer_multi_band := {
  eqmb_effect : track_effect;
  eqmb_bands : list equalizer_band;
  eqmb_effect_enable : bool;
  eqmb_filter_name : str }.

(** [equalizer_multi_band] with its references renamed by [f]; trackgroups.py:639-643. *)
Definition equalizer_multi_band_map (f : Z -> Z) (o : equalizer_multi_band)
  : equalizer_multi_band := {|
  eqmb_effect := track_effect_map f (eqmb_effect o);
  eqmb_bands := map (equalizer_band_map f) (eqmb_bands o);
  eqmb_effect_enable := eqmb_effect_enable o;
  eqmb_filter_name := eqmb_filter_name o |}.

(** The references of [equalizer_multi_band]; trackgroups.py:639-643. *)
Definition equalizer_multi_band_refs (o : equalizer_multi_band) : list Z :=
  track_effect_refs (eqmb_effect o)
  ++ flat_map equalizer_band_refs (eqmb_bands o).

(** What [equalizer_multi_band] has to satisfy to be stored exactly; trackgroups.py:639-643. *)
Definition equalizer_multi_band_ok (o : equalizer_multi_band) : Prop :=
  track_effect_ok (eqmb_effect o) /\
  Forall equalizer_band_ok (eqmb_bands o) /\
  str_ok (eqmb_filter_name o).

(** trackgroups.py:657-663. *)
Definition requalizer_band (i : ictx) : reader equalizer_band :=
  type <- rs32 (ibo i) ;;
  freq <- rs32 (ibo i) ;;
  gain <- rs32 (ibo i) ;;
  q <- rs32 (ibo i) ;;
  enable <- rbool ;;
  ret {| eqbd_type := type; eqbd_freq := freq; eqbd_gain := gain; eqbd_q := q;
         eqbd_enable := enable |}.

(** trackgroups.py:646-668. *)
Definition requalizer_multi_band (i : ictx) : reader equalizer_multi_band :=
  p <- rtrack_effect_base i ;;
  rtag 2 ;;; rtag 5 ;;;
  num_bands <- rs32 (ibo i) ;;
  rassert (0 <=? num_bands) ;;;
  bands <- rlist (Z.to_nat num_bands) (requalizer_band i) ;;
  effect_enable <- rbool ;;
  filter_name <- rstr (ibo i) ;;
  rtag 3 ;;;
  ret {| eqmb_effect := p; eqmb_bands := bands; eqmb_effect_enable := effect_enable;
         eqmb_filter_name := filter_name |}.

(** trackgroups.py:678-682. *)
Definition wequalizer_band (c : octx) (o : equalizer_band) : writer :=
  ws32 (obo c) (eqbd_type o) +++
  ws32 (obo c) (eqbd_freq o) +++
  ws32 (obo c) (eqbd_gain o) +++
  ws32 (obo c) (eqbd_q o) +++
  wbool (eqbd_enable o).

(** trackgroups.py:670-687. *)
Definition wequalizer_multi_band (c : octx) (o : equalizer_multi_band) : writer :=
  wtrack_effect_base c (eqmb_effect o) +++
  wu8 2 +++ wu8 5 +++
  ws32 (obo c) (len (eqmb_bands o)) +++
  wlist (wequalizer_band c) (eqmb_bands o) +++
  wbool (eqmb_effect_enable o) +++
  wstr (obo c) (eqmb_filter_name o) +++
  wu8 3.

(** ** TimeWarp, trackgroups.py:689-709 (a base class, not registered for reading) *)

(** trackgroups.py:692-694: the properties. *)
Record time_warp := {
  warp_group : track_group;
  warp_phase_offset : Z }.

(** [time_warp] with its references renamed by [f]; trackgroups.py:692-694. *)
Definition time_warp_map (f : Z -> Z) (o : time_warp) : time_warp := {|
  warp_group := track_group_map f (warp_group o);
  warp_phase_offset := warp_phase_offset o |}.

(** The references of [time_warp]; trackgroups.py:692-694. *)
Definition time_warp_refs (o : time_warp) : list Z :=
  track_group_refs (warp_group o).

(** What [time_warp] has to satisfy to be stored exactly; trackgroups.py:692-694. *)
Definition time_warp_ok (o : time_warp) : Prop :=
  track_group_ok (warp_group o).

(** trackgroups.py:697-702 [TimeWarp.read]. *)
Definition rtime_warp (i : ictx) : reader time_warp :=
  p <- rtrack_group i ;;
  rtag 2 ;;; rtag 2 ;;;
  phase_offset <- rs32 (ibo i) ;;
  ret {| warp_group := p; warp_phase_offset := phase_offset |}.

(** trackgroups.py:704-709 [TimeWarp.write]. *)
Definition wtime_warp (c : octx) (o : time_warp) : writer :=
  wtrack_group c (warp_group o) +++
  wu8 2 +++ wu8 2 +++
  ws32 (obo c) (warp_phase_offset o).

(** ** CaptureMask, trackgroups.py:711-741 *)

(** trackgroups.py:715-718: the properties. *)
Record capture_mask := {
  mask_warp : time_warp;
  mask_is_double : bool;
  mask_mask_bits : Z }.

(** [capture_mask] with its references renamed by [f]; trackgroups.py:715-718. *)
Definition capture_mask_map (f : Z -> Z) (o : capture_mask) : capture_mask := {|
  mask_warp := time_warp_map f (mask_warp o);
  mask_is_double := mask_is_double o;
  mask_mask_bits := mask_mask_bits o |}.

(** The references of [capture_mask]; trackgroups.py:715-718. *)
Definition capture_mask_refs (o : capture_mask) : list Z :=
  time_warp_refs (mask_warp o).

(** What [capture_mask] has to satisfy to be stored exactly; trackgroups.py:715-718. *)
Definition capture_mask_ok (o : capture_mask) : Prop :=
  time_warp_ok (mask_warp o).

(** trackgroups.py:721-730 [CaptureMask.read]. *)
Definition rcapture_mask (i : ictx) : reader capture_mask :=
  p <- rtime_warp i ;;
  rtag 2 ;;; rtag 1 ;;;
  is_double <- rbool ;;
  mask_bits <- ru32 (ibo i) ;;
  rtag 3 ;;;
  ret {| mask_warp := p; mask_is_double := is_double; mask_mask_bits := mask_bits |}.

(** trackgroups.py:732-741 [CaptureMask.write]. *)
Definition wcapture_mask (c : octx) (o : capture_mask) : writer :=
  wtime_warp c (mask_warp o) +++
  wu8 2 +++ wu8 1 +++
  wbool (mask_is_double o) +++
  wu32 (obo c) (mask_mask_bits o) +++
  wu8 3.

(** ** StrobeEffect, trackgroups.py:743-766 *)

(** trackgroups.py:747-749: the properties. *)
Record strobe_effect := {
  strb_warp : time_warp;
  strb_strobe_value : Z }.

(** [strobe_effect] with its references renamed by [f]; trackgroups.py:747-749. *)
Definition strobe_effect_map (f : Z -> Z) (o : strobe_effect) : strobe_effect := {|
  strb_warp := time_warp_map f (strb_warp o);
  strb_strobe_value := strb_strobe_value o |}.

(** The references of [strobe_effect]; trackgroups.py:747-749. *)
Definition strobe_effect_refs (o : strobe_effect) : list Z :=
  time_warp_refs (strb_warp o).

(** What [strobe_effect] has to satisfy to be stored exactly; trackgroups.py:747-749. *)
Definition strobe_effect_ok (o : strobe_effect) : Prop :=
  time_warp_ok (strb_warp o).

(** trackgroups.py:752-758 [StrobeEffect.read]. *)
Definition rstrobe_effect (i : ictx) : reader strobe_effect :=
  p <- rtime_warp i ;;
  rtag 2 ;;; rtag 1 ;;;
  strobe_value <- rs32 (ibo i) ;;
  rtag 3 ;;;
  ret {| strb_warp := p; strb_strobe_value := strobe_value |}.

(** trackgroups.py:760-766 [StrobeEffect.write]. *)
Definition wstrobe_effect (c : octx) (o : strobe_effect) : writer :=
  wtime_warp c (strb_warp o) +++
  wu8 2 +++ wu8 1 +++
  ws32 (obo c) (strb_strobe_value o) +++
  wu8 3.

(** ** MotionEffect, trackgroups.py:768-831; [speed_ratio] is the pair [num, den] *)

(** trackgroups.py:772-777: the properties. *)
Record motion_effect := {
  sped_warp : time_warp;
  sped_speed_num : Z;
  sped_speed_den : Z;
  sped_offset_adjust : option Z;
  sped_source_param_list : option Z;
  sped_new_source_calculation : option bool }.

(** [motion_effect] with its references renamed by [f]; trackgroups.py:772-777. *)
Definition motion_effect_map (f : Z -> Z) (o : motion_effect) : motion_effect := {|
  sped_warp := time_warp_map f (sped_warp o);
  sped_speed_num := sped_speed_num o;
  sped_speed_den := sped_speed_den o;
  sped_offset_adjust := sped_offset_adjust o;
  sped_source_param_list := option_map f (sped_source_param_list o);
  sped_new_source_calculation := sped_new_source_calculation o |}.

(** The references of [motion_effect]; trackgroups.py:772-777. *)
Definition motion_effect_refs (o : motion_effect) : list Z :=
  time_warp_refs (sped_warp o)
  ++ (match sped_source_param_list o with Some v => [v] | None => [] end).

(** What [motion_effect] has to satisfy to be stored exactly; trackgroups.py:772-777. *)
Definition motion_effect_ok (o : motion_effect) : Prop :=
  time_warp_ok (sped_warp o).

(** [self.offset_adjust = v]; trackgroups.py:794. *)
Definition set_sped_offset_adjust (o : motion_effect) (v : option Z) : motion_effect := {|
  sped_warp := sped_warp o;
  sped_speed_num := sped_speed_num o;
  sped_speed_den := sped_speed_den o;
  sped_offset_adjust := v;
  sped_source_param_list := sped_source_param_list o;
  sped_new_source_calculation := sped_new_source_calculation o |}.

(** [self.source_param_list = v]; trackgroups.py:797. *)
Definition set_sped_source_param_list (o : motion_effect) (v : option Z) : motion_effect := {|
  sped_warp := sped_warp o;
  sped_speed_num := sped_speed_num o;
  sped_speed_den := sped_speed_den o;
  sped_offset_adjust := sped_offset_adjust o;
  sped_source_param_list := v;
  sped_new_source_calculation := sped_new_source_calculation o |}.

(** [self.new_source_calculation = v]; trackgroups.py:800. *)
Definition set_sped_new_source_calculation (o : motion_effect) (v : option bool)
  : motion_effect := {|
  sped_warp := sped_warp o;
  sped_speed_num := sped_speed_num o;
  sped_speed_den := sped_speed_den o;
  sped_offset_adjust := sped_offset_adjust o;
  sped_source_param_list := sped_source_param_list o;
  sped_new_source_calculation := v |}.

(** trackgroups.py:790-802. *)
Definition motion_effect_ext (i : ictx) (tag : Z) (o : motion_effect) : reader motion_effect :=
  if tag =? 1 then rtag 75 ;;; v <- rdouble ;; ret (set_sped_offset_adjust o (Some v))
  else if tag =? 2 then rtag 72 ;;; v <- rref i ;; ret (set_sped_source_param_list o (Some v))
  else if tag =? 3 then rtag 66 ;;; v <- rbool ;; ret (set_sped_new_source_calculation o (Some v))
  else fail ValueErr.

(** trackgroups.py:780-804 [MotionEffect.read]. *)
Definition rmotion_effect (i : ictx) : reader motion_effect :=
  p <- rtime_warp i ;;
  rtag 2 ;;; rtag 3 ;;;
  num <- rs32 (ibo i) ;;
  den <- rs32 (ibo i) ;;
  o <- iter_ext (motion_effect_ext i) {|
    sped_warp := p; sped_speed_num := num; sped_speed_den := den;
    sped_offset_adjust := None; sped_source_param_list := None;
    sped_new_source_calculation := None |} ;;
  rtag 3 ;;; ret o.

(** trackgroups.py:806-831 [MotionEffect.write]. *)
Definition wmotion_effect (c : octx) (o : motion_effect) : writer :=
  wtime_warp c (sped_warp o) +++
  wu8 2 +++ wu8 3 +++
  ws32 (obo c) (sped_speed_num o) +++
  ws32 (obo c) (sped_speed_den o) +++
  wopt (sped_offset_adjust o) (fun v => wext 1 (wu8 75 +++ wdouble v)) +++
  wopt (sped_source_param_list o) (fun v => wext 2 (wu8 72 +++ wref c v)) +++
  wopt (sped_new_source_calculation o) (fun v => wext 3 (wu8 66 +++ wbool v)) +++
  wu8 3.

(** ** Repeat, trackgroups.py:833-853 *)

(** trackgroups.py:836: the properties. *)
Record repeat_effect := {
  rept_warp : time_warp }.

(** [repeat_effect] with its references renamed by [f]; trackgroups.py:836. *)
Definition repeat_effect_map (f : Z -> Z) (o : repeat_effect) : repeat_effect := {|
  rept_warp := time_warp_map f (rept_warp o) |}.

(** The references of [repeat_effect]; trackgroups.py:836. *)
Definition repeat_effect_refs (o : repeat_effect) : list Z :=
  time_warp_refs (rept_warp o).

(** What [repeat_effect] has to satisfy to be stored exactly; trackgroups.py:836. *)
Definition repeat_effect_ok (o : repeat_effect) : Prop :=
  time_warp_ok (rept_warp o).

(** trackgroups.py:839-845 [Repeat.read]. *)
Definition rrepeat_effect (i : ictx) : reader repeat_effect :=
  p <- rtime_warp i ;;
  rtag 2 ;;; rtag 1 ;;; rtag 3 ;;;
  ret {| rept_warp := p |}.

(** trackgroups.py:847-853 [Repeat.write]. *)
Definition wrepeat_effect (c : octx) (o : repeat_effect) : writer :=
  wtime_warp c (rept_warp o) +++ wu8 2 +++ wu8 1 +++ wu8 3.

(** ** EssenceGroup, trackgroups.py:855-891 *)

(** trackgroups.py:859-861: the properties. *)
Record essence_group := {
  rset_group : track_group;
  rset_rep_set_type : option Z }.

(** [essence_group] with its references renamed by [f]; trackgroups.py:859-861. *)
Definition essence_group_map (f : Z -> Z) (o : essence_group) : essence_group := {|
  rset_group := track_group_map f (rset_group o);
  rset_rep_set_type := rset_rep_set_type o |}.

(** The references of [essence_group]; trackgroups.py:859-861. *)
Definition essence_group_refs (o : essence_group) : list Z :=
  track_group_refs (rset_group o).

(** What [essence_group] has to satisfy to be stored exactly; trackgroups.py:859-861. *)
Definition essence_group_ok (o : essence_group) : Prop :=
  track_group_ok (rset_group o).

(** [self.rep_set_type = v]; trackgroups.py:873. *)
Definition set_rset_rep_set_type (o : essence_group) (v : option Z) : essence_group := {|
  rset_group := rset_group o;
  rset_rep_set_type := v |}.

(** trackgroups.py:870-875. *)
Definition essence_group_ext (i : ictx) (tag : Z) (o : essence_group) : reader essence_group :=
  if tag =? 1 then rtag 71 ;;; v <- rs32 (ibo i) ;; ret (set_rset_rep_set_type o (Some v))
  else fail ValueErr.

(** trackgroups.py:864-877 [EssenceGroup.read]. *)
Definition ressence_group (i : ictx) : reader essence_group :=
  p <- rtrack_group i ;;
  rtag 2 ;;; rtag 1 ;;;
  o <- iter_ext (essence_group_ext i) {| rset_group := p; rset_rep_set_type := None |} ;;
  rtag 3 ;;; ret o.

(** trackgroups.py:879-891 [EssenceGroup.write]. *)
Definition wessence_group (c : octx) (o : essence_group) : writer :=
  wtrack_group c (rset_group o) +++
  wu8 2 +++ wu8 1 +++
  wopt (rset_rep_set_type o) (fun v => wext 1 (wu8 71 +++ ws32 (obo c) v)) +++
  wu8 3.

(** ** TransitionEffect, trackgroups.py:893-984 *)

(** trackgroups.py:897-912: the properties. *)
Record transition_effect := {
  tnfx_group : track_group;
  tnfx_cutpoint : Z;
  tnfx_left_length : Z;
  tnfx_right_length : Z;
  tnfx_info_version : Z;
  tnfx_info_current : Z;
  tnfx_info_smooth : Z;
  tnfx_info_color_item : Z;
  tnfx_info_quality : Z;
  tnfx_info_is_reversed : Z;
  tnfx_info_aspect_on : bool;
  tnfx_keyframes : Z;
  tnfx_info_force_software : bool;
  tnfx_info_never_hardware : bool;
  tnfx_trackman : option Z }.

(** [transition_effect] with its references renamed by [f]; trackgroups.py:897-912. *)
Definition transition_effect_map (f : Z -> Z) (o : transition_effect) : transition_effect := {|
  tnfx_group := track_group_map f (tnfx_group o);
  tnfx_cutpoint := tnfx_cutpoint o;
  tnfx_left_length := tnfx_left_length o;
  tnfx_right_length := tnfx_right_length o;
  tnfx_info_version := tnfx_info_version o;
  tnfx_info_current := tnfx_info_current o;
  tnfx_info_smooth := tnfx_info_smooth o;
  tnfx_info_color_item := tnfx_info_color_item o;
  tnfx_info_quality := tnfx_info_quality o;
  tnfx_info_is_reversed := tnfx_info_is_reversed o;
  tnfx_info_aspect_on := tnfx_info_aspect_on o;
  tnfx_keyframes := f (tnfx_keyframes o);
  tnfx_info_force_software := tnfx_info_force_software o;
  tnfx_info_never_hardware := tnfx_info_never_hardware o;
  tnfx_trackman := option_map f (tnfx_trackman o) |}.

(** The references of [transition_effect]; trackgroups.py:897-912. *)
Definition transition_effect_refs (o : transition_effect) : list Z :=
  track_group_refs (tnfx_group o)
  ++ [tnfx_keyframes o]
  ++ (match tnfx_trackman o with Some v => [v] | None => [] end).

(** What [transition_effect] has to satisfy to be stored exactly; trackgroups.py:897-912. *)
Definition transition_effect_ok (o : transition_effect) : Prop :=
  track_group_ok (tnfx_group o).

(** [self.trackman = v]; trackgroups.py:945. *)
Definition set_tnfx_trackman (o : transition_effect) (v : option Z) : transition_effect := {|
  tnfx_group := tnfx_group o;
  tnfx_cutpoint := tnfx_cutpoint o;
  tnfx_left_length := tnfx_left_length o;
  tnfx_right_length := tnfx_right_length o;
  tnfx_info_version := tnfx_info_version o;
  tnfx_info_current := tnfx_info_current o;
  tnfx_info_smooth := tnfx_info_smooth o;
  tnfx_info_color_item := tnfx_info_color_item o;
  tnfx_info_quality := tnfx_info_quality o;
  tnfx_info_is_reversed := tnfx_info_is_reversed o;
  tnfx_info_aspect_on := tnfx_info_aspect_on o;
  tnfx_keyframes := tnfx_keyframes o;
  tnfx_info_force_software := tnfx_info_force_software o;
  tnfx_info_never_hardware := tnfx_info_never_hardware o;
  tnfx_trackman := v |}.

(** trackgroups.py:942-947. *)
Definition transition_effect_ext (i : ictx) (tag : Z) (o : transition_effect)
  : reader transition_effect :=
  if tag =? 1 then rtag 72 ;;; v <- rref i ;; ret (set_tnfx_trackman o (Some v))
  else fail ValueErr.

(** trackgroups.py:915-949. *)
Definition rtransition_effect (i : ictx) : reader transition_effect :=
  p <- rtrack_group i ;;
  rtag 2 ;;; rtag 1 ;;;
  cutpoint <- rs32 (ibo i) ;;
  rtag 2 ;;; rtag 5 ;;;
  left_length <- rs32 (ibo i) ;;
  right_length <- rs32 (ibo i) ;;
  info_version <- rs16 (ibo i) ;;
  info_current <- rs32 (ibo i) ;;
  info_smooth <- rs32 (ibo i) ;;
  info_color_item <- rs16 (ibo i) ;;
  info_quality <- rs16 (ibo i) ;;
  info_is_reversed <- rs8 ;;
  info_aspect_on <- rbool ;;
  keyframes <- rref i ;;
  info_force_software <- rbool ;;
  info_never_hardware <- rbool ;;
  o <- iter_ext (transition_effect_ext i) {|
    tnfx_group := p; tnfx_cutpoint := cutpoint; tnfx_left_length := left_length;
    tnfx_right_length := right_length; tnfx_info_version := info_version;
    tnfx_info_current := info_current; tnfx_info_smooth := info_smooth;
    tnfx_info_color_item := info_color_item; tnfx_info_quality := info_quality;
    tnfx_info_is_reversed := info_is_reversed; tnfx_info_aspect_on := info_aspect_on;
    tnfx_keyframes := keyframes; tnfx_info_force_software := info_force_software;
    tnfx_info_never_hardware := info_never_hardware; tnfx_trackman := None |} ;;
  rtag 3 ;;; ret o.

(** trackgroups.py:951-984. *)
Definition wtransition_effect (c : octx) (o : transition_effect) : writer :=
  wtrack_group c (tnfx_group o) +++
  wu8 2 +++ wu8 1 +++
  ws32 (obo c) (tnfx_cutpoint o) +++
  wu8 2 +++ wu8 5 +++
  ws32 (obo c) (tnfx_left_length o) +++
  ws32 (obo c) (tnfx_right_length o) +++
  ws16 (obo c) (tnfx_info_version o) +++
  ws32 (obo c) (tnfx_info_current o) +++
  ws32 (obo c) (tnfx_info_smooth o) +++
  ws16 (obo c) (tnfx_info_color_item o) +++
  ws16 (obo c) (tnfx_info_quality o) +++
  ws8 (tnfx_info_is_reversed o) +++
  wbool (tnfx_info_aspect_on o) +++
  wref c (tnfx_keyframes o) +++
  wbool (tnfx_info_force_software o) +++
  wbool (tnfx_info_never_hardware o) +++
  wopt (tnfx_trackman o) (fun v => wext 1 (wu8 72 +++ wref c v)) +++
  wu8 3.

(** ** Selector, trackgroups.py:986-1018 *)

(** Only the reader checks that the selected track exists; trackgroups.py:990-993. *)
Record selector := {
  slct_group : track_group;
  slct_is_ganged : bool;
  slct_selected : Z }.

(** [selector] with its references renamed by [f]; trackgroups.py:990-993. *)
Definition selector_map (f : Z -> Z) (o : selector) : selector := {|
  slct_group := track_group_map f (slct_group o);
  slct_is_ganged := slct_is_ganged o;
  slct_selected := slct_selected o |}.

(** The references of [selector]; trackgroups.py:990-993. *)
Definition selector_refs (o : selector) : list Z :=
  track_group_refs (slct_group o).

(** What [selector] has to satisfy to be stored exactly; trackgroups.py:990-993. *)
Definition selector_ok (o : selector) : Prop :=
  track_group_ok (slct_group o) /\
  slct_selected o < len (trkg_tracks (slct_group o)).

(** trackgroups.py:996-1007 [Selector.read]. *)
Definition rselector (i : ictx) : reader selector :=
  p <- rtrack_group i ;;
  rtag 2 ;;; rtag 1 ;;;
  is_ganged <- rbool ;;
  selected <- ru16 (ibo i) ;;
  rassert (selected <? len (trkg_tracks p)) ;;;
  rtag 3 ;;;
  ret {| slct_group := p; slct_is_ganged := is_ganged; slct_selected := selected |}.

(** trackgroups.py:1009-1018 [Selector.write]. *)
Definition wselector (c : octx) (o : selector) : writer :=
  wtrack_group c (slct_group o) +++
  wu8 2 +++ wu8 1 +++
  wbool (slct_is_ganged o) +++
  wu16 (obo c) (slct_selected o) +++
  wu8 3.

(** ** Composition, trackgroups.py:1024-1111 *)

(** [last_modified] and [creation_time] are the stored timestamps (Dates.v has the
    conversion); trackgroups.py:1028-1035. *)
Record composition := {
  cmpo_group : track_group;
  cmpo_last_modified : Z;
  cmpo_mob_type_id : Z;
  cmpo_usage_code : Z;
  cmpo_descriptor : Z;
  cmpo_creation_time : option Z;
  cmpo_mob_id : option mobid }.

(** [composition] with its references renamed by [f]; trackgroups.py:1028-1035. *)
Definition composition_map (f : Z -> Z) (o : composition) : composition := {|
  cmpo_group := track_group_map f (cmpo_group o);
  cmpo_last_modified := cmpo_last_modified o;
  cmpo_mob_type_id := cmpo_mob_type_id o;
  cmpo_usage_code := cmpo_usage_code o;
  cmpo_descriptor := f (cmpo_descriptor o);
  cmpo_creation_time := cmpo_creation_time o;
  cmpo_mob_id := cmpo_mob_id o |}.

(** The references of [composition]; trackgroups.py:1028-1035. *)
Definition composition_refs (o : composition) : list Z :=
  track_group_refs (cmpo_group o)
  ++ [cmpo_descriptor o].

(** What [composition] has to satisfy to be stored exactly; trackgroups.py:1028-1035. *)
Definition composition_ok (o : composition) : Prop :=
  track_group_ok (cmpo_group o) /\
  opt_ok mobid_wf (cmpo_mob_id o).

(** [self.creation_time = v]; trackgroups.py:1076. *)
Definition set_cmpo_creation_time (o : composition) (v : option Z) : composition := {|
  cmpo_group := cmpo_group o;
  cmpo_last_modified := cmpo_last_modified o;
  cmpo_mob_type_id := cmpo_mob_type_id o;
  cmpo_usage_code := cmpo_usage_code o;
  cmpo_descriptor := cmpo_descriptor o;
  cmpo_creation_time := v;
  cmpo_mob_id := cmpo_mob_id o |}.

(** [self.mob_id = v]; trackgroups.py:1078. *)
Definition set_cmpo_mob_id (o : composition) (v : option mobid) : composition := {|
  cmpo_group := cmpo_group o;
  cmpo_last_modified := cmpo_last_modified o;
  cmpo_mob_type_id := cmpo_mob_type_id o;
  cmpo_usage_code := cmpo_usage_code o;
  cmpo_descriptor := cmpo_descriptor o;
  cmpo_creation_time := cmpo_creation_time o;
  cmpo_mob_id := v |}.

(** trackgroups.py:1072-1080. *)
Definition composition_ext (i : ictx) (tag : Z) (o : composition) : reader composition :=
  if tag =? 1 then rtag 71 ;;; v <- rdate (ibo i) ;; ret (set_cmpo_creation_time o (Some v))
  else if tag =? 2 then v <- rmobid (ibo i) ;; ret (set_cmpo_mob_id o (Some v))
  else fail ValueErr.

(** trackgroups.py:1058-1082; the two words before [last_modified] are read and dropped. *)
Definition rcomposition (i : ictx) : reader composition :=
  p <- rtrack_group i ;;
  rtag 2 ;;; rtag 2 ;;;
  _ <- ru32 (ibo i) ;;
  _ <- ru32 (ibo i) ;;
  last_modified <- rdate (ibo i) ;;
  mob_type_id <- ru8 ;;
  usage_code <- rs32 (ibo i) ;;
  descriptor <- rref i ;;
  o <- iter_ext (composition_ext i) {|
    cmpo_group := p; cmpo_last_modified := last_modified; cmpo_mob_type_id := mob_type_id;
    cmpo_usage_code := usage_code; cmpo_descriptor := descriptor;
    cmpo_creation_time := None; cmpo_mob_id := None |} ;;
  rtag 3 ;;; ret o.

(** trackgroups.py:1084-1111. Without [mob_id] line 1090 raises AttributeError. *)
Definition wcomposition (c : octx) (o : composition) : writer :=
  wtrack_group c (cmpo_group o) +++
  wu8 2 +++ wu8 2 +++
  match cmpo_mob_id o with
  | None => Err AttributeErr
  | Some m => wu32 (obo c) (mob_lo m) +++ wu32 (obo c) (mob_hi m)
  end +++
  wdate (obo c) (cmpo_last_modified o) +++
  wu8 (cmpo_mob_type_id o) +++
  ws32 (obo c) (cmpo_usage_code o) +++
  wref c (cmpo_descriptor o) +++
  wopt (cmpo_creation_time o) (fun v => wext 1 (wu8 71 +++ wdate (obo c) v)) +++
  wopt (cmpo_mob_id o) (fun v => wext 2 (wmobid (obo c) v)) +++
  wu8 3.
