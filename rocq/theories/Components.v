(** Model of the readers and writers of src/avb/components.py. *)
From Coq Require Import ZArith List Bool.
From Verif Require Import Base IoCtx Text Exp10 MobId Storable.
Import ListNotations.
Open Scope Z_scope.

(** ** Component, components.py:15-95 *)

(** components.py:18-29: the properties. *)
Record component := {
  cpnt_left_bob : Z;
  cpnt_right_bob : Z;
  cpnt_media_kind_id : Z;
  cpnt_edit_rate : float64;
  cpnt_name : str;
  cpnt_effect_id : str;
  cpnt_attributes : Z;
  cpnt_session_attrs : Z;
  cpnt_precomputed : Z;
  cpnt_param_list : option Z }.

(** [component] with its references renamed by [f]; components.py:18-29. *)
Definition component_map (f : Z -> Z) (o : component) : component := {|
  cpnt_left_bob := f (cpnt_left_bob o);
  cpnt_right_bob := f (cpnt_right_bob o);
  cpnt_media_kind_id := cpnt_media_kind_id o;
  cpnt_edit_rate := cpnt_edit_rate o;
  cpnt_name := cpnt_name o;
  cpnt_effect_id := cpnt_effect_id o;
  cpnt_attributes := f (cpnt_attributes o);
  cpnt_session_attrs := f (cpnt_session_attrs o);
  cpnt_precomputed := f (cpnt_precomputed o);
  cpnt_param_list := option_map f (cpnt_param_list o) |}.

(** The references of [component]; components.py:18-29. *)
Definition component_refs (o : component) : list Z :=
  [cpnt_left_bob o]
  ++ [cpnt_right_bob o]
  ++ [cpnt_attributes o]
  ++ [cpnt_session_attrs o]
  ++ [cpnt_precomputed o]
  ++ (match cpnt_param_list o with Some v => [v] | None => [] end).

(** What [component] has to satisfy to be stored exactly; components.py:18-29. *)
Definition component_ok (o : component) : Prop :=
  exp10_stable (cpnt_edit_rate o) /\
  str_ok (cpnt_name o) /\
  str_ok (cpnt_effect_id o).

(** [self.param_list = v]; components.py:61. *)
Definition set_cpnt_param_list (o : component) (v : option Z) : component := {|
  cpnt_left_bob := cpnt_left_bob o;
  cpnt_right_bob := cpnt_right_bob o;
  cpnt_media_kind_id := cpnt_media_kind_id o;
  cpnt_edit_rate := cpnt_edit_rate o;
  cpnt_name := cpnt_name o;
  cpnt_effect_id := cpnt_effect_id o;
  cpnt_attributes := cpnt_attributes o;
  cpnt_session_attrs := cpnt_session_attrs o;
  cpnt_precomputed := cpnt_precomputed o;
  cpnt_param_list := v |}.

(** components.py:57-63: the optional sections. *)
Definition component_ext (i : ictx) (tag : Z) (o : component) : reader component :=
  if tag =? 1 then
    rtag 72 ;;; v <- rref i ;; ret (set_cpnt_param_list o (Some v))
  else fail ValueErr.

(** components.py:38-63 [Component.read]. *)
Definition rcomponent (i : ictx) : reader component :=
  rtag 2 ;;; rtag 3 ;;;
  left_bob <- rref i ;;
  right_bob <- rref i ;;
  media_kind_id <- rs16 (ibo i) ;;
  edit_rate <- rexp10 (ibo i) ;;
  name <- rstr (ibo i) ;;
  effect_id <- rstr (ibo i) ;;
  attributes <- rref i ;;
  session_attrs <- rref i ;;
  precomputed <- rref i ;;
  iter_ext (component_ext i) {|
    cpnt_left_bob := left_bob; cpnt_right_bob := right_bob;
    cpnt_media_kind_id := media_kind_id; cpnt_edit_rate := edit_rate;
    cpnt_name := name; cpnt_effect_id := effect_id; cpnt_attributes := attributes;
    cpnt_session_attrs := session_attrs; cpnt_precomputed := precomputed;
    cpnt_param_list := None |}.

(** components.py:65-93 [Component.write]. *)
Definition wcomponent (c : octx) (o : component) : writer :=
  wu8 2 +++ wu8 3 +++
  wref c (cpnt_left_bob o) +++
  wref c (cpnt_right_bob o) +++
  ws16 (obo c) (cpnt_media_kind_id o) +++
  wexp10 (obo c) (cpnt_edit_rate o) +++
  wname (obo c) (cpnt_name o) +++
  wname (obo c) (cpnt_effect_id o) +++
  wref c (cpnt_attributes o) +++
  wref c (cpnt_session_attrs o) +++
  wref c (cpnt_precomputed o) +++
  wopt (cpnt_param_list o) (fun v => wext 1 (wu8 72 +++ wref c v)).

(** ** Sequence, components.py:142-180 (read 154-167, write 169-180) *)

(** components.py:145-147: the properties. *)
Record sequence := {
  sequ_component : component;
  sequ_components : list Z }.

(** [sequence] with its references renamed by [f]; components.py:145-147. *)
Definition sequence_map (f : Z -> Z) (o : sequence) : sequence := {|
  sequ_component := component_map f (sequ_component o);
  sequ_components := map f (sequ_components o) |}.

(** The references of [sequence]; components.py:145-147. *)
Definition sequence_refs (o : sequence) : list Z :=
  component_refs (sequ_component o)
  ++ sequ_components o.

(** What [sequence] has to satisfy to be stored exactly; components.py:145-147. *)
Definition sequence_ok (o : sequence) : Prop :=
  component_ok (sequ_component o).

(** components.py:154-167 [Sequence.read]. *)
Definition rsequence (i : ictx) : reader sequence :=
  p <- rcomponent i ;;
  rtag 2 ;;; rtag 3 ;;;
  count <- ru32 (ibo i) ;;
  components <- rlist (Z.to_nat count) (rref i) ;;
  rtag 3 ;;;
  ret {| sequ_component := p; sequ_components := components |}.

(** components.py:169-179 [Sequence.write]. *)
Definition wsequence (c : octx) (o : sequence) : writer :=
  wcomponent c (sequ_component o) +++
  wu8 2 +++ wu8 3 +++
  wu32 (obo c) (len (sequ_components o)) +++
  wlist (wref c) (sequ_components o) +++
  wu8 3.

(** ** Clip, components.py:235-255 *)

(** components.py:238-240: the properties. *)
Record clip := {
  clip_component : component;
  clip_length : Z }.

(** [clip] with its references renamed by [f]; components.py:238-240. *)
Definition clip_map (f : Z -> Z) (o : clip) : clip := {|
  clip_component := component_map f (clip_component o);
  clip_length := clip_length o |}.

(** The references of [clip]; components.py:238-240. *)
Definition clip_refs (o : clip) : list Z :=
  component_refs (clip_component o).

(** What [clip] has to satisfy to be stored exactly; components.py:238-240. *)
Definition clip_ok (o : clip) : Prop :=
  component_ok (clip_component o).

(** components.py:243-248 [Clip.read]. *)
Definition rclip (i : ictx) : reader clip :=
  p <- rcomponent i ;;
  rtag 2 ;;; rtag 1 ;;;
  length <- ru32 (ibo i) ;;
  ret {| clip_component := p; clip_length := length |}.

(** components.py:250-255 [Clip.write]. *)
Definition wclip (c : octx) (o : clip) : writer :=
  wcomponent c (clip_component o) +++
  wu8 2 +++ wu8 1 +++
  wu32 (obo c) (clip_length o).

(** ** SourceClip, components.py:258-312 *)

(** components.py:261-265: the properties. *)
Record source_clip := {
  sclp_clip : clip;
  sclp_track_id : Z;
  sclp_start_time : Z;
  sclp_mob_id : option mobid }.

(** [source_clip] with its references renamed by [f]; components.py:261-265. *)
Definition source_clip_map (f : Z -> Z) (o : source_clip) : source_clip := {|
  sclp_clip := clip_map f (sclp_clip o);
  sclp_track_id := sclp_track_id o;
  sclp_start_time := sclp_start_time o;
  sclp_mob_id := sclp_mob_id o |}.

(** The references of [source_clip]; components.py:261-265. *)
Definition source_clip_refs (o : source_clip) : list Z :=
  clip_refs (sclp_clip o).

(** What [source_clip] has to satisfy to be stored exactly; components.py:261-265. *)
Definition source_clip_ok (o : source_clip) : Prop :=
  clip_ok (sclp_clip o) /\
  opt_ok mobid_wf (sclp_mob_id o).

(** [self.mob_id = v]; components.py:286. *)
Definition set_sclp_mob_id (o : source_clip) (v : option mobid) : source_clip := {|
  sclp_clip := sclp_clip o;
  sclp_track_id := sclp_track_id o;
  sclp_start_time := sclp_start_time o;
  sclp_mob_id := v |}.

(** components.py:284-288. *)
Definition source_clip_ext (i : ictx) (tag : Z) (o : source_clip) : reader source_clip :=
  if tag =? 1 then
    v <- rmobid (ibo i) ;; ret (set_sclp_mob_id o (Some v))
  else fail ValueErr.

(** components.py:272-290; the two words before [track_id] are read and dropped. *)
Definition rsource_clip (i : ictx) : reader source_clip :=
  p <- rclip i ;;
  rtag 2 ;;; rtag 3 ;;;
  _ <- ru32 (ibo i) ;;
  _ <- ru32 (ibo i) ;;
  track_id <- rs16 (ibo i) ;;
  start_time <- rs32 (ibo i) ;;
  o <- iter_ext (source_clip_ext i) {|
    sclp_clip := p; sclp_track_id := track_id; sclp_start_time := start_time;
    sclp_mob_id := None |} ;;
  rtag 3 ;;; ret o.

(** components.py:298-299: the low and high words derived from a mob ID. *)
Definition mob_lo (m : mobid) : Z := time_low (m_material m).
(** components.py:299 and trackgroups.py:1091: the second number of a mob ID. *)
Definition mob_hi (m : mobid) : Z :=
  time_mid (m_material m) + Z.shiftl (time_hi_version (m_material m)) 16.

(** components.py:292-312. Without [mob_id] line 298 raises AttributeError. *)
Definition wsource_clip (c : octx) (o : source_clip) : writer :=
  wclip c (sclp_clip o) +++
  wu8 2 +++ wu8 3 +++
  match sclp_mob_id o with
  | None => Err AttributeErr
  | Some m => wu32 (obo c) (mob_lo m) +++ wu32 (obo c) (mob_hi m)
  end +++
  ws16 (obo c) (sclp_track_id o) +++
  ws32 (obo c) (sclp_start_time o) +++
  wopt (sclp_mob_id o) (fun v => wext 1 (wmobid (obo c) v)) +++
  wu8 3.

(** ** Timecode, components.py:330-367 (read 340-354, write 356-367) *)

(** components.py:333-337: the properties. *)
Record timecode := {
  tccp_clip : clip;
  tccp_flags : Z;
  tccp_fps : Z;
  tccp_start : Z }.

(** [timecode] with its references renamed by [f]; components.py:333-337. *)
Definition timecode_map (f : Z -> Z) (o : timecode) : timecode := {|
  tccp_clip := clip_map f (tccp_clip o);
  tccp_flags := tccp_flags o;
  tccp_fps := tccp_fps o;
  tccp_start := tccp_start o |}.

(** The references of [timecode]; components.py:333-337. *)
Definition timecode_refs (o : timecode) : list Z :=
  clip_refs (tccp_clip o).

(** What [timecode] has to satisfy to be stored exactly; components.py:333-337. *)
Definition timecode_ok (o : timecode) : Prop :=
  clip_ok (tccp_clip o).

(** components.py:340-354 [Timecode.read]. *)
Definition rtimecode (i : ictx) : reader timecode :=
  p <- rclip i ;;
  rtag 2 ;;; rtag 1 ;;;
  flags <- ru32 (ibo i) ;;
  fps <- ru16 (ibo i) ;;
  _ <- fread 6 ;;
  start <- ru32 (ibo i) ;;
  rtag 3 ;;;
  ret {| tccp_clip := p; tccp_flags := flags; tccp_fps := fps; tccp_start := start |}.

(** components.py:356-367 [Timecode.write]. *)
Definition wtimecode (c : octx) (o : timecode) : writer :=
  wclip c (tccp_clip o) +++
  wu8 2 +++ wu8 1 +++
  wu32 (obo c) (tccp_flags o) +++
  wu16 (obo c) (tccp_fps o) +++
  wbytes (repeat 0 6) +++
  wu32 (obo c) (tccp_start o) +++
  wu8 3.

(** ** Edgecode, components.py:370-413 (read 382-396, write 398-413) *)

(** components.py:373-379: the properties. *)
Record edgecode := {
  eccp_clip : clip;
  eccp_header : bytes;
  eccp_film_kind : Z;
  eccp_code_format : Z;
  eccp_base_perf : Z;
  eccp_start_ec : Z }.

(** [edgecode] with its references renamed by [f]; components.py:373-379. *)
Definition edgecode_map (f : Z -> Z) (o : edgecode) : edgecode := {|
  eccp_clip := clip_map f (eccp_clip o);
  eccp_header := eccp_header o;
  eccp_film_kind := eccp_film_kind o;
  eccp_code_format := eccp_code_format o;
  eccp_base_perf := eccp_base_perf o;
  eccp_start_ec := eccp_start_ec o |}.

(** The references of [edgecode]; components.py:373-379. *)
Definition edgecode_refs (o : edgecode) : list Z :=
  clip_refs (eccp_clip o).

(** What [edgecode] has to satisfy to be stored exactly; components.py:373-379. *)
Definition edgecode_ok (o : edgecode) : Prop :=
  clip_ok (eccp_clip o).

(** components.py:382-396 [Edgecode.read]. *)
Definition redgecode (i : ictx) : reader edgecode :=
  p <- rclip i ;;
  rtag 2 ;;; rtag 1 ;;;
  header <- fread 8 ;;
  film_kind <- ru8 ;;
  code_format <- ru8 ;;
  base_perf <- ru16 (ibo i) ;;
  _ <- ru32 (ibo i) ;;
  start_ec <- rs32 (ibo i) ;;
  rtag 3 ;;;
  ret {| eccp_clip := p; eccp_header := header; eccp_film_kind := film_kind;
         eccp_code_format := code_format; eccp_base_perf := base_perf;
         eccp_start_ec := start_ec |}.

(** components.py:398-413 [Edgecode.write]. *)
Definition wedgecode (c : octx) (o : edgecode) : writer :=
  wclip c (eccp_clip o) +++
  wu8 2 +++ wu8 1 +++
  wassert (len (eccp_header o) =? 8) +++
  wbytes (eccp_header o) +++
  wu8 (eccp_film_kind o) +++
  wu8 (eccp_code_format o) +++
  wu16 (obo c) (eccp_base_perf o) +++
  wu32 (obo c) 0 +++
  ws32 (obo c) (eccp_start_ec o) +++
  wu8 3.

(** ** TrackRef, components.py:416-445 (read 425-434, write 436-445) *)

(** components.py:419-422: the properties. *)
Record track_ref := {
  trkr_clip : clip;
  trkr_relative_scope : Z;
  trkr_relative_track : Z }.

(** [track_ref] with its references renamed by [f]; components.py:419-422. *)
Definition track_ref_map (f : Z -> Z) (o : track_ref) : track_ref := {|
  trkr_clip := clip_map f (trkr_clip o);
  trkr_relative_scope := trkr_relative_scope o;
  trkr_relative_track := trkr_relative_track o |}.

(** The references of [track_ref]; components.py:419-422. *)
Definition track_ref_refs (o : track_ref) : list Z :=
  clip_refs (trkr_clip o).

(** What [track_ref] has to satisfy to be stored exactly; components.py:419-422. *)
Definition track_ref_ok (o : track_ref) : Prop :=
  clip_ok (trkr_clip o).

(** components.py:425-434 [TrackRef.read]. *)
Definition rtrack_ref (i : ictx) : reader track_ref :=
  p <- rclip i ;;
  rtag 2 ;;; rtag 1 ;;;
  relative_scope <- rs16 (ibo i) ;;
  relative_track <- rs16 (ibo i) ;;
  rtag 3 ;;;
  ret {| trkr_clip := p; trkr_relative_scope := relative_scope;
         trkr_relative_track := relative_track |}.

(** components.py:436-445 [TrackRef.write]. *)
Definition wtrack_ref (c : octx) (o : track_ref) : writer :=
  wclip c (trkr_clip o) +++
  wu8 2 +++ wu8 1 +++
  ws16 (obo c) (trkr_relative_scope o) +++
  ws16 (obo c) (trkr_relative_track o) +++
  wu8 3.

(** ** ParamClip, components.py:468-668 *)

(** A value of a control point or point property: the Python type and what it holds. A double is its
    64-bit pattern (components.py:578-585). *)
Inductive cp_value := CPInt (v : Z) | CPDouble (v : Z) | CPRef (r : Z).

(** [cp_value] with its references renamed by [f]; components.py:468-668. *)
Definition cp_value_map (f : Z -> Z) (v : cp_value) : cp_value :=
  match v with CPRef r => CPRef (f r) | _ => v end.
(** The references of [cp_value]; components.py:468-668. *)
Definition cp_value_refs (v : cp_value) : list Z :=
  match v with CPRef r => [r] | _ => [] end.
(** What [cp_value] has to satisfy to be stored exactly; components.py:468-668. *)
Definition cp_value_ok (v : cp_value) : Prop := True.

(** components.py:518-525 [ParamControlPointProperty]. [type] is kept as the number 1 or 2
    plus the value of that type. *)
Record param_point_property := {
  ppp_code : Z;
  ppp_type : Z;
  ppp_value : cp_value }.

(** [param_point_property] with its references renamed by [f]; components.py:520-524. *)
Definition param_point_property_map (f : Z -> Z) (o : param_point_property)
  : param_point_property := {|
  ppp_code := ppp_code o;
  ppp_type := ppp_type o;
  ppp_value := cp_value_map f (ppp_value o) |}.

(** The references of [param_point_property]; components.py:520-524. *)
Definition param_point_property_refs (o : param_point_property) : list Z :=
  cp_value_refs (ppp_value o).

(** What [param_point_property] has to satisfy to be stored exactly; components.py:520-524. *)
Definition param_point_property_ok (o : param_point_property) : Prop :=
  cp_value_ok (ppp_value o).

(** components.py:469-477 [ParamControlPoint]; [offset] is the pair [num, den]. *)
Record param_control_point := {
  pcp_offset_num : Z;
  pcp_offset_den : Z;
  pcp_timescale : Z;
  pcp_value : cp_value;
  pcp_pp : list param_point_property }.

(** [param_control_point] with its references renamed by [f]; components.py:471-476. *)
Definition param_control_point_map (f : Z -> Z) (o : param_control_point)
  : param_control_point := {|
  pcp_offset_num := pcp_offset_num o;
  pcp_offset_den := pcp_offset_den o;
  pcp_timescale := pcp_timescale o;
  pcp_value := cp_value_map f (pcp_value o);
  pcp_pp := map (param_point_property_map f) (pcp_pp o) |}.

(** The references of [param_control_point]; components.py:471-476. *)
Definition param_control_point_refs (o : param_control_point) : list Z :=
  cp_value_refs (pcp_value o)
  ++ flat_map param_point_property_refs (pcp_pp o).

(** What [param_control_point] has to satisfy to be stored exactly; components.py:471-476. *)
Definition param_control_point_ok (o : param_control_point) : Prop :=
  cp_value_ok (pcp_value o) /\
  Forall param_point_property_ok (pcp_pp o).

(** The writer checks the value type only when there is a control point, the reader always
    does: a clip whose type is not one of the three can be saved but not opened;
    components.py:547-553. *)
Record param_clip := {
  prcl_clip : clip;
  prcl_interp_kind : Z;
  prcl_value_type : Z;
  prcl_control_points : list param_control_point;
  prcl_extrap_kind : option Z;
  prcl_fields : option Z }.

(** [param_clip] with its references renamed by [f]; components.py:547-553. *)
Definition param_clip_map (f : Z -> Z) (o : param_clip) : param_clip := {|
  prcl_clip := clip_map f (prcl_clip o);
  prcl_interp_kind := prcl_interp_kind o;
  prcl_value_type := prcl_value_type o;
  prcl_control_points := map (param_control_point_map f) (prcl_control_points o);
  prcl_extrap_kind := prcl_extrap_kind o;
  prcl_fields := prcl_fields o |}.

(** The references of [param_clip]; components.py:547-553. *)
Definition param_clip_refs (o : param_clip) : list Z :=
  clip_refs (prcl_clip o)
  ++ flat_map param_control_point_refs (prcl_control_points o).

(** What [param_clip] has to satisfy to be stored exactly; components.py:547-553. *)
Definition param_clip_ok (o : param_clip) : Prop :=
  clip_ok (prcl_clip o) /\
  Forall param_control_point_ok (prcl_control_points o) /\
  (prcl_value_type o = 1 \/ prcl_value_type o = 2 \/ prcl_value_type o = 4).

(** [self.extrap_kind = v]; components.py:609. *)
Definition set_prcl_extrap_kind (o : param_clip) (v : option Z) : param_clip := {|
  prcl_clip := prcl_clip o;
  prcl_interp_kind := prcl_interp_kind o;
  prcl_value_type := prcl_value_type o;
  prcl_control_points := prcl_control_points o;
  prcl_extrap_kind := v;
  prcl_fields := prcl_fields o |}.

(** [self.fields = v]; components.py:612. *)
Definition set_prcl_fields (o : param_clip) (v : option Z) : param_clip := {|
  prcl_clip := prcl_clip o;
  prcl_interp_kind := prcl_interp_kind o;
  prcl_value_type := prcl_value_type o;
  prcl_control_points := prcl_control_points o;
  prcl_extrap_kind := prcl_extrap_kind o;
  prcl_fields := v |}.

(** components.py:591-602. *)
Definition rparam_point_property (i : ictx) : reader param_point_property :=
  code <- rs16 (ibo i) ;;
  type <- rs16 (ibo i) ;;
  value <- (if type =? 2 then v <- rdouble ;; ret (CPDouble v)
            else if type =? 1 then v <- rs32 (ibo i) ;; ret (CPInt v)
            else fail ValueErr) ;;
  ret {| ppp_code := code; ppp_type := type; ppp_value := value |}.

(** components.py:578-585. *)
Definition rcp_value (i : ictx) (value_type : Z) : reader cp_value :=
  if value_type =? 1 then v <- rs32 (ibo i) ;; ret (CPInt v)
  else if value_type =? 2 then v <- rdouble ;; ret (CPDouble v)
  else if value_type =? 4 then v <- rref i ;; ret (CPRef v)
  else fail ValueErr.

(** components.py:572-604. *)
Definition rparam_control_point (i : ictx) (value_type : Z) : reader param_control_point :=
  num <- rs32 (ibo i) ;;
  den <- rs32 (ibo i) ;;
  timescale <- rs32 (ibo i) ;;
  value <- rcp_value i value_type ;;
  pp_count <- rs16 (ibo i) ;;
  rassert (0 <=? pp_count) ;;;
  pp <- rlist (Z.to_nat pp_count) (rparam_point_property i) ;;
  ret {| pcp_offset_num := num; pcp_offset_den := den; pcp_timescale := timescale;
         pcp_value := value; pcp_pp := pp |}.

(** components.py:606-614. *)
Definition param_clip_ext (i : ictx) (tag : Z) (o : param_clip) : reader param_clip :=
  if tag =? 1 then rtag 71 ;;; v <- rs32 (ibo i) ;; ret (set_prcl_extrap_kind o (Some v))
  else if tag =? 2 then rtag 71 ;;; v <- rs32 (ibo i) ;; ret (set_prcl_fields o (Some v))
  else fail ValueErr.

(** components.py:556-616 [ParamClip.read]. *)
Definition rparam_clip (i : ictx) : reader param_clip :=
  p <- rclip i ;;
  rtag 2 ;;; rtag 1 ;;;
  interp_kind <- rs32 (ibo i) ;;
  value_type <- rs16 (ibo i) ;;
  rassert ((value_type =? 1) || (value_type =? 2) || (value_type =? 4)) ;;;
  point_count <- rs32 (ibo i) ;;
  rassert (0 <=? point_count) ;;;
  control_points <- rlist (Z.to_nat point_count) (rparam_control_point i value_type) ;;
  o <- iter_ext (param_clip_ext i) {|
    prcl_clip := p; prcl_interp_kind := interp_kind; prcl_value_type := value_type;
    prcl_control_points := control_points; prcl_extrap_kind := None; prcl_fields := None |} ;;
  rtag 3 ;;; ret o.

(** components.py:646-654. A value whose Python type is not the one declared by [type] makes
    [struct.pack] or [write_object_ref] raise; simplified: Python would accept an integer
    where a double is declared. *)
Definition wparam_point_property (c : octx) (o : param_point_property) : writer :=
  ws16 (obo c) (ppp_code o) +++
  ws16 (obo c) (ppp_type o) +++
  (if ppp_type o =? 2 then match ppp_value o with CPDouble v => wdouble v | _ => Err StructError end
   else if ppp_type o =? 1 then
     match ppp_value o with CPInt v => ws32 (obo c) v | _ => Err StructError end
   else Err ValueErr).

(** components.py:634-641; the unknown-type branch asks for the missing attribute
    [cp.value_type] and so raises AttributeError. *)
Definition wcp_value (c : octx) (value_type : Z) (v : cp_value) : writer :=
  if value_type =? 1 then match v with CPInt v => ws32 (obo c) v | _ => Err StructError end
  else if value_type =? 2 then match v with CPDouble v => wdouble v | _ => Err StructError end
  else if value_type =? 4 then match v with CPRef r => wref c r | _ => Err AttributeErr end
  else Err AttributeErr.

(** components.py:630-654. *)
Definition wparam_control_point (c : octx) (value_type : Z) (o : param_control_point) : writer :=
  ws32 (obo c) (pcp_offset_num o) +++
  ws32 (obo c) (pcp_offset_den o) +++
  ws32 (obo c) (pcp_timescale o) +++
  wcp_value c value_type (pcp_value o) +++
  ws16 (obo c) (len (pcp_pp o)) +++
  wlist (wparam_point_property c) (pcp_pp o).

(** components.py:618-668 [ParamClip.write]. *)
Definition wparam_clip (c : octx) (o : param_clip) : writer :=
  wclip c (prcl_clip o) +++
  wu8 2 +++ wu8 1 +++
  ws32 (obo c) (prcl_interp_kind o) +++
  ws16 (obo c) (prcl_value_type o) +++
  ws32 (obo c) (len (prcl_control_points o)) +++
  wlist (wparam_control_point c (prcl_value_type o)) (prcl_control_points o) +++
  wopt (prcl_extrap_kind o) (fun v => wext 1 (wu8 71 +++ ws32 (obo c) v)) +++
  wopt (prcl_fields o) (fun v => wext 2 (wu8 71 +++ ws32 (obo c) v)) +++
  wu8 3.

(** ** ControlClip, components.py:831-927 *)

(** components.py:842-848 [ControlPointProperty]; [value] is a pair. *)
Record control_point_property := {
  cpp_code : Z;
  cpp_value_num : Z;
  cpp_value_den : Z }.

(** [control_point_property] with its references renamed by [f]; components.py:844-847. *)
Definition control_point_property_map (f : Z -> Z) (o : control_point_property)
  : control_point_property := {|
  cpp_code := cpp_code o;
  cpp_value_num := cpp_value_num o;
  cpp_value_den := cpp_value_den o |}.

(** The references of [control_point_property]; components.py:844-847. *)
Definition control_point_property_refs (o : control_point_property) : list Z :=
  [].

(** What [control_point_property] has to satisfy to be stored exactly; components.py:844-847. *)
Definition control_point_property_ok (o : control_point_property) : Prop :=
  True.

(** components.py:831-839 [ControlPoint]. *)
Record control_point := {
  cp_offset_num : Z;
  cp_offset_den : Z;
  cp_time_scale : Z;
  cp_value_num : Z;
  cp_value_den : Z;
  cp_pp : list control_point_property }.

(** [control_point] with its references renamed by [f]; components.py:833-838. *)
Definition control_point_map (f : Z -> Z) (o : control_point) : control_point := {|
  cp_offset_num := cp_offset_num o;
  cp_offset_den := cp_offset_den o;
  cp_time_scale := cp_time_scale o;
  cp_value_num := cp_value_num o;
  cp_value_den := cp_value_den o;
  cp_pp := map (control_point_property_map f) (cp_pp o) |}.

(** The references of [control_point]; components.py:833-838. *)
Definition control_point_refs (o : control_point) : list Z :=
  flat_map control_point_property_refs (cp_pp o).

(** What [control_point] has to satisfy to be stored exactly; components.py:833-838. *)
Definition control_point_ok (o : control_point) : Prop :=
  Forall control_point_property_ok (cp_pp o).

(** components.py:855-858: the properties. *)
Record control_clip := {
  ctrl_clip : clip;
  ctrl_interp_kind : Z;
  ctrl_control_points : list control_point }.

(** [control_clip] with its references renamed by [f]; components.py:855-858. *)
Definition control_clip_map (f : Z -> Z) (o : control_clip) : control_clip := {|
  ctrl_clip := clip_map f (ctrl_clip o);
  ctrl_interp_kind := ctrl_interp_kind o;
  ctrl_control_points := map (control_point_map f) (ctrl_control_points o) |}.

(** The references of [control_clip]; components.py:855-858. *)
Definition control_clip_refs (o : control_clip) : list Z :=
  clip_refs (ctrl_clip o)
  ++ flat_map control_point_refs (ctrl_control_points o).

(** What [control_clip] has to satisfy to be stored exactly; components.py:855-858. *)
Definition control_clip_ok (o : control_clip) : Prop :=
  clip_ok (ctrl_clip o) /\
  Forall control_point_ok (ctrl_control_points o).

(** components.py:892-897. *)
Definition rcontrol_point_property (i : ictx) : reader control_point_property :=
  code <- rs16 (ibo i) ;;
  a <- rs32 (ibo i) ;;
  b <- rs32 (ibo i) ;;
  ret {| cpp_code := code; cpp_value_num := a; cpp_value_den := b |}.

(** components.py:874-899. *)
Definition rcontrol_point (i : ictx) : reader control_point :=
  a <- rs32 (ibo i) ;;
  b <- rs32 (ibo i) ;;
  time_scale <- rs32 (ibo i) ;;
  has_value <- rbool ;;
  rassert has_value ;;;
  va <- rs32 (ibo i) ;;
  vb <- rs32 (ibo i) ;;
  pp_count <- rs16 (ibo i) ;;
  rassert (0 <=? pp_count) ;;;
  pp <- rlist (Z.to_nat pp_count) (rcontrol_point_property i) ;;
  ret {| cp_offset_num := a; cp_offset_den := b; cp_time_scale := time_scale;
         cp_value_num := va; cp_value_den := vb; cp_pp := pp |}.

(** components.py:861-901 [ControlClip.read]. *)
Definition rcontrol_clip (i : ictx) : reader control_clip :=
  p <- rclip i ;;
  rtag 2 ;;; rtag 3 ;;;
  interp_kind <- rs32 (ibo i) ;;
  count <- rs32 (ibo i) ;;
  control_points <- rlist (Z.to_nat count) (rcontrol_point i) ;;
  rtag 3 ;;;
  ret {| ctrl_clip := p; ctrl_interp_kind := interp_kind;
         ctrl_control_points := control_points |}.

(** components.py:831-927. *)
Definition wcontrol_point_property (c : octx) (o : control_point_property) : writer :=
  ws16 (obo c) (cpp_code o) +++
  ws32 (obo c) (cpp_value_num o) +++
  ws32 (obo c) (cpp_value_den o).

(** components.py:831-927. *)
Definition wcontrol_point (c : octx) (o : control_point) : writer :=
  ws32 (obo c) (cp_offset_num o) +++
  ws32 (obo c) (cp_offset_den o) +++
  ws32 (obo c) (cp_time_scale o) +++
  wbool true +++
  ws32 (obo c) (cp_value_num o) +++
  ws32 (obo c) (cp_value_den o) +++
  ws16 (obo c) (len (cp_pp o)) +++
  wlist (wcontrol_point_property c) (cp_pp o).

(** components.py:903-927 [ControlClip.write]. *)
Definition wcontrol_clip (c : octx) (o : control_clip) : writer :=
  wclip c (ctrl_clip o) +++
  wu8 2 +++ wu8 3 +++
  ws32 (obo c) (ctrl_interp_kind o) +++
  ws32 (obo c) (len (ctrl_control_points o)) +++
  wlist (wcontrol_point c) (ctrl_control_points o) +++
  wu8 3.

(** ** Filler, components.py:930-949 *)

(** components.py:931: the properties. *)
Record filler := {
  fill_clip : clip }.

(** [filler] with its references renamed by [f]; components.py:931. *)
Definition filler_map (f : Z -> Z) (o : filler) : filler := {|
  fill_clip := clip_map f (fill_clip o) |}.

(** The references of [filler]; components.py:931. *)
Definition filler_refs (o : filler) : list Z :=
  clip_refs (fill_clip o).

(** What [filler] has to satisfy to be stored exactly; components.py:931. *)
Definition filler_ok (o : filler) : Prop :=
  clip_ok (fill_clip o).

(** components.py:935-941 [Filler.read]. *)
Definition rfiller (i : ictx) : reader filler :=
  p <- rclip i ;;
  rtag 2 ;;; rtag 1 ;;; rtag 3 ;;;
  ret {| fill_clip := p |}.

(** components.py:943-949 [Filler.write]. *)
Definition wfiller (c : octx) (o : filler) : writer :=
  wclip c (fill_clip o) +++ wu8 2 +++ wu8 1 +++ wu8 3.
