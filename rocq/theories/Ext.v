(** Model of the accelerated readers, src/avb/_ext_core.cpp and src/avb/_ext.pyx, used for
    little-endian files (file.py:129-132, 300-303).
    Simplified: memory is unlimited except where said otherwise; what is printed is left out; the
    order of the properties is left out. A chunk without any data (the code then takes the address
    of a byte that is not there) is read like any other here. *)
From Coq Require Import ZArith String List Bool.
From Coq.Floats Require Import SpecFloat.
From Verif Require Import Base IoCtx Text Exp10 MobId Attributes Components Objects.
Import ListNotations.
Open Scope Z_scope.
Close Scope reader_scope.

(** ** What is read *)

(** A value of a property: _ext_core.cpp:73-144, converted as in _ext.pyx:174-356. A float read by
    [read_exp10_encoded_float] and a stored double are kept apart as in the rest of the model. The
    pair [offset] of a control point is a tuple here and a list in the standard reader. *)
Inductive cell :=
| CInt (v : Z)
| CRef (r : Z)
| CBool (b : bool)
| CFloat (f : float64)
| CDouble (v : Z)
| CText (s : str)
| CUuid (u : uuid)
| CMob (m : mobid)
| CDate (t : Z)
| CBytes (b : bytes)
| CInts (l : list Z)
| CPairs (l : list (Z * Z))
| CRefs (l : list Z)
| CPoints (l : list param_control_point).

(** The properties of a track or an effect parameter (_ext_core.cpp:146-166). *)
Definition child := list (string * cell).

(** A value or the list of the tracks or parameters: [Properties::ChildData],
    _ext_core.cpp:154-160. *)
Inductive prop := One (c : cell) | Many (l : list child).

(** _ext_core.cpp:146-166 [Properties], as one list in the order of the additions. No two of the
    vectors get the same name, so that the dictionary made of them (_ext.pyx:358-388) has the last
    of the values added under a name. *)
Definition props := list (string * prop).

(** The dictionary made of the additions (_ext.pyx:358-388). *)
Fixpoint lookup {V} (d : list (string * V)) (n : string) : option V :=
  match d with
  | [] => None
  | (k, v) :: d' =>
    match lookup d' n with
    | Some u => Some u
    | None => if String.eqb k n then Some v else None
    end
  end.

(** ** The reader *)

(** _ext_core.cpp:38-43 [Buffer]: the bytes before the pointer, the last one first, and the bytes
    from the pointer on; and the properties so far. *)
Record st := { past : bytes; rest : bytes; bag : props }.

(** How a call ends: a value, the return value -1, or a C++ exception (_ext_core.cpp:179-188). *)
Inductive out (A : Type) := Done (a : A) | Failed | Thrown.
Arguments Done {A} a.
Arguments Failed {A}.
Arguments Thrown {A}.

(** A function of _ext_core.cpp. *)
Definition M (A : Type) := st -> out A * st.

(** The value, at once (as _ext_core.cpp:456). *)
Definition eret {A} (a : A) : M A := fun s => (Done a, s).

(** One statement after the other; [return -1] and exceptions end the function (as
    _ext_core.cpp:425-456). *)
Definition ebind {A B} (m : M A) (k : A -> M B) : M B := fun s =>
  match m s with
  | (Done a, s') => k a s'
  | (Failed, s') => (Failed, s')
  | (Thrown, s') => (Thrown, s')
  end.

Declare Scope ext_scope.
Delimit Scope ext_scope with ext.
Notation "x <- r ;; k" := (ebind r (fun x => k))
  (at level 61, r at next level, right associativity) : ext_scope.
Notation "r ;;; k" := (ebind r (fun _ => k))
  (at level 61, right associativity) : ext_scope.
Open Scope ext_scope.

(** [return -1] (_ext_core.cpp:179-188). *)
Definition efail {A} : M A := fun s => (Failed, s).

(** A C++ exception: [std::length_error] or [std::bad_alloc] (from the [resize] and [reserve] of
    _ext_core.cpp:235, 469 and 688). *)
Definition ethrow {A} : M A := fun s => (Thrown, s).

(** A call whose return value is not looked at, as [read_comp(f, p);] (_ext_core.cpp:461). *)
Definition ign (m : M unit) : M unit := fun s =>
  match m s with
  | (Failed, s') => (Done tt, s')
  | r => r
  end.

(** _ext_core.cpp:273-327 [add_object_ref], [add_int] and so on. *)
Definition put (n : string) (p : prop) : M unit := fun s =>
  (Done tt, {| past := past s; rest := rest s; bag := bag s ++ [(n, p)] |}).

(** [add_...(p, n, read_...(f))] (as _ext_core.cpp:428-440). *)
Definition puts {A} (n : string) (f : A -> cell) (m : M A) : M unit :=
  v <- m ;; put n (One (f v)).

(** _ext_core.cpp:168-173 [read_u8]: 0 after the end, the pointer then stays. *)
Definition eu8 : M Z := fun s =>
  match rest s with
  | [] => (Done 0, s)
  | x :: r => (Done x, {| past := x :: past s; rest := r; bag := bag s |})
  end.

(** [f->ptr--]. Simplified: at the first byte the pointer stays (_ext_core.cpp:268). *)
Definition eback : M unit := fun s =>
  match past s with
  | [] => (Done tt, s)
  | x :: p => (Done tt, {| past := p; rest := x :: rest s; bag := bag s |})
  end.

(** _ext_core.cpp:179-183 [read_assert_tag]. *)
Definition etag (t : Z) : M unit := v <- eu8 ;; if v =? t then eret tt else efail.

(** _ext_core.cpp:190-193 [read_bool]; the truth value by _ext.pyx:267-270. *)
Definition ebool : M bool := v <- eu8 ;; eret (v =? 1).

(** _ext_core.cpp:195-201 [read_u16le]. *)
Definition eu16 : M Z := a <- eu8 ;; b <- eu8 ;; eret (Z.lor a (Z.shiftl b 8)).

(** _ext_core.cpp:203-209 [read_u32le]. *)
Definition eu32 : M Z := a <- eu16 ;; b <- eu16 ;; eret (Z.lor a (Z.shiftl b 16)).

(** _ext_core.cpp:211-216 [read_u64le]. *)
Definition eu64 : M Z := a <- eu32 ;; b <- eu32 ;; eret (Z.lor a (Z.shiftl b 32)).

(** The casts [(int8_t)], [(int16_t)], [(int32_t)], [(int64_t)] of an unsigned value of [w] bits (as
    _ext_core.cpp:226-227). *)
Definition signed (w v : Z) : Z := if v <? 2 ^ (w - 1) then v else v - 2 ^ w.

(** [(int8_t)read_u8(f)], [(int16_t)read_u16le(f)], [(int32_t)read_u32le(f)],
    [(int64_t)read_u64le(f)] (as _ext_core.cpp:226-227). *)
Definition es8 : M Z := v <- eu8 ;; eret (signed 8 v).
(** _ext_core.cpp:195-201, as a signed number. *)
Definition es16 : M Z := v <- eu16 ;; eret (signed 16 v).
(** _ext_core.cpp:203-209, as a signed number. *)
Definition es32 : M Z := v <- eu32 ;; eret (signed 32 v).
(** _ext_core.cpp:211-216, as a signed number. *)
Definition es64 : M Z := v <- eu64 ;; eret (signed 64 v).

(** _ext_core.cpp:218-222 [read_double_le]: the bit pattern. *)
Definition edouble : M Z := eu64.

(** _ext_core.cpp:224-230 [read_exp10_encoded_float]. [pow(10.0, e)] is trusted to be the float
    nearest to the power ([pow10] of Exp10.v), infinite when it is too large. *)
Definition eexp10 : M float64 :=
  m <- es32 ;; e <- es16 ;;
  eret (fmul (f_of_Z m) match pow10 e with Ok p => p | Err _ => S754_infinity false end).

(** [for (i = 0; i < n; i++) ...], collecting values (as _ext_core.cpp:470-472). *)
Fixpoint elist {A} (n : nat) (m : M A) : M (list A) :=
  match n with
  | O => eret []
  | S n' => x <- m ;; l <- elist n' m ;; eret (x :: l)
  end.

(** [n] bytes (as _ext_core.cpp:236-238). *)
Definition ebytes (n : Z) : M bytes := elist (Z.to_nat n) eu8.

(** _ext_core.cpp:232-239 [read_data32]. *)
Definition edata32 : M bytes := n <- eu32 ;; ebytes n.

(** _ext_core.cpp:241-250 [read_data16]. *)
Definition edata16 : M bytes := n <- eu16 ;; if n <? 65535 then ebytes n else eret [].

(** _ext_core.cpp:252-261 [add_string] and its conversion, _ext.pyx:295-308. *)
Definition etext : M str := b <- edata16 ;; eret (map mac_dec1 b).

(** _ext_core.cpp:263-270 [iter_ext] in [while (iter_ext(f)) { tag = read_u8(f); ... }], with the
    body [h] and what it keeps from round to round. Fuel: the loop of the code is unbounded; every
    round consumes two bytes or more. *)
Fixpoint eloop {L} (fuel : nat) (h : Z -> L -> M L) (l : L) : M L :=
  match fuel with
  | O => ethrow
  | S fuel' =>
    c <- eu8 ;;
    if c =? 1 then tag <- eu8 ;; l' <- h tag l ;; eloop fuel' h l'
    else eback ;;; eret l
  end.

(** [while (iter_ext(f))], as _ext_core.cpp:442-454. Fuel: every round moves on. *)
Definition ewhile {L} (h : Z -> L -> M L) (l : L) : M L := fun s =>
  eloop (S (List.length (rest s))) h l s.

(** The usual case: nothing is kept (as _ext_core.cpp:442-454). *)
Definition esections (h : Z -> M unit) : M unit := ewhile (fun tag _ => h tag) tt.

(** _ext_core.cpp:329-391 [read_mob_id]: the 32 bytes, [MobID(bytes_le=data)] of _ext.pyx:284-293. *)
Definition emobid (n : string) : M unit :=
  etag 65 ;;; k <- eu32 ;; (if k =? 12 then eret tt else efail) ;;;
  label <- ebytes 12 ;;
  etag 68 ;;; a <- eu8 ;; etag 68 ;;; b <- eu8 ;; etag 68 ;;; c <- eu8 ;; etag 68 ;;; d <- eu8 ;;
  etag 72 ;;; d1 <- ebytes 4 ;; etag 70 ;;; d2 <- ebytes 2 ;; etag 70 ;;; d3 <- ebytes 2 ;;
  etag 65 ;;; k2 <- eu32 ;; (if k2 =? 8 then eret tt else efail) ;;;
  d4 <- ebytes 8 ;;
  put n (One (CMob (label ++ [a; b; c; d] ++ d1 ++ d2 ++ d3 ++ d4))).

(** _ext_core.cpp:393-404 [add_raw_uuid], [UUID(bytes_le=data)] of _ext.pyx:272-282. *)
Definition erawuuid (n : string) : M unit :=
  b <- ebytes 16 ;; put n (One (CUuid (uuid_swap b))).

(** ** Components *)

(** _ext_core.cpp:423-457 [read_comp]. *)
Definition ecomp : M unit :=
  etag 2 ;;; etag 3 ;;;
  puts "left_bob" CRef eu32 ;;; puts "right_bob" CRef eu32 ;;;
  puts "media_kind_id" CInt eu16 ;;;
  puts "edit_rate" CFloat eexp10 ;;;
  puts "name" CText etext ;;; puts "effect_id" CText etext ;;;
  puts "attributes" CRef eu32 ;;; puts "session_attrs" CRef eu32 ;;; puts "precomputed" CRef eu32 ;;;
  esections (fun tag =>
    if tag =? 1 then etag 72 ;;; puts "param_list" CRef eu32 else efail).

(** _ext_core.cpp:459-477 [read_sequence]; the list gets no parent (_ext.pyx:179-186). *)
Definition esequence : M unit :=
  ign ecomp ;;; etag 2 ;;; etag 3 ;;;
  count <- eu32 ;; l <- elist (Z.to_nat count) eu32 ;; put "components" (One (CRefs l)) ;;;
  etag 3.

(** _ext_core.cpp:478-486 [read_clip]. *)
Definition eclip : M unit :=
  ign ecomp ;;; etag 2 ;;; etag 1 ;;; puts "length" CInt eu32.

(** _ext_core.cpp:488-496 [read_filler]. *)
Definition efiller : M unit := ign eclip ;;; etag 2 ;;; etag 1 ;;; etag 3.

(** _ext_core.cpp:498-528 [read_sourceclip]. *)
Definition esourceclip : M unit :=
  ign eclip ;;; etag 2 ;;; etag 3 ;;;
  eu32 ;;; eu32 ;;;
  puts "track_id" CInt es16 ;;; puts "start_time" CInt es32 ;;;
  esections (fun tag => if tag =? 1 then ign (emobid "mob_id") else efail) ;;;
  etag 3.

(** _ext_core.cpp:575-589: a property of a control point, [value] unsigned
    (_ext.pyx:225-237). *)
Definition epoint_property : M param_point_property :=
  code <- es16 ;; type <- eu16 ;;
  v <- (if type =? 1 then v <- eu32 ;; eret (CPInt v)
        else if type =? 2 then v <- edouble ;; eret (CPDouble v)
        else efail) ;;
  eret {| ppp_code := code; ppp_type := type; ppp_value := v |}.

(** _ext_core.cpp:556-570: the value of a control point, an unsigned integer, a double or a
    reference (_ext.pyx:218-223). *)
Definition epoint_value (value_type : Z) : M cp_value :=
  if value_type =? 1 then v <- eu32 ;; eret (CPInt v)
  else if value_type =? 2 then v <- edouble ;; eret (CPDouble v)
  else if value_type =? 4 then v <- eu32 ;; eret (CPRef v)
  else efail.

(** _ext_core.cpp:550-590: a control point. *)
Definition epoint (value_type : Z) : M param_control_point :=
  num <- es32 ;; den <- es32 ;; timescale <- es32 ;;
  v <- epoint_value value_type ;;
  pp_count <- eu16 ;;
  pp <- elist (Z.to_nat pp_count) epoint_property ;;
  eret {| pcp_offset_num := num; pcp_offset_den := den; pcp_timescale := timescale;
          pcp_value := v; pcp_pp := pp |}.

(** _ext_core.cpp:530-612 [read_paramclip]. *)
Definition eparamclip : M unit :=
  ign eclip ;;; etag 2 ;;; etag 1 ;;;
  puts "interp_kind" CInt es32 ;;;
  value_type <- eu16 ;; put "value_type" (One (CInt value_type)) ;;;
  point_count <- eu32 ;;
  l <- elist (Z.to_nat point_count) (epoint value_type) ;;
  put "control_points" (One (CPoints l)) ;;;
  esections (fun tag =>
    if tag =? 1 then etag 71 ;;; puts "extrap_kind" CInt es32
    else if tag =? 2 then etag 71 ;;; puts "fields" CInt es32
    else efail) ;;;
  etag 3.

(** _ext_core.cpp:622-636: the value of a parameter item. *)
Definition eitem_value (value_type : Z) : M unit :=
  if value_type =? 1 then puts "value" CInt es32
  else if value_type =? 2 then puts "value" CDouble edouble
  else if value_type =? 4 then puts "value" CRef eu32
  else efail.

(** _ext_core.cpp:614-657 [read_paramitem]. *)
Definition eparamitem : M unit :=
  etag 2 ;;; etag 2 ;;;
  erawuuid "uuid" ;;;
  value_type <- es16 ;; put "value_type" (One (CInt value_type)) ;;;
  eitem_value value_type ;;;
  puts "name" CText etext ;;; puts "enable" CBool ebool ;;; puts "control_track" CRef eu32 ;;;
  esections (fun tag =>
    if tag =? 1 then etag 66 ;;; puts "contribs_to_sig" CBool ebool else efail) ;;;
  etag 3.

(** _ext_core.cpp:659-670 [read_trackref]. *)
Definition etrackref : M unit :=
  ign eclip ;;; etag 2 ;;; etag 1 ;;;
  puts "relative_scope" CInt es16 ;;; puts "relative_track" CInt es16 ;;;
  etag 3.

(** ** Track groups *)

(** A part of a track that is there if its flag is set (_ext_core.cpp:695-723). *)
Definition eflag (flags bit : Z) (n : string) (m : M cell) : M child :=
  if Z.testbit flags bit then v <- m ;; eret [(n, v)] else eret [].

(** A number as a value (as _ext_core.cpp:696). *)
Definition eint (m : M Z) : M cell := v <- m ;; eret (CInt v).
(** A reference of a track, as _ext_core.cpp:699. *)
Definition eref : M cell := v <- eu32 ;; eret (CRef v).
(** A truth value of a track, _ext_core.cpp:723. *)
Definition ebit : M cell := v <- ebool ;; eret (CBool v).

(** _ext_core.cpp:691-731: a track. The flags are the bits of _ext_core.cpp:25-36. *)
Definition etrack : M child :=
  flags <- eu16 ;;
  a <- eflag flags 0 "index" (eint es16) ;;
  b <- eflag flags 1 "attributes" eref ;;
  c <- eflag flags 9 "session_attr" eref ;;
  d <- eflag flags 2 "component" eref ;;
  e <- eflag flags 3 "filler_proxy" eref ;;
  f <- eflag flags 4 "bob_data" eref ;;
  g <- eflag flags 5 "control_code" (eint es16) ;;
  h <- eflag flags 6 "control_sub_code" (eint es16) ;;
  i <- eflag flags 7 "start_pos" (eint es32) ;;
  j <- eflag flags 8 "read_only" ebit ;;
  if Z.land flags 0xFC00 =? 0
  then eret (a ++ b ++ c ++ d ++ e ++ f ++ g ++ h ++ i ++ j)
  else efail.

(** _ext_core.cpp:737-740: the lock numbers. *)
Fixpoint elocks (tracks : list child) : M (list child) :=
  match tracks with
  | [] => eret []
  | t :: l => etag 69 ;;; v <- es16 ;; l' <- elocks l ;; eret ((t ++ [("lock_number"%string, CInt v)]) :: l')
  end.

(** _ext_core.cpp:672-750 [read_trackgroup]. A negative number of tracks makes [resize] throw.
    Simplified: after a failure inside the tracks there are no tracks, after one inside the lock
    numbers none of these (the code keeps what was read before). *)
Definition etrackgroup : M unit :=
  ign ecomp ;;; etag 2 ;;; etag 8 ;;;
  puts "mc_mode" CInt eu8 ;;; puts "length" CInt es32 ;;; puts "num_scalars" CInt es32 ;;;
  track_count <- es32 ;;
  (if track_count <? 0 then ethrow else eret tt) ;;;
  tracks <- elist (Z.to_nat track_count) etrack ;;
  put "tracks" (Many tracks) ;;;
  ewhile (fun tag ts =>
    if tag =? 1 then ts' <- elocks ts ;; put "tracks" (Many ts') ;;; eret ts' else efail) tracks ;;;
  eret tt.

(** _ext_core.cpp:752-788 [read_trackeffect]: the closing byte is not looked at. *)
Definition etrackeffect : M unit :=
  ign etrackgroup ;;; etag 2 ;;; etag 6 ;;;
  puts "left_length" CInt es32 ;;; puts "right_length" CInt es32 ;;;
  puts "info_version" CInt es16 ;;; puts "info_current" CInt es32 ;;;
  puts "info_smooth" CInt es32 ;;; puts "info_color_item" CInt es16 ;;;
  puts "info_quality" CInt es16 ;;; puts "info_is_reversed" CInt es8 ;;;
  puts "info_aspect_on" CBool ebool ;;;
  puts "keyframes" CRef eu32 ;;;
  puts "info_force_software" CBool ebool ;;; puts "info_never_hardware" CBool ebool ;;;
  esections (fun tag =>
    if tag =? 2 then etag 72 ;;; puts "trackman" CRef eu32 else efail).

(** _ext_core.cpp:790-802 [read_selector]. *)
Definition eselector : M unit :=
  ign etrackgroup ;;; etag 2 ;;; etag 1 ;;;
  puts "is_ganged" CBool ebool ;;; puts "selected" CInt eu16 ;;;
  etag 3.

(** _ext_core.cpp:804-840 [read_composition]; dates are time stamps here as in the rest of the
    model. *)
Definition ecomposition : M unit :=
  ign etrackgroup ;;; etag 2 ;;; etag 2 ;;;
  eu32 ;;; eu32 ;;;
  puts "last_modified" CDate eu32 ;;; puts "mob_type_id" CInt eu8 ;;;
  puts "usage_code" CInt eu32 ;;; puts "descriptor" CRef eu32 ;;;
  esections (fun tag =>
    if tag =? 1 then etag 71 ;;; puts "creation_time" CDate eu32
    else if tag =? 2 then ign (emobid "mob_id")
    else efail) ;;;
  etag 3.

(** ** Descriptors *)

(** _ext_core.cpp:842-879 [read_media_descriptor]: the closing byte is not looked at. *)
Definition emediadescriptor : M unit :=
  etag 2 ;;; etag 3 ;;;
  puts "mob_kind" CInt eu8 ;;; puts "locator" CRef eu32 ;;;
  puts "intermediate" CBool ebool ;;; puts "physical_media" CRef eu32 ;;;
  esections (fun tag =>
    if tag =? 1 then
      etag 65 ;;; k <- eu32 ;; (if k =? 16 then eret tt else efail) ;;; erawuuid "uuid"
    else if tag =? 2 then etag 65 ;;; puts "wchar" CBytes edata32
    else if tag =? 3 then etag 72 ;;; puts "attributes" CRef eu32
    else efail).

(** _ext_core.cpp:881-893 [read_media_file_descriptor]. *)
Definition emediafiledescriptor : M unit :=
  emediadescriptor ;;; etag 2 ;;; etag 3 ;;;
  puts "edit_rate" CFloat eexp10 ;;; puts "length" CInt es32 ;;;
  puts "is_omfi" CInt es16 ;;; puts "data_offset" CInt es32.

(** Eight tagged numbers, as _ext_core.cpp:976-998, with their conversion to a list of pairs,
    _ext.pyx:338-342. *)
Definition ecorner : M (Z * Z) :=
  etag 71 ;;; x <- es32 ;; etag 71 ;;; y <- es32 ;; eret (x, y).
(** Four corners, as _ext_core.cpp:979-997. *)
Definition ebox : M (list (Z * Z)) := elist 4 ecorner.

(** _ext_core.cpp:922-927: the line map. Simplified: asking for 2^31 bytes or more of it counts as a
    failed allocation; with enough memory there would be a list of zeros. *)
Definition eline_map : M (list Z) :=
  n <- eu32 ;;
  if 2 ^ 31 <=? n then ethrow else elist (Z.to_nat (n / 4)) es32.

(** _ext_core.cpp:946-1097: the optional sections of [read_did_descriptor]. Simplified: after a
    failure inside a box there is no such box. *)
Definition edid_section (tag : Z) : M unit :=
  if tag =? 1 then etag 69 ;;; puts "frame_index_byte_order" CInt es16
  else if tag =? 2 then etag 71 ;;; puts "frame_sample_size" CInt es32
  else if tag =? 3 then etag 71 ;;; puts "first_frame_offset" CInt es32
  else if tag =? 4 then
    etag 71 ;;; puts "client_fill_start" CInt es32 ;;;
    etag 71 ;;; puts "client_fill_end" CInt es32
  else if tag =? 5 then etag 71 ;;; puts "offset_to_rle_frame_index" CInt es32
  else if tag =? 6 then etag 71 ;;; puts "frame_start_offset" CInt es32
  else if tag =? 8 then
    puts "valid_box" CPairs ebox ;;; puts "essence_box" CPairs ebox ;;; puts "source_box" CPairs ebox
  else if tag =? 9 then
    puts "framing_box" CPairs ebox ;;; etag 71 ;;; puts "reformatting_option" CInt es32
  else if tag =? 10 then etag 80 ;;; erawuuid "transfer_characteristic"
  else if tag =? 11 then
    etag 80 ;;; erawuuid "color_primaries" ;;; etag 80 ;;; erawuuid "coding_equations"
  else if tag =? 12 then etag 80 ;;; erawuuid "essence_compression"
  else if tag =? 14 then etag 68 ;;; puts "essence_element_size_kind" CInt eu8
  else if tag =? 15 then etag 66 ;;; puts "frame_checked_with_mapper" CBool ebool
  else efail.

(** _ext_core.cpp:895-1101 [read_did_descriptor]: the closing byte is not looked at. *)
Definition ediddescriptor : M unit :=
  ign emediafiledescriptor ;;; etag 2 ;;; etag 2 ;;;
  puts "stored_height" CInt es32 ;;; puts "stored_width" CInt es32 ;;;
  puts "sampled_height" CInt es32 ;;; puts "sampled_width" CInt es32 ;;;
  puts "sampled_x_offset" CInt es32 ;;; puts "sampled_y_offset" CInt es32 ;;;
  puts "display_height" CInt es32 ;;; puts "display_width" CInt es32 ;;;
  puts "display_x_offset" CInt es32 ;;; puts "display_y_offset" CInt es32 ;;;
  puts "frame_layout" CInt es16 ;;;
  a <- es32 ;; b <- es32 ;; put "aspect_ratio" (One (CInts [a; b])) ;;;
  puts "line_map" CInts eline_map ;;;
  puts "alpha_transparency" CInt es32 ;;; puts "uniformness" CBool ebool ;;;
  puts "did_image_size" CInt es32 ;;; puts "next_did_desc" CRef eu32 ;;;
  c <- ebytes 4 ;; put "compress_method" (One (CBytes (rev c))) ;;;
  puts "resolution_id" CInt es32 ;;; puts "image_alignment_factor" CInt es32 ;;;
  esections edid_section.

(** _ext_core.cpp:1103-1139 [read_cdci_descriptor]. *)
Definition ecdcidescriptor : M unit :=
  ign ediddescriptor ;;; etag 2 ;;; etag 2 ;;;
  puts "horizontal_subsampling" CInt eu32 ;;; puts "vertical_subsampling" CInt eu32 ;;;
  puts "component_width" CInt eu32 ;;;
  puts "color_sitting" CInt es16 ;;;
  puts "black_ref_level" CInt eu32 ;;; puts "white_ref_level" CInt eu32 ;;;
  puts "color_range" CInt eu32 ;;;
  puts "frame_index_offset" CInt es64 ;;;
  esections (fun tag =>
    if tag =? 1 then etag 72 ;;; puts "alpha_sampled_width" CInt eu32
    else if tag =? 2 then etag 72 ;;; puts "ignore_bw" CInt eu32
    else efail) ;;;
  etag 3.

(** ** Effect parameters *)

(** _ext_core.cpp:1161-1217: a parameter. *)
Definition eparam : M child :=
  percent_time <- es32 ;; level <- es32 ;; pos_x <- es32 ;; floor_x <- es32 ;; ceil_x <- es32 ;;
  pos_y <- es32 ;; floor_y <- es32 ;; ceil_y <- es32 ;; scale_x <- es32 ;; scale_y <- es32 ;;
  crop_left <- es32 ;; crop_right <- es32 ;; crop_top <- es32 ;; crop_bottom <- es32 ;;
  b0 <- es32 ;; b1 <- es32 ;; b2 <- es32 ;; b3 <- es32 ;; box_xscale <- ebool ;;
  box_yscale <- ebool ;; box_xpos <- ebool ;; box_ypos <- ebool ;; border_width <- es32 ;;
  border_soft <- es32 ;; splill_gain2 <- es16 ;; splill_gain <- es16 ;; splill_soft2 <- es16 ;;
  splill_soft <- es16 ;; enable_key_flags <- es8 ;; color_count <- eu32 ;;
  colors <- elist (Z.to_nat color_count) es32 ;; param_size <- eu32 ;;
  user_param <- ebytes param_size ;; selected <- ebool ;;
  eret [
    ("percent_time"%string, CInt percent_time); ("level"%string, CInt level);
    ("pos_x"%string, CInt pos_x); ("floor_x"%string, CInt floor_x);
    ("ceil_x"%string, CInt ceil_x); ("pos_y"%string, CInt pos_y);
    ("floor_y"%string, CInt floor_y); ("ceil_y"%string, CInt ceil_y);
    ("scale_x"%string, CInt scale_x); ("scale_y"%string, CInt scale_y);
    ("crop_left"%string, CInt crop_left); ("crop_right"%string, CInt crop_right);
    ("crop_top"%string, CInt crop_top); ("crop_bottom"%string, CInt crop_bottom);
    ("box"%string, CInts [b0; b1; b2; b3]); ("box_xscale"%string, CBool box_xscale);
    ("box_yscale"%string, CBool box_yscale); ("box_xpos"%string, CBool box_xpos);
    ("box_ypos"%string, CBool box_ypos); ("border_width"%string, CInt border_width);
    ("border_soft"%string, CInt border_soft); ("splill_gain2"%string, CInt splill_gain2);
    ("splill_gain"%string, CInt splill_gain); ("splill_soft2"%string, CInt splill_soft2);
    ("splill_soft"%string, CInt splill_soft); ("enable_key_flags"%string, CInt enable_key_flags);
    ("colors"%string, CInts colors); ("user_param"%string, CBytes user_param);
    ("selected"%string, CBool selected) ].

(** _ext_core.cpp:1141-1224 [read_effectparamlist]. 2^31 parameters or more (hundreds of gigabytes)
    count as a failed allocation. *)
Definition eeffectparamlist : M unit :=
  etag 2 ;;; etag 18 ;;;
  puts "orig_length" CInt es32 ;;; puts "window_offset" CInt es32 ;;;
  n <- eu32 ;;
  puts "keyframe_size" CInt es32 ;;;
  (if 2 ^ 31 <=? n then ethrow else eret tt) ;;;
  l <- elist (Z.to_nat n) eparam ;;
  put "parameters" (Many l) ;;;
  etag 3.

(** ** Attributes *)

(** _ext_core.cpp:1241-1261: an entry, converted as in _ext.pyx:413-441. *)
Definition eattr : M (str * attr_value) :=
  type <- eu32 ;;
  name <- etext ;;
  if type =? 1 then v <- eu32 ;; eret (name, AInt (signed 32 v))
  else if type =? 2 then v <- etext ;; eret (name, AStr v)
  else if type =? 3 then v <- eu32 ;; eret (name, ARef v)
  else if type =? 4 then v <- edata32 ;; eret (name, ABob v)
  else efail.

(** _ext_core.cpp:1226-1266 [read_attributes]: without entries the closing byte is not looked at. *)
Definition eattributes : M (list (str * attr_value)) :=
  etag 2 ;;; etag 1 ;;;
  n <- eu32 ;;
  if n =? 0 then eret []
  else l <- elist (Z.to_nat n) eattr ;; etag 3 ;;; eret l.

(** ** The table of readers *)

(** What the object gets (_ext.pyx:391-716). *)
Inductive loaded := Props (d : props) | Attrs (d : attributes).

(** What becomes of a call: [ValueError] after -1 (_ext.pyx, as in lines 410-411), another error
    after a C++ exception ([except+], _ext.pyx:141-155). *)
Inductive ext_result := ExtOk (l : loaded) | ExtValueError | ExtMemory.

(** A call of a reader on the data of a chunk, _ext.pyx:391-441 and 456-717. *)
Definition run {A} (m : M A) (data : bytes) : out A * st :=
  m {| past := []; rest := data; bag := [] |}.

(** A call of a reader, as _ext.pyx:463-473. *)
Definition run_props (m : M unit) (data : bytes) : ext_result :=
  match run m data with
  | (Done _, s) => ExtOk (Props (bag s))
  | (Failed, _) => ExtValueError
  | (Thrown, _) => ExtMemory
  end.

(** _ext.pyx:391-441 [read_attr_data]. *)
Definition run_attrs (data : bytes) : ext_result :=
  match run eattributes data with
  | (Done l, _) => ExtOk (Attrs (fold_left (fun d p => dict_set d (fst p) (snd p)) l []))
  | (Failed, _) => ExtValueError
  | (Thrown, _) => ExtMemory
  end.

(** _ext.pyx:719-734 [READERS]; [None] where there is no such reader. *)
Definition ext_read (k : kind) : option (bytes -> ext_result) :=
  match k with
  | K_CMPO => Some (run_props ecomposition)
  | K_TKFX => Some (run_props etrackeffect)
  | K_MDES => Some (run_props emediadescriptor)
  | K_DIDD => Some (run_props ediddescriptor)
  | K_CDCI => Some (run_props ecdcidescriptor)
  | K_SLCT => Some (run_props eselector)
  | K_SEQU => Some (run_props esequence)
  | K_FILL => Some (run_props efiller)
  | K_SCLP => Some (run_props esourceclip)
  | K_PRCL => Some (run_props eparamclip)
  | K_PRIT => Some (run_props eparamitem)
  | K_TRKR => Some (run_props etrackref)
  | K_FXPS => Some (run_props eeffectparamlist)
  | K_ATTR => Some run_attrs
  | _ => None
  end.

Close Scope ext_scope.
