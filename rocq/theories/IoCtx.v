(** Model of src/avb/ioctx.py: integers, tags, optional sections, booleans,
    references, rectangles and colours. *)
From Coq Require Import ZArith List Bool.
From Verif Require Import Base.
Import ListNotations.
Open Scope Z_scope.

(** ioctx.py:21-64, [AVBIOContext.__init__]: the two byte orders. *)
Inductive border := LE | BE.

(** ** Integers *)

(** Base-256 digits, least significant first: what [struct.pack("<...")] emits (ioctx.py:333-378).
    *)
Fixpoint le_enc (n : nat) (v : Z) : bytes :=
  match n with O => [] | S n' => (v mod 256) :: le_enc n' (v / 256) end.

(** Base-256 digits, least significant first: what [unpack] of a little order gives,
    ioctx.py:328-374. *)
Fixpoint le_dec (b : bytes) : Z :=
  match b with [] => 0 | x :: b' => x + 256 * le_dec b' end.

(** The digits in either order, ioctx.py:333-378 and 404-449. *)
Definition enc (bo : border) (n : nat) (v : Z) : bytes :=
  match bo with LE => le_enc n v | BE => rev (le_enc n v) end.

(** The number in either order, ioctx.py:328-374 and 399-445. *)
Definition dec (bo : border) (b : bytes) : Z :=
  match bo with LE => le_dec b | BE => le_dec (rev b) end.

(** 256^n (the range of [pack], ioctx.py:333-378). *)
Definition pow256 (n : nat) : Z := 256 ^ Z.of_nat n.

(** [pack("<H")] and the like: a value outside the range is [struct.error] (ioctx.py:333-378 and
    404-449). *)
Definition wunsigned (bo : border) (n : nat) (v : Z) : writer :=
  if (0 <=? v) && (v <? pow256 n) then Ok (enc bo n v) else Err StructError.

(** The same for signed formats, ioctx.py:342-344 and the like. *)
Definition wsigned (bo : border) (n : nat) (v : Z) : writer :=
  if (- (pow256 n / 2) <=? v) && (v <? pow256 n / 2)
  then Ok (enc bo n (v mod pow256 n)) else Err StructError.

(** [unpack] of an unsigned format, ioctx.py:328-331 and the like. *)
Definition runsigned (bo : border) (n : nat) : reader Z :=
  b <- take n ;; ret (dec bo b).

(** [unpack] of a signed format, ioctx.py:337-340 and the like. *)
Definition rsigned (bo : border) (n : nat) : reader Z :=
  b <- take n ;; ret (let u := dec bo b in if u <? pow256 n / 2 then u else u - pow256 n).

(** ioctx.py:97-113. One byte has no byte order. *)
Definition ru8 : reader Z := runsigned LE 1.
(** ioctx.py:102-104 [write_u8]. *)
Definition wu8 (v : Z) : writer := wunsigned LE 1 v.
(** ioctx.py:106-109 [read_s8]. *)
Definition rs8 : reader Z := rsigned LE 1.
(** ioctx.py:111-113 [write_s8]. *)
Definition ws8 (v : Z) : writer := wsigned LE 1 v.

(** ioctx.py:328-378 (little) and 399-449 (big). *)
Definition ru16 (bo : border) : reader Z := runsigned bo 2.
(** ioctx.py:333-335 and 404-406 [write_u16]. *)
Definition wu16 (bo : border) (v : Z) : writer := wunsigned bo 2 v.
(** ioctx.py:337-340 and 408-411 [read_s16]. *)
Definition rs16 (bo : border) : reader Z := rsigned bo 2.
(** ioctx.py:342-344 and 413-415 [write_s16]. *)
Definition ws16 (bo : border) (v : Z) : writer := wsigned bo 2 v.
(** ioctx.py:346-349 and 417-420 [read_u32]. *)
Definition ru32 (bo : border) : reader Z := runsigned bo 4.
(** ioctx.py:351-353 and 422-424 [write_u32]. *)
Definition wu32 (bo : border) (v : Z) : writer := wunsigned bo 4 v.
(** ioctx.py:355-358 and 426-429 [read_s32]. *)
Definition rs32 (bo : border) : reader Z := rsigned bo 4.
(** ioctx.py:360-362 and 431-433 [write_s32]. *)
Definition ws32 (bo : border) (v : Z) : writer := wsigned bo 4 v.
(** ioctx.py:364-366 and 435-437 [read_u64]. *)
Definition ru64 (bo : border) : reader Z := runsigned bo 8.
(** ioctx.py:368-370 and 439-441 [write_u64]. *)
Definition wu64 (bo : border) (v : Z) : writer := wunsigned bo 8 v.
(** ioctx.py:372-374 and 443-445 [read_s64]. *)
Definition rs64 (bo : border) : reader Z := rsigned bo 8.
(** ioctx.py:376-378 and 447-449 [write_s64]. *)
Definition ws64 (bo : border) (v : Z) : writer := wsigned bo 8 v.

(** ioctx.py:380-386 and 451-457. A double is its 64-bit pattern here. Both byte orders
    use the format "<d" in the code, so the order is not a parameter of these two. *)
Definition rdouble : reader Z := runsigned LE 8.
(** ioctx.py:384-386 and 455-457 [write_double]. *)
Definition wdouble (v : Z) : writer := wunsigned LE 8 v.

(** ** Tags and optional sections *)

(** ioctx.py:66-70 [read_assert_tag]. *)
Definition rtag (t : Z) : reader unit :=
  v <- ru8 ;; if v =? t then ret tt else fail AssertionErr.

(** ioctx.py:72-82 [iter_ext] with the body [h] of the caller's [for tag in ...] loop.
    A section is the byte 1, the tag, the body; any other byte ends the loop and is not
    consumed; at the end of the data [read_u8] raises [struct.error].
    Fuel: the loop of the code is unbounded; every round consumes two bytes or more. *)
Fixpoint ext_loop {S : Type} (fuel : nat) (h : Z -> S -> reader S) (s : S) : reader S :=
  fun b =>
  match fuel with
  | O => Err OutOfFuel
  | Datatypes.S fuel' =>
    match b with
    | [] => Err StructError
    | x :: b1 =>
      if x =? 1 then
        match b1 with
        | [] => Err StructError
        | tag :: b2 =>
          match h tag s b2 with
          | Ok (s', b3) => ext_loop fuel' h s' b3
          | Err e => Err e
          end
        end
      else Ok (s, b)
    end
  end.

(** ioctx.py:72-82 [iter_ext] from its start. *)
Definition iter_ext {S : Type} (h : Z -> S -> reader S) (s : S) : reader S :=
  fun b => ext_loop (Datatypes.S (length b)) h s b.

(** The writers' side of a section: [write_u8(f, 0x01); write_u8(f, tag); ...] (as
    components.py:90-91). *)
Definition wext (tag : Z) (w : writer) : writer := wu8 1 +++ wu8 tag +++ w.

(** ** Booleans, ioctx.py:115-124 *)
Definition rbool : reader bool := v <- ru8 ;; ret (v =? 1).
(** ioctx.py:119-124 [write_bool]. *)
Definition wbool (v : bool) : writer := if v then wu8 1 else wu8 0.

(** ** References *)

(** What a reader needs of [root]: [root.ictx.byte_order] and, when [root.check_refs] is set,
    [len(root.object_positions)] (ioctx.py:176-181, utils.py:37-41). *)
Record ictx := { ibo : border; inobj : option Z }.

(** What a writer needs of [root]: [root.octx.byte_order] and [root.ref_mapping] (instance id to
    chunk number). [root.debug_copy_refs] is False (ioctx.py:183-193). *)
Record octx := { obo : border; orefs : Z -> option Z }.

(** utils.py:37-41 [AVBObjectRef.valid], only asked if [check_refs] is set. *)
Definition ref_valid (i : ictx) (x : Z) : bool :=
  match inobj i with None => true | Some n => x <? n end.

(** ioctx.py:176-181 [read_object_ref]. *)
Definition rref (i : ictx) : reader Z :=
  x <- ru32 (ibo i) ;; if ref_valid i x then ret x else fail ValueErr.

(** ioctx.py:183-193 [write_object_ref]. The reference is an instance id, 0 for None. *)
Definition wref (c : octx) (r : Z) : writer :=
  if r =? 0 then wu32 (obo c) 0
  else match orefs c r with
       | None => Err RefErr
       | Some x => wu32 (obo c) x
       end.

(** ** Rectangles and colours, ioctx.py:293-324 *)

(** A list of four; the writer indexes [v[0]]..[v[3]], so only these exist in the model
    (ioctx.py:293-309). *)
Record rect := { rc0 : Z; rc1 : Z; rc2 : Z; rc3 : Z }.

(** ioctx.py:293-302 [read_rect]. *)
Definition rrect (bo : border) : reader rect :=
  v <- rs16 bo ;; rassert (v =? 1) ;;;
  a <- rs16 bo ;; b <- rs16 bo ;; c <- rs16 bo ;; d <- rs16 bo ;;
  ret {| rc0 := a; rc1 := b; rc2 := c; rc3 := d |}.

(** ioctx.py:304-309 [write_rect]. *)
Definition wrect (bo : border) (v : rect) : writer :=
  ws16 bo 1 +++ ws16 bo (rc0 v) +++ ws16 bo (rc1 v) +++ ws16 bo (rc2 v) +++ ws16 bo (rc3 v).

(** ioctx.py:311-324: three numbers. *)
Record rgb := { rgb_r : Z; rgb_g : Z; rgb_b : Z }.

(** ioctx.py:311-318 [read_rgb_color]. *)
Definition rrgb (bo : border) : reader rgb :=
  v <- rs16 bo ;; rassert (v =? 1) ;;;
  r <- ru16 bo ;; g <- ru16 bo ;; b <- ru16 bo ;;
  ret {| rgb_r := r; rgb_g := g; rgb_b := b |}.

(** ioctx.py:320-324 [write_rgb_color]. *)
Definition wrgb (bo : border) (v : rgb) : writer :=
  ws16 bo 1 +++ wu16 bo (rgb_r v) +++ wu16 bo (rgb_g v) +++ wu16 bo (rgb_b v).

(** ** Four-character codes, ioctx.py:388-395 and 459-466 *)
Definition rfourcc (bo : border) : reader bytes :=
  b <- fread 4 ;; ret (match bo with LE => rev b | BE => b end).

(** ioctx.py:392-395 and 463-466 [write_fourcc]. *)
Definition wfourcc (bo : border) (v : bytes) : writer :=
  wassert (len v =? 4) +++ wbytes (match bo with LE => rev v | BE => v end).

(** ** Dates, ioctx.py:287-291, as time stamps (the zone is treated in [Dates.v]) *)
Definition rdate (bo : border) : reader Z := ru32 bo.
(** ioctx.py:290-291 [write_datetime], after the conversion of 93-95. *)
Definition wdate (bo : border) (t : Z) : writer := wu32 bo t.
