(** Model of src/avb/mobid.py, of the parts of [uuid.UUID] it uses, of the integer helpers
    of src/avb/utils.py, and of the UUID and mob ID functions of src/avb/ioctx.py. *)
From Coq Require Import ZArith List Bool.
From Verif Require Import Base IoCtx.
Import ListNotations.
Open Scope Z_scope.

(** ** utils.py:51-73 *)

(** [num += byte << (i*8)] over [enumerate(data)], starting at index [i] (utils.py:53-56). *)
Fixpoint int_from_bytes_le (data : bytes) (i : Z) : Z :=
  match data with
  | [] => 0
  | b :: data' => Z.shiftl b (i * 8) + int_from_bytes_le data' (i + 1)
  end.

(** [num += byte << ((length-i)*8)] with [length = len(data) - 1] (utils.py:57-61). *)
Fixpoint int_from_bytes_be (data : bytes) (length i : Z) : Z :=
  match data with
  | [] => 0
  | b :: data' => Z.shiftl b ((length - i) * 8) + int_from_bytes_be data' length (i + 1)
  end.

(** utils.py:51-63 [int_from_bytes]. *)
Definition int_from_bytes (data : bytes) (bo : border) : Z :=
  match bo with
  | LE => int_from_bytes_le data 0
  | BE => int_from_bytes_be data (len data - 1) 0
  end.

(** utils.py:65-73 [bytes_from_int]; [range(length)] is empty for a negative length. *)
Definition bytes_from_int (num length : Z) (bo : border) : bytes :=
  map (fun i => let i := Z.of_nat i in
         match bo with
         | LE => Z.land (Z.shiftr num (i * 8)) 255
         | BE => Z.land (Z.shiftr num ((length - 1 - i) * 8)) 255
         end)
      (seq 0 (Z.to_nat length)).

(** [buffer[k]] inside the buffer, as utils.py:85. *)
Definition byte_at (b : bytes) (k : nat) : Z := nth k b 0.

(** utils.py:84-87; the buffers are long enough wherever the code calls them. *)
Definition unpack_u16le_from (b : bytes) (off : nat) : Z :=
  byte_at b off + Z.shiftl (byte_at b (off + 1)) 8.

(** utils.py:89-94 [unpack_u32le_from]. *)
Definition unpack_u32le_from (b : bytes) (off : nat) : Z :=
  byte_at b off + Z.shiftl (byte_at b (off + 1)) 8
  + Z.shiftl (byte_at b (off + 2)) 16 + Z.shiftl (byte_at b (off + 3)) 24.

(** [buf[off:off+len(v)] = v] for a slice inside the buffer: [struct.pack_into] (as mobid.py:255).
    *)
Definition splice (b : bytes) (off : nat) (v : bytes) : bytes :=
  firstn off b ++ v ++ skipn (off + length v) b.

(** [buf[a:b]] (as mobid.py:211). *)
Definition slice (b : bytes) (from to : nat) : bytes := firstn (to - from) (skipn from b).

(** ** [uuid.UUID]: its 16 bytes in RFC order ([UUID.bytes]) (as ioctx.py:212). *)
Definition uuid := bytes.

(** What a UUID is: 16 bytes. A specification; ioctx.py:195-214 makes them so. *)
Definition uuid_wf (u : uuid) : Prop := length u = 16%nat /\ Forall is_byte u.

(** The byte permutation between [UUID.bytes] and [UUID.bytes_le]; it is its own inverse (for
    ioctx.py:212-214). *)
Definition uuid_swap (b : bytes) : bytes :=
  rev (slice b 0 4) ++ rev (slice b 4 6) ++ rev (slice b 6 8) ++ skipn 8 b.

(** [UUID.bytes_le], ioctx.py:227 and 283. *)
Definition uuid_bytes_le (u : uuid) : bytes := uuid_swap u.

(** [UUID(bytes=...)] and [UUID(bytes_le=...)]: [ValueError] unless 16 bytes are given
    (ioctx.py:212-214 and 276-279). *)
Definition uuid_of_bytes (b : bytes) : result uuid :=
  if len b =? 16 then Ok b else Err ValueErr.

(** [UUID(bytes_le=...)], ioctx.py:212 and 277. *)
Definition uuid_of_bytes_le (b : bytes) : result uuid :=
  if len b =? 16 then Ok (uuid_swap b) else Err ValueErr.

(** [UUID.time_low], ioctx.py:218. *)
Definition time_low (u : uuid) : Z := dec BE (slice u 0 4).
(** [UUID.time_mid], ioctx.py:220. *)
Definition time_mid (u : uuid) : Z := dec BE (slice u 4 6).
(** [UUID.time_hi_version], ioctx.py:222. *)
Definition time_hi_version (u : uuid) : Z := dec BE (slice u 6 8).

(** A call inside a reader that may raise, as ioctx.py:212. *)
Definition of_result {A} (x : result A) : reader A :=
  match x with Ok a => ret a | Err e => fail e end.

(** ioctx.py:195-214 [read_uuid]. *)
Definition ruuid (bo : border) : reader uuid :=
  rtag 72 ;;; d1 <- fread 4 ;;
  rtag 70 ;;; d2 <- fread 2 ;;
  rtag 70 ;;; d3 <- fread 2 ;;
  rtag 65 ;;; n <- rs32 bo ;; rassert (n =? 8) ;;; d4 <- fread 8 ;;
  of_result (match bo with
             | LE => uuid_of_bytes_le (d1 ++ d2 ++ d3 ++ d4)
             | BE => uuid_of_bytes (d1 ++ d2 ++ d3 ++ d4)
             end).

(** ioctx.py:216-229 [write_uuid]. *)
Definition wuuid (bo : border) (u : uuid) : writer :=
  wu8 72 +++ wu32 bo (time_low u) +++
  wu8 70 +++ wu16 bo (time_mid u) +++
  wu8 70 +++ wu16 bo (time_hi_version u) +++
  wu8 65 +++ ws32 bo 8 +++
  wbytes (match bo with LE => skipn 8 (uuid_bytes_le u) | BE => skipn 8 u end).

(** ioctx.py:275-279 [read_raw_uuid]. *)
Definition rrawuuid (bo : border) : reader uuid :=
  b <- fread 16 ;;
  of_result (match bo with LE => uuid_of_bytes_le b | BE => uuid_of_bytes b end).

(** ioctx.py:281-285 [write_raw_uuid]. *)
Definition wrawuuid (bo : border) (u : uuid) : writer :=
  wbytes (match bo with LE => uuid_bytes_le u | BE => u end).

(** ** [MobID], mobid.py:176-363: the 32 bytes of [bytes_le].
    The code also accepts a [bytes_le] of another length (mobid.py:180); such objects are
    outside the model. *)
Definition mobid := bytes.

(** What [bytes_le] is: 32 bytes, mobid.py:183. A specification. *)
Definition mobid_wf (m : mobid) : Prop := length m = 32%nat /\ Forall is_byte m.

(** mobid.py:183. *)
Definition mobid_zero : mobid := repeat 0 32.

(** mobid.py:198-207. *)
Definition m_material (m : mobid) : uuid := uuid_swap (skipn 16 m).
(** mobid.py:205-207, the setter. *)
Definition m_set_material (m : mobid) (u : uuid) : mobid := splice m 16 (uuid_bytes_le u).

(** A byte stored into a bytearray: [ValueError] outside 0..255 ([struct.error] from [pack_into],
    which the callers do not distinguish) (mobid.py:213-247). *)
Definition byte_ok (v : Z) : bool := (0 <=? v) && (v <? 256).

(** mobid.py:209-215; [pack_into('12B', ...)] wants exactly 12 bytes. *)
Definition m_label (m : mobid) : bytes := slice m 0 12.
(** mobid.py:213-215, the setter. *)
Definition m_set_label (m : mobid) (v : bytes) : result mobid :=
  if (len v =? 12) && forallb byte_ok v then Ok (splice m 0 v) else Err StructError.

(** mobid.py:217-247. *)
Definition m_set_byte (k : nat) (m : mobid) (v : Z) : result mobid :=
  if byte_ok v then Ok (splice m k [v]) else Err ValueErr.

(** mobid.py:217-219. *)
Definition m_length (m : mobid) : Z := byte_at m 12.
(** mobid.py:225-227. *)
Definition m_instanceHigh (m : mobid) : Z := byte_at m 13.
(** mobid.py:233-235. *)
Definition m_instanceMid (m : mobid) : Z := byte_at m 14.
(** mobid.py:241-243. *)
Definition m_instanceLow (m : mobid) : Z := byte_at m 15.
(** mobid.py:221-223, the setter. *)
Definition m_set_length := m_set_byte 12.
(** mobid.py:229-231, the setter. *)
Definition m_set_instanceHigh := m_set_byte 13.
(** mobid.py:237-239, the setter. *)
Definition m_set_instanceMid := m_set_byte 14.
(** mobid.py:245-247, the setter. *)
Definition m_set_instanceLow := m_set_byte 15.

(** mobid.py:249-279. *)
Definition m_Data1 (m : mobid) : Z := unpack_u32le_from m 16.
(** mobid.py:257-259. *)
Definition m_Data2 (m : mobid) : Z := unpack_u16le_from m 20.
(** mobid.py:265-267. *)
Definition m_Data3 (m : mobid) : Z := unpack_u16le_from m 22.
(** mobid.py:273-275. *)
Definition m_Data4 (m : mobid) : bytes := slice m 24 32.

(** [struct.pack_into] of one unsigned number, mobid.py:255, 263 and 271. *)
Definition m_set_uint (off width : nat) (m : mobid) (v : Z) : result mobid :=
  match wunsigned LE width v with Ok b => Ok (splice m off b) | Err e => Err e end.

(** mobid.py:253-255, the setter. *)
Definition m_set_Data1 := m_set_uint 16 4.
(** mobid.py:261-263, the setter. *)
Definition m_set_Data2 := m_set_uint 20 2.
(** mobid.py:269-271, the setter. *)
Definition m_set_Data3 := m_set_uint 22 2.
(** mobid.py:277-279, the setter. *)
Definition m_set_Data4 (m : mobid) (v : bytes) : result mobid :=
  if (len v =? 8) && forallb byte_ok v then Ok (splice m 24 v) else Err StructError.

(** mobid.py:281-316: the dictionary form with all keys present, as [to_dict] makes it. *)
Record mobid_dict := {
  md_Data1 : Z; md_Data2 : Z; md_Data3 : Z; md_Data4 : bytes;
  md_length : Z; md_instanceHigh : Z; md_instanceMid : Z; md_instanceLow : Z;
  md_SMPTELabel : bytes }.

(** mobid.py:299-316 [to_dict]. *)
Definition m_to_dict (m : mobid) : mobid_dict := {|
  md_Data1 := m_Data1 m; md_Data2 := m_Data2 m; md_Data3 := m_Data3 m;
  md_Data4 := m_Data4 m; md_length := m_length m;
  md_instanceHigh := m_instanceHigh m; md_instanceMid := m_instanceMid m;
  md_instanceLow := m_instanceLow m; md_SMPTELabel := m_label m |}.

(** mobid.py:281-297 [from_dict]. *)
Definition m_from_dict (m : mobid) (d : mobid_dict) : result mobid :=
  rbind (m_set_length m (md_length d)) (fun m =>
  rbind (m_set_instanceHigh m (md_instanceHigh d)) (fun m =>
  rbind (m_set_instanceMid m (md_instanceMid d)) (fun m =>
  rbind (m_set_instanceLow m (md_instanceLow d)) (fun m =>
  rbind (m_set_Data1 m (md_Data1 d)) (fun m =>
  rbind (m_set_Data2 m (md_Data2 d)) (fun m =>
  rbind (m_set_Data3 m (md_Data3 d)) (fun m =>
  rbind (m_set_Data4 m (md_Data4 d)) (fun m =>
  m_set_label m (md_SMPTELabel d))))))))).

(** mobid.py:317-330. *)
Definition m_int (m : mobid) : Z := int_from_bytes m BE.
(** mobid.py:324-327, the setter. *)
Definition m_of_int (v : Z) : mobid := bytes_from_int v 32 BE.

(** mobid.py:332-360. *)
Definition m_eqb (a b : mobid) : bool := if list_eq_dec Z.eq_dec a b then true else false.
(** mobid.py:342-345 [__lt__]. *)
Definition m_ltb (a b : mobid) : bool := m_int a <? m_int b.
(** mobid.py:347-350 [__le__]. *)
Definition m_leb (a b : mobid) : bool := m_int a <=? m_int b.
(** mobid.py:352-355 [__gt__]. *)
Definition m_gtb (a b : mobid) : bool := m_int a >? m_int b.
(** mobid.py:357-360 [__ge__]. *)
Definition m_geb (a b : mobid) : bool := m_int a >=? m_int b.

(** mobid.py:362-363: [hash(bytes(...))]; [h] is Python's hash of a byte string. *)
Definition m_hash (h : bytes -> Z) (m : mobid) : Z := h m.

(** mobid.py:154-174 [UniqueMobID]; the random UUID is an argument. *)
Definition unique_label : bytes :=
  [0x06; 0x0a; 0x2b; 0x34; 0x01; 0x01; 0x01; 0x05; 0x01; 0x01; 0x0f; 0x20].

(** mobid.py:154-174 [UniqueMobID]. *)
Definition unique_mobid (u : uuid) : result mobid :=
  rbind (m_set_label mobid_zero unique_label) (fun m =>
  rbind (m_set_length m 0x13) (fun m =>
  rbind (m_set_instanceHigh m 0) (fun m =>
  rbind (m_set_instanceMid m 0) (fun m =>
  rbind (m_set_instanceLow m 0) (fun m =>
  Ok (m_set_material m u)))))).

(** ** URN text, mobid.py:365-471. Text is a list of character codes. *)

(** A digit of [%x], mobid.py:382-411. *)
Definition hexdigit (d : Z) : Z := if d <? 10 then 48 + d else 87 + d.

(** [%0nx] of a value below 16^n: exactly n lower-case digits (mobid.py:382-411). *)
Fixpoint hexn (n : nat) (v : Z) : list Z :=
  match n with O => [] | S n' => hexn n' (v / 16) ++ [hexdigit (v mod 16)] end.

(** Bytes as pairs of digits, mobid.py:382-411. *)
Definition hex2s (b : bytes) : list Z := concat (map (hexn 2) b).

(** [urn:smpte:umid:], mobid.py:382 and 398. *)
Definition urn_prefix : list Z :=
  [117; 114; 110; 58; 115; 109; 112; 116; 101; 58; 117; 109; 105; 100; 58].
(** The separator of mobid.py:382 and 398. *)
Definition dot : list Z := [46].

(** The first three groups and the fourth, common to both layouts (mobid.py:382-392). *)
Definition urn_head (m : mobid) : list Z :=
  urn_prefix ++ hex2s (slice m 0 4) ++ dot ++ hex2s (slice m 4 8) ++ dot
  ++ hex2s (slice m 8 12) ++ dot
  ++ hexn 2 (m_length m) ++ hexn 2 (m_instanceHigh m) ++ hexn 2 (m_instanceMid m)
  ++ hexn 2 (m_instanceLow m) ++ dot.

(** mobid.py:375-379. *)
Definition half_swapped (label data : bytes) : bool :=
  (byte_at label 11 =? 0) && (byte_at data 0 =? 0x06) && (byte_at data 1 =? 0x0E)
  && (byte_at data 2 =? 0x2B) && (byte_at data 3 =? 0x34) && (byte_at data 4 =? 0x7F)
  && (byte_at data 5 =? 0x7F).

(** mobid.py:365-411 [urn] getter. *)
Definition m_urn (m : mobid) : list Z :=
  let d4 := m_Data4 m in
  if half_swapped (m_label m) d4 then
    urn_head m ++ hex2s (slice d4 0 4) ++ dot ++ hex2s (slice d4 4 8) ++ dot
    ++ hexn 8 (m_Data1 m) ++ dot ++ hexn 4 (m_Data2 m) ++ hexn 4 (m_Data3 m)
  else
    urn_head m ++ hexn 8 (m_Data1 m) ++ dot ++ hexn 4 (m_Data2 m) ++ hexn 4 (m_Data3 m)
    ++ dot ++ hex2s (slice d4 0 4) ++ dot ++ hex2s (slice d4 4 8).

(** [s.lower()] on ASCII text (mobid.py:415). *)
Definition lower1 (c : Z) : Z := if (65 <=? c) && (c <=? 90) then c + 32 else c.

(** Part of [str.replace], mobid.py:417. *)
Fixpoint is_prefix (p s : list Z) : bool :=
  match p, s with
  | [], _ => true
  | x :: p', y :: s' => (x =? y) && is_prefix p' s'
  | _ :: _, [] => false
  end.

(** [s.replace(item, '')] for a non-empty item: left to right, no overlap. [skip] counts the
    characters of a match still to be dropped (mobid.py:417). *)
Fixpoint remove_all_from (item : list Z) (skip : nat) (s : list Z) : list Z :=
  match s with
  | [] => []
  | c :: s' =>
    match skip with
    | S k => remove_all_from item k s'
    | O => if is_prefix item s then remove_all_from item (length item - 1) s'
           else c :: remove_all_from item 0 s'
    end
  end.

(** [s.replace(item, '')], mobid.py:417. *)
Definition remove_all (item s : list Z) : list Z := remove_all_from item 0 s.

(** A digit of [int(v, 16)], mobid.py:425. *)
Definition hexval (c : Z) : option Z :=
  if (48 <=? c) && (c <=? 57) then Some (c - 48)
  else if (97 <=? c) && (c <=? 102) then Some (c - 87)
  else None.

(** [int(v, 16)]: [ValueError] on anything but hexadecimal digits. Simplified: Python's [int] also
    takes blanks, a plus sign and underscores around and between the digits (mobid.py:425). *)
Fixpoint int16_from (acc : Z) (s : list Z) : result Z :=
  match s with
  | [] => Ok acc
  | c :: s' => match hexval c with Some d => int16_from (acc * 16 + d) s' | None => Err ValueErr end
  end.

(** [int(v, 16)] of a text, an error if empty, mobid.py:425. *)
Definition int16 (s : list Z) : result Z :=
  match s with [] => Err ValueErr | _ => int16_from 0 s end.

(** [for i in range(n): ... int(s[start:start+2], 16)] (mobid.py:422-426 and 448-452). *)
Fixpoint hexbytes (n : nat) (s : list Z) : result bytes :=
  match n with
  | O => Ok []
  | S n' =>
    rbind (int16 (firstn 2 s)) (fun v => rbind (hexbytes n' (skipn 2 s)) (fun l => Ok (v :: l)))
  end.

(** mobid.py:413-471 [urn] setter on the mob ID [m] (it overwrites all 32 bytes). *)
Definition m_set_urn (m : mobid) (value : list Z) : result mobid :=
  let s := map lower1 value in
  let s := remove_all urn_prefix s in
  let s := remove_all [46] s in
  let s := remove_all [45] s in
  let s := remove_all [48; 120] s in
  if negb (len s =? 64) then Err AssertionErr else
  rbind (hexbytes 12 s) (fun label =>
  rbind (m_set_label m label) (fun m =>
  rbind (rbind (int16 (slice s 24 26)) (m_set_length m)) (fun m =>
  rbind (rbind (int16 (slice s 26 28)) (m_set_instanceHigh m)) (fun m =>
  rbind (rbind (int16 (slice s 28 30)) (m_set_instanceMid m)) (fun m =>
  rbind (rbind (int16 (slice s 30 32)) (m_set_instanceLow m)) (fun m =>
  rbind (hexbytes 6 (skipn 32 s)) (fun data =>
  if half_swapped label data then
    rbind (rbind (hexbytes 8 (skipn 32 s)) (m_set_Data4 m)) (fun m =>
    rbind (rbind (int16 (slice s 48 56)) (m_set_Data1 m)) (fun m =>
    rbind (rbind (int16 (slice s 56 60)) (m_set_Data2 m)) (fun m =>
    rbind (int16 (slice s 60 64)) (m_set_Data3 m))))
  else
    rbind (rbind (int16 (slice s 32 40)) (m_set_Data1 m)) (fun m =>
    rbind (rbind (int16 (slice s 40 44)) (m_set_Data2 m)) (fun m =>
    rbind (rbind (int16 (slice s 44 48)) (m_set_Data3 m)) (fun m =>
    rbind (hexbytes 8 (skipn 48 s)) (m_set_Data4 m))))))))))).

(** mobid.py:178-189 [MobID(mobid=text)]. *)
Definition m_of_urn (value : list Z) : result mobid := m_set_urn mobid_zero value.

(** ** Mob IDs in a chunk *)

(** ioctx.py:231-252 [read_mob_id]. *)
Definition rmobid (bo : border) : reader mobid :=
  rtag 65 ;;; n <- rs32 bo ;; rassert (n =? 12) ;;;
  label <- rlist 12 ru8 ;;
  m <- of_result (m_set_label mobid_zero label) ;;
  rtag 68 ;;; v <- ru8 ;; m <- of_result (m_set_length m v) ;;
  rtag 68 ;;; v <- ru8 ;; m <- of_result (m_set_instanceHigh m v) ;;
  rtag 68 ;;; v <- ru8 ;; m <- of_result (m_set_instanceMid m v) ;;
  rtag 68 ;;; v <- ru8 ;; m <- of_result (m_set_instanceLow m v) ;;
  u <- ruuid bo ;;
  ret (m_set_material m u).

(** ioctx.py:254-273 [write_mob_id]. *)
Definition wmobid (bo : border) (m : mobid) : writer :=
  wu8 65 +++ ws32 bo 12 +++
  wlist wu8 (m_label m) +++
  wu8 68 +++ wu8 (m_length m) +++
  wu8 68 +++ wu8 (m_instanceHigh m) +++
  wu8 68 +++ wu8 (m_instanceMid m) +++
  wu8 68 +++ wu8 (m_instanceLow m) +++
  wuuid bo (m_material m).
