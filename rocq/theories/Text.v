(** Model of the string functions of src/avb/ioctx.py and of the two codecs they use. *)
From Coq Require Import ZArith List Bool.
From Verif Require Import Base IoCtx.
Import ListNotations.
Open Scope Z_scope.

(** Python [str]: a list of code points. The empty text also stands for [None]: the code
    writes both alike ([s or b""], ioctx.py:163) and never distinguishes them on reading. *)
Definition str := list Z.

(** ** Mac Roman: CPython's [encodings/mac_roman.py] decoding table. *)
Definition mac_table : list Z :=
  [0; 1; 2; 3; 4; 5; 6; 7; 8; 9; 10; 11; 12; 13; 14; 15;
   16; 17; 18; 19; 20; 21; 22; 23; 24; 25; 26; 27; 28; 29; 30; 31;
   32; 33; 34; 35; 36; 37; 38; 39; 40; 41; 42; 43; 44; 45; 46; 47;
   48; 49; 50; 51; 52; 53; 54; 55; 56; 57; 58; 59; 60; 61; 62; 63;
   64; 65; 66; 67; 68; 69; 70; 71; 72; 73; 74; 75; 76; 77; 78; 79;
   80; 81; 82; 83; 84; 85; 86; 87; 88; 89; 90; 91; 92; 93; 94; 95;
   96; 97; 98; 99; 100; 101; 102; 103; 104; 105; 106; 107; 108; 109; 110; 111;
   112; 113; 114; 115; 116; 117; 118; 119; 120; 121; 122; 123; 124; 125; 126; 127;
   196; 197; 199; 201; 209; 214; 220; 225; 224; 226; 228; 227; 229; 231; 233; 232;
   234; 235; 237; 236; 238; 239; 241; 243; 242; 244; 246; 245; 250; 249; 251; 252;
   8224; 176; 162; 163; 167; 8226; 182; 223; 174; 169; 8482; 180; 168; 8800; 198; 216;
   8734; 177; 8804; 8805; 165; 181; 8706; 8721; 8719; 960; 8747; 170; 186; 937; 230; 248;
   191; 161; 172; 8730; 402; 8776; 8710; 171; 187; 8230; 160; 192; 195; 213; 338; 339;
   8211; 8212; 8220; 8221; 8216; 8217; 247; 9674; 255; 376; 8260; 8364; 8249; 8250; 64257; 64258;
   8225; 183; 8218; 8222; 8240; 194; 202; 193; 203; 200; 205; 206; 207; 204; 211; 212;
   63743; 210; 218; 219; 217; 305; 710; 732; 175; 728; 729; 730; 184; 733; 731; 711].

(** One byte decoded, for ioctx.py:160. CPython's [charmap_decode]. *)
Definition mac_dec1 (b : Z) : Z := nth (Z.to_nat b) mac_table 0.

(** Position of a code point in the table: the encoding table built from it (for ioctx.py:168). *)
Fixpoint index_of (c : Z) (l : list Z) (k : Z) : option Z :=
  match l with
  | [] => None
  | x :: l' => if x =? c then Some k else index_of c l' (k + 1)
  end.

(** One character encoded, for ioctx.py:168. CPython's [charmap_encode]. *)
Definition mac_enc1 (c : Z) : option Z := index_of c mac_table 0.

(** [s.encode('macroman')], strict errors (for ioctx.py:168). *)
Fixpoint mac_encode (s : str) : result bytes :=
  match s with
  | [] => Ok []
  | c :: s' =>
    match mac_enc1 c with
    | None => Err UnicodeErr
    | Some b => match mac_encode s' with Ok bs => Ok (b :: bs) | Err e => Err e end
    end
  end.

(** [b.decode('macroman')]: every byte is defined (for ioctx.py:160). *)
Definition mac_decode (b : bytes) : result str := Ok (map mac_dec1 b).

(** ** UTF-8, strict, as CPython's codec (for ioctx.py:168). *)
Definition utf8_enc1 (c : Z) : option bytes :=
  if c <? 0 then None
  else if c <? 0x80 then Some [c]
  else if c <? 0x800 then Some [0xC0 + c / 64; 0x80 + c mod 64]
  else if (0xD800 <=? c) && (c <? 0xE000) then None
  else if c <? 0x10000 then Some [0xE0 + c / 4096; 0x80 + c / 64 mod 64; 0x80 + c mod 64]
  else if c <? 0x110000 then
    Some [0xF0 + c / 262144; 0x80 + c / 4096 mod 64; 0x80 + c / 64 mod 64; 0x80 + c mod 64]
  else None.

(** CPython's UTF-8 encoder, for ioctx.py:168-170. *)
Fixpoint utf8_encode (s : str) : result bytes :=
  match s with
  | [] => Ok []
  | c :: s' =>
    match utf8_enc1 c with
    | None => Err UnicodeErr
    | Some b => match utf8_encode s' with Ok bs => Ok (b ++ bs) | Err e => Err e end
    end
  end.

(** A continuation byte 10xxxxxx of UTF-8, for ioctx.py:160. *)
Definition is_cont (b : Z) : bool := (0x80 <=? b) && (b <? 0xC0).

(** CPython's UTF-8 decoder, strict, for ioctx.py:160. Fuel: every round consumes a byte. *)
Fixpoint utf8_decode_fuel (fuel : nat) (b : bytes) : result str :=
  match fuel with
  | O => Err OutOfFuel
  | S fuel' =>
    let go (c : Z) (r : bytes) :=
      match utf8_decode_fuel fuel' r with Ok s => Ok (c :: s) | Err e => Err e end in
    match b with
    | [] => Ok []
    | b0 :: r0 =>
      if b0 <? 0x80 then go b0 r0
      else if b0 <? 0xC2 then Err UnicodeErr
      else if b0 <? 0xE0 then
        match r0 with
        | b1 :: r1 =>
          if is_cont b1 then go ((b0 - 0xC0) * 64 + (b1 - 0x80)) r1 else Err UnicodeErr
        | _ => Err UnicodeErr
        end
      else if b0 <? 0xF0 then
        match r0 with
        | b1 :: b2 :: r2 =>
          let c := (b0 - 0xE0) * 4096 + (b1 - 0x80) * 64 + (b2 - 0x80) in
          if is_cont b1 && is_cont b2 && (0x800 <=? c)
             && negb ((0xD800 <=? c) && (c <? 0xE000))
          then go c r2 else Err UnicodeErr
        | _ => Err UnicodeErr
        end
      else if b0 <? 0xF5 then
        match r0 with
        | b1 :: b2 :: b3 :: r3 =>
          let c := (b0 - 0xF0) * 262144 + (b1 - 0x80) * 4096 + (b2 - 0x80) * 64 + (b3 - 0x80) in
          if is_cont b1 && is_cont b2 && is_cont b3 && (0x10000 <=? c) && (c <? 0x110000)
          then go c r3 else Err UnicodeErr
        | _ => Err UnicodeErr
        end
      else Err UnicodeErr
    end
  end.

(** [b.decode('utf-8')]. The codec consumes a byte or more per character, so the length is fuel
    enough (for ioctx.py:160). *)
Definition utf8_decode (b : bytes) : result str := utf8_decode_fuel (S (length b)) b.

(** ** Strings, ioctx.py:153-174 *)

(** The encodings the code names: [macroman], ioctx.py:153 and 162, and [utf-8], as at ioctx.py:169.
    *)
Inductive encoding := MacRoman | Utf8.

(** [s.lstrip(b'\x00')], the first half of ioctx.py:159. *)
Fixpoint lstrip0 (b : bytes) : bytes :=
  match b with 0 :: b' => lstrip0 b' | _ => b end.

(** [s.strip(b'\x00')] (ioctx.py:159). *)
Definition strip0 (b : bytes) : bytes := rev (lstrip0 (rev (lstrip0 b))).

(** [s.decode(encoding)], ioctx.py:160. *)
Definition decode (e : encoding) (b : bytes) : result str :=
  match e with MacRoman => mac_decode b | Utf8 => utf8_decode b end.

(** [s.encode(encoding)], ioctx.py:168. *)
Definition encode (e : encoding) (s : str) : result bytes :=
  match e with MacRoman => mac_encode s | Utf8 => utf8_encode s end.

(** ioctx.py:153-160 [read_string]. *)
Definition rstr_enc (bo : border) (e : encoding) : reader str :=
  size <- ru16 bo ;;
  if 65535 <=? size then ret []
  else
    s <- fread size ;;
    match decode e (strip0 s) with Ok t => ret t | Err x => fail x end.

(** ioctx.py:162-174 [write_string]. *)
Definition wstr_enc (bo : border) (e : encoding) (s : str) : writer :=
  match s with
  | [] => wu16 bo 0
  | _ =>
    match encode e s with
    | Err x => Err x
    | Ok data0 =>
      let data := match e with Utf8 => 0 :: 0 :: data0 | MacRoman => data0 end in
      wu16 bo (len data) +++ wbytes data
    end
  end.

(** The default encoding of both functions (ioctx.py:153-160). *)
Definition rstr (bo : border) : reader str := rstr_enc bo MacRoman.
(** [write_string(f, s)], ioctx.py:162-174. *)
Definition wstr (bo : border) (s : str) : writer := wstr_enc bo MacRoman s.

(** The idiom [if s: write_string(s) else: write_u16(0xFFFF)] (components.py:75-83). *)
Definition wname (bo : border) (s : str) : writer :=
  match s with [] => wu16 bo 0xFFFF | _ => wstr bo s end.
