(** Model of the names for media kinds (components.py), mob types and usages (trackgroups.py). *)
From Coq Require Import ZArith List Bool String Ascii Decimal.
From Verif Require Import Base Text.
Import ListNotations.
Open Scope Z_scope.

(** A literal of the source as code points (for the texts of components.py:97-139 and
    trackgroups.py:1041-1157). *)
Definition txt (s : string) : str := map (fun a => Z.of_N (N_of_ascii a)) (list_ascii_of_string s).

(** Python's [==] on strings (for the comparisons of components.py:120-136 and
    trackgroups.py:1042-1048). *)
Fixpoint str_eqb (a b : str) : bool :=
  match a, b with
  | [], [] => true
  | x :: a', y :: b' => (x =? y) && str_eqb a' b'
  | _, _ => false
  end.

(** The digits of a decimal numeral (for components.py:116). *)
Fixpoint uint_str (u : uint) : str :=
  match u with
  | Nil => []
  | D0 u => 48 :: uint_str u | D1 u => 49 :: uint_str u | D2 u => 50 :: uint_str u
  | D3 u => 51 :: uint_str u | D4 u => 52 :: uint_str u | D5 u => 53 :: uint_str u
  | D6 u => 54 :: uint_str u | D7 u => 55 :: uint_str u | D8 u => 56 :: uint_str u
  | D9 u => 57 :: uint_str u
  end.

(** Python's ["%d" % n] (for components.py:116). *)
Definition percent_d (n : Z) : str :=
  match Z.to_int n with Pos u => uint_str u | Neg u => 45 :: uint_str u end.

(** components.py:95-116 [Component.media_kind], the getter; [None] is Python's [None]. *)
Definition media_kind (id : Z) : option str :=
  if id =? 0 then None
  else if id =? 1 then Some (txt "picture")
  else if id =? 2 then Some (txt "sound")
  else if id =? 3 then Some (txt "timecode")
  else if id =? 4 then Some (txt "edgecode")
  else if id =? 5 then Some (txt "attribute")
  else if id =? 6 then Some (txt "effectdata")
  else if id =? 7 then Some (txt "DescriptiveMetadata")
  else if id =? 16 then Some (txt "DataEssenceTrack")
  else Some (txt "unknown" ++ percent_d id).

(** components.py:118-139 [Component.media_kind], the setter: the new [media_kind_id]. On an error
    nothing has been assigned. *)
Definition set_media_kind (value : option str) : result Z :=
  match value with
  | None => Ok 0
  | Some v =>
    if str_eqb v (txt "picture") then Ok 1
    else if str_eqb v (txt "sound") then Ok 2
    else if str_eqb v (txt "timecode") then Ok 3
    else if str_eqb v (txt "edgecode") then Ok 4
    else if str_eqb v (txt "attribute") then Ok 5
    else if str_eqb v (txt "effectdata") then Ok 6
    else if str_eqb v (txt "DescriptiveMetadata") then Ok 7
    else if str_eqb v (txt "DataEssenceTrack") then Ok 16
    else Err ValueErr
  end.

(** trackgroups.py:1148-1157 [Composition.mob_type]. *)
Definition mob_type (id : Z) : result str :=
  if id =? 1 then Ok (txt "CompositionMob")
  else if id =? 2 then Ok (txt "MasterMob")
  else if id =? 3 then Ok (txt "SourceMob")
  else Err ValueErr.

(** What may be passed as a mob type: a text or a number (components.py:119-139). *)
Inductive arg := AText (s : str) | ANum (n : Z).

(** trackgroups.py:1038-1051, the part of [Composition.__init__] that sets [name] and
    [mob_type_id] from [mob_type]; 2 is the default of the property (trackgroups.py:1030). Line
    1051 makes a [ValueError] without raising it; its ["%d" % mob_type] raises [TypeError] for a
    text and nothing for a number. *)
Definition init_mob (name : str) (type : arg) : result (arg * Z) :=
  match type with
  | AText t =>
    if str_eqb t (txt "CompositionMob") then Ok (type, 1)
    else if str_eqb t (txt "MasterMob") then Ok (type, 2)
    else if str_eqb t (txt "SourceMob") then Ok (type, 3)
    else Err TypeErr
  | ANum _ => Ok (type, 2)
  end.

(** trackgroups.py:1113-1143 [Composition.usage]. *)
Definition usage (code : Z) : option str :=
  if code =? 0 then None
  else if code =? 1 then Some (txt "precompute")
  else if code =? 2 then Some (txt "subclip")
  else if code =? 3 then Some (txt "effect")
  else if code =? 4 then Some (txt "group")
  else if code =? 5 then Some (txt "groupoofter")
  else if code =? 6 then Some (txt "motion")
  else if code =? 7 then Some (txt "mastermob")
  else if code =? 9 then Some (txt "precompute_file")
  else Some (txt "unknown").
