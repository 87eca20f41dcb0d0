(** What the lookups between objects are to find. A specification; nothing here is code of the
    repository. *)
From Coq Require Import ZArith String List Bool.
From Verif Require Import Base Text MobId Components TrackGroups BinModel Objects Dates FileModel Names Lookups.
Import ListNotations.
Open Scope Z_scope.

(** The composition at an address has a mob ID. *)
Definition has_mob_id (get : store) (a : Z) (id : mobid) : Prop :=
  a <> 0 /\ exists c, get a = Ok (Obj K_CMPO c) /\ cmpo_mob_id c = Some id.

(** The content is a bin of either class with these items. *)
Definition is_bin (content : option obj) (items : list bin_item) : Prop :=
  (exists b, content = Some (Obj K_ABIN b) /\ abin_items b = items) \/
  (exists b, content = Some (Obj K_BINF b) /\ abin_items (binf_bin b) = items).

(** The number of the media kind of an object: 0 if it has none. *)
Definition kind_number (o : obj) : Z :=
  match component_in (okind o) (oval o) with Some c => cpnt_media_kind_id c | None => 0 end.

(** The track a clip shows: its number and a component of the clip's media kind. *)
Definition shows (get : store) (s : source_clip) (t : track) : Prop :=
  trak_index t = Some (sclp_track_id s) /\
  exists c o, trak_component t = Some c /\ c <> 0 /\ get c = Ok o /\ kind_number o = kind_number (Obj K_SCLP s).

(** Every track is labelled and has a component, None or one that can be got hold of. *)
Definition tracks_whole (get : store) (ts : list track) : Prop :=
  Forall (fun t => trak_index t <> None /\ exists c, trak_component t = Some c /\ (c = 0 \/ exists o, get c = Ok o)) ts.

(** The first of a list with a property, by its number. *)
Definition first_with {A} (P : A -> Prop) (l : list A) (r : option nat) : Prop :=
  match r with
  | Some k => exists p x q, l = p ++ x :: q /\ length p = k /\ P x /\ Forall (fun y => ~ P y) p
  | None => Forall (fun y => ~ P y) l
  end.

(** The last of a list with a property, by its address. *)
Definition last_at {A} (P : A -> Prop) (at_ : A -> Z) (l : list A) (r : option Z) : Prop :=
  match r with
  | Some a => exists p x q, l = p ++ x :: q /\ at_ x = a /\ P x /\ Forall (fun y => ~ P y) q
  | None => Forall (fun y => ~ P y) l
  end.

(** A document in memory, and a file, as something to get objects from. *)
Definition in_memory (d : document) : store := fun a =>
  match dc_heap d a with Ok nd => Ok (nd_obj nd) | Err e => Err e end.
Definition in_file (t : opened) : store := fun a =>
  match read_object t a with Ok (Some o) => Ok o | Ok None => Err AttributeErr | Err e => Err e end.

(** The value of a hexadecimal digit. *)
Definition digit_value (c : Z) : Z := if c <=? 57 then c - 48 else c - 97 + 10.

(** Two digits a byte. *)
Fixpoint unhex (s : bytes) : bytes :=
  match s with
  | a :: b :: s' => (16 * digit_value a + digit_value b) :: unhex s'
  | _ => []
  end.

(** The object at an address is of one of the classes. *)
Definition wanted (d : document) (ids : list bytes) (a : Z) : bool :=
  match dc_heap d a with
  | Ok nd => if in_dec (list_eq_dec Z.eq_dec) (class_id (okind (nd_obj nd))) ids then true else false
  | Err _ => false
  end.

(** The codes of the classes that derive from [Component]. *)
Definition component_codes : list bytes := map txt
  ["SEQU"; "SCLP"; "TCCP"; "ECCP"; "TRKR"; "PRCL"; "CTRL"; "FILL"; "TRKG"; "TKFX"; "PVOL"; "ASPI"; "EQMB";
   "MASK"; "STRB"; "SPED"; "REPT"; "RSET"; "TNFX"; "SLCT"; "CMPO"]%string.
