(** What it means that a class survives a save. A specification; nothing here is code of
    the repository. *)
From Coq Require Import ZArith List Bool.
From Verif Require Import Base IoCtx RoundTrip TrackGroups.
Import ListNotations.
Open Scope Z_scope.

(** A class with reader [r], writer [w] and reference renaming [ren]:
    - an object that fits ([fits]: every value in the width the format has for it, every
      reference to an object already stored) is written, and reading the bytes, whatever
      follows them, gives the object back, its references now being the chunk numbers of
      the objects they referred to, and leaves exactly what followed;
    - an object that does not fit makes the writer raise: nothing is cut or wrapped;
    - "with its references renamed" changes nothing else: renaming every reference to
      itself is the identity, and the references of the result are the renamed ones.
    [ok] collects what the format does not keep (see Storable.v). *)
Definition saves {A} (r : ictx -> reader A) (w : octx -> A -> writer) (ren : (Z -> Z) -> A -> A)
    (refs : A -> list Z) (ok : A -> Prop) (fits : octx -> A -> Prop) (whole : A -> Prop) : Prop :=
  (forall i c o, compat i c -> ok o ->
     (fits c o -> exists bs, w c o = Ok bs /\
        forall rest, r i (bs ++ rest) = Ok (ren (reff c) o, rest)) /\
     (~ fits c o -> exists e, w c o = Err e)) /\
  (forall o, whole o -> ren (fun x => x) o = o) /\
  (forall f o, refs (ren f o) = map f (refs o)).

(** No condition. *)
Definition always {A} (_ : A) : Prop := True.

(** Track [b] is track [a] read back: each property is there if and only if it was, with the
    same value (a reference: renamed); only a missing lock number has become 0. *)
Definition track_kept (f : Z -> Z) (a b : track) : Prop :=
  trak_index b = trak_index a /\
  trak_attributes b = option_map f (trak_attributes a) /\
  trak_session_attr b = option_map f (trak_session_attr a) /\
  trak_component b = option_map f (trak_component a) /\
  trak_filler_proxy b = option_map f (trak_filler_proxy a) /\
  trak_bob_data b = option_map f (trak_bob_data a) /\
  trak_control_code b = trak_control_code a /\
  trak_control_sub_code b = trak_control_sub_code a /\
  trak_start_pos b = trak_start_pos a /\
  trak_read_only b = trak_read_only a /\
  trak_lock_number b = match trak_lock_number a with Some v => Some v | None => Some 0 end.

(** What follows a track group in every class that extends it: some byte other than the mark
    1 of an optional section (it is always 2). *)
Definition no_section (rest : bytes) : Prop :=
  match rest with [] => False | x :: _ => x <> 1 end.

(** Every track has a lock number. The reader always sets one. *)
Definition locked (g : track_group) : Prop :=
  Forall (fun t => trak_lock_number t <> None) (trkg_tracks g).
