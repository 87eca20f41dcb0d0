(** The same document in another place: its objects are at other addresses and have other instance
    ids. A specification; nothing here is code of the repository. *)
From Coq Require Import ZArith List.
From Verif Require Import Base Objects FileModel FileSpec.
Import ListNotations.
Open Scope Z_scope.

(** The object at [a] of [d] is at [f a] of [d']: getting hold of it fails alike, or it has the same
    class and properties, references moved as well; it belongs to its document or not alike. *)
Definition same_at (f : Z -> Z) (d d' : document) (a : Z) : Prop :=
  match dc_heap d a, dc_heap d' (f a) with
  | Ok nd, Ok nd' => nd_obj nd' = obj_map f (nd_obj nd) /\ nd_kids nd' = map f (nd_kids nd) /\
      (nd_doc nd' = dc_self d' <-> nd_doc nd = dc_self d)
  | Err e, Err e' => e = e'
  | _, _ => False
  end.

(** [d'] is [d] with the objects moved by [f]; objects that had the same instance id have the same
    again, and only these. *)
Record moved (f : Z -> Z) (d d' : document) : Prop := {
  mo_content : dc_content d' = f (dc_content d);
  mo_version : dc_version d' = dc_version d;
  mo_saved : dc_saved d' = dc_saved d;
  mo_none : f 0 = 0;
  mo_some : forall a, in_doc d a -> f a <> 0;
  mo_same : forall a, in_doc d a -> same_at f d d' a;
  mo_ids : forall a b na nb na' nb', in_doc d a -> in_doc d b -> dc_heap d a = Ok na -> dc_heap d b = Ok nb ->
    dc_heap d' (f a) = Ok na' -> dc_heap d' (f b) = Ok nb' -> (nd_id na' = nd_id nb' <-> nd_id na = nd_id nb) }.

(** The document [d'] has the objects of [d], some of them perhaps several times: [f] tells which
    object of [d] an object of [d'] is one of. This is what copying gives: something with two
    references to it is copied twice (C40_twice). *)
Record folds (f : Z -> Z) (d' d : document) : Prop := {
  fo_content : f (dc_content d') = dc_content d;
  fo_none : f 0 = 0;
  fo_some : forall b, in_doc d' b -> f b <> 0;
  fo_same : forall b, in_doc d' b -> exists nd' nd, dc_heap d' b = Ok nd' /\ dc_heap d (f b) = Ok nd /\
    nd_obj nd = obj_map f (nd_obj nd') }.
