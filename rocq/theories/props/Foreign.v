(** C48: saving a document that leads to objects of other documents. *)
From Coq Require Import ZArith List Bool Lia.
From Verif Require Import Base IoCtx RoundTrip Text Dates Attributes Components Objects ObjSpec ObjProofs
  ObjTheory FileModel FileSpec HeaderProofs TableProofs SaveProofs ForeignProofs SampleDocs.
Import ListNotations.
Open Scope Z_scope.

(** If an object of another document is reachable, and no reachable object of the document itself
    has its instance id, the save ends with an exception and the file shows no content. *)
Theorem C48_foreign : forall lim z bo d a nd o s,
  walks_refs d -> in_doc d a -> dc_heap d a = Ok nd -> nd_doc nd <> dc_self d ->
  (forall b nb, in_doc d b -> dc_heap d b = Ok nb -> nd_doc nb = dc_self d -> nd_id nb <> nd_id nd) ->
  save lim z bo d = (o, s) ->
  (exists e, s = Some e) /\ shows_nothing (run_ops o).
Proof.
  intros lim z bo d a nd o s W Ha En Nd Ni H.
  assert (exists e, s = Some e) as [e ->]; [|split; [eauto|exact (failed_save _ _ _ _ _ _ H)]].
  destruct s as [e|]; [eauto|]. exfalso.
  destruct (completed_own lim z bo d o W H) as [A _]. destruct (A a nd Ha En) as (b & nb & Ub & Eb & Sb & Ib).
  now apply (Ni b nb Ub Eb Sb).
Qed.
Print Assumptions C48_foreign.

(** In any case no object of another document is stored: the file of a completed save consists of
    its header and of objects of the document itself, written in some numbering. *)
Theorem C48_not_stored : forall lim z bo d o, walks_refs d -> save lim z bo d = (o, None) ->
  exists hdr ss t, length hdr = 119%nat /\ run_ops o = hdr ++ concat (map (stored_bytes bo) ss) /\
    open_table (run_ops o) = Ok t /\ hd_count (of_head t) = len ss /\
    forall s, In s ss -> exists b nb m, in_doc d b /\ dc_heap d b = Ok nb /\ nd_doc nb = dc_self d /\
      fst s = class_id (okind (nd_obj nb)) /\ wbody (save_octx bo (dc_heap d) m) (nd_obj nb) = Ok (snd s).
Proof.
  intros lim z bo d o W H. destruct (completed_own lim z bo d o W H) as [_ (v & ss & Os & Ok' & Hv & Hl & E)].
  pose proof (own_table bo d z v ss Hv Hl Ok') as T. rewrite <- E in T.
  exists (saved_hdr bo d (len ss) (to_timestamp z (dc_saved d)) v), ss. eexists. split; [apply saved_hdr_length|].
  split; [exact E|]. split; [exact T|]. split; [reflexivity|]. intros s I. rewrite Forall_forall in Os. exact (Os s I).
Qed.
Print Assumptions C48_not_stored.

(** The document [d] with the object at [a] replaced by one of document 2 with instance id [i]. *)
Definition with_foreign (d : document) (a i : Z) : document :=
  {| dc_self := dc_self d;
     dc_heap := fun x => match dc_heap d x with
       | Ok nd => Ok (if x =? a then {| nd_doc := 2; nd_id := i; nd_obj := nd_obj nd; nd_kids := nd_kids nd |} else nd)
       | Err e => Err e end;
     dc_content := dc_content d; dc_version := dc_version d; dc_saved := dc_saved d |}.

(** The source clip is from elsewhere and has an id of its own. *)
Example C48_case : snd (save 5 cet LE (with_foreign small_doc 9 500)) = Some ValueErr /\
  forallb (fun p => match dc_heap (with_foreign small_doc 9 500) (fst p) with
    | Ok nb => negb (nd_doc nb =? dc_self small_doc) || negb (nd_id nb =? 500) | Err _ => true end) small_mem = true.
Proof. split; vm_compute; reflexivity. Qed.

(** The source clip is from elsewhere and has the instance id of the filler (107): the save
    completes and the file has the filler in its place. *)
Theorem C48_foreign_refuted : exists d a nd, walks_refs d /\ in_doc d a /\ dc_heap d a = Ok nd /\
  nd_doc nd <> dc_self d /\ exists o, save 5 cet LE d = (o, None) /\
  exists t s, open_file (run_ops o) = Ok (t, Some (Obj K_SEQU s)) /\ sequ_components s = [3; 3; 3].
Proof.
  exists (with_foreign small_doc 9 107), 9.
  eexists. split.
  { intros a nd _ E b. unfold with_foreign in E. cbn [dc_heap] in E.
    destruct (dc_heap small_doc a) as [n0|e] eqn:E0; [|discriminate]. injection E as <-.
    unfold small_doc, doc_of, heap_of in E0. cbn [dc_heap] in E0. destruct (lookup small_mem a); [|discriminate].
    injection E0 as <-. destruct (a =? 9); cbn [nd_kids nd_obj]; apply in_nonzero. }
  split.
  { split; [discriminate|]. apply (reach_step _ 5 5 9); [constructor|].
    eexists. split; [reflexivity|]. split; [vm_compute; tauto|discriminate]. }
  split; [reflexivity|]. split; [discriminate|].
  pose (r := save 5 cet LE (with_foreign small_doc 9 107)).
  assert (snd r = None) as Hs by (vm_compute; reflexivity).
  exists (fst r). split; [fold r; destruct r; cbn [fst snd] in *; now rewrite Hs|].
  pose (q := open_file (run_ops (fst r))).
  assert (exists t s, q = Ok (t, Some (Obj K_SEQU s)) /\ sequ_components s = [3; 3; 3]) as (t & s & E1 & E2).
  { vm_compute in q. subst q. eexists. eexists. split; reflexivity. }
  exists t, s. split; [exact E1|exact E2].
Qed.
Print Assumptions C48_foreign_refuted.
