(** C69: saves depend on what a document is, not on where its objects are. [moved] and [folds] are
    in MovedSpec.v, [alike] and [saved_again] in ChainSpec.v. *)
From Coq Require Import ZArith List Bool Lia.
From Verif Require Import Base IoCtx Text Dates Components Objects ObjSpec FileModel FileSpec SaveProofs SampleDocs ResaveSamples
  ChainSpec MovedSpec MovedProofs.
From Verif.props Require Import Saves Chains.
Import ListNotations.
Open Scope Z_scope.

(** With the objects at other addresses, with other instance ids and in another document object, the
    save takes the same steps and ends the same way, whether it completes or not. *)
Theorem C69_moved : forall f d d', moved f d d' -> walks_refs d ->
  forall lim z bo, save lim z bo d' = save lim z bo d.
Proof. exact mo_save. Qed.
Print Assumptions C69_moved.

Example C69_moved_case : walks_refs small_doc /\ moved (Z.mul 2) small_doc (doubled small_doc) /\
  (exists nd nd', dc_heap small_doc 9 = Ok nd /\ dc_heap (doubled small_doc) 18 = Ok nd' /\ nd_id nd = 109 /\ nd_id nd' = -104) /\
  snd (save 5 cet LE small_doc) = None /\ snd (save 2 cet LE small_doc) = Some OutOfFuel.
Proof.
  split; [exact (proj1 C25_case)|]. split; [apply doubled_moved|].
  split; [eexists; eexists; repeat split; reflexivity|]. split; vm_compute; reflexivity.
Qed.

(** Documents that look alike are saved to files that look alike. *)
Theorem C69_alike : forall d d' file file', walks_refs d -> ids_distinct d -> all_ok d ->
  walks_refs d' -> ids_distinct d' -> all_ok d' ->
  (forall n, alike n (in_document d) (in_document d') (dc_content d) (dc_content d')) ->
  saved_again d file -> saved_again d' file' ->
  exists t t', open_table file = Ok t /\ open_table file' = Ok t' /\
    forall n, alike n (in_file t) (in_file t') (hd_root (of_head t)) (hd_root (of_head t')).
Proof.
  intros d d' file file' W I A W' I' A' H S S'.
  destruct (C64_looks d file W I A S) as (t & T & L). destruct (C64_looks d' file' W' I' A' S') as (t' & T' & L').
  exists t, t'. split; [exact T|]. split; [exact T'|]. intros n.
  apply (alike_trans n _ (in_document d) _ _ (dc_content d)); [apply alike_sym, L|].
  apply (alike_trans n _ (in_document d') _ _ (dc_content d')); [apply H|apply L'].
Qed.
Print Assumptions C69_alike.

(** So a copy, which has an object as often as there are ways to it, is saved to a file that looks
    like that of the original. *)
Theorem C69_copy : forall f d d' file file', walks_refs d -> ids_distinct d -> all_ok d ->
  walks_refs d' -> ids_distinct d' -> all_ok d' -> folds f d' d ->
  saved_again d file -> saved_again d' file' ->
  exists t t', open_table file = Ok t /\ open_table file' = Ok t' /\
    forall n, alike n (in_file t) (in_file t') (hd_root (of_head t)) (hd_root (of_head t')).
Proof.
  intros f d d' file file' W I A W' I' A' F. apply C69_alike; try assumption.
  intros n. apply alike_sym. rewrite <- (fo_content _ _ _ F). apply (folds_alike f d' d F A').
  destruct (Z.eq_dec (dc_content d') 0) as [->|N]; [now left|]. right. split; [exact N|constructor].
Qed.
Print Assumptions C69_copy.

(** But not to the same file: the copy of the small document has eight objects, the original has
    five. *)
Theorem C69_copy_refuted : exists f d d' o o' t t', walks_refs d /\ ids_distinct d /\ all_ok d /\
  walks_refs d' /\ ids_distinct d' /\ all_ok d' /\ folds f d' d /\
  save 5 cet LE d = (o, None) /\ save 5 cet LE d' = (o', None) /\
  open_table (run_ops o) = Ok t /\ open_table (run_ops o') = Ok t' /\
  hd_count (of_head t) = 5 /\ hd_count (of_head t') = 8.
Proof.
  exists copied_from, small_doc, unshared_doc, (fst (save 5 cet LE small_doc)), (fst (save 5 cet LE unshared_doc)).
  assert (match open_table (run_ops (fst (save 5 cet LE small_doc))) with Ok t => Some (hd_count (of_head t)) | Err _ => None end = Some 5)
    as E by (vm_compute; reflexivity).
  assert (match open_table (run_ops (fst (save 5 cet LE unshared_doc))) with Ok t => Some (hd_count (of_head t)) | Err _ => None end = Some 8)
    as E' by (vm_compute; reflexivity).
  destruct (open_table (run_ops (fst (save 5 cet LE small_doc)))) as [t|e] eqn:T; [|discriminate E].
  destruct (open_table (run_ops (fst (save 5 cet LE unshared_doc)))) as [t'|e] eqn:T'; [|discriminate E'].
  assert (hd_count (of_head t) = 5) as F by congruence. assert (hd_count (of_head t') = 8) as F' by congruence.
  exists t, t'. destruct C25_case as (W & I & A & _).
  do 3 (split; [assumption|]). split; [exact (listed_walks unshared_mem 105)|]. split; [exact (listed_ids unshared_mem 105)|].
  split; [exact (listed_ok unshared_mem 105 unshared_ok)|]. split; [exact unshared_folds|].
  assert (snd (save 5 cet LE small_doc) = None) as S by (vm_compute; reflexivity).
  assert (snd (save 5 cet LE unshared_doc) = None) as S' by (vm_compute; reflexivity).
  split; [rewrite <- S; apply surjective_pairing|]. split; [rewrite <- S'; apply surjective_pairing|].
  split; [reflexivity|]. split; [reflexivity|]. split; [exact F|exact F'].
Qed.
Print Assumptions C69_copy_refuted.
