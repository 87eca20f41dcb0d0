(** C71: a document whose file was closed goes on working with the objects in memory. It can be saved
    if and only if all its objects are there; objects that were made or assigned to always are. *)
From Coq Require Import ZArith List Bool Lia.
From Verif Require Import Base IoCtx Text Dates Objects ObjSpec FileModel FileSpec SaveProofs Opened SampleDocs ResaveSpec
  ResaveSamples Edited EditSpec EditProofs EditSamples Closing ClosingSpec ClosingProofs.
From Verif.props Require Import Saves.
Import ListNotations.
Open Scope Z_scope.

(** A document that was made, not opened: closing it changes nothing, neither for what is done
    afterwards nor for a save. *)
Theorem C71_made : forall h1 h2 lim z bo self kids version saved,
  let s := fold_left closed_step h2 (fold_left edit_step h1 edit_new) in
  s = fold_left edit_step (h1 ++ h2) edit_new /\
  save lim z bo (closed_doc s self kids version saved) = save lim z bo (edit_doc s self kids version saved).
Proof.
  intros h1 h2 lim z bo self kids version saved s.
  destruct (no_file_edits h1 edit_new eq_refl) as [_ F1]. destruct (no_file_edits h2 _ F1) as [E F2].
  split; [subst s; now rewrite fold_left_app|]. apply save_same; try reflexivity. intros a. cbn [closed_doc edit_doc dc_heap].
  apply no_file_heap. subst s. now rewrite E.
Qed.
Print Assumptions C71_made.

(** As long as the steps after closing need only objects that are in memory then, they do what they
    do with the file open. *)
Theorem C71_supplied : forall s h, supplied closed_step s h -> fold_left closed_step h s = fold_left edit_step h s.
Proof. intros s h. apply closed_edits. Qed.
Print Assumptions C71_supplied.

(** What is got from a closed document is what the program means it to have, as with the file open. *)
Theorem C71_right : forall t h1 h2 i o, careful (mean_opened t) (h1 ++ h2) ->
  let s := fold_left edit_step h1 (just_opened t) in supplied closed_step s h2 ->
  fetch_closed (fold_left closed_step h2 s) i = Ok o -> mt_objects (fold_left mean_step (h1 ++ h2) (mean_opened t)) i = Ok o.
Proof.
  intros t h1 h2 i o C s Su G. rewrite (closed_edits h2 s Su) in G. apply closed_got in G. subst s.
  rewrite <- fold_left_app in G.
  rewrite <- (ag_objects _ _ (edits_agree _ _ _ (just_agrees t) C) i). unfold fetch. now rewrite G.
Qed.
Print Assumptions C71_right.

(** An object that was made or assigned to before the file was closed is got afterwards, whatever
    else happens, as it was. *)
Theorem C71_kept : forall t h1 h2 i o, careful (mean_opened t) h1 ->
  let w := fold_left mean_step h1 (mean_opened t) in mt_assigned w i -> mt_objects w i = Ok o ->
  let s := fold_left edit_step h1 (just_opened t) in spares closed_step s h2 i ->
  fetch_closed (fold_left closed_step h2 s) i = Ok o.
Proof.
  intros t h1 h2 i o C w A M s Sp. pose proof (edits_agree h1 _ _ (just_agrees t) C) as Ag. fold s w in Ag.
  apply closed_got, closed_keep; [|now apply (ag_marked _ _ Ag)|exact Sp].
  apply live_fetch; [now rewrite (ag_objects _ _ Ag)|].
  apply (marked_steps h1 _ (marked_opened t)). now apply (ag_marked _ _ Ag).
Qed.
Print Assumptions C71_kept.

(** The same for one that is made afterwards, or assigned to while it is in memory. *)
Theorem C71_kept_later : forall s h o,
  (spares closed_step (closed_step s (Make o)) h (ed_next s + 1) ->
   fetch_closed (fold_left closed_step (Make o :: h) s) (ed_next s + 1) = Ok o) /\
  (forall i old, ed_live s i = Some old -> class_id (okind o) = class_id (okind old) ->
   spares closed_step (closed_step s (Assign i o)) h i ->
   fetch_closed (fold_left closed_step (Assign i o :: h) s) i = Ok o).
Proof.
  intros s h o. split.
  - intros Sp. destruct (made_marks s o) as [L M]. apply closed_got. cbn [fold_left]. now apply closed_keep.
  - intros i old L C Sp. destruct (assign_marks s i o old L C) as [L' M]. apply closed_got. cbn [fold_left]. now apply closed_keep.
Qed.
Print Assumptions C71_kept_later.

(** An object of the file that is not in memory, when the file is closed or later, raises ValueError
    from then on. *)
Theorem C71_gone : forall t s i p h, ed_file s = Some t -> position t i = Ok p -> 0 < i <= ed_next s -> ~ in_memory s i ->
  fetch_closed (fold_left closed_step h s) i = Err ValueErr.
Proof.
  intros t s i p h F P N L. rewrite closed_gone; [|unfold in_memory in L; now destruct (ed_live s i); [exfalso; apply L|]|lia].
  unfold from_closed. rewrite F, P. destruct (Z.eqb_spec i 0); [lia|reflexivity].
Qed.
Print Assumptions C71_gone.

(** With all its objects in memory the closed document is saved like the open one: same bytes, same
    exception if there is one. *)
Theorem C71_complete : forall s lim z bo self kids version saved, follows kids ->
  (forall a, in_doc (edit_doc s self kids version saved) a -> in_memory s a) ->
  save lim z bo (closed_doc s self kids version saved) = save lim z bo (edit_doc s self kids version saved).
Proof. intros. now apply closed_all. Qed.
Print Assumptions C71_complete.

(** With one of them missing its save ends in an exception and leaves nothing that can be opened. *)
Theorem C71_incomplete : forall s lim z bo self kids version saved a, follows kids ->
  in_doc (edit_doc s self kids version saved) a -> ~ in_memory s a ->
  exists o e, save lim z bo (closed_doc s self kids version saved) = (o, Some e) /\ shows_nothing (run_ops o).
Proof. intros. eapply closed_lost; eauto. Qed.
Print Assumptions C71_incomplete.

(** A file that is opened and closed at once: with the file open the document is saved without a
    fault, closed it raises ValueError although its content is still there. *)
Theorem C71_with_refuted : exists t o o', open_table small_file = Ok t /\
  let s := just_opened t in
  in_memory s (ed_content s) /\
  save 5 cet LE (edit_doc s 8 in_order_kids [50] 981173106) = (o, None) /\
  save 5 cet LE (closed_doc s 8 in_order_kids [50] 981173106) = (o', Some ValueErr).
Proof.
  do 3 eexists. split; [vm_compute; reflexivity|]. cbv zeta. split; [vm_compute; discriminate|].
  split; vm_compute; reflexivity.
Qed.
Print Assumptions C71_with_refuted.

(** An object that was looked at before the file was closed, and let go, is not got again; with the
    file open it is read once more. *)
Theorem C71_let_go_refuted : exists t o, open_table small_file = Ok t /\
  let s := edit_step (just_opened t) (Follow 4) in
  fetch_closed s 4 = Ok o /\
  fetch_closed (closed_step s (Collect 4)) 4 = Err ValueErr /\
  snd (fetch (edit_step s (Collect 4)) 4) = Ok o.
Proof.
  do 2 eexists. split; [vm_compute; reflexivity|]. cbv zeta. split; [vm_compute; reflexivity|].
  split; vm_compute; reflexivity.
Qed.
Print Assumptions C71_let_go_refuted.

(** The small file, opened, its objects looked at, closed, its clip given another length and the
    objects let go of as far as nothing holds them before: the clip stays. *)
Example C71_case : exists t, open_table small_file = Ok t /\
  let h1 := [Follow 1; Follow 2; Follow 3; Follow 4; Assign 4 (other_clip 2 60)] in
  let s := fold_left edit_step h1 (just_opened t) in
  let h2 := [Make new_number; Collect 4; Collect 2; Collect 6; Collect 7; Collect 5] in
  let s' := fold_left closed_step h2 s in
  careful (mean_opened t) h1 /\ mt_assigned (fold_left mean_step h1 (mean_opened t)) 4 /\
  supplied closed_step s h2 /\ spares closed_step s h2 4 /\
  fetch_closed s' 4 = Ok (other_clip 2 60) /\ fetch_closed s' 7 = Ok new_number /\ fetch_closed s' 2 = Err ValueErr /\
  in_memory s' 5 /\ in_memory s' 1 /\ ~ in_memory s' 2 /\
  (exists o, save 5 cet LE (closed_doc s 8 in_order_kids [50] 981173106) = (o, None)) /\
  (exists o, save 5 cet LE (closed_doc s' 8 in_order_kids [50] 981173106) = (o, Some ValueErr)).
Proof.
  eexists. split; [vm_compute; reflexivity|]. cbv zeta.
  match goal with |- context [supplied _ ?s0 _] => set (s := s0) in * end.
  split; [cbn; tauto|]. split; [vm_compute; right; split; [reflexivity|exact I]|].
  split; [cbn [supplied needs]; repeat (split; [intros i []|]); exact I|].
  split.
  { cbn [spares changes]. split; [vm_compute; discriminate|]. repeat (split; [tauto|]). exact I. }
  split; [vm_compute; reflexivity|]. split; [vm_compute; reflexivity|]. split; [vm_compute; reflexivity|].
  split; [vm_compute; discriminate|]. split; [vm_compute; discriminate|]. split; [intros H; apply H; vm_compute; reflexivity|].
  split; eexists; vm_compute; reflexivity.
Qed.
