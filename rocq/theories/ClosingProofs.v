(** Lemmas about documents whose file was closed. *)
From Coq Require Import ZArith List Bool Lia.
From Verif Require Import Base IoCtx Text Dates Objects ObjSpec FileModel FileSpec SaveProofs Opened ResaveSpec Edited EditSpec
  EditProofs SaveOver SaveOverProofs Closing ClosingSpec.
Import ListNotations.
Open Scope Z_scope.

Lemma from_closed_err : forall f i, exists e, from_closed f i = Err e.
Proof.
  intros [t|] i; unfold from_closed; [|eauto]. destruct (i =? 0); [eauto|]. destruct (position t i); eauto.
Qed.

Lemma closed_got : forall s i o, fetch_closed s i = Ok o <-> ed_live s i = Some o.
Proof.
  intros s i o. unfold fetch_closed. destruct (ed_live s i) as [o'|]; [split; congruence|].
  destruct (from_closed_err (ed_file s) i) as [e ->]. split; discriminate.
Qed.

Lemma closed_missing : forall s i, ed_live s i = None -> exists e, fetch_closed s i = Err e.
Proof. intros s i H. unfold fetch_closed. rewrite H. apply from_closed_err. Qed.

Lemma closed_edit : forall s e, (forall i, needs e i -> in_memory s i) -> closed_step s e = edit_step s e.
Proof.
  intros s e H. destruct e as [i|o|i o|i o|i|i]; cbn [closed_step]; try reflexivity.
  - specialize (H i eq_refl). unfold in_memory in H. cbn [edit_step]. unfold fetch. destruct (ed_live s i); [reflexivity|contradiction].
  - specialize (H i eq_refl). unfold in_memory in H. unfold fetch_closed. destruct (ed_live s i); [reflexivity|contradiction].
  - specialize (H i eq_refl). unfold in_memory in H. unfold fetch_closed. destruct (ed_live s i); [reflexivity|contradiction].
Qed.

Lemma closed_edits : forall h s, supplied closed_step s h -> fold_left closed_step h s = fold_left edit_step h s.
Proof.
  induction h as [|e h IH]; intros s; [reflexivity|]. cbn [supplied fold_left]. intros [H1 H2].
  rewrite (closed_edit s e H1) in *. now apply IH.
Qed.

Lemma no_file_step : forall s e, ed_file s = None -> closed_step s e = edit_step s e /\ ed_file (edit_step s e) = None.
Proof.
  intros s e H. destruct e as [i|o|i o|i o|i|i]; cbn [closed_step]; unfold fetch_closed; cbn [edit_step]; unfold replace, fetch.
  - destruct (ed_live s i); [now split|]. rewrite H. now split.
  - now split.
  - destruct (ed_live s i); [|rewrite H; now split]. split; [reflexivity|]. now destruct (zlist_eqb _ _).
  - destruct (ed_live s i); [|rewrite H; now split]. split; [reflexivity|]. now destruct (zlist_eqb _ _).
  - now split.
  - split; [reflexivity|]. now destruct (_ || _).
Qed.

Lemma no_file_edits : forall h s, ed_file s = None ->
  fold_left closed_step h s = fold_left edit_step h s /\ ed_file (fold_left edit_step h s) = None.
Proof.
  induction h as [|e h IH]; intros s H; [now split|]. cbn [fold_left].
  destruct (no_file_step s e H) as [-> H']. now apply IH.
Qed.

Lemma no_file_heap : forall s self kids i, ed_file s = None -> closed_heap s self kids i = edit_heap s self kids i.
Proof.
  intros s self kids i H. unfold closed_heap, edit_heap, fetch_closed, fetch. destruct (ed_live s i); [reflexivity|].
  rewrite H. reflexivity.
Qed.

(** Steps keep what is modified, or the content. *)
Lemma closed_keeps : forall s e i o, ed_live s i = Some o -> ed_modified s i = true -> ~ changes s e i ->
  ed_live (closed_step s e) i = Some o /\ ed_modified (closed_step s e) i = true.
Proof.
  intros s e i o L M C. destruct e as [j|o'|j o'|j o'|j|j]; cbn [closed_step changes] in *.
  - now split.
  - cbn [edit_step ed_live ed_modified]. rewrite !upd_other by congruence. now split.
  - unfold fetch_closed. destruct (ed_live s j) eqn:E.
    + cbn [edit_step]. unfold replace, fetch. rewrite E. destruct (zlist_eqb _ _); [|now split].
      cbn [ed_live ed_modified]. rewrite !upd_other by congruence. now split.
    + destruct (from_closed_err (ed_file s) j) as [e ->]. now split.
  - unfold fetch_closed. destruct (ed_live s j) eqn:E.
    + cbn [edit_step]. unfold replace, fetch. rewrite E. destruct (zlist_eqb _ _); [|now split].
      cbn [ed_live ed_modified]. rewrite !upd_other by congruence. now split.
    + destruct (from_closed_err (ed_file s) j) as [e ->]. now split.
  - now split.
  - cbn [edit_step]. destruct (Z.eq_dec i j) as [<-|N].
    + rewrite M. now split.
    + destruct (_ || _); [now split|]. cbn [ed_live ed_modified]. rewrite upd_other by congruence. now split.
Qed.

Lemma closed_keep : forall h s i o, ed_live s i = Some o -> ed_modified s i = true -> spares closed_step s h i ->
  ed_live (fold_left closed_step h s) i = Some o.
Proof.
  induction h as [|e h IH]; intros s i o L M; [now cbn|]. cbn [spares fold_left]. intros [C Sp].
  destruct (closed_keeps s e i o L M C) as [L' M']. now apply IH.
Qed.

(** An assignment that succeeds marks its object; what was made is marked. *)
Lemma assign_marks : forall s i o old, ed_live s i = Some old -> class_id (okind o) = class_id (okind old) ->
  ed_live (closed_step s (Assign i o)) i = Some o /\ ed_modified (closed_step s (Assign i o)) i = true.
Proof.
  intros s i o old L C. cbn [closed_step]. unfold fetch_closed. rewrite L. cbn [edit_step]. unfold replace, fetch. rewrite L.
  rewrite zlist_eqb_dec. destruct (list_eq_dec _ _ _); [|contradiction]. cbn [ed_live ed_modified].
  now rewrite !upd_same.
Qed.

Lemma made_marks : forall s o, ed_live (closed_step s (Make o)) (ed_next s + 1) = Some o /\
  ed_modified (closed_step s (Make o)) (ed_next s + 1) = true.
Proof. intros s o. cbn [closed_step edit_step ed_live ed_modified]. now rewrite !upd_same. Qed.

(** Marked objects are in memory. *)
Definition marked_live (s : editing) : Prop := forall i, ed_modified s i = true -> in_memory s i.

Lemma marked_step : forall s e, marked_live s -> marked_live (edit_step s e).
Proof.
  intros s e H. destruct e as [j|o'|j o'|j o'|j|j]; cbn [edit_step].
  - intros i M. unfold fetch in *. destruct (ed_live s j) eqn:E; [now apply H|].
    destruct (from_file (ed_file s) j); [|now apply H]. cbn [fst ed_modified] in M. specialize (H i M). unfold in_memory in *.
    cbn [fst ed_live]. unfold upd. destruct (i =? j); [discriminate|exact H].
  - intros i M. cbn [ed_modified] in M. unfold in_memory. cbn [ed_live]. unfold upd in *.
    destruct (i =? ed_next s + 1); [discriminate|]. now apply H.
  - intros i. unfold replace, fetch. destruct (ed_live s j) eqn:E.
    + destruct (zlist_eqb _ _); [|apply H]. unfold in_memory. cbn [ed_modified ed_live]. unfold upd.
      destruct (i =? j); [discriminate|]. apply H.
    + destruct (from_file (ed_file s) j); [|apply H]. unfold in_memory. destruct (zlist_eqb _ _); cbn [ed_modified ed_live];
        unfold upd; destruct (i =? j); try discriminate; apply H.
  - intros i. unfold replace, fetch. destruct (ed_live s j) eqn:E.
    + destruct (zlist_eqb _ _); [|apply H]. unfold in_memory. cbn [ed_modified ed_live]. unfold upd.
      destruct (i =? j); [discriminate|]. apply H.
    + destruct (from_file (ed_file s) j); [|apply H]. unfold in_memory. destruct (zlist_eqb _ _); cbn [ed_modified ed_live];
        unfold upd; destruct (i =? j); try discriminate; apply H.
  - exact H.
  - intros i M. destruct (ed_modified s j || _) eqn:D; [now apply H|]. cbn [ed_modified] in M. unfold in_memory. cbn [ed_live].
    unfold upd. destruct (Z.eqb_spec i j) as [->|]; [|now apply H]. now rewrite M in D.
Qed.

Lemma marked_steps : forall h s, marked_live s -> marked_live (fold_left edit_step h s).
Proof. induction h as [|e h IH]; intros s H; [exact H|]. cbn [fold_left]. now apply IH, marked_step. Qed.

Lemma marked_opened : forall t, marked_live (just_opened t).
Proof. intros t. apply (marked_step (edit_opened t) (Follow (hd_root (of_head t)))). intros i M. discriminate M. Qed.

Lemma just_agrees : forall t, agrees (just_opened t) (mean_opened t).
Proof. intros t. apply fetch_agrees, opened_agrees. Qed.

Lemma live_fetch : forall s i o, snd (fetch s i) = Ok o -> in_memory s i -> ed_live s i = Some o.
Proof.
  intros s i o H L. unfold fetch, in_memory in *. destruct (ed_live s i); [|contradiction]. cbn [snd] in H. congruence.
Qed.

(** What is not in memory does not come back. *)
Lemma closed_gone_step : forall s e i, ed_live s i = None -> i <= ed_next s ->
  ed_live (closed_step s e) i = None /\ i <= ed_next (closed_step s e) /\ ed_file (closed_step s e) = ed_file s.
Proof.
  intros s e i L N. destruct e as [j|o'|j o'|j o'|j|j]; cbn [closed_step].
  - auto.
  - cbn [edit_step ed_live ed_next ed_file]. rewrite upd_other by lia. split; [exact L|split; [lia|reflexivity]].
  - unfold fetch_closed. destruct (ed_live s j) eqn:E.
    + cbn [edit_step]. unfold replace, fetch. rewrite E. destruct (zlist_eqb _ _); [|auto].
      cbn [ed_live ed_next ed_file]. rewrite upd_other by congruence. auto.
    + destruct (from_closed_err (ed_file s) j) as [e ->]. auto.
  - unfold fetch_closed. destruct (ed_live s j) eqn:E.
    + cbn [edit_step]. unfold replace, fetch. rewrite E. destruct (zlist_eqb _ _); [|auto].
      cbn [ed_live ed_next ed_file]. rewrite upd_other by congruence. auto.
    + destruct (from_closed_err (ed_file s) j) as [e ->]. auto.
  - auto.
  - cbn [edit_step]. destruct (_ || _); [auto|]. cbn [ed_live ed_next ed_file]. unfold upd. destruct (i =? j); auto.
Qed.

Lemma closed_gone : forall h s i, ed_live s i = None -> i <= ed_next s ->
  fetch_closed (fold_left closed_step h s) i = from_closed (ed_file s) i.
Proof.
  induction h as [|e h IH]; intros s i L N; cbn [fold_left].
  - unfold fetch_closed. now rewrite L.
  - destruct (closed_gone_step s e i L N) as (L' & N' & <-). now apply IH.
Qed.

Section Saves.
Context (s : editing) (self : Z) (kids : Z -> obj -> list Z) (version : str) (saved : Z).
Notation open_d := (edit_doc s self kids version saved).
Notation closed_d := (closed_doc s self kids version saved).

Lemma closed_sees : forall a, in_memory s a -> dc_heap closed_d a = dc_heap open_d a.
Proof.
  intros a H. cbn [closed_doc edit_doc dc_heap]. unfold closed_heap, edit_heap, fetch_closed, fetch, in_memory in *.
  destruct (ed_live s a); [reflexivity|contradiction].
Qed.

Lemma closed_refers : forall a b, in_memory s a -> refers (dc_heap open_d) a b -> refers (dc_heap closed_d) a b.
Proof. intros a b H [nd [E R]]. exists nd. split; [|exact R]. now rewrite closed_sees. Qed.

(** The first object on the way that is not in memory. *)
Lemma closed_way : forall a, in_doc open_d a ->
  in_doc closed_d a \/ exists b, in_doc closed_d b /\ ~ in_memory s b.
Proof.
  intros a [N R]. change (dc_content closed_d <> 0) in N. induction R as [|b c R IH Rf].
  { left. split; [exact N|constructor]. }
  destruct IH as [[_ IH]|IH]; [|now right].
  destruct (ed_live s b) as [o|] eqn:L.
  - left. split; [exact N|]. apply reach_step with b; [exact IH|]. apply closed_refers; [|exact Rf].
    unfold in_memory. congruence.
  - right. exists b. split; [now split|]. unfold in_memory. now rewrite L.
Qed.

Lemma closed_node : forall a nd, dc_heap closed_d a = Ok nd -> exists o, nd = {| nd_doc := self; nd_id := a; nd_obj := o; nd_kids := kids a o |}.
Proof.
  intros a nd E. cbn [closed_doc dc_heap] in E. unfold closed_heap in E. destruct (fetch_closed s a) as [o|e]; [|discriminate].
  injection E as <-. now exists o.
Qed.

Lemma closed_walks : follows kids -> walks_refs closed_d.
Proof. intros F a nd _ E b. apply closed_node in E as [o ->]. cbn [nd_kids nd_obj]. apply F. Qed.

Lemma closed_ids : ids_distinct closed_d.
Proof.
  intros a b na nb _ _ Ea Eb. apply closed_node in Ea as [oa ->]. apply closed_node in Eb as [ob ->]. now cbn.
Qed.

Lemma closed_all : forall lim z bo, follows kids -> (forall a, in_doc open_d a -> in_memory s a) ->
  save lim z bo closed_d = save lim z bo open_d.
Proof.
  intros lim z bo F H. symmetry.
  assert (save_over lim z bo open_d (fun _ => dc_heap closed_d) = save lim z bo open_d) as E1.
  { apply (over_same lim z bo open_d _ (in_doc open_d)).
    - intros N. split; [exact N|constructor].
    - intros _ a Ha. apply closed_sees. now apply H.
    - intros a nd Ha E.
      assert (forall r, In r (obj_refs (nd_obj nd)) -> r <> 0 -> in_doc open_d r) as R.
      { intros r Hr Nr. apply in_doc_step with a; [exact Ha|]. exists nd. auto. }
      split; [|exact R]. intros k Hk. cbn [edit_doc dc_heap] in E. unfold edit_heap in E.
      destruct (snd (fetch s a)) as [o|e]; [|discriminate]. injection E as <-. cbn [nd_kids nd_obj] in *.
      apply F in Hk as [Hk Nk]. now apply R. }
  assert (save_over lim z bo closed_d (fun _ => dc_heap closed_d) = save lim z bo closed_d) as E2.
  { apply (over_same lim z bo closed_d _ (fun _ => True)); auto. }
  rewrite <- E1, <- E2. reflexivity.
Qed.

Lemma closed_lost : forall lim z bo a, follows kids -> in_doc open_d a -> ~ in_memory s a ->
  exists o e, save lim z bo closed_d = (o, Some e) /\ shows_nothing (run_ops o).
Proof.
  intros lim z bo a F Ha Na.
  assert (exists b, in_doc closed_d b /\ ~ in_memory s b) as (b & Hb & Nb).
  { destruct (closed_way a Ha) as [H|H]; [now exists a|exact H]. }
  destruct (save lim z bo closed_d) as [o [e|]] eqn:E.
  { exists o, e. split; [reflexivity|]. eapply failed_save; eauto. }
  exfalso. apply Nb.
  destruct (completed lim z bo closed_d o (closed_walks F) closed_ids E) as (_ & _ & _ & _ & _ & _ & _ & _ & _ & _ & _ & l & Hl & _).
  destruct (walk_order lim closed_d l (closed_walks F) Hl) as (_ & _ & Io & _ & _ & Here).
  apply Io in Hb. pose proof (fresh_in l [] b) as Hin. cbn [app In] in Hin.
  destruct (Here b) as [nd En]; [tauto|].
  cbn [closed_doc dc_heap] in En. unfold closed_heap in En. destruct (fetch_closed s b) as [ob|e] eqn:G; [|discriminate].
  apply closed_got in G. unfold in_memory. congruence.
Qed.
End Saves.
