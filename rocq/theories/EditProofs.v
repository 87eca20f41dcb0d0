(** Lemmas about edited documents. *)
From Coq Require Import ZArith List Bool Lia.
From Verif Require Import Base IoCtx RoundTrip Text Dates Objects ObjSpec ObjProofs ObjTheory FileModel FileSpec SaveProofs
  MoveProofs Opened ResaveSpec Edited EditSpec.
Import ListNotations.
Open Scope Z_scope.

(** ** Saves depend on memory only through what is got hold of *)

Lemma wbody_same : forall c c' o, obo c' = obo c -> (forall r, orefs c' r = orefs c r) -> wbody c' o = wbody c o.
Proof.
  intros c c' o Hb Hr.
  assert (forall r, wref c' r = wref c r) as Hw by (intros r; unfold wref; now rewrite Hb, Hr).
  rewrite <- (move_global c' c' (fun x => x) o eq_refl (fun r => eq_refl)).
  apply (move_global c c' (fun x => x) o Hb Hw).
Qed.

Section Same.
Variables h h' : heap.
Hypothesis same : forall a, h' a = h a.

Lemma walk_same : forall lim a, walk lim h' a = walk lim h a.
Proof.
  induction lim as [|lim IH]; intros a; [reflexivity|]. cbn [walk]. rewrite same.
  destruct (h a) as [nd|e]; [|reflexivity].
  assert (forall ks,
    (fix walks (ks : list Z) : list Z * option exn :=
        match ks with
        | [] => ([], None)
        | k :: ks' =>
          match walk lim h' k with
          | (l, Some e) => (l, Some e)
          | (l, None) => let '(l', s) := walks ks' in (l ++ l', s)
          end
        end) ks =
    (fix walks (ks : list Z) : list Z * option exn :=
        match ks with
        | [] => ([], None)
        | k :: ks' =>
          match walk lim h k with
          | (l, Some e) => (l, Some e)
          | (l, None) => let '(l', s) := walks ks' in (l ++ l', s)
          end
        end) ks) as ->; [|reflexivity].
  induction ks as [|k ks IHk]; [reflexivity|]. rewrite IH, IHk. reflexivity.
Qed.

Lemma write_object_same : forall bo self m nd, write_object bo self h' m nd = write_object bo self h m nd.
Proof.
  intros bo self m nd. unfold write_object.
  rewrite (wbody_same (save_octx bo h m) (save_octx bo h' m)); [reflexivity|reflexivity|].
  intros r. cbn [save_octx orefs]. now rewrite same.
Qed.

Lemma save_loop_same : forall bo self l m n, save_loop bo self h' l m n = save_loop bo self h l m n.
Proof.
  intros bo self. induction l as [|a l IH]; intros m n; [reflexivity|]. cbn [save_loop]. rewrite same.
  destruct (h a) as [nd|e]; [|reflexivity]. destruct (m (nd_id nd)); [apply IH|]. rewrite write_object_same.
  destruct (run_writers _) as [o [e|]]; [reflexivity|]. now rewrite IH.
Qed.
End Same.

Lemma save_same : forall lim z bo d d', (forall a, dc_heap d' a = dc_heap d a) -> dc_self d' = dc_self d ->
  dc_content d' = dc_content d -> dc_version d' = dc_version d -> dc_saved d' = dc_saved d ->
  save lim z bo d' = save lim z bo d.
Proof.
  intros lim z bo d d' Hh Hs Hc Hv Ht. unfold save, write. cbn [ss_doc new_session ss_map ss_next].
  unfold head_before, head_after. rewrite Hs, Hc, Hv, Ht. rewrite (walk_same (dc_heap d) (dc_heap d') Hh).
  destruct (run_writers _) as [o1 [e1|]]; [reflexivity|]. destruct (run_writers _) as [o2 [e2|]]; [reflexivity|].
  destruct (if dc_content d =? 0 then _ else _) as [l ws].
  rewrite (save_loop_same (dc_heap d) (dc_heap d') Hh).
  destruct (save_loop _ _ _ _ _ _) as [[[o3 [e3|]] m] n]; [reflexivity|].
  destruct ws; [reflexivity|]. destruct (save_counts _ _ _) as [o4 s4]. reflexivity.
Qed.

(** ** Editing *)

(** What is alive is what is meant; what is not marked is what the file holds. *)
Record agrees (s : editing) (w : meant) : Prop := {
  ag_objects : forall i, snd (fetch s i) = mt_objects w i;
  ag_plain : forall i o, ed_live s i = Some o -> ed_modified s i = false -> from_file (ed_file s) i = Ok o;
  ag_marked : forall i, mt_assigned w i -> ed_modified s i = true;
  ag_next : ed_next s = mt_next w;
  ag_content : ed_content s = mt_content w }.

Lemma upd_same : forall V (f : Z -> V) k v, upd f k v k = v.
Proof. intros. unfold upd. now rewrite Z.eqb_refl. Qed.
Lemma upd_other : forall V (f : Z -> V) k v x, x <> k -> upd f k v x = f x.
Proof. intros. unfold upd. now apply Z.eqb_neq in H as ->. Qed.

Lemma fetch_agrees : forall s w i, agrees s w -> agrees (fst (fetch s i)) w.
Proof.
  intros s w i A. unfold fetch at 1. destruct (ed_live s i) as [o|] eqn:L; [exact A|].
  destruct (from_file (ed_file s) i) as [o|e] eqn:F; [|exact A]. destruct A as [A1 A2 A3 A4 A5]. cbn [fst].
  split; cbn [ed_file ed_live ed_modified ed_next ed_content]; trivial.
  - intros j. rewrite <- A1. unfold fetch. cbn [ed_live ed_file]. destruct (Z.eq_dec j i) as [->|N].
    + rewrite upd_same, L, F. reflexivity.
    + rewrite upd_other by exact N. destruct (ed_live s j); [reflexivity|]. destruct (from_file (ed_file s) j); reflexivity.
  - intros j o' E M. destruct (Z.eq_dec j i) as [->|N].
    + rewrite upd_same in E. injection E as <-. exact F.
    + rewrite upd_other in E by exact N. auto.
Qed.

Lemma zlist_eqb_dec : forall a b, zlist_eqb a b = if list_eq_dec Z.eq_dec a b then true else false.
Proof.
  induction a as [|x a IH]; intros [|y b]; try reflexivity.
  cbn [zlist_eqb]. rewrite IH. destruct (Z.eqb_spec x y) as [->|N]; cbn [andb].
  - destruct (list_eq_dec Z.eq_dec a b) as [->|N]; destruct (list_eq_dec Z.eq_dec (y :: _) (y :: b)); congruence.
  - destruct (list_eq_dec Z.eq_dec (x :: a) (y :: b)); congruence.
Qed.

Lemma replace_agrees : forall s w i o mark, agrees s w -> (mark = false -> mt_assigned w i) ->
  agrees (replace s i o mark) (if suits w i o then now_is w i o (mark = true) else w).
Proof.
  intros s w i o mark A Hm. unfold replace, suits. pose proof (fetch_agrees s w i A) as A'.
  pose proof (ag_objects s w A i) as E. destruct (fetch s i) as [s' [old|e]] eqn:F; cbn [fst snd] in *; rewrite <- E; [|exact A'].
  rewrite zlist_eqb_dec. destruct (list_eq_dec Z.eq_dec _ _) as [_|_]; [|exact A'].
  destruct A' as [A1 A2 A3 A4 A5].
  split; cbn [ed_file ed_live ed_modified ed_next ed_content now_is mt_objects mt_assigned mt_next mt_content]; trivial.
  - intros j. destruct (Z.eq_dec j i) as [->|N].
    + unfold fetch. cbn [ed_live]. now rewrite upd_same.
    + rewrite <- A1. unfold fetch. cbn [ed_live ed_file]. rewrite upd_other by exact N.
      destruct (ed_live s' j); [reflexivity|]. destruct (from_file (ed_file s') j); reflexivity.
  - intros j o' L M. destruct (Z.eq_dec j i) as [->|N].
    + exfalso. destruct mark.
      * rewrite upd_same in M. discriminate.
      * rewrite A3 in M by auto. discriminate.
    + rewrite upd_other in L by exact N. apply A2; [exact L|]. destruct mark; [|exact M]. now rewrite upd_other in M.
  - intros j [H|[-> H]].
    + destruct mark; [|auto]. destruct (Z.eq_dec j i) as [->|N]; [apply upd_same|]. rewrite upd_other by exact N. auto.
    + rewrite H. apply upd_same.
Qed.

Lemma edit_agrees : forall s w e, agrees s w -> match e with InPlace i _ => mt_assigned w i | _ => True end ->
  agrees (edit_step s e) (mean_step w e).
Proof.
  intros s w e A C. destruct e as [i|o|i o|i o|i|i]; cbn [edit_step mean_step].
  - now apply fetch_agrees.
  - destruct A as [A1 A2 A3 A4 A5].
    split; cbn [ed_file ed_live ed_modified ed_next ed_content now_is mt_objects mt_assigned mt_next mt_content]; trivial.
    + intros j. rewrite <- A4. destruct (Z.eq_dec j (ed_next s + 1)) as [->|N].
      * unfold fetch. cbn [ed_live]. now rewrite upd_same.
      * rewrite <- A1. unfold fetch. cbn [ed_live ed_file]. rewrite upd_other by exact N.
        destruct (ed_live s j); [reflexivity|]. destruct (from_file (ed_file s) j); reflexivity.
    + intros j o' L M. destruct (Z.eq_dec j (ed_next s + 1)) as [->|N]; [rewrite upd_same in M; discriminate|].
      rewrite upd_other in L, M by exact N. auto.
    + intros j [H|[-> _]]; [|rewrite <- A4; apply upd_same].
      destruct (Z.eq_dec j (ed_next s + 1)) as [->|N]; [apply upd_same|]. rewrite upd_other by exact N. auto.
    + now rewrite A4.
  - pose proof (replace_agrees s w i o true A) as R. specialize (R ltac:(discriminate)).
    destruct (suits w i o); [|exact R]. destruct R as [R1 R2 R3 R4 R5]. split; trivial.
    intros j [H|[-> _]]; apply R3; cbn [now_is mt_assigned]; auto.
  - pose proof (replace_agrees s w i o false A (fun _ => C)) as R.
    destruct (suits w i o); [|exact R]. destruct R as [R1 R2 R3 R4 R5]. split; trivial.
    intros j [H|[_ []]]. apply R3. cbn [now_is mt_assigned]. auto.
  - destruct A as [A1 A2 A3 A4 A5]. split; trivial.
    intros j. cbn [mt_objects]. rewrite <- A1. unfold fetch. cbn [ed_live ed_file].
    destruct (ed_live s j); [reflexivity|]. destruct (from_file (ed_file s) j); reflexivity.
  - destruct (ed_modified s i) eqn:M; cbn [orb]; [exact A|]. destruct (i =? ed_content s) eqn:Ec; [exact A|].
    destruct A as [A1 A2 A3 A4 A5]. split; cbn [ed_file ed_live ed_modified ed_next ed_content]; trivial.
    + intros j. rewrite <- A1. unfold fetch. cbn [ed_live ed_file]. destruct (Z.eq_dec j i) as [->|N].
      * rewrite upd_same. destruct (ed_live s i) as [o|] eqn:L; [|destruct (from_file (ed_file s) i); reflexivity].
        rewrite (A2 i o L M). reflexivity.
      * rewrite upd_other by exact N. destruct (ed_live s j); [reflexivity|]. destruct (from_file (ed_file s) j); reflexivity.
    + intros j o' L M'. destruct (Z.eq_dec j i) as [->|N]; [rewrite upd_same in L; discriminate|].
      rewrite upd_other in L by exact N. auto.
Qed.

Lemma edits_agree : forall h s w, agrees s w -> careful w h ->
  agrees (fold_left edit_step h s) (fold_left mean_step h w).
Proof.
  induction h as [|e h IH]; intros s w A C; [exact A|]. cbn [fold_left careful] in *. destruct C as [C1 C2].
  apply IH; [|exact C2]. now apply edit_agrees.
Qed.

Lemma opened_agrees : forall t, agrees (edit_opened t) (mean_opened t).
Proof.
  intros t. split; try reflexivity; try (intros; discriminate); [|intros i []].
  intros i. unfold fetch. cbn [edit_opened ed_live ed_file mean_opened mt_objects from_file].
  destruct (read_object t i) as [[o|]|e]; reflexivity.
Qed.

Lemma new_agrees : agrees edit_new mean_new.
Proof. split; try reflexivity; try (intros; discriminate). intros i []. Qed.

Lemma agrees_save : forall s w lim z bo self kids version saved, agrees s w ->
  save lim z bo (edit_doc s self kids version saved) = save lim z bo (meant_doc w self kids version saved).
Proof.
  intros s w lim z bo self kids version saved A. apply save_same; try reflexivity.
  - intros i. cbn [edit_doc meant_doc dc_heap]. unfold edit_heap. now rewrite (ag_objects s w A).
  - exact (ag_content s w A).
Qed.

Lemma acts_mean : forall h w, fold_left mean_step (filter acts h) w = fold_left mean_step h w.
Proof. induction h as [|e h IH]; intros w; [reflexivity|]. destruct e; cbn [filter acts fold_left mean_step]; apply IH. Qed.

Lemma acts_careful : forall h w, careful w h -> careful w (filter acts h).
Proof.
  induction h as [|e h IH]; intros w C; [exact I|]. cbn [careful] in C. destruct C as [C1 C2].
  destruct e; cbn [filter acts careful mean_step] in *; try (apply IH; exact C2); (split; [exact C1|]); apply IH; exact C2.
Qed.

(** Whatever object is meant was brought along, or was there at first. *)
Lemma meant_from : forall h w i o, mt_objects (fold_left mean_step h w) i = Ok o ->
  mt_objects w i = Ok o \/ Exists (fun e => brings e o) h.
Proof.
  induction h as [|e h IH]; intros w i o H; [now left|]. cbn [fold_left] in H.
  destruct (IH _ _ _ H) as [M|M]; [|right; now apply Exists_cons_tl].
  destruct e as [j|o'|j o'|j o'|j|j]; cbn [mean_step] in M; try (now left).
  - cbn [now_is mt_objects] in M. destruct (Z.eq_dec i (mt_next w + 1)); [|now left].
    right. apply Exists_cons_hd. injection M as ->. reflexivity.
  - destruct (suits w j o'); [|now left]. cbn [now_is mt_objects] in M. destruct (Z.eq_dec i j); [|now left].
    right. apply Exists_cons_hd. injection M as ->. reflexivity.
  - destruct (suits w j o'); [|now left]. cbn [now_is mt_objects] in M. destruct (Z.eq_dec i j); [|now left].
    right. apply Exists_cons_hd. injection M as ->. reflexivity.
Qed.

Lemma meant_left : forall h w i, leaves w h i -> mt_objects (fold_left mean_step h w) i = mt_objects w i.
Proof.
  induction h as [|e h IH]; intros w i L; [reflexivity|]. cbn [leaves fold_left] in *. destruct L as [N L].
  rewrite (IH _ _ L). destruct e as [j|o'|j o'|j o'|j|j]; cbn [mean_step touches] in *; try reflexivity.
  - cbn [now_is mt_objects]. now destruct (Z.eq_dec i (mt_next w + 1)).
  - destruct (suits w j o'); [|reflexivity]. cbn [now_is mt_objects]. now destruct (Z.eq_dec i j).
  - destruct (suits w j o'); [|reflexivity]. cbn [now_is mt_objects]. now destruct (Z.eq_dec i j).
Qed.

Lemma meant_node : forall w self kids version saved a nd, dc_heap (meant_doc w self kids version saved) a = Ok nd ->
  exists o, mt_objects w a = Ok o /\ nd = {| nd_doc := self; nd_id := a; nd_obj := o; nd_kids := kids a o |}.
Proof.
  intros w self kids version saved a nd E. cbn [meant_doc dc_heap] in E.
  destruct (mt_objects w a) as [o|e]; [|discriminate]. injection E as <-. eauto.
Qed.

Lemma meant_walks : forall w self kids version saved, follows kids -> walks_refs (meant_doc w self kids version saved).
Proof. intros w self kids version saved F a nd _ E b. apply meant_node in E as (o & _ & ->). apply F. Qed.

Lemma meant_ids : forall w self kids version saved, ids_distinct (meant_doc w self kids version saved).
Proof.
  intros w self kids version saved a b na nb _ _ Ea Eb. apply meant_node in Ea as (oa & _ & ->).
  apply meant_node in Eb as (ob & _ & ->). auto.
Qed.
