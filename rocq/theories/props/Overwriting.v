(** C65: a save loads objects while it writes. As long as loading gives the same at any moment it
    does not matter that the two go in turns; when a document is saved over the file it was opened
    from, what is not in memory is lost. *)
From Coq Require Import ZArith List Bool Lia.
From Verif Require Import Base IoCtx Text Dates Objects ObjSpec FileModel FileSpec SaveProofs Opened SampleDocs ResaveSpec
  ResaveSamples Edited SaveOver SaveOverProofs.
From Verif.props Require Import Saves.
Import ListNotations.
Open Scope Z_scope.

(** The save of FileModel.v, which walks first and writes then, does what the code does, which takes
    turns: same steps in the same order, same exception, for every document, also one that cannot be
    saved. *)
Theorem C65_turns : forall lim z bo d v, (forall done a, v done a = dc_heap d a) ->
  save_over lim z bo d v = save lim z bo d.
Proof. intros lim z bo d v H. apply (over_same lim z bo d v (fun _ => True)); auto. Qed.
Print Assumptions C65_turns.

(** All objects of the document are in memory: whatever happens to the file it was opened from
    while it is saved, and whatever the buffers show of that, the save does what it does elsewhere. *)
Theorem C65_in_memory : forall s f lim z bo self kids version saved, follows kids ->
  let d := edit_doc s self kids version saved in
  (forall a, in_doc d a -> ed_live s a <> None) ->
  save_over lim z bo d (seen s f self kids) = save lim z bo d.
Proof.
  intros s f lim z bo self kids version saved Fo d Live.
  apply (over_same lim z bo d _ (in_doc d)).
  - intros N. split; [exact N|constructor].
  - intros done a Ha. specialize (Live a Ha). cbn [d edit_doc dc_heap]. unfold seen, edit_heap, fetch. cbn [ed_live].
    destruct (ed_live s a); [reflexivity|contradiction].
  - intros a nd Ha E.
    assert (forall r, In r (obj_refs (nd_obj nd)) -> r <> 0 -> in_doc d r) as R.
    { intros r Hr Nr. apply in_doc_step with a; [exact Ha|]. exists nd. auto. }
    split; [|exact R]. intros k Hk. cbn [d edit_doc dc_heap] in E. unfold edit_heap in E.
    destruct (snd (fetch s a)) as [o|e]; [|discriminate]. injection E as <-. cbn [nd_kids nd_obj] in *.
    apply Fo in Hk as [Hk Nk]. now apply R.
Qed.
Print Assumptions C65_in_memory.

(** Of a save that ends in an exception nothing can be opened, whatever the loads gave on the way. *)
Theorem C65_failed : forall lim z bo d v o e, save_over lim z bo d v = (o, Some e) -> shows_nothing (run_ops o).
Proof. exact over_failed. Qed.
Print Assumptions C65_failed.

(** A document opened from a file the library has saved. Its content refers to another object, and of
    the objects the content refers to none is in memory. Saved over that file it ends in an
    exception, however much of what is written shows at once; the file is left with its header at
    most and the document is gone. *)
Theorem C65_lost : forall lim z bo d o t s shown lim' z' bo' self kids version saved ob r,
  walks_refs d -> ids_distinct d -> save lim z bo d = (o, None) -> open_table (run_ops o) = Ok t ->
  follows kids -> ed_content s <> 0 -> ed_live s (ed_content s) = Some ob -> In r (obj_refs ob) -> r <> 0 ->
  (forall a, In a (obj_refs ob) -> a <> 0 -> a <> ed_content s -> ed_live s a = None) ->
  exists o' e, save_over lim' z' bo' (edit_doc s self kids version saved) (seen s (itself t shown) self kids) = (o', Some e) /\
    len (run_ops o') <= 119 /\ shows_nothing (run_ops o').
Proof.
  intros lim z bo d o t s shown lim' z' bo' self kids version saved ob r W I H T.
  apply lost. exact (saved_positions lim z bo d o t W I H T).
Qed.
Print Assumptions C65_lost.

(** The same for a file some other program has saved, if its header is as long at least. *)
Theorem C65_lost_other : forall file t s shown lim z bo self kids version saved ob r,
  Forall is_byte file -> open_table file = Ok t -> 119 <= of_start t ->
  follows kids -> ed_content s <> 0 -> ed_live s (ed_content s) = Some ob -> In r (obj_refs ob) -> r <> 0 ->
  (forall a, In a (obj_refs ob) -> a <> 0 -> a <> ed_content s -> ed_live s a = None) ->
  exists o e, save_over lim z bo (edit_doc s self kids version saved) (seen s (itself t shown) self kids) = (o, Some e) /\
    len (run_ops o) <= 119 /\ shows_nothing (run_ops o).
Proof.
  intros file t s shown lim z bo self kids version saved ob r Hf T L. apply lost.
  intros i p Ep. pose proof (position_from file t i p Hf T Ep). lia.
Qed.
Print Assumptions C65_lost_other.

(** The small document: with all five objects in memory it can be saved over its file, which is
    empty by then. *)
Example C65_in_memory_case : exists t, open_table small_file = Ok t /\
  let s := fold_left edit_step [Follow 1; Follow 2; Follow 3; Follow 4; Follow 5] (edit_opened t) in
  let d := edit_doc s 8 in_order_kids [50] 981173106 in
  (forall a, in_doc d a -> ed_live s a <> None) /\
  exists o t' ob, save_over 5 cet LE d (seen s (itself t (fun _ => 0%nat)) 8 in_order_kids) = (o, None) /\
    open_file (run_ops o) = Ok (t', Some ob) /\ hd_count (of_head t') = 5.
Proof.
  eexists. split; [vm_compute; reflexivity|]. cbv zeta. split.
  - intros a [N R]. 
    match goal with |- ed_live ?s0 _ <> _ => set (s := s0) in * end.
    assert (In a [1; 2; 3; 4; 5]) as Ha.
    { clear N. induction R as [|x y R IH (nd & E & Hy & Ny)]; [vm_compute; tauto|].
      assert (forall x, In x [1; 2; 3; 4; 5] -> match edit_heap s 8 in_order_kids x with
        | Ok nd => forallb (fun r => (0 <=? r) && (r <=? 5)) (obj_refs (nd_obj nd)) = true | Err _ => False end) as A.
      { intros b Hb. cbn [In] in Hb. destruct Hb as [<-|[<-|[<-|[<-|[<-|[]]]]]]; vm_compute; reflexivity. }
      specialize (A x IH). cbn [edit_doc dc_heap] in E. rewrite E in A.
      rewrite forallb_forall in A. specialize (A y Hy). apply andb_prop in A as [A B].
      apply Z.leb_le in A. apply Z.leb_le in B. cbn [In]. lia. }
    cbn [In] in Ha. destruct Ha as [<-|[<-|[<-|[<-|[<-|[]]]]]]; vm_compute; discriminate.
  - do 3 eexists. split; [vm_compute; reflexivity|]. split; vm_compute; reflexivity.
Qed.

(** With only its content in memory it is saved elsewhere without a fault, but over its own file it
    raises, and the file is lost. *)
Theorem C65_itself_refuted : exists t, open_table small_file = Ok t /\
  let s := fold_left edit_step [Follow (hd_root (of_head t))] (edit_opened t) in
  let d := edit_doc s 8 in_order_kids [50] 981173106 in
  (exists o, save 5 cet LE d = (o, None)) /\
  (exists t ob, open_file small_file = Ok (t, Some ob)) /\
  forall shown, exists o e, save_over 5 cet LE d (seen s (itself t shown) 8 in_order_kids) = (o, Some e) /\
    len (run_ops o) <= 119 /\ shows_nothing (run_ops o).
Proof.
  destruct (open_table small_file) as [t|e] eqn:T; [|vm_compute in T; discriminate T].
  exists t. split; [reflexivity|]. cbv zeta. split.
  { vm_compute in T. injection T as <-. eexists. vm_compute. reflexivity. }
  split; [do 2 eexists; vm_compute; reflexivity|]. intros shown.
  destruct (ed_live (fold_left edit_step [Follow (hd_root (of_head t))] (edit_opened t)) 5) as [ob|] eqn:L.
  2:{ vm_compute in T. injection T as <-. vm_compute in L. discriminate L. }
  assert (hd_root (of_head t) = 5) as R by (vm_compute in T; injection T as <-; reflexivity).
  apply (C65_lost_other small_file t _ shown 5 cet LE 8 in_order_kids [50] 981173106 ob 4).
  - assert (forallb (fun b => (0 <=? b) && (b <=? 255)) small_file = true) as B by (vm_compute; reflexivity).
    apply Forall_forall. intros x Hx. rewrite forallb_forall in B. specialize (B x Hx). apply andb_prop in B as [B1 B2].
    apply Z.leb_le in B1. apply Z.leb_le in B2. unfold is_byte. lia.
  - exact T.
  - vm_compute in T. injection T as <-. vm_compute. discriminate.
  - intros n o b. unfold in_order_kids, nonzero. rewrite filter_In. destruct (Z.eqb_spec b 0); cbn; intuition congruence.
  - vm_compute in T. injection T as <-. vm_compute. discriminate.
  - vm_compute in T. injection T as <-. vm_compute in L. vm_compute. exact L.
  - vm_compute in T. injection T as <-. vm_compute in L. injection L as <-. vm_compute. tauto.
  - discriminate.
  - intros a Ha N0 Na. cbn [fold_left edit_step]. unfold fetch. cbn [edit_opened ed_live ed_file].
    destruct (from_file _ _) as [o|e]; [|reflexivity]. cbn [fst ed_live]. unfold upd. rewrite R.
    destruct (Z.eqb_spec a 5) as [->|]; [|reflexivity]. exfalso. apply Na. clear - T. vm_compute in T. injection T as <-. vm_compute. reflexivity.
Qed.
Print Assumptions C65_itself_refuted.

(** The small document, saved in big endian and opened, meets the conditions of [C65_lost]. *)
Example C65_lost_case : exists o t ob, walks_refs small_doc /\ ids_distinct small_doc /\
  save 5 cet BE small_doc = (o, None) /\ open_table (run_ops o) = Ok t /\
  let s := fold_left edit_step [Follow 5] (edit_opened t) in
  ed_content s = 5 /\ ed_live s 5 = Some ob /\ In 4 (obj_refs ob) /\
  (forall a, In a (obj_refs ob) -> a <> 0 -> a <> 5 -> ed_live s a = None).
Proof.
  destruct C25_case as (W & I & _).
  do 3 eexists. split; [exact W|]. split; [exact I|]. split; [vm_compute; reflexivity|]. split; [vm_compute; reflexivity|].
  cbv zeta. split; [reflexivity|]. split; [vm_compute; reflexivity|]. split; [vm_compute; tauto|].
  intros a _ _ Na. cbn [fold_left edit_step]. unfold fetch. cbn [edit_opened ed_live ed_file].
  destruct (from_file _ _) as [o|e]; [|reflexivity]. cbn [fst ed_live]. unfold upd.
  destruct (Z.eqb_spec a 5) as [->|]; [contradiction|reflexivity].
Qed.
