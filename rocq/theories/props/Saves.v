(** C25 to C30: saving a document. [save] gives the steps on the file and the exception,
    if any; [run_ops] is the file after some steps (FileModel.v). What a document is made of
    ([in_doc], [refers], [reach]) and the conditions on documents are in FileSpec.v. *)
From Coq Require Import ZArith List Bool Lia.
From Verif Require Import Base IoCtx RoundTrip Text Dates Attributes Components Objects ObjSpec ObjProofs
  ObjTheory FileModel FileSpec HeaderProofs TableProofs SaveProofs SampleDocs.
Import ListNotations.
Open Scope Z_scope.

(** ** C25 *)

(** A completed save, in either byte order, of any document whose objects satisfy the conditions of
    their classes: the file opens; its objects are numbered by a list [order] of the objects of
    the document; object number [number order a] is the object at [a] with every reference to [b]
    replaced by [number order b]; the root shown is the content. *)
Theorem C25_reopens : forall lim z bo d o,
  walks_refs d -> ids_distinct d -> all_ok d -> save lim z bo d = (o, None) ->
  exists order t,
    open_table (run_ops o) = Ok t /\ hd_bo (of_head t) = bo /\
    NoDup order /\ (forall a, In a order <-> in_doc d a) /\
    (forall a nd, in_doc d a -> dc_heap d a = Ok nd ->
       read_object t (number order a) = Ok (Some (obj_map (number order) (nd_obj nd)))) /\
    (dc_content d = 0 -> open_file (run_ops o) = Ok (t, None)) /\
    (dc_content d <> 0 -> exists nd, dc_heap d (dc_content d) = Ok nd /\
       open_file (run_ops o) = Ok (t, Some (obj_map (number order) (nd_obj nd)))).
Proof.
  intros lim z bo d o W I A H.
  destruct (completed lim z bo d o W I H) as (order & v & ss & ND & Io & Bf & Ls & Hv & Hn & S & E & _).
  set (hdr := saved_hdr bo d (len order) (to_timestamp z (dc_saved d)) v) in *.
  exists order, (table hdr (saved_head bo d (len order)) (to_timestamp z (dc_saved d)) (version_read v) ss).
  pose proof (completed_table bo d order z v ss Hv Hn S) as T. fold hdr in T. rewrite <- E in T.
  assert (forall a nd, in_doc d a -> dc_heap d a = Ok nd ->
    read_object (table hdr (saved_head bo d (len order)) (to_timestamp z (dc_saved d)) (version_read v) ss)
      (number order a) = Ok (Some (obj_map (number order) (nd_obj nd)))) as R.
  { intros a nd Ha Ea. now apply completed_read. }
  split; [exact T|]. split; [reflexivity|]. split; [exact ND|]. split; [exact Io|]. split; [exact R|].
  split.
  - intros E0. unfold open_file. rewrite T. cbn [of_head table saved_head hd_root].
    destruct order as [|x order]; [reflexivity|]. exfalso.
    destruct (proj1 (Io x) (or_introl eq_refl)) as [F _]. contradiction.
  - intros N0. destruct (Ls N0) as [p Ep].
    assert (in_doc d (dc_content d)) as Dc by (split; [exact N0|constructor]).
    assert (exists nd, dc_heap d (dc_content d) = Ok nd) as [nd End].
    { destruct (stores_split _ _ _ _ _ _ _ S p (dc_content d) [] Ep) as (_ & _ & nd & _ & _ & _ & _ & En & _).
      eauto. }
    exists nd. split; [exact End|]. unfold open_file. rewrite T.
    specialize (R _ _ Dc End). replace (number order (dc_content d)) with (len order) in R.
    { change (hd_root (of_head (table hdr (saved_head bo d (len order)) (to_timestamp z (dc_saved d)) (version_read v) ss)))
        with (len order). now rewrite R. }
    rewrite Ep at 2. rewrite number_new; [rewrite Ep, len_app; reflexivity|].
    rewrite Ep in ND. apply NoDup_remove_2 in ND. now rewrite app_nil_r in ND.
Qed.
Print Assumptions C25_reopens.

(** With the numbers read back as the objects they stand for, the object read is the object saved,
    all its properties included ([obj_whole]: every track has its lock number, which is otherwise
    read back as 0). *)
Theorem C25_equal : forall lim z bo d o,
  walks_refs d -> ids_distinct d -> all_ok d -> save lim z bo d = (o, None) ->
  exists order t, open_table (run_ops o) = Ok t /\
    forall a nd, in_doc d a -> dc_heap d a = Ok nd -> obj_whole (nd_obj nd) ->
      exists o', read_object t (number order a) = Ok (Some o') /\
        numbered order (number order a) = a /\ obj_map (numbered order) o' = nd_obj nd.
Proof.
  intros lim z bo d o W I A H.
  destruct (C25_reopens lim z bo d o W I A H) as (order & t & T & _ & ND & Io & R & _).
  exists order, t. split; [exact T|]. intros a nd Ha Ea Wh.
  exists (obj_map (number order) (nd_obj nd)). split; [now apply R|].
  split; [apply numbered_number; now apply Io|].
  rewrite map_map_obj. rewrite <- (map_id_obj (nd_obj nd)) at 2;
    [|exact (proj1 (A a nd Ha Ea))|exact Wh].
  apply map_ext_obj. intros r Hr. destruct (Z.eq_dec r 0) as [->|N].
  - rewrite number_none; [reflexivity|]. intros G. apply Io in G. now apply in_doc_not0 in G.
  - apply numbered_number. apply Io. apply (in_doc_step d a r Ha). exists nd. auto.
Qed.
Print Assumptions C25_equal.

(** A document without cycles, of finitely many objects, all its own and in range, is saved: with
    room for as many nested calls as it has objects the save completes. *)
Theorem C25_completes : forall lim z bo d F,
  walks_refs d -> ids_distinct d -> all_ok d -> acyclic d ->
  saveable bo d F -> header_fits z d -> (length F <= lim)%nat ->
  exists o, save lim z bo d = (o, None).
Proof. exact save_completes. Qed.
Print Assumptions C25_completes.

(** The room needed is not the number of objects but the length of the longest chain of references:
    any numbering of the objects by levels that go down along references bounds it. *)
Theorem C25_depth : forall lim z bo d F (level : Z -> nat),
  walks_refs d -> ids_distinct d -> all_ok d ->
  (forall a b, in_doc d a -> refers (dc_heap d) a b -> (level b < level a)%nat) ->
  saveable bo d F -> header_fits z d -> (dc_content d <> 0 -> (level (dc_content d) < lim)%nat) ->
  exists o, save lim z bo d = (o, None).
Proof. exact save_completes_levels. Qed.
Print Assumptions C25_depth.

(** The small document of SampleDocs.v, with shared objects, meets all conditions; saved little
    endian and opened, its root is a sequence of objects 3, 4 and 3. *)
Example C25_case : walks_refs small_doc /\ ids_distinct small_doc /\ all_ok small_doc /\ acyclic small_doc /\
  (forall bo, saveable bo small_doc [40; 30; 7; 9; 5]) /\ header_fits cet small_doc /\
  (forall a nd, dc_heap small_doc a = Ok nd -> obj_whole (nd_obj nd)) /\
  exists o t s, save 5 cet LE small_doc = (o, None) /\ open_file (run_ops o) = Ok (t, Some (Obj K_SEQU s)) /\
    cpnt_attributes (sequ_component s) = 2 /\ sequ_components s = [3; 4; 3].
Proof.
  assert (In 5 (map fst small_mem)) as Hr by (vm_compute; tauto).
  assert (in_order [] small_mem = true) as Ho by (vm_compute; reflexivity).
  split; [exact (listed_walks small_mem 5)|]. split; [exact (listed_ids small_mem 5)|].
  split; [exact (listed_ok small_mem 5 small_mem_ok)|]. split; [exact (listed_acyclic small_mem 5 Ho)|].
  split.
  { intros bo. apply (listed_saveable small_mem 5 Hr Ho bo small_mem_ok).
    - destruct bo; vm_compute; reflexivity.
    - vm_compute. reflexivity. }
  split; [split; [eexists; vm_compute; reflexivity|vm_compute; split; congruence]|].
  split.
  { intros a nd E. unfold small_doc, doc_of, heap_of in E. cbn [dc_heap] in E.
    destruct (lookup small_mem a) as [ob|] eqn:L; [|discriminate]. injection E as <-. cbn [nd_obj].
    apply lookup_in in L. unfold small_mem in L. cbn [In] in L.
    repeat (destruct L as [L|L]; [injection L as _ <-; exact I|]). destruct L. }
  pose (r := save 5 cet LE small_doc).
  exists (fst r). assert (snd r = None) as Hs by (vm_compute; reflexivity).
  pose (q := open_file (run_ops (fst r))).
  assert (exists t s, q = Ok (t, Some (Obj K_SEQU s)) /\
    cpnt_attributes (sequ_component s) = 2 /\ sequ_components s = [3; 4; 3]) as (t & s & E1 & E2).
  { vm_compute in q. subst q. eexists. eexists. split; [reflexivity|]. split; reflexivity. }
  exists t, s. split; [fold r; destruct r; cbn [fst snd] in *; now rewrite Hs|]. split; [exact E1|exact E2].
Qed.

(** The small document has five objects but no chain of more than four: room for four calls is
    enough, room for three is not. *)
Definition small_level (a : Z) : nat := if a =? 5 then 3%nat else if a =? 9 then 2%nat else if a =? 30 then 1%nat else 0%nat.
Example C25_depth_case : (forall a b, refers (dc_heap small_doc) a b -> (small_level b < small_level a)%nat) /\
  small_level (dc_content small_doc) = 3%nat /\ snd (save 4 cet LE small_doc) = None /\
  snd (save 3 cet LE small_doc) = Some OutOfFuel.
Proof.
  split; [|split; [reflexivity|split; vm_compute; reflexivity]].
  intros a b (nd & E & I & N). unfold small_doc, doc_of, heap_of in E. cbn [dc_heap] in E.
  destruct (lookup small_mem a) as [ob|] eqn:L; [|discriminate E]. injection E as <-. cbn [nd_obj] in I.
  apply lookup_in in L. unfold small_mem in L. cbn [In] in L.
  repeat (destruct L as [L|L]; [injection L as <- <-; vm_compute in I;
    repeat (destruct I as [<-|I]; [first [now destruct N|vm_compute; lia]|]); destruct I|]). destruct L.
Qed.

(** ** C26 *)

(** A completed save: the objects stored are those reachable from the content, each once ([order]
    lists them in the order of their chunks, and the file has as many chunks, besides the
    header); both counts of the header are their number; every stored reference is 0 or the
    number of an object stored before; the content is stored last. *)
Theorem C26_once_in_order : forall lim z bo d o,
  walks_refs d -> ids_distinct d -> all_ok d -> save lim z bo d = (o, None) ->
  exists order t cs,
    open_table (run_ops o) = Ok t /\ chunks t = Ok cs /\ len cs = len order + 1 /\
    hd_count (of_head t) = len order /\ hd_root (of_head t) = len order /\
    NoDup order /\ (forall a, In a order <-> in_doc d a) /\
    (dc_content d <> 0 -> number order (dc_content d) = len order) /\
    forall a nd, in_doc d a -> dc_heap d a = Ok nd ->
      exists o', read_object t (number order a) = Ok (Some o') /\
        forall r, In r (obj_refs o') -> r = 0 \/ 1 <= r < number order a.
Proof.
  intros lim z bo d o W I A H.
  destruct (completed lim z bo d o W I H) as (order & v & ss & ND & Io & Bf & Ls & Hv & Hn & S & E & _).
  set (hdr := saved_hdr bo d (len order) (to_timestamp z (dc_saved d)) v) in *.
  pose proof (completed_table bo d order z v ss Hv Hn S) as T. fold hdr in T. rewrite <- E in T.
  destruct (stores_ok _ _ _ _ _ _ _ S) as [L F].
  eexists order, _, _. split; [exact T|]. split; [apply chunks_ok; exact F|].
  split.
  { unfold len. cbn [length]. assert (forall l pos, length (layout pos l) = length l) as LL.
    { clear. induction l as [|x l IH]; intros pos; cbn [layout length]; [reflexivity|now rewrite IH]. }
    rewrite LL, L. lia. }
  split; [reflexivity|]. split; [reflexivity|]. split; [exact ND|]. split; [exact Io|].
  split.
  { intros N0. destruct (Ls N0) as [p Ep]. rewrite Ep, len_app. apply number_new.
    rewrite Ep in ND. apply NoDup_remove_2 in ND. now rewrite app_nil_r in ND. }
  intros a nd Ha Ea. eexists. split; [apply completed_read; eassumption|].
  intros r Hr. rewrite refs_map_obj in Hr by exact (proj1 (A a nd Ha Ea)).
  apply in_map_iff in Hr as (x & <- & Hx). destruct (Z.eq_dec x 0) as [->|N].
  { left. apply number_none. intros G. apply Io in G. now apply in_doc_not0 in G. }
  right. destruct (split_number order a ND (proj2 (Io a) Ha)) as (p & s & Ep & ->).
  assert (In x p) as Ix by (apply (Bf p a s Ep); exists nd; auto).
  rewrite Ep, number_app by exact Ix. pose proof (number_range p x) as Rg.
  pose proof (proj2 (number_in p x) Ix). lia.
Qed.
Print Assumptions C26_once_in_order.

(** The small document: five objects, stored in the order 30's reference first. *)
Example C26_case : exists o t, save 5 cet BE small_doc = (o, None) /\ open_table (run_ops o) = Ok t /\
  hd_count (of_head t) = 5 /\ hd_root (of_head t) = 5.
Proof.
  pose (r := save 5 cet BE small_doc). assert (snd r = None) as Hs by (vm_compute; reflexivity).
  pose (q := open_table (run_ops (fst r))).
  assert (exists t, q = Ok t /\ hd_count (of_head t) = 5 /\ hd_root (of_head t) = 5) as (t & E1 & E2).
  { vm_compute in q. subst q. eexists. split; [reflexivity|]. split; reflexivity. }
  exists (fst r), t. split; [fold r; destruct r; cbn [fst snd] in *; now rewrite Hs|]. split; [exact E1|exact E2].
Qed.

(** ** C27 *)

(** Any two references of any two objects of a saved document (the [i]-th of [a] and the [j]-th of
    [b]): they are equal after reopening exactly if they were equal before. *)
Theorem C27_sharing : forall lim z bo d o,
  walks_refs d -> ids_distinct d -> all_ok d -> save lim z bo d = (o, None) ->
  exists order t, open_table (run_ops o) = Ok t /\
    forall a na b nb, in_doc d a -> dc_heap d a = Ok na -> in_doc d b -> dc_heap d b = Ok nb ->
      exists oa ob, read_object t (number order a) = Ok (Some oa) /\
        read_object t (number order b) = Ok (Some ob) /\
        forall i j ri rj, nth_error (obj_refs (nd_obj na)) i = Some ri ->
          nth_error (obj_refs (nd_obj nb)) j = Some rj ->
          exists si sj, nth_error (obj_refs oa) i = Some si /\ nth_error (obj_refs ob) j = Some sj /\
            (si = sj <-> ri = rj).
Proof.
  intros lim z bo d o W I A H.
  destruct (C25_reopens lim z bo d o W I A H) as (order & t & T & _ & ND & Io & R & _).
  exists order, t. split; [exact T|]. intros a na b nb Ha Ea Hb Eb.
  eexists. eexists. split; [exact (R a na Ha Ea)|]. split; [exact (R b nb Hb Eb)|].
  intros i j ri rj Hi Hj. exists (number order ri), (number order rj).
  rewrite !refs_map_obj by (first [exact (proj1 (A a na Ha Ea)) | exact (proj1 (A b nb Hb Eb))]).
  split; [now apply map_nth_error|]. split; [now apply map_nth_error|].
  assert (forall x nx r, in_doc d x -> dc_heap d x = Ok nx -> In r (obj_refs (nd_obj nx)) ->
    r = 0 \/ In r order) as Rin.
  { intros x nx r Hx Ex Hr. destruct (Z.eq_dec r 0); [now left|right]. apply Io.
    apply (in_doc_step d x r Hx). exists nx. auto. }
  assert (~ In 0 order) as N0 by (intros G; apply Io in G; now apply in_doc_not0 in G).
  split; [|now intros ->]. intros E.
  destruct (Rin a na ri Ha Ea (nth_error_In _ _ Hi)) as [->|Ii].
  - destruct (Rin b nb rj Hb Eb (nth_error_In _ _ Hj)) as [->|Ij]; [reflexivity|].
    rewrite (number_none _ _ N0) in E. apply number_in in Ij. congruence.
  - exact (number_inj order ri rj Ii E).
Qed.
Print Assumptions C27_sharing.

(** ** C28 *)

(** A save that is interrupted, after any step and within any step that adds to the file, leaves
    a file that cannot be opened or shows no content. *)
Theorem C28_interrupted : forall lim z bo d o s file,
  save lim z bo d = (o, s) -> interrupted o file -> shows_nothing file.
Proof. exact interrupted_save. Qed.
Print Assumptions C28_interrupted.

(** So does a save that ends with an exception. *)
Theorem C28_failed : forall lim z bo d o e, save lim z bo d = (o, Some e) -> shows_nothing (run_ops o).
Proof. exact failed_save. Qed.
Print Assumptions C28_failed.

(** A completed save of a document with content shows the content, whole (C25). *)
Theorem C28_completed : forall lim z bo d o,
  walks_refs d -> ids_distinct d -> all_ok d -> dc_content d <> 0 -> save lim z bo d = (o, None) ->
  exists t ob, open_file (run_ops o) = Ok (t, Some ob) /\ ~ shows_nothing (run_ops o).
Proof.
  intros lim z bo d o W I A N0 H.
  destruct (C25_reopens lim z bo d o W I A H) as (order & t & _ & _ & _ & _ & _ & _ & C).
  destruct (C N0) as (nd & _ & E). eexists. eexists. split; [exact E|].
  intros [[e F]|[t' F]]; rewrite E in F; discriminate F.
Qed.
Print Assumptions C28_completed.

(** A concrete interruption: 12 steps of the save of the small document and 2 bytes of the next. *)
Definition small_ops : list fop := Eval vm_compute in fst (save 5 cet LE small_doc).
Example C28_case : save 5 cet LE small_doc = (small_ops, None) /\ exists b rest,
  small_ops = firstn 12 small_ops ++ Append b :: rest /\ b = [101; 118; 84; 65] /\
  interrupted small_ops (run_ops (firstn 12 small_ops) ++ firstn 2 b).
Proof.
  split; [vm_compute; reflexivity|]. eexists. eexists. split; [vm_compute; reflexivity|].
  split; [reflexivity|]. exists (firstn 12 small_ops). eexists. eexists. split; [vm_compute; reflexivity|].
  right. eexists. exists 2%nat. split; reflexivity.
Qed.

(** What is not covered, because it is false: the last step puts four bytes over the number of the
    root. If the disk has only some of them the file may show another object as its root: with 257
    objects, after the first of the four bytes of 257 (1, 1, 0, 0), the first object is shown. *)
Theorem C28_torn_root_refuted : exists o before pos b,
  save 257 cet LE many_doc = (o, None) /\ o = before ++ [Overwrite pos b] /\
  exists t, open_file (overwrite (run_ops before) pos (firstn 1 b)) = Ok (t, Some (Obj K_ATTR [])).
Proof.
  exists many_ops, (removelast many_ops), 47, [1; 1; 0; 0].
  exact (conj many_runs (conj many_last many_torn)).
Qed.
Print Assumptions C28_torn_root_refuted.

(** ** C29 *)

(** What a document object has gone through: saves with any recursion limits, zones and byte
    orders, successful or not. *)
Definition saved_before (ss : session) (history : list (nat * zone * border)) : session :=
  fold_left (fun s '(lim, z, bo) => snd (write lim z bo s)) history ss.

(** Whatever was saved before, a save does what it would have done without: same steps, same
    outcome, and the document is as it was. *)
Theorem C29_history : forall history ss lim z bo,
  fst (write lim z bo (saved_before ss history)) = save lim z bo (ss_doc ss) /\
  ss_doc (saved_before ss history) = ss_doc ss.
Proof.
  assert (forall history ss, ss_doc (saved_before ss history) = ss_doc ss) as DH.
  { induction history as [|[[lim z] bo] history IH]; intros ss; [reflexivity|].
    transitivity (ss_doc (snd (write lim z bo ss))); [|apply write_keeps].
    exact (IH (snd (write lim z bo ss))). }
  intros history ss lim z bo. split; [|apply DH].
  apply write_save, DH.
Qed.
Print Assumptions C29_history.

(** In the other byte order a save ends in the same way, and if it completes the two files hold
    the same objects under the same numbers. *)
Theorem C29_other_order : forall lim z bo bo' d,
  walks_refs d -> ids_distinct d -> all_ok d ->
  snd (save lim z bo d) = snd (save lim z bo' d) /\
  (snd (save lim z bo d) = None ->
   exists t t', open_table (run_ops (fst (save lim z bo d))) = Ok t /\
     open_table (run_ops (fst (save lim z bo' d))) = Ok t' /\
     hd_bo (of_head t) = bo /\ hd_bo (of_head t') = bo' /\
     hd_count (of_head t) = hd_count (of_head t') /\ hd_root (of_head t) = hd_root (of_head t') /\
     of_stamp t = of_stamp t' /\ of_version t = of_version t' /\
     forall n, 0 <= n <= hd_count (of_head t) -> exists r, read_object t n = Ok r /\ read_object t' n = Ok r).
Proof.
  intros lim z bo bo' d W I A. pose proof (save_same lim z bo bo' d W A) as Sm. split; [exact Sm|].
  intros Hs. rewrite Hs in Sm. symmetry in Sm.
  destruct (save lim z bo d) as [o s] eqn:E1. destruct (save lim z bo' d) as [o' s'] eqn:E2.
  cbn [fst snd] in *. subst s s'.
  destruct (completed lim z bo d o W I E1) as (order & v & ss & ND & Io & Bf & Ls & Hv & Hn & S & E & l & Hl & Eo).
  destruct (completed lim z bo' d o' W I E2) as (order' & v' & ss' & ND' & _ & _ & _ & Hv' & Hn' & S' & E' & l' & Hl' & Eo').
  assert (order' = order) as -> by congruence. assert (v' = v) as ->.
  { destruct Hv as [Hv _], Hv' as [Hv' _]. congruence. }
  rewrite E, E'. eexists. eexists. split; [apply completed_table; eassumption|].
  split; [apply completed_table; eassumption|].
  do 6 (split; [reflexivity|]). cbn [of_head table saved_head hd_count]. intros n Rn.
  destruct (Z.eq_dec n 0) as [->|N]; [exists None; now split|].
  assert (exists a, In a order /\ number order a = n) as (a & Ha & <-).
  { destruct (nth_error order (Z.to_nat (n - 1))) as [a|] eqn:Ea.
    2:{ apply nth_error_None in Ea. unfold len in *. lia. }
    exists a. split; [eapply nth_error_In; eauto|].
    apply nth_error_split in Ea as (p & q & Ep & Lp). rewrite Ep. rewrite number_new; [unfold len; lia|].
    rewrite Ep in ND. apply NoDup_remove_2 in ND. intros G. apply ND. apply in_or_app. now left. }
  apply Io in Ha as Da.
  assert (exists nd, dc_heap d a = Ok nd) as [nd En].
  { destruct (in_split _ _ Ha) as (p & q & Ep).
    destruct (stores_split _ _ _ _ _ _ _ S p a q Ep) as (_ & _ & nd & _ & _ & _ & _ & En & _). eauto. }
  eexists. split; apply completed_read; eassumption.
Qed.
Print Assumptions C29_other_order.

(** Two completed saves, one that fails in between, and a third. *)
Example C29_case : fst (write 5 cet LE (saved_before (new_session small_doc)
    [(5%nat, cet, LE); (2%nat, cet, BE); (5%nat, cet, BE)])) = (small_ops, None) /\
  snd (save 2 cet BE small_doc) = Some OutOfFuel.
Proof. split; vm_compute; reflexivity. Qed.

(** ** C30 *)

(** If some object of the document can be reached from itself no save completes, whatever the
    recursion limit: it ends with an exception and the file shows no content. *)
Theorem C30_cyclic : forall lim z bo d a o s,
  walks_refs d -> in_doc d a -> reach_plus (dc_heap d) a a -> save lim z bo d = (o, s) ->
  (exists e, s = Some e) /\ shows_nothing (run_ops o).
Proof.
  intros lim z bo d a o s W Ha C H.
  assert (exists e, s = Some e) as [e ->]; [|split; [eauto|exact (failed_save _ _ _ _ _ _ H)]].
  destruct s as [e|]; [eauto|]. exfalso. apply save_write in H as [ss' H]. apply write_inv in H.
  cbv zeta in H. cbn [ss_doc new_session] in H.
  destruct H as [(e & bs & tail & F & _)|(v & l & bsl & m & n & bs & _ & _ & Hl & _)]; [discriminate|].
  exact (cyclic_walk lim d a l W Ha C Hl).
Qed.
Print Assumptions C30_cyclic.

(** If none can, and there are finitely many, the walk ends after finitely many steps, given room
    for as many nested calls as there are objects. (That the save then completes is
    [C25_completes].) *)
Theorem C30_acyclic : forall lim d F, walks_refs d -> acyclic d ->
  (forall a, in_doc d a -> In a F /\ exists nd, dc_heap d a = Ok nd) ->
  dc_content d <> 0 -> (length F <= lim)%nat ->
  exists l, walk lim (dc_heap d) (dc_content d) = (l, None).
Proof.
  intros lim d F W A S N0 Hlim.
  apply (walk_ends (dc_heap d) F (in_doc d)) with (n := length F) (vs := []).
  - intros a b Ha K. apply (in_doc_step d a b Ha). now apply in_doc_kid.
  - intros a Ha. now apply S.
  - intros a Ha. now apply S.
  - now apply acyclic_kids.
  - split; [exact N0|constructor].
  - intros v [].
  - constructor.
  - cbn [length]. lia.
  - exact Hlim.
Qed.
Print Assumptions C30_acyclic.

(** Attributes that refer to attributes that refer to the former. *)
Definition cyclic_doc : document :=
  doc_of [(3, Obj K_ATTR [([75], ARef 4)]); (4, Obj K_ATTR [([75], ARef 3)])] 3.
Example C30_case : walks_refs cyclic_doc /\ in_doc cyclic_doc 3 /\ reach_plus (dc_heap cyclic_doc) 3 3 /\
  snd (save 1000 cet LE cyclic_doc) = Some OutOfFuel.
Proof.
  split; [apply listed_walks|]. split; [split; [discriminate|constructor]|]. split.
  - exists 4. split.
    + eexists. split; [reflexivity|]. split; [now left|discriminate].
    + apply (reach_step _ 4 4 3); [constructor|]. eexists. split; [reflexivity|]. split; [now left|discriminate].
  - vm_compute. reflexivity.
Qed.
