(** C59: opening what was saved and saving it again. [consistent kids] (ResaveSpec.v) says that the
    order in which the references of an object are walked does not depend on their numbers. *)
From Coq Require Import ZArith List Bool Lia.
From Verif Require Import Base IoCtx RoundTrip Text Dates Objects ObjSpec ObjProofs ObjTheory DateSpec FileModel
  FileSpec SaveProofs Opened SampleDocs ResaveSpec ResaveTheory ResaveSamples MoveProofs AgainProofs.
From Verif.props Require Import Saves.
Import ListNotations.
Open Scope Z_scope.

(** A document is saved in one byte order, the file opened, and saved in another: the result is,
    byte for byte, what saving the document in that byte order would have given. The references of
    the document must be walked in the order in which the program walks those of the objects it
    has read; the save time must be one the clock shows; the creator version must not have a zero
    where stripping it would show. *)
Theorem C59_through : forall lim z bo bo' d o o2 t self kids,
  walks_refs d -> ids_distinct d -> all_ok d -> consistent kids ->
  (forall a nd, in_doc d a -> dc_heap d a = Ok nd -> nd_kids nd = kids a (nd_obj nd)) ->
  from_timestamp z (to_timestamp z (dc_saved d)) = dc_saved d ->
  hd 1 (dc_version d) <> 0 -> nth 29 (dc_version d) 1 <> 0 ->
  save lim z bo d = (o, None) -> save lim z bo' d = (o2, None) -> open_table (run_ops o) = Ok t ->
  exists o', save lim z bo' (opened_doc z t self kids) = (o', None) /\ run_ops o' = run_ops o2.
Proof. exact saved_through. Qed.
Print Assumptions C59_through.

(** In particular: opening a file and saving it again in the same byte order changes no byte. *)
Theorem C59_again : forall lim z bo d o t self kids,
  walks_refs d -> ids_distinct d -> all_ok d -> consistent kids ->
  (forall a nd, in_doc d a -> dc_heap d a = Ok nd -> nd_kids nd = kids a (nd_obj nd)) ->
  from_timestamp z (to_timestamp z (dc_saved d)) = dc_saved d ->
  hd 1 (dc_version d) <> 0 -> nth 29 (dc_version d) 1 <> 0 ->
  save lim z bo d = (o, None) -> open_table (run_ops o) = Ok t ->
  exists o', save lim z bo (opened_doc z t self kids) = (o', None) /\ run_ops o' = run_ops o.
Proof. intros. now apply (saved_through lim z bo bo d o o t self kids). Qed.
Print Assumptions C59_again.

(** Nothing is asked of the order, the time or the version any more once the file has been opened
    and saved by the program: whatever document it was, the second file is the last that differs. *)
Theorem C59_settles : forall lim z bo0 bo bo' d o0 t1 self1 o1 o1' t2 self2 kids,
  walks_refs d -> ids_distinct d -> all_ok d -> follows kids -> consistent kids -> mktime_right z ->
  save lim z bo0 d = (o0, None) -> open_table (run_ops o0) = Ok t1 ->
  save lim z bo (opened_doc z t1 self1 kids) = (o1, None) ->
  save lim z bo' (opened_doc z t1 self1 kids) = (o1', None) ->
  open_table (run_ops o1) = Ok t2 ->
  exists o2, save lim z bo' (opened_doc z t2 self2 kids) = (o2, None) /\ run_ops o2 = run_ops o1'.
Proof.
  intros lim z bo0 bo bo' d o0 t1 self1 o1 o1' t2 self2 kids W I A Fo Co M H0 T1 H1 H1' T2.
  destruct (saved_opened lim z bo0 d o0 t1 self1 kids W I A H0 T1) as (A1 & _ & V1 & V2).
  apply (saved_through lim z bo bo' (opened_doc z t1 self1 kids) o1 o1' t2 self2 kids); trivial.
  - now apply opened_walks.
  - apply opened_ids.
  - intros a nd _ En. apply load_inv in En as (ob & _ & ->). reflexivity.
  - apply M.
Qed.
Print Assumptions C59_settles.

(** The same for a file from anywhere that was opened first. *)
Theorem C59_file_settles : forall lim z bo0 bo bo' file t0 self0 kids0 o0 t1 self1 o1 o1' t2 self2 kids,
  Forall is_byte file -> open_table file = Ok t0 -> follows kids0 -> follows kids -> consistent kids ->
  mktime_right z ->
  (forall n ob, in_doc (opened_doc z t0 self0 kids0) n -> read_object t0 n = Ok (Some ob) -> obj_keeps ob) ->
  save lim z bo0 (opened_doc z t0 self0 kids0) = (o0, None) -> open_table (run_ops o0) = Ok t1 ->
  save lim z bo (opened_doc z t1 self1 kids) = (o1, None) ->
  save lim z bo' (opened_doc z t1 self1 kids) = (o1', None) ->
  open_table (run_ops o1) = Ok t2 ->
  exists o2, save lim z bo' (opened_doc z t2 self2 kids) = (o2, None) /\ run_ops o2 = run_ops o1'.
Proof.
  intros lim z bo0 bo bo' file t0 self0 kids0 o0 t1 self1 o1 o1' t2 self2 kids Hf T0 Fo0 Fo Co M K H0 T1 H1 H1' T2.
  apply (C59_settles lim z bo0 bo bo' (opened_doc z t0 self0 kids0) o0 t1 self1 o1 o1' t2 self2 kids); trivial.
  - now apply opened_walks.
  - apply opened_ids.
  - apply opened_ok; [|exact K]. destruct (open_table_got file t0 Hf T0) as (-> & _). exact Hf.
Qed.
Print Assumptions C59_file_settles.

(** The order in which the library walks what it has read (core.py:136-162) is such an order. *)
Theorem C59_library_order : follows read_kids /\ consistent read_kids.
Proof.
  split.
  - intros n o b. change (read_kids n o) with (nonzero match okind o with
      | K_PRLS | K_TMCS => obj_refs o ++ obj_refs o | _ => obj_refs o end).
    rewrite in_nonzero. assert (In b (obj_refs o ++ obj_refs o) <-> In b (obj_refs o)) as E
      by (rewrite in_app_iff; tauto).
    destruct (okind o); tauto.
  - intros n n' f o Cl Z0 _.
    change (nonzero match okind o with
      | K_PRLS | K_TMCS => obj_refs (obj_map f o) ++ obj_refs (obj_map f o) | _ => obj_refs (obj_map f o) end =
      map f (nonzero match okind o with K_PRLS | K_TMCS => obj_refs o ++ obj_refs o | _ => obj_refs o end)).
    rewrite refs_map_obj by exact Cl.
    assert (nonzero (map f (obj_refs o)) = map f (nonzero (obj_refs o))) as E1 by now apply nonzero_map.
    assert (nonzero (map f (obj_refs o) ++ map f (obj_refs o)) = map f (nonzero (obj_refs o ++ obj_refs o))) as E2.
    { rewrite <- map_app. apply nonzero_map. intros r Hr. apply Z0. apply in_app_iff in Hr. tauto. }
    destruct (okind o); assumption.
Qed.
Print Assumptions C59_library_order.

(** The small document of SampleDocs.v meets the conditions, and its references are walked in the
    order of the library. *)
Example C59_case : walks_refs small_doc /\ ids_distinct small_doc /\ all_ok small_doc /\
  mktime_right cet /\
  (forall a nd, in_doc small_doc a -> dc_heap small_doc a = Ok nd -> nd_kids nd = read_kids a (nd_obj nd)) /\
  from_timestamp cet (to_timestamp cet (dc_saved small_doc)) = dc_saved small_doc /\
  hd 1 (dc_version small_doc) <> 0 /\ nth 29 (dc_version small_doc) 1 <> 0 /\
  exists le be, file_of cet LE small_doc = Some le /\ file_of cet BE small_doc = Some be /\
    file_again cet BE (Some le) = Some be /\ file_again cet LE (Some be) = Some le /\ le <> be /\ (300 < length le)%nat.
Proof.
  destruct C25_case as (W & I & A & _).
  do 3 (split; [assumption|]).
  split; [intros u; unfold from_timestamp, to_timestamp; cbn; lia|].
  split.
  { intros a nd _ E. unfold small_doc, doc_of, heap_of in E. cbn [dc_heap] in E.
    destruct (lookup small_mem a) as [ob|] eqn:L; [|discriminate]. injection E as <-. cbn [nd_kids nd_obj].
    apply lookup_in in L. cbn [small_mem In] in L.
    destruct L as [L|[L|[L|[L|[L|[]]]]]]; injection L as <- <-; reflexivity. }
  split; [reflexivity|]. split; [discriminate|]. split; [discriminate|].
  eexists. eexists. split; [vm_compute; reflexivity|]. split; [vm_compute; reflexivity|].
  split; [vm_compute; reflexivity|]. split; [vm_compute; reflexivity|]. split; [discriminate|apply Nat.ltb_lt; reflexivity].
Qed.

(** The condition on the creator version is needed: a version that begins with a zero loses it, the
    second file has a space more. The third is like the second. *)
Theorem C59_version_refuted : exists a b, file_of cet LE (with_version small_doc [0; 112; 121]) = Some a /\
  file_again cet LE (Some a) = Some b /\ a <> b /\ file_again cet LE (Some b) = Some b.
Proof.
  eexists. eexists. split; [vm_compute; reflexivity|]. split; [vm_compute; reflexivity|].
  split; [discriminate|vm_compute; reflexivity].
Qed.
Print Assumptions C59_version_refuted.

(** The condition on the save time is needed: the header holds the time twice, as a text and as a
    number, and of a time the clock skips the two do not agree. *)
Theorem C59_time_refuted : mktime_right spring /\ exists a b,
  file_of spring LE (with_time small_doc 1000005000) = Some a /\
  file_again spring LE (Some a) = Some b /\ a <> b /\ file_again spring LE (Some b) = Some b.
Proof.
  split.
  { intros t. cbv zeta. unfold from_timestamp, to_timestamp, spring. cbn [z_off z_mk].
    destruct (Z.ltb_spec t 1000000000).
    - destruct (Z.ltb_spec (t + 3600) 1000007200); [|lia].
      replace (t + 3600 - 3600) with t by lia. destruct (Z.ltb_spec t 1000000000); lia.
    - destruct (Z.ltb_spec (t + 7200) 1000007200); [lia|].
      replace (t + 7200 - 7200) with t by lia. destruct (Z.ltb_spec t 1000000000); lia. }
  eexists. eexists. split; [vm_compute; reflexivity|]. split; [vm_compute; reflexivity|].
  split; [discriminate|vm_compute; reflexivity].
Qed.
Print Assumptions C59_time_refuted.

(** So is the one on the order: a document whose references are walked backwards has its objects in
    another order in the second file. *)
Theorem C59_order_refuted : walks_refs (backwards small_doc) /\ ids_distinct (backwards small_doc) /\
  all_ok (backwards small_doc) /\ exists a b,
  file_of cet LE (backwards small_doc) = Some a /\ file_again cet LE (Some a) = Some b /\ a <> b /\
  length a = length b /\ file_again cet LE (Some b) = Some b.
Proof.
  destruct C25_case as (W & I & A & _).
  assert (forall a nd, dc_heap (backwards small_doc) a = Ok nd -> exists nd0, dc_heap small_doc a = Ok nd0 /\
    nd = {| nd_doc := nd_doc nd0; nd_id := nd_id nd0; nd_obj := nd_obj nd0; nd_kids := rev (nd_kids nd0) |}) as B.
  { intros a nd E. cbn [backwards dc_heap] in E. destruct (dc_heap small_doc a) as [nd0|e]; [|discriminate].
    injection E as <-. eauto. }
  assert (forall a, in_doc (backwards small_doc) a -> in_doc small_doc a) as D.
  { intros a [N R]. split; [exact N|]. clear N. induction R as [|b c R IH (nd & E & In1 & Nz)]; [constructor|].
    apply reach_step with b; [exact IH|]. destruct (B b nd E) as (nd0 & E0 & ->). exists nd0. auto. }
  split; [|split; [|split]].
  - intros a nd Ha E b. destruct (B a nd E) as (nd0 & E0 & ->). cbn [nd_kids nd_obj]. rewrite <- in_rev.
    apply (W a nd0 (D a Ha) E0).
  - intros a b na nb Ha Hb Ea Eb. destruct (B a na Ea) as (na0 & Ea0 & ->). destruct (B b nb Eb) as (nb0 & Eb0 & ->).
    cbn [nd_id]. apply (I a b na0 nb0 (D a Ha) (D b Hb) Ea0 Eb0).
  - intros a nd Ha E. destruct (B a nd E) as (nd0 & E0 & ->). cbn [nd_obj]. apply (A a nd0 (D a Ha) E0).
  - eexists. eexists. split; [vm_compute; reflexivity|]. split; [vm_compute; reflexivity|].
    split; [discriminate|]. split; [reflexivity|vm_compute; reflexivity].
Qed.
Print Assumptions C59_order_refuted.
