(** C21 for whole documents, and C64: documents that are saved and opened any number of times. The
    chains of saves and [alike] are in ChainSpec.v, [opened_doc] and [read_kids] in Opened.v. *)
From Coq Require Import ZArith List Bool Lia.
From Verif Require Import Base IoCtx RoundTrip Text Dates Components Objects ObjSpec ObjProofs ObjTheory DateSpec FileModel FileSpec
  HeaderProofs TableProofs SaveProofs Opened SampleDocs ResaveSpec ResaveTheory ResaveSamples AgainProofs BothOrders ChainSpec ChainTheory.
From Verif.props Require Import Saves Resave Again.
Import ListNotations.
Open Scope Z_scope.

(** ** C21 *)

(** Saves of a document in the two byte orders go alike: both complete or both stop with the same
    exception, after equally many steps, and the files are equally long. *)
Theorem C21_saves_alike : forall lim z d, walks_refs d ->
  (forall a nd, in_doc d a -> dc_heap d a = Ok nd -> closes (okind (nd_obj nd)) = true) ->
  let le := save lim z LE d in let be := save lim z BE d in
  snd le = snd be /\ length (fst le) = length (fst be) /\ length (run_ops (fst le)) = length (run_ops (fst be)).
Proof.
  intros lim z d W C le be. destruct (alike_saves lim z LE BE d W C) as [F S].
  split; [exact S|]. split; [exact (alike_length _ _ F)|]. exact (alike_run _ _ F [] [] eq_refl).
Qed.
Print Assumptions C21_saves_alike.

(** What is read back does not tell the byte order: whatever number is asked for, both files show
    the same object; number of objects, root, creator version and save time are the same too. *)
Theorem C21_documents : forall lim z d o o' t t', walks_refs d -> ids_distinct d -> all_ok d ->
  save lim z LE d = (o, None) -> save lim z BE d = (o', None) ->
  open_table (run_ops o) = Ok t -> open_table (run_ops o') = Ok t' ->
  hd_bo (of_head t) = LE /\ hd_bo (of_head t') = BE /\
  hd_count (of_head t) = hd_count (of_head t') /\ hd_root (of_head t) = hd_root (of_head t') /\
  of_version t = of_version t' /\ of_stamp t = of_stamp t' /\
  forall n, 0 <= n <= hd_count (of_head t) -> exists c, read_object t n = Ok c /\ read_object t' n = Ok c.
Proof.
  intros lim z d o o' t t' W I A S S' T T'.
  destruct (saved_in_order lim z LE d o t W I A S T) as (l & v & Hl & Hv & E1 & E2 & E3 & H).
  destruct (saved_in_order lim z BE d o' t' W I A S' T') as (l' & v' & Hl' & Hv' & E1' & E2' & E3' & H').
  rewrite Hl in Hl'. injection Hl' as <-. rewrite Hv in Hv'. injection Hv' as <-.
  split; [exact E3|]. split; [exact E3'|].
  split; [now rewrite (ho_count _ _ _ H), (ho_count _ _ _ H')|].
  split; [now rewrite (ho_root _ _ _ H), (ho_root _ _ _ H')|].
  split; [congruence|]. split; [congruence|]. intros n Hn. rewrite (ho_count _ _ _ H) in Hn.
  destruct (Z.eq_dec n 0) as [->|N]; [exists None; split; reflexivity|].
  destruct (number_all (fresh [] l) n (ho_distinct _ _ _ H)) as (a & Ha & ->); [lia|].
  apply (ho_listed _ _ _ H) in Ha. destruct (ho_node _ _ _ H a Ha) as [nd E].
  exists (Some (obj_map (number (fresh [] l)) (nd_obj nd))).
  split; [exact (ho_read _ _ _ H a nd Ha E)|exact (ho_read _ _ _ H' a nd Ha E)].
Qed.
Print Assumptions C21_documents.

(** The small document of SampleDocs.v is saved both ways; the files differ and show five objects. *)
Example C21_documents_case : walks_refs small_doc /\ ids_distinct small_doc /\ all_ok small_doc /\
  exists o o' t t', save 5 cet LE small_doc = (o, None) /\ save 5 cet BE small_doc = (o', None) /\
    open_table (run_ops o) = Ok t /\ open_table (run_ops o') = Ok t' /\ run_ops o <> run_ops o' /\ hd_count (of_head t) = 5.
Proof.
  destruct C25_case as (W & I & A & _). do 3 (split; [assumption|]).
  eexists. eexists. eexists. eexists. split; [vm_compute; reflexivity|]. split; [vm_compute; reflexivity|].
  split; [vm_compute; reflexivity|]. split; [vm_compute; reflexivity|]. split; [vm_compute; discriminate|reflexivity].
Qed.

(** ** C64 *)

(** However often a document is saved and opened, whatever byte order, recursion limit, time zone
    and order of walking there was each time, the last file opens and holds the objects of the document: each once,
    with the properties it had at first, references, sharing and root included. *)
Theorem C64_chain : forall d file, walks_refs d -> ids_distinct d -> all_ok d -> saved_again d file ->
  exists order t, open_table file = Ok t /\ NoDup order /\ (forall a, In a order <-> in_doc d a) /\
    hd_count (of_head t) = len order /\ hd_root (of_head t) = number order (dc_content d) /\
    forall a, in_doc d a -> exists nd, dc_heap d a = Ok nd /\
      read_object t (number order a) = Ok (Some (obj_map (number order) (nd_obj nd))) /\
      (obj_whole (nd_obj nd) -> obj_map (numbered order) (obj_map (number order) (nd_obj nd)) = nd_obj nd).
Proof.
  intros d file W I A H. destruct (chain_holds d file W I A H) as (order & t & T & Hd & _).
  exists order, t. split; [exact T|]. split; [exact (ho_distinct _ _ _ Hd)|].
  split; [exact (ho_listed _ _ _ Hd)|]. split; [exact (ho_count _ _ _ Hd)|]. split; [exact (ho_root _ _ _ Hd)|].
  intros a Ha. destruct (ho_node _ _ _ Hd a Ha) as [nd E]. exists nd. split; [exact E|].
  split; [exact (ho_read _ _ _ Hd a nd Ha E)|]. intros Wh.
  rewrite map_map_obj. rewrite <- (map_id_obj (nd_obj nd)) at 2; [|exact (proj1 (A a nd Ha E))|exact Wh].
  apply map_ext_obj. intros r Hr. destruct (Z.eq_dec r 0) as [->|N].
  - rewrite (held_none _ _ _ Hd). reflexivity.
  - apply numbered_number, (ho_listed _ _ _ Hd). apply (in_doc_step d a r Ha). exists nd. auto.
Qed.
Print Assumptions C64_chain.

(** Nobody who starts at the root and follows references sees a difference between the document and
    any file of the chain. *)
Theorem C64_looks : forall d file, walks_refs d -> ids_distinct d -> all_ok d -> saved_again d file ->
  exists t, open_table file = Ok t /\ forall n, alike n (in_document d) (in_file t) (dc_content d) (hd_root (of_head t)).
Proof.
  intros d file W I A H. destruct (chain_holds d file W I A H) as (order & t & T & Hd & _).
  exists t. split; [exact T|]. intros n. rewrite (ho_root _ _ _ Hd). apply (held_alike d order t A Hd).
  destruct (Z.eq_dec (dc_content d) 0) as [->|N]; [now left|]. right. split; [exact N|constructor].
Qed.
Print Assumptions C64_looks.

(** The same for a file from anywhere whose objects keep the conditions of C57: it is opened, saved,
    opened, saved and so on, and the last file looks as the first. *)
Theorem C64_file : forall file t z self kids file', Forall is_byte file -> open_table file = Ok t -> follows kids ->
  let d := opened_doc z t self kids in
  (forall n ob, in_doc d n -> read_object t n = Ok (Some ob) -> obj_keeps ob) ->
  saved_again d file' ->
  exists t', open_table file' = Ok t' /\ forall n, alike n (in_file t) (in_file t') (hd_root (of_head t)) (hd_root (of_head t')).
Proof.
  intros file t z self kids file' Hf T Fo d K H.
  destruct (open_table_got file t Hf T) as (Ef & _). rewrite <- Ef in Hf.
  destruct (C64_looks d file' (opened_walks z t self kids Fo) (opened_ids z t self kids) (opened_ok z t self kids Hf K) H)
    as (t' & T' & L).
  exists t'. split; [exact T'|]. intros n. specialize (L n). cbn [d opened_doc dc_content] in L. revert L.
  generalize (hd_root (of_head t)) (hd_root (of_head t')). induction n as [|n IH]; intros a b; [trivial|].
  cbn [alike]. intros [L|(Na & Nb & o & o' & Ho & Ho' & E & F)]; [now left|]. right.
  split; [exact Na|]. split; [exact Nb|]. exists o, o'. split.
  { unfold in_document, d, opened_doc, load in Ho. cbn [dc_heap] in Ho. unfold in_file.
    destruct (read_object t a) as [[ob|]|e]; cbn [nd_obj] in Ho; [exact Ho|discriminate|discriminate]. }
  split; [exact Ho'|]. split; [exact E|]. clear - F IH. induction F; constructor; auto.
Qed.
Print Assumptions C64_file.

(** The chain never breaks off: what has been saved can be opened and saved again, in either byte
    order, wherever the clock does not show the save time twice. *)
Theorem C64_continues : forall d file z lim bo self kids, walks_refs d -> ids_distinct d -> all_ok d -> saved_again d file ->
  follows kids -> mktime_right z -> exists t, open_table file = Ok t /\
    (unambiguous z (of_stamp t) -> (Z.to_nat (hd_count (of_head t)) <= lim)%nat ->
     exists o, save lim z bo (opened_doc z t self kids) = (o, None) /\ saved_again d (run_ops o)).
Proof.
  intros d file z lim bo self kids W I A H Fo M. destruct (chain_holds d file W I A H) as (order & t & T & _).
  exists t. split; [exact T|]. intros U Hl.
  destruct (chain_continues d file t z lim bo self kids W I A H T Fo M U Hl) as [o So]. exists o. split; [exact So|].
  exact (saved_more d file t lim z bo self kids o H T Fo So).
Qed.
Print Assumptions C64_continues.

(** And it settles: on one machine, from the second file on all files of one byte order are the same,
    byte for byte, however long the chain and whatever byte orders were used in between. *)
Theorem C64_settles : forall lim z bo0 d o0 t1 self1 kids,
  walks_refs d -> ids_distinct d -> all_ok d -> follows kids -> consistent kids -> mktime_right z ->
  save lim z bo0 d = (o0, None) -> open_table (run_ops o0) = Ok t1 ->
  forall bo file file', saved_with lim z kids (opened_doc z t1 self1 kids) bo file ->
  saved_with lim z kids (opened_doc z t1 self1 kids) bo file' -> file = file'.
Proof.
  intros lim z bo0 d o0 t1 self1 kids W I A Fo Co M H0 T1 bo file file' H H'.
  destruct (chain_settles lim z bo0 d o0 t1 self1 kids W I A Fo Co M H0 T1 bo file H) as (o & S & ->).
  destruct (chain_settles lim z bo0 d o0 t1 self1 kids W I A Fo Co M H0 T1 bo file' H') as (o' & S' & ->).
  rewrite S in S'. now injection S' as <-.
Qed.
Print Assumptions C64_settles.

(** The small document is saved little endian, opened, saved big endian and then little endian again,
    references walked backwards. In the first file the root is the sequence of objects 3, 4 and 3,
    in the last that of objects 1, 4 and 1: the numbers are others, the objects are the same. *)
Example C64_case : walks_refs small_doc /\ ids_distinct small_doc /\ all_ok small_doc /\
  follows (fun n o => rev (read_kids n o)) /\ mktime_right cet /\
  exists a b c t1 t2 t3, file_of cet LE small_doc = Some a /\ open_table a = Ok t1 /\
    file_of cet BE (opened_doc cet t1 8 (fun n o => rev (read_kids n o))) = Some b /\ open_table b = Ok t2 /\
    file_of cet LE (opened_doc cet t2 8 (fun n o => rev (read_kids n o))) = Some c /\ open_table c = Ok t3 /\
    saved_again small_doc c /\ saved_with 5 cet (fun n o => rev (read_kids n o)) (opened_doc cet t2 8 (fun n o => rev (read_kids n o))) LE c /\ a <> c /\
    match read_object t1 5, read_object t3 5 with
    | Ok (Some (Obj K_SEQU x)), Ok (Some (Obj K_SEQU y)) =>
      sequ_components x = [3; 4; 3] /\ sequ_components y = [1; 4; 1]
    | _, _ => False end.
Proof.
  destruct C25_case as (W & I & A & _). do 3 (split; [assumption|]).
  destruct C59_library_order as [F _].
  assert (follows (fun n o => rev (read_kids n o))) as Fr by (intros n o b; rewrite <- in_rev; apply F).
  split; [exact Fr|]. split; [intros u; unfold from_timestamp, to_timestamp; cbn; lia|].
  destruct (save 5 cet LE small_doc) as [o1 s1] eqn:S1.
  destruct (open_table (run_ops o1)) as [t1|e] eqn:T1;
    [|exfalso; vm_compute in S1; injection S1 as <- <-; vm_compute in T1; discriminate T1].
  destruct (save 5 cet BE (opened_doc cet t1 8 (fun n o => rev (read_kids n o)))) as [o2 s2] eqn:S2.
  destruct (open_table (run_ops o2)) as [t2|e] eqn:T2;
    [|exfalso; vm_compute in S1; injection S1 as <- <-; vm_compute in T1; injection T1 as <-;
      vm_compute in S2; injection S2 as <- <-; vm_compute in T2; discriminate T2].
  destruct (save 5 cet LE (opened_doc cet t2 8 (fun n o => rev (read_kids n o)))) as [o3 s3] eqn:S3.
  destruct (open_table (run_ops o3)) as [t3|e] eqn:T3;
    [|exfalso; vm_compute in S1; injection S1 as <- <-; vm_compute in T1; injection T1 as <-;
      vm_compute in S2; injection S2 as <- <-; vm_compute in T2; injection T2 as <-;
      vm_compute in S3; injection S3 as <- <-; vm_compute in T3; discriminate T3].
  assert (s1 = None /\ s2 = None /\ s3 = None /\ run_ops o1 <> run_ops o3 /\
    match read_object t1 5, read_object t3 5 with
    | Ok (Some (Obj K_SEQU a)), Ok (Some (Obj K_SEQU b)) =>
      sequ_components a = [3; 4; 3] /\ sequ_components b = [1; 4; 1]
    | _, _ => False end) as (E1 & E2 & E3 & D & R).
  { vm_compute in S1. injection S1 as <- <-. vm_compute in T1. injection T1 as <-.
    vm_compute in S2. injection S2 as <- <-. vm_compute in T2. injection T2 as <-.
    vm_compute in S3. injection S3 as <- <-. vm_compute in T3. injection T3 as <-.
    repeat (split; [reflexivity|]). split; [vm_compute; discriminate|]. vm_compute. split; reflexivity. }
  subst s1 s2 s3. exists (run_ops o1), (run_ops o2), (run_ops o3), t1, t2, t3.
  unfold file_of. rewrite S1, S2, S3. split; [reflexivity|]. split; [exact T1|]. split; [reflexivity|].
  split; [exact T2|]. split; [reflexivity|]. split; [exact T3|].
  split; [|split; [exact (with_first _ _ _ _ _ _ S3)|split; [exact D|exact R]]].
  apply (saved_more _ (run_ops o2) t2 5 cet LE 8 (fun n o => rev (read_kids n o)) o3); trivial.
  apply (saved_more _ (run_ops o1) t1 5 cet BE 8 (fun n o => rev (read_kids n o)) o2); trivial.
  exact (saved_first _ _ _ _ _ S1).
Qed.
