(** C66: documents opened with the accelerated readers. [fast_object] and [fast_heap] (ExtDoc.v) are
    what is read with them, [read_object] and [load] what is read without. *)
From Coq Require Import ZArith String List Bool Lia.
From Verif Require Import Base IoCtx Text Components Misc RoundTrip Saved Samples SavedProofs Dates Objects ObjSpec ObjProofs ObjTheory FileModel FileSpec
  SaveProofs MoveProofs ResaveSpec ResaveTheory Opened SampleDocs AgainProofs ChainTheory SaveOverProofs Ext ExtSpec ExtWritten ExtDoc ExtUnique ExtDocProofs.
From Verif.props Require Import Saves.
Import ListNotations.
Open Scope Z_scope.

(** What the library writes of an object without negative numbers in the places where the two
    readers take signs differently is read by the accelerated reader as the very object: every
    property it sets has the value that was written and it sets all of them. *)
Theorem C66_exact : forall k f c v data,
  ext_read k = Some f -> ok_of k v -> plain k v -> obo c = LE ->
  C_write (class_of k) c v = Ok data -> Forall is_byte data ->
  exists d, f data = ExtOk d /\ exactly k (C_map (class_of k) (reff c) v) d.
Proof.
  intros k f c v data Hf Hok Hp Hbo Hw Hb. eapply ext_exact; try eassumption.
  pose proof (compat_unchecked c) as H. rewrite Hbo in H. exact H.
Qed.
Print Assumptions C66_exact.

(** What an accelerated reader has found is the whole of just one object. *)
Theorem C66_one : forall k x x' d, exactly k x d -> exactly k x' d -> x = x'.
Proof. exact exactly_one. Qed.
Print Assumptions C66_one.

(** A saved document, opened with the accelerated readers and without: the same numbers are those of
    objects, and they are the same objects. *)
Theorem C66_opened : forall lim z bo d o t, walks_refs d -> ids_distinct d -> all_ok d ->
  (forall a nd, in_doc d a -> dc_heap d a = Ok nd -> plain (okind (nd_obj nd)) (oval (nd_obj nd))) ->
  save lim z bo d = (o, None) -> Forall is_byte (run_ops o) -> open_table (run_ops o) = Ok t ->
  forall n ob, 0 < n -> read_object t n = Ok (Some ob) <-> fast_object t n ob.
Proof. exact fast_saved. Qed.
Print Assumptions C66_opened.

(** It can be saved from the one as from the other: the same steps, the same bytes. *)
Theorem C66_saves : forall lim z bo d o t self kids h lim' z' bo', walks_refs d -> ids_distinct d -> all_ok d ->
  (forall a nd, in_doc d a -> dc_heap d a = Ok nd -> plain (okind (nd_obj nd)) (oval (nd_obj nd))) ->
  save lim z bo d = (o, None) -> Forall is_byte (run_ops o) -> open_table (run_ops o) = Ok t ->
  follows kids -> fast_heap t self kids h ->
  let d' := opened_doc z' t self kids in save lim' z' bo' (with_heap d' h) = save lim' z' bo' d'.
Proof.
  intros lim z bo d o t self kids h lim' z' bo' W I A Pl S By T Fo Fh d'.
  apply saves_alike; [exact (opened_walks z' t self kids Fo)|]. intros n Hn.
  destruct (saved_holds lim z bo d o t W I A S T) as [order Hd].
  destruct (proj1 (held_objects d order t Hd A z' self kids n) Hn) as (a & Ha & En). subst n.
  destruct (ho_node _ _ _ Hd a Ha) as [nd Ea].
  assert (0 < number order a) as N0.
  { apply (ho_listed _ _ _ Hd), number_in in Ha. pose proof (number_range order a). lia. }
  cbn [d' opened_doc dc_heap].
  assert (exists nd', load t self kids (number order a) = Ok nd') as [nd' E].
  { unfold load. rewrite (ho_read _ _ _ Hd a nd Ha Ea). eauto. }
  rewrite E. apply (fast_memory t self kids h); trivial.
  intros ob. exact (fast_saved lim z bo d o t W I A Pl S By T _ ob N0).
Qed.
Print Assumptions C66_saves.

(** There is such a memory: what is loaded without the accelerated readers. *)
Theorem C66_memory : forall lim z bo d o t self kids, walks_refs d -> ids_distinct d -> all_ok d ->
  (forall a nd, in_doc d a -> dc_heap d a = Ok nd -> plain (okind (nd_obj nd)) (oval (nd_obj nd))) ->
  save lim z bo d = (o, None) -> Forall is_byte (run_ops o) -> open_table (run_ops o) = Ok t ->
  fast_heap t self kids (load t self kids).
Proof.
  intros lim z bo d o t self kids W I A Pl S By T. apply load_fast.
  exact (fast_saved lim z bo d o t W I A Pl S By T).
Qed.
Print Assumptions C66_memory.

(** The small document of SampleDocs.v meets the conditions; all of its objects have accelerated
    readers. *)
Example C66_case : walks_refs small_doc /\ ids_distinct small_doc /\ all_ok small_doc /\
  (forall a nd, in_doc small_doc a -> dc_heap small_doc a = Ok nd -> plain (okind (nd_obj nd)) (oval (nd_obj nd))) /\
  exists o t s, save 5 cet LE small_doc = (o, None) /\ Forall is_byte (run_ops o) /\ open_table (run_ops o) = Ok t /\
    Forall (fun n => exists cc data k f, chunk_at t n = Ok (cc, data) /\ kind_of cc = Some k /\
      fast_readers (hd_bo (of_head t)) k = Some f) [1; 2; 3; 4; 5] /\
    fast_object t 5 (Obj K_SEQU s) /\ sequ_components s = [3; 4; 3].
Proof.
  destruct C25_case as (W & I & A & _).
  assert (forall a nd, in_doc small_doc a -> dc_heap small_doc a = Ok nd -> plain (okind (nd_obj nd)) (oval (nd_obj nd))) as Pl.
  { intros a nd _ E. unfold small_doc, doc_of, heap_of in E. cbn [dc_heap] in E.
    destruct (SampleDocs.lookup small_mem a) as [ob|] eqn:L; [|discriminate]. injection E as <-. cbn [nd_obj].
    apply lookup_in in L. cbn [small_mem In] in L.
    destruct L as [L|[L|[L|[L|[L|[]]]]]]; injection L as <- <-; cbn; try exact Logic.I; discriminate. }
  do 4 (split; [assumption|]).
  destruct (save 5 cet LE small_doc) as [o e] eqn:S.
  assert (e = None) as -> by (change e with (snd (o, e)); rewrite <- S; vm_compute; reflexivity).
  assert (exists t ob, open_table (run_ops o) = Ok t /\ read_object t 5 = Ok (Some (Obj K_SEQU ob)) /\
    sequ_components ob = [3; 4; 3] /\ Forall (fun n => exists cc data k f, chunk_at t n = Ok (cc, data) /\ kind_of cc = Some k /\
      fast_readers (hd_bo (of_head t)) k = Some f) [1; 2; 3; 4; 5]) as (t & ob & T & R & Q & F).
  { replace o with (fst (save 5 cet LE small_doc)) by (rewrite S; reflexivity).
    eexists. eexists. split; [vm_compute; reflexivity|]. split; [vm_compute; reflexivity|]. split; [reflexivity|].
    repeat (apply Forall_cons; [eexists _, _, _, _;
      split; [vm_compute; reflexivity|]; split; [vm_compute; reflexivity|reflexivity]|]). apply Forall_nil. }
  assert (Forall is_byte (run_ops o)) as By.
  { replace o with (fst (save 5 cet LE small_doc)) by (rewrite S; reflexivity). apply byte_list. vm_compute. reflexivity. }
  exists o, t, ob. do 4 (split; [trivial|]). split; [|exact Q].
  apply (C66_opened 5 cet LE small_doc o t W I A Pl S By T); [lia|exact R].
Qed.

(** A filler with a negative number for its media kind, saved by the library. Opened with the
    accelerated readers the number is 65535, and the document can not be saved any more, in either
    byte order; without them it can. *)
Definition negative_filler (kind : Z) : filler := {|
  fill_clip := {| clip_component := {|
    cpnt_left_bob := 0; cpnt_right_bob := 0; cpnt_media_kind_id := kind; cpnt_edit_rate := sample_rate;
    cpnt_name := [69; 233]; cpnt_effect_id := [70]; cpnt_attributes := 0;
    cpnt_session_attrs := 0; cpnt_precomputed := 0; cpnt_param_list := None |}; clip_length := 25 |} |}.
Definition negative_doc : document := doc_of [(7, Obj K_FILL (negative_filler (-1)))] 7.

Theorem C66_negative_kind_refuted : walks_refs negative_doc /\ ids_distinct negative_doc /\ all_ok negative_doc /\
  exists o t, save 1 cet LE negative_doc = (o, None) /\ Forall is_byte (run_ops o) /\ open_table (run_ops o) = Ok t /\
  read_object t 1 = Ok (Some (Obj K_FILL (negative_filler (-1)))) /\
  (forall ob, fast_object t 1 ob <-> ob = Obj K_FILL (negative_filler 65535)) /\
  forall lim bo kids h, follows kids -> fast_heap t 1 kids h ->
    (exists o', save (S lim) cet bo (with_heap (opened_doc cet t 1 kids) h) = (o', Some StructError)) /\
    (exists o', save (S lim) cet bo (opened_doc cet t 1 kids) = (o', None)).
Proof.
  assert (Forall (fun p => obj_ok (snd p)) [(7, Obj K_FILL (negative_filler (-1)))]) as Hok.
  { repeat (apply Forall_cons; [cbn [snd]; split; [reflexivity|]|]); [|apply Forall_nil];
      cbn [ok_of okind oval negative_filler]; sample_ok. }
  split; [exact (listed_walks _ 7)|]. split; [exact (listed_ids _ 7)|]. split; [exact (listed_ok _ 7 Hok)|].
  destruct (save 1 cet LE negative_doc) as [o e] eqn:Sv.
  assert (e = None) as -> by (change e with (snd (o, e)); rewrite <- Sv; vm_compute; reflexivity).
  assert (exists t, open_table (run_ops o) = Ok t /\ read_object t 1 = Ok (Some (Obj K_FILL (negative_filler (-1)))) /\
    hd_root (of_head t) = 1 /\ hd_bo (of_head t) = LE /\
    (exists p data, chunk_at t 1 = Ok (class_id K_FILL, data) /\
      match ext_read K_FILL with Some f => f data = ExtOk (Props p) | None => False end /\
      exact (filler_view (negative_filler 65535)) p) /\
    forall lim bo, let h n := fun ob : obj => if n =? 1 then Ok {| nd_doc := 1; nd_id := 1; nd_obj := ob; nd_kids := [] |} else Err IndexErr in
    let d := opened_doc cet t 1 (fun _ _ => []) in
    (exists o', save (S lim) cet bo (with_heap d (fun n => h n (Obj K_FILL (negative_filler 65535)))) = (o', Some StructError)) /\
    (exists o', save (S lim) cet bo (with_heap d (fun n => h n (Obj K_FILL (negative_filler (-1))))) = (o', None)))
    as (t & T & R & Rt & Rb & (p & data & Ck & Hx & Ex) & Sx).
  { replace o with (fst (save 1 cet LE negative_doc)) by (rewrite Sv; reflexivity).
    eexists. split; [vm_compute; reflexivity|]. split; [vm_compute; reflexivity|].
    split; [reflexivity|]. split; [reflexivity|]. split.
    - eexists _, _. split; [vm_compute; reflexivity|]. split; [vm_compute; reflexivity|].
      intros n. cbn [filler_view clip_view component_view app fill_clip clip_component].
      cbn [vlook lookup].
      repeat match goal with |- context [String.eqb ?a n] =>
        destruct (String.eqb_spec a n) as [E|_]; [subst n; vm_compute; reflexivity|] end.
      exact Logic.I.
    - intros lim [|]; split; eexists; vm_compute; reflexivity. }
  assert (Forall is_byte (run_ops o)) as By.
  { replace o with (fst (save 1 cet LE negative_doc)) by (rewrite Sv; reflexivity). apply byte_list. vm_compute. reflexivity. }
  exists o, t. do 4 (split; [trivial|]).
  assert (forall ob, fast_object t 1 ob <-> ob = Obj K_FILL (negative_filler 65535)) as Fo.
  { intros ob. split.
    - intros (_ & cc & data' & k & Ck' & Hk & H). rewrite Ck in Ck'.
      assert (cc = class_id K_FILL /\ data' = data) as [-> ->] by (split; congruence). clear Ck'.
      rewrite kind_of_class_id in Hk. injection Hk as <-. rewrite Rb in H. cbn [fast_readers ext_read] in H, Hx.
      destruct H as (d & v & Hd & Hv & ->). rewrite Hd in Hx. injection Hx as ->.
      f_equal. apply (exactly_one K_FILL v (negative_filler 65535) _ Hv). exists p. split; [reflexivity|exact Ex].
    - intros ->. split; [lia|]. eexists _, _, _. split; [exact Ck|]. split; [apply kind_of_class_id|].
      rewrite Rb. cbn [fast_readers ext_read] in *. eexists _, _. split; [exact Hx|]. split; [|reflexivity].
      exists p. split; [reflexivity|exact Ex]. }
  split; [exact Fo|]. intros lim bo kids h Fk Fh.
  assert (forall v, kids 1 (Obj K_FILL (negative_filler v)) = []) as K0.
  { intros v. destruct (kids 1 (Obj K_FILL (negative_filler v))) as [|r l] eqn:E; [reflexivity|].
    destruct (proj1 (Fk 1 (Obj K_FILL (negative_filler v)) r)) as [Hr Nr]; [rewrite E; now left|].
    cbn in Hr. clear - Hr Nr. intuition congruence. }
  assert (forall v h', h' 1 = Ok {| nd_doc := 1; nd_id := 1; nd_obj := Obj K_FILL (negative_filler v); nd_kids := [] |} ->
    save (S lim) cet bo (with_heap (opened_doc cet t 1 kids) h') =
    save (S lim) cet bo (with_heap (opened_doc cet t 1 (fun _ _ => [])) (fun n => if n =? 1 then
      Ok {| nd_doc := 1; nd_id := 1; nd_obj := Obj K_FILL (negative_filler v); nd_kids := [] |} else Err IndexErr))) as Sm.
  { intros v h' E.
    match goal with |- _ = save _ _ _ ?d0 => apply (saves_on (S lim) cet bo d0 h' (fun a => a = 1)) end.
    - intros _. exact Rt.
    - intros a ->. exact E.
    - intros a nd -> En. cbn [with_heap dc_heap Z.eqb] in En. injection En as <-. cbn [nd_kids nd_obj]. split; intros r Hr.
      + destruct Hr.
      + intros Nr. cbn in Hr. clear - Hr Nr. intuition congruence. }
  destruct (Sx lim bo) as [S1 S2]. split; [clear S2|clear S1].
  - destruct S1 as [o' S1]. exists o'. rewrite <- S1. apply Sm.
    specialize (Fh 1 eq_refl). destruct (h 1) as [nd|er].
    + destruct Fh as (ob & Hob & ->). apply Fo in Hob as ->. rewrite K0. reflexivity.
    + destruct (Fh (Obj K_FILL (negative_filler 65535))). now apply Fo.
  - destruct S2 as [o' S2]. exists o'. rewrite <- S2.
    apply (Sm (-1) (load t 1 kids)). unfold load. rewrite R, K0. reflexivity.
Qed.
Print Assumptions C66_negative_kind_refuted.
