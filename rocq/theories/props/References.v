(** C68: what a reference tells about the object it leads to, without reading it. *)
From Coq Require Import ZArith String List Bool Lia.
From Verif Require Import Base IoCtx Text Names Objects ObjSpec ObjTheory FileModel FileSpec SaveProofs ResaveTheory ChainTheory.
From Verif Require Import SampleDocs ResaveSamples RefInfo RefInfoProofs.
Import ListNotations.
Open Scope Z_scope.

(** The reader takes a number for a reference only if the reference is valid, and a reference is
    valid exactly up to the number of objects; for valid ones the class code can be told without an
    exception. *)
Theorem C68_valid : forall file t n, Forall is_byte file -> open_table file = Ok t -> 0 <= n ->
  (ref_is_valid t n = true <-> n <= hd_count (of_head t)) /\
  (forall b r, rref (of_ictx t) b = Ok (n, r) -> ref_is_valid t n = true) /\
  (ref_is_valid t n = true -> exists cc, ref_class_id true t n = Ok (Some cc)).
Proof.
  intros file t n Hf T Hn. destruct (open_table_got file t Hf T) as (_ & Hc & _ & _ & _ & L).
  assert (len (of_positions t) = hd_count (of_head t)) as Ln by (unfold len; lia).
  rewrite valid_iff, Ln. split; [reflexivity|]. split.
  - intros b r R. unfold rref, bind in R. destruct (ru32 _ b) as [[x b']|e]; [|discriminate R].
    destruct (ref_valid (of_ictx t) x) eqn:V; [|discriminate R]. injection R as -> ->.
    unfold ref_valid, of_ictx in V. cbn [inobj] in V. apply Z.ltb_lt in V.
    apply valid_iff. rewrite Ln. lia.
  - intros H. unfold ref_class_id. cbn [negb].
    assert (ref_is_valid t n = true) as -> by (apply valid_iff; lia).
    destruct (Z.eq_dec n 0) as [->|N]; [cbn [read_chunk Z.eqb]; eauto|].
    destruct (position_in t n) as [p P]; [lia|].
    destruct (chunk_there file t T n p) as (c & -> & _); [lia|exact P|eauto].
Qed.
Print Assumptions C68_valid.

(** If the object can be read, the code is that of its class. *)
Theorem C68_class : forall t n ob,
  ref_value t n = Ok (Some ob) ->
  ref_is_valid t n = true /\ ref_class_id true t n = Ok (Some (class_id (okind ob))).
Proof.
  intros t n ob H. unfold ref_value in H. destruct (Z.leb_spec n 0) as [|N]; [discriminate H|].
  destruct (object_class t n ob N H) as (c & R & E).
  assert (ref_is_valid t n = true) as V.
  { apply valid_iff. destruct (Z.le_gt_cases n (len (of_positions t))) as [|G]; [assumption|].
    unfold read_chunk in R. rewrite (position_out t n G) in R. destruct (Z.eqb_spec n 0); [lia|discriminate R]. }
  split; [exact V|]. unfold ref_class_id. cbn [negb]. now rewrite V, R, E.
Qed.
Print Assumptions C68_class.

(** Beyond the objects there is neither a class nor an object. *)
Theorem C68_beyond : forall file t n, Forall is_byte file -> open_table file = Ok t -> hd_count (of_head t) < n ->
  ref_is_valid t n = false /\ ref_class_id true t n = Ok None /\ ref_value t n = Err IndexErr.
Proof.
  intros file t n Hf T Hn. destruct (open_table_got file t Hf T) as (_ & Hc & _ & _ & _ & L).
  assert (len (of_positions t) < n) as G by (unfold len; lia).
  assert (ref_is_valid t n = false) as V.
  { destruct (ref_is_valid t n) eqn:V; [apply valid_iff in V; lia|reflexivity]. }
  split; [exact V|]. split; [unfold ref_class_id; cbn [negb]; now rewrite V|].
  unfold ref_value, read_object. rewrite (position_out t n G).
  destruct (Z.leb_spec n 0); [lia|]. destruct (Z.eqb_spec n 0); [lia|reflexivity].
Qed.
Print Assumptions C68_beyond.

(** In a file the library has saved, the references of an object tell the classes of the objects
    they led to when the document was saved. *)
Theorem C68_saved : forall lim z bo d o t, walks_refs d -> ids_distinct d -> all_ok d ->
  save lim z bo d = (o, None) -> open_table (run_ops o) = Ok t ->
  exists number, (forall a nd, in_doc d a -> dc_heap d a = Ok nd ->
      ref_value t (number a) = Ok (Some (obj_map number (nd_obj nd)))) /\
    forall a nd r nr, in_doc d a -> dc_heap d a = Ok nd -> In r (obj_refs (nd_obj nd)) -> r <> 0 ->
      dc_heap d r = Ok nr -> ref_class_id true t (number r) = Ok (Some (class_id (okind (nd_obj nr)))).
Proof.
  intros lim z bo d o t W I A S T. destruct (saved_holds lim z bo d o t W I A S T) as [order H].
  exists (number order).
  assert (forall a nd, in_doc d a -> dc_heap d a = Ok nd ->
    ref_value t (number order a) = Ok (Some (obj_map (number order) (nd_obj nd)))) as V.
  { intros a nd Ha E. unfold ref_value. destruct (Z.leb_spec (number order a) 0) as [G|_].
    - apply (ho_listed _ _ _ H) in Ha. apply number_in in Ha. pose proof (number_range order a). lia.
    - exact (ho_read _ _ _ H a nd Ha E). }
  split; [exact V|]. intros a nd r nr Ha E Ir N Er.
  assert (in_doc d r) as Hr.
  { destruct Ha as [Nc R]. split; [exact Nc|]. apply reach_step with a; [exact R|]. exists nd. now split. }
  apply (proj2 (C68_class t (number order r) _ (V r nr Hr Er))).
Qed.
Print Assumptions C68_saved.

(** The null reference counts as valid, and gives the code of the file header although no object is
    there. *)
Theorem C68_null_refuted : exists file t cc, Forall is_byte file /\ open_table file = Ok t /\
  ref_value t 0 = Ok None /\ ref_is_valid t 0 = true /\ ref_class_id true t 0 = Ok (Some cc) /\
  cc = txt "OBJD" /\ forall k, class_id k <> cc.
Proof.
  destruct (open_table small_file) as [t|e] eqn:T; [|vm_compute in T; discriminate T].
  exists small_file, t, (txt "OBJD"). split; [exact small_bytes|]. split; [exact T|]. split; [reflexivity|].
  split; [apply valid_iff; unfold len; lia|]. split.
  - unfold ref_class_id. cbn [negb]. assert (ref_is_valid t 0 = true) as -> by (apply valid_iff; unfold len; lia).
    reflexivity.
  - split; [reflexivity|]. intros k. destruct k; discriminate.
Qed.
Print Assumptions C68_null_refuted.

(** The small file: reference 4 leads to a clip, 6 to nothing. *)
Example C68_case : exists t ob, Forall is_byte small_file /\ open_table small_file = Ok t /\
  ref_value t 4 = Ok (Some ob) /\ okind ob = K_SCLP /\ ref_class_id true t 4 = Ok (Some (txt "SCLP")) /\
  hd_count (of_head t) = 5 /\ ref_class_id true t 6 = Ok None /\ ref_class_id false t 6 = Ok (Some (txt "NULL")).
Proof.
  assert (match open_table small_file with
    | Ok t => match ref_value t 4 with
      | Ok (Some ob) => Some (okind ob, ref_class_id true t 4, hd_count (of_head t), ref_class_id true t 6, ref_class_id false t 6)
      | _ => None end
    | Err _ => None end = Some (K_SCLP, Ok (Some (txt "SCLP")), 5, Ok None, Ok (Some (txt "NULL")))) as L
    by (vm_compute; reflexivity).
  destruct (open_table small_file) as [t|e]; [|discriminate L].
  destruct (ref_value t 4) as [[ob|]|e] eqn:V; try discriminate L. exists t, ob. split; [exact small_bytes|].
  split; [reflexivity|]. split; [exact V|]. injection L as L1 L2 L3 L4. now repeat split.
Qed.
