(** Lemmas for C66. *)
From Coq Require Import ZArith List Bool Lia.
From Verif Require Import MobId MobIdProofs PrimProofs Fits Base IoCtx RoundTrip Saved Text Dates Objects ObjSpec ObjProofs ObjTheory
  FileModel FileSpec HeaderProofs TableProofs SaveProofs MoveProofs ResaveSpec ResaveTheory Opened AgainProofs MadeTheory
  ChainTheory SaveOver SaveOverProofs Ext ExtSpec ExtWritten ExtDoc ExtUnique.
Import ListNotations.
Open Scope Z_scope.

Lemma chunk_at_ok : forall hdr h t ver a s b, Forall stored_ok (a ++ s :: b) ->
  chunk_at (table hdr h t ver (a ++ s :: b)) (len a + 1) = Ok s.
Proof.
  intros hdr h t ver a s b H. unfold chunk_at. rewrite table_position by exact H.
  rewrite table_skip. cbn [of_head table]. rewrite rchunk_head_ok.
  - rewrite firstn_app_len by reflexivity. rewrite Z.eqb_refl. now destruct s.
  - rewrite Forall_forall in H. apply H. apply in_or_app. right. now left.
Qed.

Lemma ext_le : forall bo k f, fast_readers bo k = Some f -> bo = LE /\ ext_read k = Some f.
Proof. intros [|] k f H; [now split|discriminate H]. Qed.

(** ** Objects of a saved document *)

Lemma fast_read : forall bo d order hdr t ver ss, NoDup order ->
  (forall x, In x order <-> in_doc d x) -> all_ok d ->
  stores bo (dc_self d) (dc_heap d) (in_doc d) [] order ss ->
  Forall is_byte (hdr ++ stored_all bo ss) ->
  forall a nd, in_doc d a -> dc_heap d a = Ok nd -> plain (okind (nd_obj nd)) (oval (nd_obj nd)) ->
  forall o, fast_object (table hdr (saved_head bo d (len order)) t ver ss) (number order a) o <->
    o = obj_map (number order) (nd_obj nd).
Proof.
  intros bo d order hdr t ver ss ND Io Ok' S By a nd Ha Ea Pl o.
  pose proof (completed_read bo d order hdr t ver ss ND Io Ok' S a nd Ha Ea) as Rd.
  destruct (split_number order a ND (proj2 (Io a) Ha)) as (p & s & Eo & En). rewrite En in *.
  destruct (stores_ok _ _ _ _ _ _ _ S) as [_ F].
  destruct (stores_split _ _ _ _ _ _ _ S p a s Eo) as (pp & qq & nd' & m & data & -> & L & E' & _ & [T1 T2] & Wb).
  rewrite Ea in E'. injection E' as <-.
  replace (len p) with (len pp) in * by (unfold len; now rewrite L).
  rewrite read_object_ok in Rd by exact F. cbn [fst snd] in Rd.
  set (tb := table hdr (saved_head bo d (len order)) t ver (pp ++ (class_id (okind (nd_obj nd)), data) :: qq)) in *.
  match type of Rd with context [of_ictx ?x] => change x with tb in Rd end.
  destruct (robject (of_ictx tb) (class_id (okind (nd_obj nd))) data) as [ob|e] eqn:Rb; [|discriminate Rd].
  injection Rd as ->.
  assert (chunk_at tb (len pp + 1) = Ok (class_id (okind (nd_obj nd)), data)) as Ck by (apply chunk_at_ok; exact F).
  assert (len pp + 1 <> 0) as N0 by (pose proof (len_nonneg _ pp); lia).
  assert (hd_bo (of_head tb) = bo) as Ebo by reflexivity.
  assert (Forall is_byte data) as Hb.
  { apply Forall_app in By as [_ By]. unfold stored_all in By. rewrite map_app, concat_app in By.
    apply Forall_app in By as [_ By]. cbn [map concat] in By. apply Forall_app in By as [By _].
    unfold stored_bytes in By. cbn [fst snd] in By. rewrite !Forall_app in By. intuition. }
  assert (forall f, fast_readers bo (okind (nd_obj nd)) = Some f -> exists dd,
    f data = ExtOk dd /\ let x := obj_map (number order) (nd_obj nd) in exactly (okind x) (oval x) dd) as Fx.
  { intros f Hf. apply ext_le in Hf as [-> Hf].
    assert (obj_map (reff (save_octx LE (dc_heap d) m)) (nd_obj nd) = obj_map (number order) (nd_obj nd)) as Em.
    { assert (len (p ++ [a]) <= len order) as LEq.
      { rewrite Eo, !len_app. unfold len. cbn [length]. lia. }
      erewrite (robject_saved _ (save_octx LE (dc_heap d) m)) in Rb;
        [exact (f_equal (fun r => match r with Ok x => x | Err _ => nd_obj nd end) Rb)|split; [reflexivity|split]|now apply (Ok' a)|exact Wb].
      - unfold ref_valid, of_ictx. cbn [inobj of_head table saved_head hd_count tb].
        apply Z.ltb_lt. pose proof (len_nonneg _ order). lia.
      - intros r x Hx. unfold ref_valid, of_ictx. cbn [inobj of_head table saved_head hd_count tb].
        apply Z.ltb_lt. unfold save_octx in Hx. cbn [orefs] in Hx. destruct (dc_heap d r); [|discriminate].
        apply T2 in Hx. cbn [app] in Hx. lia. }
    cbv zeta. rewrite <- Em. destruct (nd_obj nd) as [k v] eqn:Ev. cbn [okind oval obj_map] in *.
    eapply ext_exact; try eassumption.
    - destruct (Ok' a nd Ha Ea) as [_ Hv]. rewrite Ev in Hv. exact Hv.
    - exact (compat_unchecked (save_octx LE (dc_heap d) m)). }
  split.
  - intros (_ & cc & dt & k & Ck' & Hk & H). rewrite Ck in Ck'. injection Ck' as <- <-.
    rewrite kind_of_class_id in Hk. injection Hk as <-. rewrite Ebo in H.
    destruct (fast_readers bo (okind (nd_obj nd))) as [f|] eqn:Hf; [|congruence].
    destruct H as (dd & v & Hd & Hx & ->). destruct (Fx f eq_refl) as (dd' & Hd' & Hx').
    rewrite Hd in Hd'. injection Hd' as <-. rewrite (exactly_one _ _ _ _ Hx Hx').
    now destruct (nd_obj nd).
  - intros ->. split; [exact N0|]. eexists _, _, _. split; [exact Ck|]. rewrite kind_of_class_id.
    split; [reflexivity|]. rewrite Ebo.
    destruct (fast_readers bo (okind (nd_obj nd))) as [f|] eqn:Hf; [|exact Rb].
    destruct (Fx f eq_refl) as (dd & Hd & Hx). exists dd. eexists. split; [exact Hd|]. split; [exact Hx|].
    now destruct (nd_obj nd).
Qed.

(** All numbers of a saved file. *)
Lemma fast_saved : forall lim z bo d o t, walks_refs d -> ids_distinct d -> all_ok d ->
  (forall a nd, in_doc d a -> dc_heap d a = Ok nd -> plain (okind (nd_obj nd)) (oval (nd_obj nd))) ->
  save lim z bo d = (o, None) -> Forall is_byte (run_ops o) -> open_table (run_ops o) = Ok t ->
  forall n ob, 0 < n -> read_object t n = Ok (Some ob) <-> fast_object t n ob.
Proof.
  intros lim z bo d o t W I A Pl H By T n ob Hn.
  destruct (completed lim z bo d o W I H) as (order & v & ss & ND & Io & Bf & Ls & Hv & Hl & S & E & _).
  pose proof (completed_table bo d order z v ss Hv Hl S) as T'. rewrite <- E in T'.
  rewrite T in T'. injection T' as ->. rewrite E in By.
  destruct (stores_ok _ _ _ _ _ _ _ S) as [Ls' F].
  destruct (Z.le_gt_cases n (len order)) as [Le|Gt].
  - destruct (number_all order n ND) as (a & Ia & ->); [lia|]. apply Io in Ia.
    destruct (completed_node lim z bo d o W I H a Ia) as [nd Ea].
    rewrite (fast_read bo d order _ _ _ ss ND Io A S By a nd Ia Ea (Pl a nd Ia Ea)).
    rewrite (completed_read bo d order _ _ _ ss ND Io A S a nd Ia Ea). split; [congruence|now intros ->].
  - set (tb := table _ _ _ _ ss).
    assert (position tb n = Err IndexErr) as P.
    { unfold position. cbn [tb table of_positions].
      rewrite (proj2 (nth_error_None _ _)); [reflexivity|]. rewrite offsets_length. unfold len in Gt. lia. }
    split.
    + unfold read_object. destruct (Z.eqb_spec n 0); [lia|]. rewrite P. discriminate.
    + intros (_ & cc & dt & k & Ck & _). unfold chunk_at in Ck. rewrite P in Ck. discriminate Ck.
Qed.

(** ** Memory *)

Lemma fast_memory : forall t self kids h n, (forall ob, read_object t n = Ok (Some ob) <-> fast_object t n ob) ->
  0 < n -> fast_heap t self kids h -> forall nd, h n = Ok nd <-> load t self kids n = Ok nd.
Proof.
  intros t self kids h n Hn H0 Hh nd. specialize (Hh n H0). unfold load.
  destruct (h n) as [nd'|e].
  - destruct Hh as (ob & Hf & ->). apply Hn in Hf. rewrite Hf. reflexivity.
  - split; [discriminate|]. destruct (read_object t n) as [[ob|]|e'] eqn:E; try discriminate.
    destruct (Hh ob). now apply Hn.
Qed.

Lemma load_fast : forall t self kids, (forall n ob, 0 < n -> read_object t n = Ok (Some ob) <-> fast_object t n ob) ->
  fast_heap t self kids (load t self kids).
Proof.
  intros t self kids H n Hn. unfold load. destruct (read_object t n) as [[ob|]|e] eqn:E.
  - exists ob. split; [now apply H|reflexivity].
  - intros ob Hf. apply H in Hf; [|exact Hn]. congruence.
  - intros ob Hf. apply H in Hf; [|exact Hn]. congruence.
Qed.

(** ** Saves *)

Lemma over_heap : forall lim z bo d h v, save_over lim z bo (with_heap d h) v = save_over lim z bo d v.
Proof.
  intros lim z bo d h v.
  assert (head_before z bo (with_heap d h) = head_before z bo d) as E1 by reflexivity.
  assert (head_after z bo (with_heap d h) = head_after z bo d) as E2 by reflexivity.
  assert (dc_content (with_heap d h) = dc_content d) as E3 by reflexivity.
  assert (dc_self (with_heap d h) = dc_self d) as E4 by reflexivity.
  unfold save_over. rewrite E1, E2, E3, E4. reflexivity.
Qed.

(** Only the objects that are reached matter. *)
Lemma saves_on : forall lim z bo d h (U : Z -> Prop), (dc_content d <> 0 -> U (dc_content d)) ->
  (forall a, U a -> h a = dc_heap d a) ->
  (forall a nd, U a -> dc_heap d a = Ok nd -> (forall k, In k (nd_kids nd) -> U k) /\
     (forall r, In r (obj_refs (nd_obj nd)) -> r <> 0 -> U r)) ->
  save lim z bo (with_heap d h) = save lim z bo d.
Proof.
  intros lim z bo d h U Hc Hs Hk.
  rewrite <- (over_same lim z bo d (fun _ => h) U Hc (fun _ => Hs) Hk).
  rewrite <- (over_heap lim z bo d h). symmetry.
  apply (over_same lim z bo (with_heap d h) (fun _ => h) (fun _ => True)); [trivial| |intros; now split].
  intros done a _. cbn [with_heap dc_heap]. reflexivity.
Qed.

Lemma saves_alike : forall lim z bo d h, walks_refs d -> (forall a, in_doc d a -> h a = dc_heap d a) ->
  save lim z bo (with_heap d h) = save lim z bo d.
Proof.
  intros lim z bo d h W H. apply (saves_on lim z bo d h (in_doc d)); [|exact H|].
  - intros N. split; [exact N|constructor].
  - intros a nd Ha Ea. split; intros k Hk.
    + apply (in_doc_step d a k Ha), (in_doc_kid d a k W Ha). exists nd. now split.
    + intros Nk. apply (in_doc_step d a k Ha). exists nd. auto.
Qed.

Lemma byte_list : forall l, forallb byte_ok l = true -> Forall is_byte l.
Proof.
  intros l H. apply Forall_forall. intros x Hx. rewrite forallb_forall in H. specialize (H x Hx).
  unfold byte_ok in H. unfold is_byte. lia.
Qed.
