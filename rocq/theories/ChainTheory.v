(** Lemmas for C64. *)
From Coq Require Import ZArith List Bool Lia.
From Verif Require Import MobIdProofs PrimProofs Fits Base IoCtx RoundTrip Text Dates Objects ObjSpec ObjProofs ObjTheory DateSpec
  FileModel FileSpec HeaderProofs TableProofs SaveProofs SizeProofs MoveProofs ResaveSpec ResaveTheory Opened AgainProofs
  MadeTheory BothOrders ChainSpec.
Import ListNotations.
Open Scope Z_scope.

(** The file with table [t] holds the document [d], its objects in this [order]. *)
Record holds (d : document) (order : list Z) (t : opened) : Prop := {
  ho_distinct : NoDup order;
  ho_listed : forall a, In a order <-> in_doc d a;
  ho_node : forall a, in_doc d a -> exists nd, dc_heap d a = Ok nd;
  ho_read : forall a nd, in_doc d a -> dc_heap d a = Ok nd ->
    read_object t (number order a) = Ok (Some (obj_map (number order) (nd_obj nd)));
  ho_root : hd_root (of_head t) = number order (dc_content d);
  ho_count : hd_count (of_head t) = len order }.

Lemma saved_in_order : forall lim z bo d o t, walks_refs d -> ids_distinct d -> all_ok d -> save lim z bo d = (o, None) ->
  open_table (run_ops o) = Ok t -> exists l v, walk_doc lim d = (l, None) /\ mac_encode (dc_version d) = Ok v /\
    of_stamp t = to_timestamp z (dc_saved d) /\ of_version t = version_read v /\ hd_bo (of_head t) = bo /\
    holds d (fresh [] l) t.
Proof.
  intros lim z bo d o t W I A H T.
  destruct (completed lim z bo d o W I H) as (order & v & ss & ND & Io & Bf & Ls & Hv & Hn & S & E & l & Hl & Eo).
  pose proof (completed_table bo d order z v ss Hv Hn S) as T'. rewrite <- E in T'.
  rewrite T in T'. injection T' as ->. exists l, v. rewrite <- Eo. split; [exact Hl|]. split; [exact (proj1 Hv)|].
  split; [reflexivity|]. split; [reflexivity|]. split; [reflexivity|]. constructor; trivial.
  - exact (completed_node lim z bo d o W I H).
  - intros a nd Ha Ea. exact (completed_read bo d order _ _ _ ss ND Io A S a nd Ha Ea).
  - cbn [of_head table saved_head hd_root]. destruct (Z.eq_dec (dc_content d) 0) as [E0|Nz].
    + rewrite E0, number_none by (intros G; apply Io in G; now apply in_doc_not0 in G).
      clear - Io E0. destruct order as [|x order]; [reflexivity|].
      destruct (proj1 (Io x) (or_introl eq_refl)) as [F _]. contradiction.
    + destruct (Ls Nz) as [p Ep]. rewrite Ep at 2. rewrite number_new; [rewrite Ep, len_app; reflexivity|].
      rewrite Ep in ND. apply NoDup_remove_2 in ND. now rewrite app_nil_r in ND.
Qed.

Lemma saved_holds : forall lim z bo d o t, walks_refs d -> ids_distinct d -> all_ok d -> save lim z bo d = (o, None) ->
  open_table (run_ops o) = Ok t -> exists order, holds d order t.
Proof.
  intros lim z bo d o t W I A H T.
  destruct (saved_in_order lim z bo d o t W I A H T) as (l & v & _ & _ & _ & _ & _ & G). eauto.
Qed.

Lemma number_all : forall l n, NoDup l -> 1 <= n <= len l -> exists a, In a l /\ n = number l a.
Proof.
  intros l n ND H. unfold len in H. destruct (nth_error l (Z.to_nat (n - 1))) as [a|] eqn:E.
  - apply nth_error_split in E as (p & s & -> & L). exists a. split; [apply in_elt|].
    rewrite number_new; [unfold len; lia|]. apply NoDup_remove_2 in ND. intros G. apply ND, in_or_app. now left.
  - apply nth_error_None in E. lia.
Qed.

Section Held.
Context (d : document) (order : list Z) (t : opened) (Hd : holds d order t) (A : all_ok d).

Lemma held_none : number order 0 = 0.
Proof. apply number_none. intros G. apply (ho_listed _ _ _ Hd) in G. now apply in_doc_not0 in G. Qed.

(** The objects of the opened file are those of the document. *)
Lemma held_objects : forall z self kids n,
  in_doc (opened_doc z t self kids) n <-> exists a, in_doc d a /\ n = number order a.
Proof.
  intros z self kids n. split.
  - intros [Nc R]. cbn [opened_doc dc_content dc_heap] in Nc, R. rewrite (ho_root _ _ _ Hd) in Nc, R.
    induction R as [|x y R IH (nd & En & Ir & Ny)].
    + exists (dc_content d). split; [|reflexivity]. apply (ho_listed _ _ _ Hd). now apply number_in.
    + destruct IH as (b & Hb & ->). destruct (ho_node _ _ _ Hd b Hb) as [nb Eb].
      apply load_inv in En as (ob & Ro & ->). rewrite (ho_read _ _ _ Hd b nb Hb Eb) in Ro. injection Ro as <-.
      cbn [nd_obj] in Ir. rewrite refs_map_obj in Ir by exact (proj1 (A b nb Hb Eb)).
      apply in_map_iff in Ir as (r & <- & Ir). exists r. split; [|reflexivity].
      apply (ho_listed _ _ _ Hd). now apply number_in.
  - intros (a & [N0 R] & ->). assert (number order (dc_content d) <> 0) as Nc.
    { apply number_in, (ho_listed _ _ _ Hd). split; [exact N0|constructor]. }
    split; [cbn [opened_doc dc_content]; now rewrite (ho_root _ _ _ Hd)|].
    cbn [opened_doc dc_content dc_heap]. rewrite (ho_root _ _ _ Hd).
    induction R as [|x y R IH (nd & En & Ir & Ny)]; [constructor|].
    assert (in_doc d x) as Hx by (now split).
    eapply reach_step; [exact IH|]. unfold refers, load. rewrite (ho_read _ _ _ Hd x nd Hx En).
    eexists. split; [reflexivity|]. cbn [nd_obj]. rewrite refs_map_obj by exact (proj1 (A x nd Hx En)).
    split; [now apply in_map|]. apply number_in, (ho_listed _ _ _ Hd).
    apply (in_doc_step d x y Hx). exists nd. auto.
Qed.
End Held.

Lemma number_map : forall (f g : Z -> Z) l a, (forall x, In x l -> f (g x) = x) -> g (f a) = a ->
  number (map g l) a = number l (f a).
Proof.
  intros f g l a. induction l as [|x l IH]; intros H Ha; [reflexivity|]. cbn [map number].
  rewrite IH by (trivial; intros y Hy; apply H; now right). specialize (H x (or_introl eq_refl)).
  destruct (Z.eqb_spec (g x) a) as [E|N], (Z.eqb_spec x (f a)) as [E'|N']; congruence.
Qed.

(** A file that holds what is opened from a file that holds [d] holds [d]. *)
Lemma holds_through : forall d order t z self kids order' t', all_ok d -> holds d order t ->
  holds (opened_doc z t self kids) order' t' -> holds d (map (numbered order) order') t'.
Proof.
  intros d order t z self kids order' t' A H H'.
  assert (forall a, in_doc d a -> numbered order (number order a) = a) as NN.
  { intros a Ha. apply numbered_number. now apply (ho_listed _ _ _ H). }
  assert (forall n, In n order' <-> exists a, in_doc d a /\ n = number order a) as In'.
  { intros n. rewrite (ho_listed _ _ _ H'). apply held_objects; [exact H|exact A]. }
  assert (forall a, In a (map (numbered order) order') <-> in_doc d a) as Ia.
  { intros a. rewrite in_map_iff. split.
    - intros (n & <- & Hn). apply In' in Hn as (b & Hb & ->). now rewrite NN.
    - intros Ha. exists (number order a). split; [now apply NN|]. apply In'. eauto. }
  assert (forall a, in_doc d a -> number (map (numbered order) order') a = number order' (number order a)) as NM.
  { intros a Ha. apply number_map; [|now apply NN]. intros x Hx. apply In' in Hx as (b & Hb & ->). now rewrite NN. }
  assert (number (map (numbered order) order') 0 = number order' (number order 0)) as N0.
  { rewrite (held_none _ _ _ H), (held_none _ _ _ H'). apply number_none. intros G. apply Ia in G. now apply in_doc_not0 in G. }
  constructor.
  - apply NoDup_map_on; [|exact (ho_distinct _ _ _ H')]. intros x y Hx Hy E.
    apply In' in Hx as (a & Ha & ->). apply In' in Hy as (b & Hb & ->). rewrite !NN in E by trivial. now subst.
  - exact Ia.
  - exact (ho_node _ _ _ H).
  - intros a nd Ha Ea. rewrite NM by exact Ha.
    pose proof (ho_read _ _ _ H a nd Ha Ea) as R.
    assert (in_doc (opened_doc z t self kids) (number order a)) as Hn by (apply (held_objects d order t H A); eauto).
    erewrite (ho_read _ _ _ H' (number order a)); [|exact Hn|cbn [opened_doc dc_heap]; unfold load; rewrite R; reflexivity].
    cbn [nd_obj]. rewrite map_map_obj. f_equal. f_equal. apply map_ext_obj. intros r Hr.
    destruct (Z.eq_dec r 0) as [->|Nr]; [now rewrite N0|]. rewrite NM; [reflexivity|].
    apply (in_doc_step d a r Ha). exists nd. auto.
  - rewrite (ho_root _ _ _ H'). cbn [opened_doc dc_content]. rewrite (ho_root _ _ _ H).
    destruct (Z.eq_dec (dc_content d) 0) as [->|Nc]; [now rewrite N0|]. symmetry. apply NM. split; [exact Nc|constructor].
  - rewrite (ho_count _ _ _ H'). unfold len. now rewrite map_length.
Qed.

Lemma chain_holds : forall d file, walks_refs d -> ids_distinct d -> all_ok d -> saved_again d file ->
  exists order t, open_table file = Ok t /\ holds d order t /\ forall z self kids, all_ok (opened_doc z t self kids).
Proof.
  intros d file W I A H. induction H as [lim z bo o S|file t lim z bo self kids o _ IH T F S].
  - destruct (completed lim z bo d o W I S) as (order & v & ss & _ & _ & _ & _ & Hv & Hn & St & E & _).
    pose proof (completed_table bo d order z v ss Hv Hn St) as T. rewrite <- E in T.
    destruct (saved_holds _ _ _ _ _ _ W I A S T) as [order' H].
    eexists. eexists. split; [exact T|]. split; [exact H|]. intros z' self kids.
    exact (proj1 (saved_opened lim z bo d o _ self kids W I A S T)).
  - destruct IH as (order & t1 & T1 & H & A1). rewrite T in T1. injection T1 as <-.
    pose proof (opened_walks z t self kids F) as W'. pose proof (opened_ids z t self kids) as I'.
    specialize (A1 z self kids).
    destruct (completed lim z bo _ o W' I' S) as (order2 & v & ss & _ & _ & _ & _ & Hv & Hn & St & E & _).
    pose proof (completed_table bo _ order2 z v ss Hv Hn St) as T2. rewrite <- E in T2.
    destruct (saved_holds _ _ _ _ _ _ W' I' A1 S T2) as [order' H'].
    eexists. eexists. split; [exact T2|]. split; [exact (holds_through _ _ _ _ _ _ _ _ A H H')|]. intros z' self' kids'.
    exact (proj1 (saved_opened lim z bo _ o _ self' kids' W' I' A1 S T2)).
Qed.

(** ** Looking alike *)

Lemma held_alike : forall d order t, all_ok d -> holds d order t -> forall n a, a = 0 \/ in_doc d a ->
  alike n (in_document d) (in_file t) a (number order a).
Proof.
  intros d order t A H. induction n as [|n IH]; intros a Ha; [exact Logic.I|]. cbn [alike].
  destruct Ha as [->|Ha]; [left; split; [reflexivity|exact (held_none _ _ _ H)]|]. right.
  split; [now apply in_doc_not0 in Ha|]. split; [now apply number_in, (ho_listed _ _ _ H)|].
  destruct (ho_node _ _ _ H a Ha) as [nd E]. exists (nd_obj nd), (obj_map (number order) (nd_obj nd)).
  split; [unfold in_document; now rewrite E|]. split; [unfold in_file; now rewrite (ho_read _ _ _ H a nd Ha E)|].
  split; [now rewrite map_map_obj|]. rewrite refs_map_obj by exact (proj1 (A a nd Ha E)).
  assert (forall r, In r (obj_refs (nd_obj nd)) -> r = 0 \/ in_doc d r) as G.
  { intros r Hr. destruct (Z.eq_dec r 0) as [->|Nr]; [now left|]. right. apply (in_doc_step d a r Ha). exists nd. auto. }
  induction (obj_refs (nd_obj nd)) as [|r l IHl]; cbn [map]; constructor.
  - apply IH, G. now left.
  - apply IHl. intros x Hx. apply G. now right.
Qed.

(** ** Going on *)

Lemma read_version_encodes : forall s v, mac_encode s = Ok v -> exists w, mac_encode (version_read v) = Ok w.
Proof.
  intros s v H. rewrite (version_text s v H). apply mac_encode_some.
  assert (Forall mac_char s) as Hs.
  { apply encode_forall in H. clear - H. induction H as [|c x s v E _ IH]; constructor; [|exact IH]. exists x. exact (mac_enc_pair c x E). }
  assert (forall l, Forall mac_char l -> Forall mac_char (drop_nuls l)) as D.
  { induction 1 as [|x l Hx Hl IH]; cbn [drop_nuls]; [constructor|]. destruct (x =? 0); [exact IH|now constructor]. }
  unfold trim_nuls. apply Forall_rev, D, Forall_rev, D. apply Forall_app. split; [now apply Forall_firstn'|].
  apply Forall_forall. intros x Hx. apply repeat_spec in Hx as ->. exists 32. left. lia.
Qed.

Lemma number_before : forall p a s y, NoDup (p ++ a :: s) -> In y p -> number (p ++ a :: s) y < number (p ++ a :: s) a.
Proof.
  intros p a s y ND H. rewrite number_app by exact H. apply NoDup_remove_2 in ND.
  rewrite number_new by (intros G; apply ND, in_or_app; now left). pose proof (number_range p y). lia.
Qed.

Lemma saved_continues : forall lim z bo d o t z' lim' bo' self kids,
  walks_refs d -> ids_distinct d -> all_ok d -> save lim z bo d = (o, None) -> open_table (run_ops o) = Ok t ->
  follows kids -> mktime_right z' -> unambiguous z' (of_stamp t) -> (Z.to_nat (hd_count (of_head t)) <= lim')%nat ->
  exists o', save lim' z' bo' (opened_doc z' t self kids) = (o', None).
Proof.
  intros lim z bo d o t z' lim' bo' self kids W I A H T Fo M U Hl.
  pose proof (proj1 (saved_opened lim z bo d o t self kids W I A H T)) as A'.
  destruct (completed lim z bo d o W I H) as (order & v & ss & ND & Io & Bf & Ls & Hv & Hn & S & E & _).
  pose proof (completed_table bo d order z v ss Hv Hn S) as T'. rewrite <- E in T'.
  rewrite T in T'. injection T' as Et.
  assert (holds d order t) as Hd.
  { constructor; trivial.
    - exact (completed_node lim z bo d o W I H).
    - intros a nd Ha Ea. rewrite Et. exact (completed_read bo d order _ _ _ ss ND Io A S a nd Ha Ea).
    - rewrite Et. cbn [of_head table saved_head hd_root]. destruct (Z.eq_dec (dc_content d) 0) as [E0|Nz].
      + rewrite E0, number_none by (intros G; apply Io in G; now apply in_doc_not0 in G).
        destruct order as [|x order]; [reflexivity|].
        destruct (proj1 (Io x) (or_introl eq_refl)) as [F _]. contradiction.
      + destruct (Ls Nz) as [p Ep]. rewrite Ep at 2. rewrite number_new; [rewrite Ep, len_app; reflexivity|].
        rewrite Ep in ND. apply NoDup_remove_2 in ND. now rewrite app_nil_r in ND.
    - rewrite Et. reflexivity. }
  assert (forall a nd, in_doc d a -> dc_heap d a = Ok nd -> exists c data, wbody c (nd_obj nd) = Ok data /\ len data < 2 ^ 32) as Wr.
  { intros a nd Ha Ea. apply Io in Ha. clear - S Ha Ea.
    induction S as [done|done b l ss nb m data Eb Es _ Hw _ Hs _ IH]; [destruct Ha|].
    destruct Ha as [<-|Ha]; [|auto]. rewrite Eb in Ea. injection Ea as <-. eauto. }
  assert (forall a nd, in_doc d a -> dc_heap d a = Ok nd ->
    wbody (all_numbered bo') (obj_map (number order) (nd_obj nd)) = wbody (all_numbered bo') (nd_obj nd)) as Mv.
  { intros a nd Ha Ea. apply move_refs; [reflexivity|]. intros r Hr. unfold wref, all_numbered. cbn [obo orefs].
    destruct (Z.eqb_spec r 0) as [->|Nr]; [rewrite (held_none _ _ _ Hd); reflexivity|].
    destruct (Z.eqb_spec (number order r) 0) as [F|_]; [|reflexivity]. exfalso. revert F. apply number_in, Io.
    apply (in_doc_step d a r Ha). exists nd. auto. }
  apply (save_completes lim' z' bo' (opened_doc z' t self kids) (map (number order) order)).
  - now apply opened_walks.
  - apply opened_ids.
  - exact A'.
  - apply opened_descends. intros n ob r Hn' R Hr. apply (held_objects d order t Hd A) in Hn' as (a & Ha & ->).
    destruct (ho_node _ _ _ Hd a Ha) as [nd Ea]. rewrite (ho_read _ _ _ Hd a nd Ha Ea) in R. injection R as <-.
    rewrite refs_map_obj in Hr by exact (proj1 (A a nd Ha Ea)). apply in_map_iff in Hr as (y & <- & Hy).
    pose proof Ha as Ho. apply Io in Ho. destruct (Z.eq_dec y 0) as [->|Ny].
    { rewrite (held_none _ _ _ Hd). pose proof (number_range order a). apply number_in in Ho. lia. }
    apply in_split in Ho as (p & s & Eo). rewrite Eo. apply number_before; [now rewrite <- Eo|].
    apply (Bf p a s Eo). exists nd. auto.
  - split; [rewrite len_map; exact Hn|]. intros n Hn'. apply (held_objects d order t Hd A) in Hn' as (a & Ha & ->).
    split; [now apply in_map, Io|]. destruct (ho_node _ _ _ Hd a Ha) as [nd Ea].
    cbn [opened_doc dc_heap dc_self]. unfold load. rewrite (ho_read _ _ _ Hd a nd Ha Ea).
    eexists. split; [reflexivity|]. cbn [nd_doc nd_obj]. split; [reflexivity|].
    destruct (Wr a nd Ha Ea) as (c & data & Hw & Hs). specialize (A a nd Ha Ea).
    assert (obj_fits (all_numbered bo') (nd_obj nd)) as Ft.
    { apply (fits_moves c); [exact A|apply obj_fit; eauto|]. intros r _. right. exists 1.
      split; [reflexivity|]. unfold fits_u32. lia. }
    split.
    + apply obj_fit; [now apply ok_map|]. rewrite (Mv a nd Ha Ea). now apply obj_fit.
    + intros data' Hw'. rewrite (Mv a nd Ha Ea) in Hw'. unfold len in *. now rewrite (wsz_body _ c _ _ _ Hw' Hw).
  - split.
    + rewrite Et. cbn [opened_doc dc_version of_version table]. apply (read_version_encodes _ v (proj1 Hv)).
    + cbn [opened_doc dc_saved]. rewrite (U _ (M (of_stamp t))). rewrite Et. apply Hv.
  - rewrite map_length. rewrite (ho_count _ _ _ Hd) in Hl. unfold len in Hl. lia.
Qed.

Lemma chain_continues : forall d file t z lim bo self kids, walks_refs d -> ids_distinct d -> all_ok d -> saved_again d file ->
  open_table file = Ok t -> follows kids -> mktime_right z -> unambiguous z (of_stamp t) ->
  (Z.to_nat (hd_count (of_head t)) <= lim)%nat -> exists o, save lim z bo (opened_doc z t self kids) = (o, None).
Proof.
  intros d file t z lim bo self kids W I A H T Fo M U Hl. destruct H as [lim0 z0 bo0 o0 S|file0 t0 lim0 z0 bo0 self0 kids0 o0 H T0 F0 S].
  - exact (saved_continues _ _ _ _ _ _ _ _ _ _ _ W I A S T Fo M U Hl).
  - destruct (chain_holds d file0 W I A H) as (order & t1 & T1 & _ & A1). rewrite T0 in T1. injection T1 as <-.
    exact (saved_continues _ _ _ _ _ _ _ _ _ _ _ (opened_walks z0 t0 self0 kids0 F0) (opened_ids z0 t0 self0 kids0)
      (A1 z0 self0 kids0) S T Fo M U Hl).
Qed.

(** ** Settling *)

Lemma other_order : forall lim z bo bo' d o, walks_refs d -> all_ok d -> save lim z bo d = (o, None) ->
  exists o', save lim z bo' d = (o', None) /\ length (run_ops o) = length (run_ops o').
Proof.
  intros lim z bo bo' d o W A H. destruct (alike_saves lim z bo bo' d W) as [F S].
  { intros a nd Ha E. exact (proj1 (A a nd Ha E)). }
  rewrite H in F, S. destruct (save lim z bo' d) as [o' s']. cbn [fst snd] in F, S. subst s'. exists o'.
  split; [reflexivity|]. exact (alike_run _ _ F [] [] eq_refl).
Qed.

Lemma chain_settles : forall lim z bo0 d o0 t1 self1 kids,
  walks_refs d -> ids_distinct d -> all_ok d -> follows kids -> consistent kids -> mktime_right z ->
  save lim z bo0 d = (o0, None) -> open_table (run_ops o0) = Ok t1 ->
  forall bo file, saved_with lim z kids (opened_doc z t1 self1 kids) bo file ->
  exists o, save lim z bo (opened_doc z t1 self1 kids) = (o, None) /\ file = run_ops o.
Proof.
  intros lim z bo0 d o0 t1 self1 kids W I A Fo Co M H0 T1 bo file H.
  destruct (saved_opened lim z bo0 d o0 t1 self1 kids W I A H0 T1) as (A1 & _ & V1 & V2).
  pose proof (opened_walks z t1 self1 kids Fo) as W1.
  induction H as [bo o S|bo bo' file t self o _ (o1 & S1 & ->) T S]; [eauto|].
  destruct (other_order lim z bo bo' _ o1 W1 A1 S1) as (o1' & S1' & _). exists o1'. split; [exact S1'|].
  destruct (saved_through lim z bo bo' (opened_doc z t1 self1 kids) o1 o1' t self kids) as (o' & S' & E); trivial.
  - apply opened_ids.
  - intros a nd _ En. apply load_inv in En as (ob & _ & ->). reflexivity.
  - apply M.
  - rewrite S in S'. injection S' as <-. exact E.
Qed.
