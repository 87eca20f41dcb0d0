(** The results on copying put together for a store that is in order. *)
From Coq Require Import ZArith List Bool Lia.
From Verif Require Import Base Copy CopySpec CopyProofs CopyEnds CopyTree.
Import ListNotations.
Open Scope Z_scope.

(** What may be shared: data that was there. *)
Definition shareable (s : store) (r : Z) : Prop := r < s_new s /\ (exists u, s_mem s r = Some u) /\ data_only (s_mem s) r.

Lemma leads_first : forall m a b, leads m a b -> a = b \/ exists t, m a = Some t /\ exists c, In (VRef c) (values t).
Proof.
  intros m a b L. induction L as [|b t c L IH E I]; [auto|]. right. destruct IH as [->|IH]; [|exact IH]. eauto.
Qed.

Lemma data_self : forall m x t, m x = Some t -> (match t with TBlob _ | TOther _ => True | _ => False end) -> data_only m x.
Proof.
  intros m x t E H b u L Eb O. destruct (leads_first m x b L) as [<-|(t' & E' & c & I)].
  - rewrite E in Eb. injection Eb as <-. destruct t; contradiction.
  - rewrite E in E'. injection E' as <-. destruct t; try contradiction; destruct I.
Qed.

Lemma leads_trans : forall m a b c, leads m a b -> leads m b c -> leads m a c.
Proof. intros m a b c L K. induction K as [|x t y K IH E I]; [exact L|]. econstructor; eauto. Qed.

Lemma copied : forall lim cl root s a s' b, sound cl s -> a < s_new s -> copy lim cl root s a = (s', Ok b) ->
  b = s_new s /\ s_new s < s_new s' /\ step root (shareable s) s s' /\ (forall n, equal n (s_mem s') (VRef a) (VRef b)) /\
  result_of cl root (s_new s) (s_mem s) (shareable s) s s' a b.
Proof.
  intros lim cl root s a s' b [O L D] Ha H.
  assert (agrees (s_new s) (s_mem s) s) as Ag by (split; [lia|auto]).
  destruct (copy_ok cl root (s_new s) (s_mem s) (shareable s) O) with (lim := lim) as [C R].
  - intros r (H1 & H2 & _). auto.
  - intros x t Hx Ex Ht. split; [exact Hx|]. split; [eauto|]. exact (data_self _ _ _ Ex Ht).
  - intros x l y Hx Ex I. destruct (L x l y Hx Ex I) as [|Dy]; [auto|right]. destruct (O x _ Hx Ex) as [Ox _]. destruct (Ox y I). split; auto.
  - intros c i k d Ec I. specialize (D c i k d Ec I). destruct d as [v|t].
    + intros y ->. exact (D y eq_refl).
    + destruct (D root) as [B Dt]. split; [exact B|]. intros y Iy. exact (Dt y Iy).
  - destruct (C s a s' b Ag Ha H) as (S1 & Hb & Q). destruct (R s a s' b Ag Ha H) as [-> Ro]. split; [reflexivity|]. split; [lia|]. auto.
Qed.

(** What can be reached from new things is new, or data that was there. *)
Lemma reached : forall cl root s s' b, sound cl s -> step root (shareable s) s s' -> s_new s <= b < s_new s' ->
  forall x, leads (s_mem s') b x -> s_new s <= x < s_new s' \/ shareable s x.
Proof.
  intros cl root s s' b [O _ _] (S1 & S2 & S3) Hb x L. induction L as [|x t y L IH E I]; [auto|]. destruct IH as [Hx|(Hx & Ex & Dx)].
  - destruct (S3 x Hx) as (t' & E' & _ & K). rewrite E in E'. injection E' as <-. destruct (K _ I y eq_refl) as [Sy|Hy]; auto.
  - rewrite S1 in E by exact Hx. right. destruct (O x t Hx E) as [Ox _]. destruct (Ox y I) as [Hy Ey]. split; [exact Hy|]. split; [exact Ey|].
    intros z u Lz. apply (Dx z u). eapply leads_trans; [|exact Lz]. econstructor; [constructor|exact E|exact I].
Qed.

(** What can be reached from old things is old. *)
Lemma reached_old : forall cl s s', sound cl s -> (forall z, z < s_new s -> s_mem s' z = s_mem s z) ->
  forall a x, a < s_new s -> leads (s_mem s') a x -> x < s_new s.
Proof.
  intros cl s s' [O _ _] K a x Ha L. induction L as [|x t y L IH E I]; [exact Ha|]. rewrite K in E by exact IH.
  destruct (O x t IH E) as [Ox _]. apply (Ox y I).
Qed.

Lemma nth_Forall2 : forall X Y (R : X -> Y -> Prop) l r, Forall2 R l r -> forall i x, nth_error l i = Some x -> exists y, nth_error r i = Some y /\ R x y.
Proof.
  intros X Y R l r F. induction F as [|x y l r H F IH]; intros i u N; [destruct i; discriminate|]. destruct i as [|i]; cbn [nth_error] in *; [injection N as <-; eauto|auto].
Qed.

(** A property of the copy. *)
Lemma copied_property : forall lim cl root s a s' b r c p k v, sound cl s -> a < s_new s -> copy lim cl root s a = (s', Ok b) ->
  s_mem s a = Some (TObject r c p) -> get p k = Some v ->
  exists p' w, s_mem s' b = Some (TObject root c p') /\ get p' k = Some w /\ post_property root (s_new s) (s_mem s) b (s_mem s') v w.
Proof.
  intros lim cl root s a s' b r c p k v So Ha H Ea G. destruct (copied _ _ _ _ _ _ _ So Ha H) as (Eb & _ & _ & _ & R).
  unfold result_of in R. rewrite Ea in R. destruct R as (i & p1 & Ec & Kd & ws & Ln & Em & F & _).
  apply get_in in G. destruct So as [O _ _]. destruct (O a _ Ha Ea) as [_ ND].
  assert (exists w, In (k, w) (combine (map fst p) ws) /\ post_property root (s_new s) (s_mem s) b (s_mem s') v w) as (w & Iw & Po).
  { clear - F G. induction F as [|[k' u'] w p ws E F IH]; [destruct G|]. cbn [map fst combine In]. destruct G as [G|G].
    - injection G as -> ->. exists w. split; [auto|apply E].
    - destruct (IH G) as (w' & Iw & Qw). exists w'. auto. }
  eexists. exists w. split; [exact Em|]. split; [|exact Po]. apply sets_get; [|exact Iw].
  rewrite (proj1 (combine_keys _ _ (map fst p) ws ltac:(rewrite map_length; lia))). exact ND.
Qed.

(** What an [__init__] sets. *)
Lemma init_get : forall l s root b r c p0, b < s_new s -> s_mem s b = Some (TObject r c p0) -> NoDup (map fst l) ->
  exists p, s_mem (init s root b l) b = Some (TObject r c p) /\ s_new s <= s_new (init s root b l) /\
  (forall k, ~ In k (map fst l) -> get p k = get p0 k) /\
  forall k d, In (k, d) l -> match d with DValue v => get p k = Some v | DNew _ => exists y, get p k = Some (VRef y) /\ s_new s <= y < s_new (init s root b l) end.
Proof.
  induction l as [|[k d] l IH]; intros s root b r c p0 Hb E ND; cbn [init].
  - exists p0. split; [exact E|]. split; [lia|]. split; [reflexivity|intros k d []].
  - cbn [map fst] in ND. apply NoDup_cons_iff in ND as [Nk ND].
    assert (forall s1 v, s_new s <= s_new s1 -> s_mem s1 b = Some (TObject r c p0) ->
      exists p, s_mem (init (update s1 b (add k v)) root b l) b = Some (TObject r c p) /\ s_new s <= s_new (init (update s1 b (add k v)) root b l) /\
        s_new s1 <= s_new (init (update s1 b (add k v)) root b l) /\
        (forall j, ~ In j (map fst l) -> j <> k -> get p j = get p0 j) /\ get p k = Some v /\
        forall j d, In (j, d) l -> match d with DValue v => get p j = Some v | DNew _ => exists y, get p j = Some (VRef y) /\ s_new s <= y < s_new (init (update s1 b (add k v)) root b l) end) as Step.
    { intros s1 v Hn E1. destruct (IH (update s1 b (add k v)) root b r c (set p0 k v)) as (p & I1 & I2 & I3 & I4).
      - cbn [update s_new]. lia.
      - rewrite (update_same _ _ _ _ E1). reflexivity.
      - exact ND.
      - cbn [update s_new] in I2, I4. exists p. split; [exact I1|]. split; [lia|]. split; [exact I2|]. split; [intros j Nj Nd; rewrite I3 by exact Nj; now apply get_set_other|].
        split; [rewrite I3 by exact Nk; apply get_set_same|]. intros j d0 Ij. specialize (I4 j d0 Ij). destruct d0; [exact I4|]. destruct I4 as (y & G & Hy). exists y. split; [exact G|]. lia. }
    destruct d as [v|t].
    + destruct (Step s v (Z.le_refl _) E) as (p & I1 & I2 & _ & I3 & I4 & I5). exists p. split; [exact I1|]. split; [exact I2|].
      split; [intros j Nj; cbn [map fst In] in Nj; apply I3; intuition|]. intros j d [Ij|Ij]; [injection Ij as <- <-; exact I4|exact (I5 j d Ij)].
    + destruct (new_thing s (t root)) as [s1 x] eqn:En. pose proof (new_other s (t root) b ltac:(lia)) as No. rewrite En in No. cbn [fst] in No.
      unfold new_thing in En. injection En as E1 Ex. assert (s_new s1 = s_new s + 1) as N1 by now rewrite <- E1.
      destruct (Step s1 (VRef x)) as (p & I1 & I2 & I6 & I3 & I4 & I5); [lia|now rewrite No|]. exists p. split; [exact I1|]. split; [exact I2|].
      split; [intros j Nj; cbn [map fst In] in Nj; apply I3; intuition|]. intros j d [Ij|Ij]; [injection Ij as <- <-|exact (I5 j d Ij)].
      exists x. split; [exact I4|]. lia.
Qed.

(** What a new object has. *)
Lemma made : forall cl s root c s' b i, make cl s root c = (s', Ok b) -> cl c = Some i -> NoDup (map fst (c_defaults i)) ->
  b = s_new s /\ s_new s < s_new s' /\ exists p, s_mem s' b = Some (TObject root c p) /\
  (forall k, get p k <> None <-> In k (map fst (c_defaults i))) /\
  forall k d, In (k, d) (c_defaults i) -> match d with DValue v => get p k = Some v | DNew _ => exists y, get p k = Some (VRef y) /\ s_new s <= y < s_new s' end.
Proof.
  intros cl s root c s' b i H Ec ND. unfold make in H. rewrite Ec in H. destruct (new_thing s (TObject root c [])) as [s1 x] eqn:En.
  pose proof (new_same s (TObject root c [])) as Ns. rewrite En in Ns. cbn [fst] in Ns. unfold new_thing in En. injection En as E1 <-.
  assert (s_new s1 = s_new s + 1) as N1 by now rewrite <- E1. destruct (c_noargs i); [|discriminate]. injection H as <- <-.
  destruct (init_get (c_defaults i) s1 root (s_new s) root c [] ltac:(lia) Ns ND) as (p & I1 & I2 & I3 & I4).
  split; [reflexivity|]. split; [lia|]. exists p. split; [exact I1|]. split.
  - intros k. split.
    + intros G. destruct (in_dec Z.eq_dec k (map fst (c_defaults i))) as [I|I]; [exact I|]. rewrite I3 in G by exact I. now contradiction G.
    + intros I G. apply in_map_iff in I as ([k' d] & E & I). cbn [fst] in E. subst k'. specialize (I4 k d I). destruct d as [v|t]; [congruence|]. destruct I4 as (y & G' & _). congruence.
  - intros k d I. specialize (I4 k d I). destruct d as [v|t]; [exact I4|]. destruct I4 as (y & G & Hy). exists y. split; [exact G|]. lia.
Qed.
