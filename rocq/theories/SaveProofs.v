(** Saving: the walk, the loop over what it yields, the file that results. *)
From Coq Require Import ZArith List Bool Lia.
From Verif Require Import Base IoCtx RoundTrip Text Dates Objects ObjSpec ObjProofs ObjTheory Fits
  FitsProofs FitRefsProofs LocProofs SizeProofs OrderProofs TextProofs FileModel FileSpec HeaderProofs TableProofs.
Import ListNotations.
Open Scope Z_scope.

(** ** The walk *)

Definition walks (lim : nat) (h : heap) : list Z -> list Z * option exn :=
  fix walks (ks : list Z) :=
  match ks with
  | [] => ([], None)
  | k :: ks' =>
    match walk lim h k with
    | (l, Some e) => (l, Some e)
    | (l, None) => let '(l', s) := walks ks' in (l ++ l', s)
    end
  end.

Lemma walks_cons : forall lim h k ks, walks lim h (k :: ks) =
  match walk lim h k with
  | (l, Some e) => (l, Some e)
  | (l, None) => let '(l', s) := walks lim h ks in (l ++ l', s)
  end.
Proof. reflexivity. Qed.

Lemma walk_S : forall lim h a, walk (S lim) h a =
  match h a with
  | Err e => ([], Some e)
  | Ok nd =>
    let '(l, s) := walks lim h (nd_kids nd) in
    match s with Some e => (l, Some e) | None => (l ++ [a], None) end
  end.
Proof. reflexivity. Qed.

Definition kid (h : heap) (a b : Z) : Prop := exists nd, h a = Ok nd /\ In b (nd_kids nd).

(** Whatever is met below an object stands before it. *)
Definition before (h : heap) (l : list Z) : Prop :=
  forall p x s, l = p ++ x :: s -> (exists nd, h x = Ok nd) /\ forall y, kid h x y -> In y p.

Lemma app_split : forall (a b p s : list Z) x, a ++ b = p ++ x :: s ->
  (exists s', a = p ++ x :: s' /\ s = s' ++ b) \/ (exists p', p = a ++ p' /\ b = p' ++ x :: s).
Proof.
  induction a as [|y a IH]; intros b p s x H; cbn [app] in H.
  - right. exists p. now split.
  - destruct p as [|z p]; cbn [app] in H.
    + injection H as -> <-. left. exists a. now split.
    + injection H as -> H. destruct (IH _ _ _ _ H) as [(s' & -> & ->)|(p' & -> & ->)].
      * left. exists s'. now split.
      * right. exists p'. now split.
Qed.

Lemma before_app : forall h a b, before h a -> before h b -> before h (a ++ b).
Proof.
  intros h a b Ha Hb p x s E. destruct (app_split _ _ _ _ _ E) as [(s' & E1 & _)|(p' & -> & E1)].
  - now apply (Ha p x s').
  - destruct (Hb p' x s E1) as [H1 H2]. split; [exact H1|]. intros y Hy. apply in_or_app. right. auto.
Qed.

Lemma before_last : forall h l a nd, before h l -> h a = Ok nd ->
  (forall y, In y (nd_kids nd) -> In y l) -> before h (l ++ [a]).
Proof.
  intros h l a nd Hl Ha Hk p x s E. destruct (app_split _ _ _ _ _ E) as [(s' & E1 & _)|(p' & -> & E1)].
  - now apply (Hl p x s').
  - destruct p' as [|z p']; [|destruct p'; discriminate E1]. injection E1 as <- <-.
    rewrite app_nil_r. split; [eauto|]. intros y (nd' & H1 & H2). apply Hk. congruence.
Qed.

Lemma walks_done : forall lim h, (forall a l, walk lim h a = (l, None) -> before h l /\ exists p, l = p ++ [a]) ->
  forall ks l, walks lim h ks = (l, None) -> before h l /\ forall k, In k ks -> In k l.
Proof.
  intros lim h H ks. induction ks as [|k ks IH]; intros l E; try rewrite walks_cons in E.
  - injection E as <-. split; [|intros k []]. intros p x s Hp. destruct p; discriminate Hp.
  - destruct (walk lim h k) as [l1 [e|]] eqn:E1; [discriminate|].
    destruct (walks lim h ks) as [l2 s2]. injection E as <- ->.
    destruct (H _ _ E1) as [B1 [p ->]]. destruct (IH _ eq_refl) as [B2 I2].
    split; [now apply before_app|]. intros k' [<-|Hk]; apply in_or_app; [left|right; auto].
    apply in_or_app. right. now left.
Qed.

Lemma walk_done : forall lim h a l, walk lim h a = (l, None) -> before h l /\ exists p, l = p ++ [a].
Proof.
  induction lim as [|lim IH]; intros h a l E; [discriminate|]. rewrite walk_S in E.
  destruct (h a) as [nd|e] eqn:Ea; [|discriminate].
  destruct (walks lim h (nd_kids nd)) as [l1 [e|]] eqn:E1; [discriminate|]. injection E as <-.
  destruct (walks_done lim h (IH h) _ _ E1) as [B I]. split; [|now exists l1].
  now apply (before_last h l1 a nd).
Qed.

Inductive kreach (h : heap) (a : Z) : Z -> Prop :=
| kreach_self : kreach h a a
| kreach_step : forall b c, kreach h a b -> kid h b c -> kreach h a c.

Lemma kreach_front : forall h a b c, kid h a b -> kreach h b c -> kreach h a c.
Proof.
  intros h a b c H R. induction R; [apply (kreach_step h a a b); [constructor|exact H]|].
  eapply kreach_step; eauto.
Qed.

(** Everything yielded is below the start. *)
Lemma walk_below : forall lim h a l s, walk lim h a = (l, s) -> forall x, In x l -> kreach h a x.
Proof.
  induction lim as [|lim IH]; intros h a l s E x Hx.
  - injection E as <- _. destruct Hx.
  - rewrite walk_S in E.
    destruct (h a) as [nd|e] eqn:Ea; [|injection E as <- _; destruct Hx].
    assert (forall ks l s, walks lim h ks = (l, s) -> (forall k, In k ks -> kid h a k) ->
              forall x, In x l -> kreach h a x) as W.
    { induction ks as [|k ks IHk]; intros l0 s0 E0 Hk y Hy; try rewrite walks_cons in E0.
      - injection E0 as <- _. destruct Hy.
      - destruct (walk lim h k) as [l1 [e|]] eqn:E1.
        + injection E0 as <- _. apply (kreach_front h a k); [apply Hk; now left|].
          exact (IH _ _ _ _ E1 y Hy).
        + destruct (walks lim h ks) as [l2 s2] eqn:E2. injection E0 as <- _.
          apply in_app_or in Hy as [Hy|Hy].
          * apply (kreach_front h a k); [apply Hk; now left|]. exact (IH _ _ _ _ E1 y Hy).
          * apply (IHk _ _ eq_refl); [intros; apply Hk; now right|exact Hy]. }
    destruct (walks lim h (nd_kids nd)) as [l1 s1] eqn:E1.
    assert (forall x, In x l1 -> kreach h a x) as W1.
    { apply (W _ _ _ E1). intros k Hk. exists nd. now split. }
    destruct s1 as [e|]; injection E as <- _; [now apply W1|].
    apply in_app_or in Hx as [Hx|[<-|[]]]; [now apply W1|constructor].
Qed.

Lemma before_closed : forall h l a b, before h l -> In a l -> kreach h a b -> In b l.
Proof.
  intros h l a b B Ha R. induction R as [|b c R IH K]; [exact Ha|].
  apply in_split in IH as (p & s & E). destruct (B p b s E) as [_ H].
  rewrite E. apply in_or_app. left. auto.
Qed.

Lemma walk_all : forall lim h a l, walk lim h a = (l, None) -> forall x, In x l <-> kreach h a x.
Proof.
  intros lim h a l E x. split; [now apply (walk_below lim h a l None)|].
  destruct (walk_done _ _ _ _ E) as [B [p ->]]. apply before_closed; [exact B|].
  apply in_or_app. right. now left.
Qed.

(** ** A walk that ends meets no object below itself *)

Lemma walks_none : forall lim h ks l, walks lim h ks = (l, None) ->
  forall k, In k ks -> exists l', walk lim h k = (l', None).
Proof.
  intros lim h ks. induction ks as [|k ks IH]; intros l E k' Hk; [destruct Hk|]. try rewrite walks_cons in E.
  destruct (walk lim h k) as [l1 [e|]] eqn:E1; [discriminate|].
  destruct (walks lim h ks) as [l2 s2] eqn:E2. injection E as _ ->.
  destruct Hk as [<-|Hk]; eauto.
Qed.

Lemma walk_kid : forall lim h a l b, walk lim h a = (l, None) -> kid h a b ->
  exists lim' l', (lim' < lim)%nat /\ walk lim' h b = (l', None).
Proof.
  intros [|lim] h a l b E (nd & Ha & Hb); [discriminate|]. rewrite walk_S, Ha in E.
  destruct (walks lim h (nd_kids nd)) as [l1 [e|]] eqn:E1; [discriminate|].
  destruct (walks_none _ _ _ _ E1 b Hb) as [l' E']. exists lim, l'. split; [lia|exact E'].
Qed.

Lemma walk_kreach : forall h a b, kreach h a b -> forall lim l, walk lim h a = (l, None) ->
  exists lim' l', (lim' <= lim)%nat /\ walk lim' h b = (l', None).
Proof.
  intros h a b R. induction R as [|b c R IH K]; intros lim l E; [exists lim, l; now split|].
  destruct (IH lim l E) as (lim1 & l1 & L1 & E1). destruct (walk_kid _ _ _ _ _ E1 K) as (lim2 & l2 & L2 & E2).
  exists lim2, l2. split; [lia|exact E2].
Qed.

Lemma walk_no_cycle : forall h lim a l b, walk lim h a = (l, None) -> kid h a b -> kreach h b a -> False.
Proof.
  intros h lim. induction lim as [lim IH] using lt_wf_ind. intros a l b E K R.
  destruct (walk_kid _ _ _ _ _ E K) as (lim1 & l1 & L1 & E1).
  destruct (walk_kreach _ _ _ R _ _ E1) as (lim2 & l2 & L2 & E2).
  apply (IH lim2 ltac:(lia) a l2 b E2 K R).
Qed.

(** The start is yielded once, at the end. *)
Lemma walk_last : forall lim h a p, walk lim h a = (p ++ [a], None) -> ~ In a p.
Proof.
  intros [|lim] h a p E Ha; [discriminate|]. pose proof E as E0. rewrite walk_S in E.
  destruct (h a) as [nd|e] eqn:Ea; [|discriminate].
  destruct (walks lim h (nd_kids nd)) as [l1 [e|]] eqn:E1; [discriminate|].
  injection E as E. apply app_inj_tail in E as [-> _].
  assert (exists k, In k (nd_kids nd) /\ kreach h k a) as (k & Hk & R).
  { clear E0. revert p E1 Ha. induction (nd_kids nd) as [|k ks IHk]; intros p E1 Ha; try rewrite walks_cons in E1.
    - injection E1 as <-. destruct Ha.
    - destruct (walk lim h k) as [l1 [e|]] eqn:Ek; [discriminate|].
      destruct (walks lim h ks) as [l2 s2] eqn:E2. injection E1 as <- ->.
      apply in_app_or in Ha as [Ha|Ha].
      + exists k. split; [now left|]. exact (walk_below _ _ _ _ _ Ek a Ha).
      + destruct (IHk l2 eq_refl Ha) as (k' & H1 & H2). exists k'. split; [now right|exact H2]. }
  apply (walk_no_cycle h _ a _ k E0); [exists nd; now split|exact R].
Qed.

(** ** Numbering *)

Lemma number_range : forall l a, 0 <= number l a <= len l.
Proof.
  induction l as [|x l IH]; intros a; cbn [number]; [unfold len; cbn; lia|].
  specialize (IH a). unfold len in *. cbn [length]. destruct (x =? a); [lia|].
  destruct (number l a) eqn:E; lia.
Qed.

Lemma number_in : forall l a, number l a <> 0 <-> In a l.
Proof.
  induction l as [|x l IH]; intros a; cbn [number]; [cbn; lia|].
  destruct (Z.eqb_spec x a) as [->|N]; [split; [intros _; now left|lia]|].
  specialize (IH a). pose proof (number_range l a) as R. cbn [In].
  destruct (number l a) eqn:E; split; intros H.
  - lia.
  - destruct H as [H|H]; [congruence|]. now apply IH in H.
  - right. apply IH. lia.
  - lia.
  - right. apply IH. lia.
  - lia.
Qed.

Lemma number_app : forall l r a, In a l -> number (l ++ r) a = number l a.
Proof.
  induction l as [|x l IH]; intros r a H; [destruct H|]. cbn [app number].
  destruct (Z.eqb_spec x a); [reflexivity|]. destruct H as [H|H]; [congruence|]. now rewrite IH.
Qed.

Lemma number_new : forall l a r, ~ In a l -> number (l ++ a :: r) a = len l + 1.
Proof.
  induction l as [|x l IH]; intros a r H; cbn [app number].
  - rewrite Z.eqb_refl. reflexivity.
  - destruct (Z.eqb_spec x a) as [->|N]; [exfalso; apply H; now left|].
    rewrite IH by (intros G; apply H; now right). unfold len. cbn [length].
    destruct (Z.of_nat (length l) + 1) eqn:E; lia.
Qed.

Lemma number_none : forall l a, ~ In a l -> number l a = 0.
Proof.
  intros l a H. destruct (Z.eq_dec (number l a) 0) as [E|N]; [exact E|]. apply number_in in N. tauto.
Qed.

Lemma number_inj : forall l a b, In a l -> number l a = number l b -> a = b.
Proof.
  intros l a b Ha E. assert (In b l) as Hb.
  { apply number_in. rewrite <- E. now apply number_in. }
  revert Ha Hb E. induction l as [|x l IH]; intros Ha Hb E; [destruct Ha|]. cbn [number] in E.
  destruct (Z.eqb_spec x a) as [N1|N1], (Z.eqb_spec x b) as [N2|N2]; [congruence| | |].
  - pose proof (number_range l b). destruct (number l b); lia.
  - pose proof (number_range l a). destruct (number l a); lia.
  - destruct Ha as [Ha|Ha]; [congruence|]. destruct Hb as [Hb|Hb]; [congruence|].
    apply IH; [exact Ha|exact Hb|].
    pose proof (number_range l a). pose proof (number_range l b).
    apply number_in in Ha. apply number_in in Hb.
    destruct (number l a), (number l b); lia.
Qed.

Definition numo (l : list Z) (a : Z) : option Z :=
  if number l a =? 0 then None else Some (number l a).

(** ** First occurrences *)

Fixpoint fresh (done l : list Z) : list Z :=
  match l with
  | [] => []
  | a :: l' => if in_dec Z.eq_dec a done then fresh done l' else a :: fresh (done ++ [a]) l'
  end.

Lemma fresh_in : forall l done a, In a (done ++ fresh done l) <-> In a done \/ In a l.
Proof.
  induction l as [|x l IH]; intros done a; cbn [fresh].
  - rewrite app_nil_r. cbn [In]. tauto.
  - destruct (in_dec Z.eq_dec x done) as [H|H].
    + rewrite IH. cbn [In]. split; [tauto|]. intros [G|[->|G]]; auto.
    + specialize (IH (done ++ [x]) a). rewrite <- app_assoc in IH. cbn [app] in IH. rewrite IH.
      rewrite in_app_iff. cbn [In]. tauto.
Qed.

Lemma fresh_nodup : forall l done, NoDup done -> NoDup (done ++ fresh done l).
Proof.
  induction l as [|x l IH]; intros done H; cbn [fresh]; [now rewrite app_nil_r|].
  destruct (in_dec Z.eq_dec x done) as [G|G]; [now apply IH|].
  specialize (IH (done ++ [x])). rewrite <- app_assoc in IH. cbn [app] in IH. apply IH.
  apply NoDup_rev in H. rewrite <- (rev_involutive (done ++ [x])). apply NoDup_rev.
  rewrite rev_app_distr. cbn [rev app]. constructor; [|exact H]. now rewrite <- in_rev.
Qed.

(** What stands before an object in a list stands before it among the first occurrences. *)
Lemma fresh_before : forall (R : Z -> Z -> Prop) l done,
  (forall p x s, l = p ++ x :: s -> forall y, R x y -> In y (done ++ p)) ->
  forall p x s, fresh done l = p ++ x :: s -> forall y, R x y -> In y (done ++ p).
Proof.
  intros R l. induction l as [|a l IH]; intros done H p x s E y Hy; cbn [fresh] in E; [destruct p; discriminate E|].
  destruct (in_dec Z.eq_dec a done) as [G|G].
  - apply (IH done) with (x := x) (s := s); [|exact E|exact Hy].
    intros p0 x0 s0 E0 y0 Hy0. specialize (H (a :: p0) x0 s0). cbn [app] in H. rewrite E0 in H.
    specialize (H eq_refl y0 Hy0). apply in_app_or in H as [H|[<-|H]]; apply in_or_app; auto.
  - destruct p as [|b p]; cbn [app] in E; injection E as -> E.
    + exact (H [] x l eq_refl y Hy).
    + assert (forall p x s, l = p ++ x :: s -> forall y, R x y -> In y ((done ++ [b]) ++ p)) as H'.
      { intros p0 x0 s0 E0 y0 Hy0. rewrite <- app_assoc. cbn [app].
        apply (H (b :: p0) x0 s0); [cbn [app]; now rewrite E0|exact Hy0]. }
      specialize (IH (done ++ [b]) H' p x s E y Hy). rewrite <- app_assoc in IH. exact IH.
Qed.

Lemma fresh_last : forall p a done, ~ In a p -> ~ In a done -> fresh done (p ++ [a]) = fresh done p ++ [a].
Proof.
  induction p as [|x p IH]; intros a done H1 H2; cbn [app fresh].
  - destruct (in_dec Z.eq_dec a done); [tauto|reflexivity].
  - destruct (in_dec Z.eq_dec x done) as [G|G].
    + apply IH; [|exact H2]. intros K. apply H1. now right.
    + cbn [app]. f_equal. apply IH; [intros K; apply H1; now right|].
      rewrite in_app_iff. cbn [In]. intros [K|[->|[]]]; [tauto|]. apply H1. now left.
Qed.

(** ** The loop *)

Section Loop.
Variable bo : border.
Variable self : Z.
Variable h : heap.
Variable U : Z -> Prop.
Hypothesis ids : forall a b na nb, U a -> U b -> h a = Ok na -> h b = Ok nb -> nd_id na = nd_id nb -> a = b.

(** The map gives the objects stored so far their numbers and the others none. *)
Definition tracks (m : mapping) (done : list Z) : Prop :=
  (forall x nd, U x -> h x = Ok nd -> m (nd_id nd) = numo done x) /\
  (forall i x, m i = Some x -> 1 <= x <= len done).

Lemma tracks_nil : tracks (fun _ => None) [].
Proof. split; [reflexivity|discriminate]. Qed.

Lemma tracks_add : forall m done a nd, tracks m done -> U a -> h a = Ok nd -> ~ In a done ->
  tracks (fun i => if i =? nd_id nd then Some (len done + 1) else m i) (done ++ [a]).
Proof.
  intros m done a nd [T1 T2] Ha Ea Hn. split.
  - intros x nx Hx Ex. destruct (Z.eqb_spec (nd_id nx) (nd_id nd)) as [E|N].
    + assert (x = a) as -> by exact (ids x a nx nd Hx Ha Ex Ea E).
      unfold numo. rewrite number_new by exact Hn. pose proof (len_nonneg _ done).
      destruct (Z.eqb_spec (len done + 1) 0); [lia|reflexivity].
    + rewrite (T1 x nx Hx Ex). unfold numo.
      destruct (in_dec Z.eq_dec x done) as [I|I]; [now rewrite number_app|].
      rewrite (number_none done x I), (number_none (done ++ [a]) x); [reflexivity|].
      rewrite in_app_iff. intros [G|[<-|[]]]; [tauto|]. apply N. congruence.
  - intros i x. rewrite len_app. change (len [a]) with 1. pose proof (len_nonneg _ done).
    destruct (i =? nd_id nd); [intros G; injection G as <-; lia|].
    intros G. apply T2 in G. lia.
Qed.

(** What storing the objects [l] after the objects [done] puts into the file. *)
Inductive stores : list Z -> list Z -> list stored -> Prop :=
| stores_nil : forall done, stores done [] []
| stores_cons : forall done a l ss nd m data,
    h a = Ok nd -> nd_doc nd = self -> tracks m (done ++ [a]) ->
    wbody (save_octx bo h m) (nd_obj nd) = Ok data -> last data 0 = 3 -> len data < 2 ^ 32 ->
    stores (done ++ [a]) l ss ->
    stores done (a :: l) ((class_id (okind (nd_obj nd)), data) :: ss).

Lemma write_object_ok : forall m nd o, run_writers (write_object bo self h m nd) = (o, None) ->
  nd_doc nd = self /\ exists data, wbody (save_octx bo h m) (nd_obj nd) = Ok data /\
    last data 0 = 3 /\ len data < 2 ^ 32 /\
    exists bs, o = map Append bs /\ concat bs = stored_bytes bo (class_id (okind (nd_obj nd)), data).
Proof.
  intros m nd o H. unfold write_object in H.
  destruct (Z.eqb_spec (nd_doc nd) self) as [Es|]; [|discriminate]. split; [exact Es|].
  destruct (wbody (save_octx bo h m) (nd_obj nd)) as [data|e]; [|discriminate].
  exists data. split; [reflexivity|].
  unfold wassert in H. destruct (Z.eqb_spec (last data 0) 3) as [E3|]; [|discriminate].
  split; [exact E3|]. unfold wfourcc in H.
  assert (len (class_id (okind (nd_obj nd))) = 4) as L4 by (unfold len; now rewrite class_id_len).
  rewrite L4 in H. change (4 =? 4) with true in H. cbv iota in H.
  unfold wu32 in H. destruct (wunsigned bo 4 (len data)) as [b|e] eqn:W.
  2:{ destruct bo; discriminate H. }
  apply wunsigned_ok in W as [R ->]. split; [apply R|].
  unfold wbytes, wnil in H. destruct bo; cbn [run_writers] in H; injection H as <-;
    (eexists [_; _; _; _]; split; [reflexivity|]; unfold stored_bytes; cbn [concat fst snd app];
     now rewrite app_nil_r).
Qed.

Lemma write_object_intro : forall m nd data, nd_doc nd = self ->
  wbody (save_octx bo h m) (nd_obj nd) = Ok data -> last data 0 = 3 -> len data < 2 ^ 32 ->
  exists o, run_writers (write_object bo self h m nd) = (o, None).
Proof.
  intros m nd data Es Hw H3 Hl. unfold write_object. rewrite Es, Z.eqb_refl, Hw, H3.
  unfold wassert. change (3 =? 3) with true. cbv iota. unfold wfourcc.
  assert (len (class_id (okind (nd_obj nd))) = 4) as -> by (unfold len; now rewrite class_id_len).
  unfold wu32. rewrite wunsigned_in by (split; [apply len_nonneg|exact Hl]).
  destruct bo; eexists; reflexivity.
Qed.

Lemma save_loop_ok : forall l done m o m' n, (forall x, In x l -> U x) -> tracks m done -> 
  save_loop bo self h l m (len done) = (o, None, m', n) ->
  n = len (done ++ fresh done l) /\ exists ss bs, stores done (fresh done l) ss /\
    o = map Append bs /\ concat bs = stored_all bo ss.
Proof.
  induction l as [|a l IH]; intros done m o m' n HU T H; cbn [save_loop fresh] in *.
  - injection H as <- <- <-. rewrite app_nil_r. split; [reflexivity|]. exists [], [].
    split; [constructor|]. split; reflexivity.
  - destruct (h a) as [nd|e] eqn:Ea; [|discriminate].
    assert (U a) as Ua by (apply HU; now left).
    rewrite (proj1 T a nd Ua Ea) in H. unfold numo in H.
    destruct (in_dec Z.eq_dec a done) as [I|I].
    + apply number_in in I as I'. destruct (Z.eqb_spec (number done a) 0); [tauto|].
      apply (IH done m o m' n); [intros; apply HU; now right|exact T|exact H].
    + rewrite (number_none done a I) in H. cbn [Z.eqb] in H.
      pose proof (tracks_add m done a nd T Ua Ea I) as T'.
      set (m1 := fun i => if i =? nd_id nd then Some (len done + 1) else m i) in *.
      destruct (run_writers (write_object bo self h m1 nd)) as [o1 [e|]] eqn:E1; [discriminate|].
      assert (len done + 1 = len (done ++ [a])) as EL by (rewrite len_app; reflexivity).
      rewrite EL in H.
      destruct (save_loop bo self h l m1 (len (done ++ [a]))) as [[[o2 s2] m2] n2] eqn:E2.
      injection H as <- -> <- <-.
      destruct (IH _ _ _ _ _ ltac:(intros; apply HU; now right) T' E2) as (Hn & ss & bs & S & -> & C).
      split; [rewrite Hn, <- app_assoc; reflexivity|].
      apply write_object_ok in E1 as (Es & data & Hw & H3 & Hl & bs1 & -> & C1).
      exists ((class_id (okind (nd_obj nd)), data) :: ss), (bs1 ++ bs).
      split; [econstructor; eauto|]. split; [now rewrite map_app|].
      rewrite concat_app, C1, C. reflexivity.
Qed.

(** Whatever happens, the loop only adds to the file. *)
Lemma save_loop_appends : forall l m n o s m' n', save_loop bo self h l m n = (o, s, m', n') ->
  exists bs, o = map Append bs.
Proof.
  induction l as [|a l IH]; intros m n o s m' n' H; cbn [save_loop] in H.
  - injection H as <- _ _ _. now exists [].
  - destruct (h a) as [nd|e]; [|injection H as <- _ _ _; now exists []].
    destruct (m (nd_id nd)); [eauto|].
    destruct (run_writers _) as [o1 [e|]] eqn:E1.
    + injection H as <- _ _ _. now apply run_writers_appends in E1.
    + destruct (save_loop bo self h l _ _) as [[[o2 s2] m2] n2] eqn:E2.
      injection H as <- _ _ _. apply IH in E2 as [bs2 ->]. apply run_writers_appends in E1 as [bs1 ->].
      exists (bs1 ++ bs2). now rewrite map_app.
Qed.

Lemma stores_ok : forall done l ss, stores done l ss -> length ss = length l /\ Forall stored_ok ss.
Proof.
  intros done l ss H. induction H as [|done a l ss nd m data Ea Es T W H3 Hl S [L F]].
  - split; [reflexivity|constructor].
  - cbn [length]. split; [now rewrite L|]. constructor; [|exact F].
    split; [apply class_id_len|exact Hl].
Qed.

Lemma stores_split : forall done l ss, stores done l ss -> forall p a s, l = p ++ a :: s ->
  exists pp qq nd m data, ss = pp ++ (class_id (okind (nd_obj nd)), data) :: qq /\
    length pp = length p /\ h a = Ok nd /\ nd_doc nd = self /\ tracks m (done ++ p ++ [a]) /\
    wbody (save_octx bo h m) (nd_obj nd) = Ok data.
Proof.
  intros done l ss H. induction H as [|done a l ss nd m data Ea Es T W H3 Hl S IH]; intros p x s E.
  - destruct p; discriminate E.
  - destruct p as [|b p]; cbn [app] in E; injection E as <- E.
    + exists [], ss, nd, m, data. repeat (split; [assumption || reflexivity|]). exact W.
    + destruct (IH p x s E) as (pp & qq & nd' & m' & data' & -> & L & R1 & R2 & R3 & R4).
      exists ((class_id (okind (nd_obj nd)), data) :: pp), qq, nd', m', data'.
      split; [reflexivity|]. split; [cbn [length]; now rewrite L|].
      split; [exact R1|]. split; [exact R2|]. split; [|exact R4].
      now rewrite <- app_assoc in R3.
Qed.

(** The loop does not stop if every object can be written once those before it are. *)
Lemma save_loop_runs : forall l done m, (forall x, In x l -> U x) -> tracks m done ->
  (forall x, In x l -> exists nd, h x = Ok nd) ->
  (forall p x s nd m', fresh done l = p ++ x :: s -> h x = Ok nd -> tracks m' (done ++ p ++ [x]) ->
     exists o, run_writers (write_object bo self h m' nd) = (o, None)) ->
  exists o m' n, save_loop bo self h l m (len done) = (o, None, m', n).
Proof.
  induction l as [|a l IH]; intros done m HU T Hh Hw; cbn [save_loop fresh] in *.
  - do 3 eexists. reflexivity.
  - destruct (Hh a (or_introl eq_refl)) as [nd Ea]. rewrite Ea.
    assert (U a) as Ua by (apply HU; now left).
    rewrite (proj1 T a nd Ua Ea). unfold numo.
    destruct (in_dec Z.eq_dec a done) as [I|I].
    + apply number_in in I as I'. destruct (Z.eqb_spec (number done a) 0); [tauto|].
      apply IH; [intros; apply HU; now right|exact T|intros; apply Hh; now right|exact Hw].
    + rewrite (number_none done a I). cbn [Z.eqb].
      pose proof (tracks_add m done a nd T Ua Ea I) as T'.
      set (m1 := fun i => if i =? nd_id nd then Some (len done + 1) else m i) in *.
      destruct (Hw [] a _ nd m1 eq_refl Ea T') as [o1 E1]. rewrite E1.
      assert (len done + 1 = len (done ++ [a])) as EL by (rewrite len_app; reflexivity).
      rewrite EL.
      destruct (IH (done ++ [a]) m1) as (o2 & m2 & n2 & E2).
      * intros; apply HU; now right.
      * exact T'.
      * intros; apply Hh; now right.
      * intros p x s nd' m' Hf Hx Ht. apply (Hw (a :: p) x s nd' m'); [cbn [app]; now rewrite Hf|exact Hx|].
        now rewrite <- app_assoc in Ht.
      * rewrite E2. do 3 eexists. reflexivity.
Qed.
End Loop.

(** ** Whole saves *)

Definition walk_doc (lim : nat) (d : document) : list Z * option exn :=
  if dc_content d =? 0 then ([], None) else walk lim (dc_heap d) (dc_content d).

Definition head_zero (bo : border) (d : document) : bytes :=
  head_pre bo d ++ enc bo 4 0 ++ enc bo 4 0.

Lemma head_run : forall z bo d, exists bs, run_writers (head_before z bo d) = (map Append bs, None) /\
  concat bs = head_pre bo d.
Proof.
  intros z bo d. destruct (head_before_ok z bo d) as (bs & -> & C). exists bs.
  split; [apply run_writers_ok|exact C].
Qed.

Lemma head_counts_run : forall z bo d o s, run_writers (head_counts bo ++ head_after z bo d) = (o, s) ->
  exists o', run_writers (head_after z bo d) = (o', s) /\
    o = Append (enc bo 4 0) :: Append (enc bo 4 0) :: o'.
Proof.
  intros z bo d o s H. unfold head_counts, wu32 in H. rewrite wunsigned_in in H by (vm_compute; split; congruence).
  cbn [app run_writers] in H.
  destruct (run_writers (head_after z bo d)) as [o' s'] eqn:E.
  injection H as <- <-. exists o'. now split.
Qed.

Lemma run_ops_appends : forall bs f, fold_left apply_op (map Append bs) f = f ++ concat bs.
Proof.
  induction bs as [|b bs IH]; intros f; cbn [map fold_left concat]; [now rewrite app_nil_r|].
  rewrite IH. cbn [apply_op]. now rewrite app_assoc.
Qed.

Lemma run_ops_map : forall bs, run_ops (map Append bs) = concat bs.
Proof. intros bs. unfold run_ops. now rewrite run_ops_appends. Qed.

(** The steps of a save, by outcome. *)
(** Only a hint to the conversion test, which is slow when it unfolds other constants first. *)
Strategy expand [write save].
Lemma write_inv : forall lim z bo ss o s ss', write lim z bo ss = (o, s, ss') ->
  let d := ss_doc ss in
  (exists e bs tail, s = Some e /\ o = map Append bs /\ concat bs = head_zero bo d ++ tail) \/
  (exists v l bsl m n bs, s = None /\ head_fits z d v /\ walk_doc lim d = (l, None) /\
    save_loop bo (dc_self d) (dc_heap d) l (fun _ => None) 0 = (map Append bsl, None, m, n) /\
    0 <= n < 2 ^ 32 /\
    o = map Append bs ++ [Overwrite 43 (enc bo 4 n); Overwrite 47 (enc bo 4 n)] /\
    concat bs = head_zero bo d ++ head_post bo (to_timestamp z (dc_saved d)) v ++ concat bsl).
Proof.
  intros lim z bo ss o s ss' H d. unfold write in H. fold d in H.
  destruct (head_run z bo d) as (b1 & E1 & C1). rewrite E1 in H.
  destruct (run_writers (head_counts bo ++ head_after z bo d)) as [o2 s2] eqn:E2.
  apply head_counts_run in E2 as (o2' & E2 & ->).
  pose proof (run_writers_appends _ _ _ E2) as [b2 ->].
  assert (forall bs, concat (b1 ++ enc bo 4 0 :: enc bo 4 0 :: b2 ++ bs) =
            head_zero bo d ++ concat b2 ++ concat bs) as Cat.
  { intros bs. rewrite concat_app. cbn [concat]. rewrite concat_app, C1. unfold head_zero.
    now rewrite <- !app_assoc. }
  assert (forall bs, map Append b1 ++ (Append (enc bo 4 0) :: Append (enc bo 4 0) :: map Append b2) ++ map Append bs
            = map Append (b1 ++ enc bo 4 0 :: enc bo 4 0 :: b2 ++ bs)) as Mp.
  { intros bs. rewrite map_app. cbn [map]. now rewrite map_app. }
  assert (forall e bs, s = Some e -> o = map Append b1 ++ (Append (enc bo 4 0) :: Append (enc bo 4 0) :: map Append b2) ++ map Append bs ->
    exists e bs tail, s = Some e /\ o = map Append bs /\ concat bs = head_zero bo d ++ tail) as Fail.
  { intros e bs -> ->. exists e, (b1 ++ enc bo 4 0 :: enc bo 4 0 :: b2 ++ bs), (concat b2 ++ concat bs).
    split; [reflexivity|]. split; [apply Mp|apply Cat]. }
  destruct s2 as [e|].
  { injection H as <- <- _. left. apply (Fail e []); [reflexivity|]. now rewrite app_nil_r. }
  change (if dc_content d =? 0 then ([], None) else walk lim (dc_heap d) (dc_content d))
    with (walk_doc lim d) in H.
  destruct (walk_doc lim d) as [l ws] eqn:Ew. cbn [ss_map ss_next] in H.
  destruct (save_loop bo (dc_self d) (dc_heap d) l (fun _ => None) 0) as [[[o3 s3] m] n] eqn:E3.
  pose proof (save_loop_appends _ _ _ _ _ _ _ _ _ _ E3) as [b3 ->].
  destruct s3 as [e|]; [left; injection H as <- <- _; now apply (Fail e b3)|].
  destruct ws as [e|]; [left; injection H as <- <- _; now apply (Fail e b3)|].
  unfold save_counts, wu32 in H. rewrite run_ops_map, C1 in H.
  replace (len (head_pre bo d)) with 43 in H by (unfold len; rewrite head_pre_length; reflexivity).
  destruct (wunsigned bo 4 n) as [b|e] eqn:Wn.
  2:{ left. injection H as <- <- _. apply (Fail e b3); [reflexivity|]. now rewrite app_nil_r. }
  apply wunsigned_ok in Wn as [Rn ->]. injection H as <- <- _. right.
  pose proof (head_after_ok _ _ _ _ E2) as [v Hv].
  destruct (head_after_intro z bo d v Hv) as (b2' & Eh & Ch). rewrite Eh, run_writers_ok in E2.
  injection E2 as E2. assert (b2' = b2) as ->.
  { clear - E2. revert b2 E2. induction b2' as [|x b2' IH]; intros [|y b2] E2; try discriminate; [reflexivity|].
    cbn [map] in E2. injection E2 as -> E2. f_equal. auto. }
  exists v, l, b3, m, n, (b1 ++ enc bo 4 0 :: enc bo 4 0 :: b2 ++ b3).
  split; [reflexivity|]. split; [exact Hv|]. split; [reflexivity|]. split; [exact E3|].
  split; [exact Rn|]. split; [|rewrite Cat, Ch; reflexivity].
  rewrite <- Mp. rewrite <- !app_assoc. reflexivity.
Qed.

(** Putting bytes over others. *)
Lemma overwrite_at : forall a b b' c pos, pos = len a -> length b = length b' ->
  overwrite (a ++ b ++ c) pos b' = a ++ b' ++ c.
Proof.
  intros a b b' c pos -> L. unfold overwrite. rewrite firstn_app_len by reflexivity. f_equal. f_equal.
  rewrite <- L. unfold len. rewrite Nat2Z.id, skipn_app, skipn_all2 by lia. cbn [app].
  replace (length a + length b - length a)%nat with (length b) by lia.
  rewrite skipn_app, skipn_all2 by lia. cbn [app]. now rewrite Nat.sub_diag.
Qed.

Lemma over_count : forall bo d n rest,
  overwrite (head_zero bo d ++ rest) 43 (enc bo 4 n) = head_pre bo d ++ enc bo 4 n ++ enc bo 4 0 ++ rest.
Proof.
  intros bo d n rest. unfold head_zero. rewrite <- !app_assoc. apply overwrite_at.
  - unfold len. now rewrite head_pre_length.
  - now rewrite !enc_length.
Qed.

Lemma over_root : forall bo d n rest,
  overwrite (head_pre bo d ++ enc bo 4 n ++ enc bo 4 0 ++ rest) 47 (enc bo 4 n) =
  head_pre bo d ++ enc bo 4 n ++ enc bo 4 n ++ rest.
Proof.
  intros bo d n rest. rewrite !(app_assoc (head_pre bo d)). apply overwrite_at.
  - unfold len. now rewrite app_length, head_pre_length, enc_length.
  - now rewrite !enc_length.
Qed.

(** ** Files without content *)

Lemma no_root : forall file, (forall h b, rhead file = Ok (h, b) -> hd_root h = 0) -> shows_nothing file.
Proof.
  intros file H. unfold shows_nothing, open_file, open_table.
  destruct (rhead file) as [[h b]|e] eqn:E; [|left; eauto]. specialize (H h b eq_refl).
  destruct (rhead_rest (hd_bo h) b) as [[[t ver] b2]|e]; [|left; eauto].
  destruct (scan _ _ _ _) as [l|e]; [|left; eauto].
  cbn [of_head]. rewrite H. right. eexists. reflexivity.
Qed.

Lemma cut_no_root : forall bo d p q tail, p ++ q = head_zero bo d ++ tail -> shows_nothing p.
Proof.
  intros bo d p q tail E. apply no_root. intros h b H. apply (rhead_cut p q) in H. rewrite E in H.
  unfold head_zero in H. rewrite <- !app_assoc in H.
  rewrite rhead_ok in H by (vm_compute; split; congruence). apply Ok_inj in H.
  injection H as <- _. reflexivity.
Qed.

Lemma count_no_root : forall bo d n tail, 0 <= n < 2 ^ 32 ->
  shows_nothing (head_pre bo d ++ enc bo 4 n ++ enc bo 4 0 ++ tail).
Proof.
  intros bo d n tail Hn. apply no_root. intros h b H.
  rewrite rhead_ok in H; [|exact Hn|vm_compute; split; congruence]. apply Ok_inj in H.
  injection H as <- _. reflexivity.
Qed.

Lemma save_write : forall lim z bo d o s, save lim z bo d = (o, s) ->
  exists ss', write lim z bo (new_session d) = (o, s, ss').
Proof.
  intros lim z bo d o s H. unfold save in H. destruct (write lim z bo (new_session d)) as [[o' s'] ss'].
  cbn [fst] in H. injection H as -> ->. eauto.
Qed.

Lemma failed_save : forall lim z bo d o e, save lim z bo d = (o, Some e) -> shows_nothing (run_ops o).
Proof.
  intros lim z bo d o e H. apply save_write in H as [ss' H].
  apply write_inv in H. cbv zeta in H.
  destruct H as [(e' & bs & tail & _ & -> & C)|(v & l & bsl & m & n & bs & F & _)]; [|discriminate].
  rewrite run_ops_map. apply (cut_no_root bo d _ [] tail). now rewrite app_nil_r.
Qed.

Lemma firstn_prefix : forall A k (l : list A), exists r, l = firstn k l ++ r.
Proof. intros A k l. exists (skipn k l). now rewrite firstn_skipn. Qed.

Lemma append_prefix : forall bs done next rest, map Append bs = done ++ next :: rest ->
  exists bd bn br, done = map Append bd /\ next = Append bn /\ concat bs = concat bd ++ bn ++ br.
Proof.
  induction bs as [|b bs IH]; intros done next rest E; [destruct done; discriminate E|].
  destruct done as [|x done]; cbn [map app] in E; injection E as <- E.
  - exists [], b, (concat bs). repeat split; reflexivity.
  - destruct (IH _ _ _ E) as (bd & bn & br & -> & -> & C). exists (b :: bd), bn, br.
    split; [reflexivity|]. split; [reflexivity|]. cbn [concat]. now rewrite C, <- app_assoc.
Qed.

Lemma last_split : forall A (l : list A) x y done next rest, l ++ [x; y] = done ++ next :: rest ->
  (exists rest', l = done ++ next :: rest') \/ (done = l /\ next = x) \/ (done = l ++ [x] /\ next = y).
Proof.
  induction l as [|a l IH]; intros x y done next rest E; cbn [app] in E.
  - destruct done as [|b done]; cbn [app] in E; injection E as <- E; [right; left; auto|].
    destruct done as [|c done]; cbn [app] in E; injection E as <- E; [right; right; auto|].
    destruct done; discriminate E.
  - destruct done as [|b done]; cbn [app] in E; injection E as <- E; [left; exists l; reflexivity|].
    destruct (IH _ _ _ _ _ E) as [[r ->]|[[-> ->]|[-> ->]]].
    + left. exists r. reflexivity.
    + right. left. now split.
    + right. right. now split.
Qed.

Lemma appended_shows_nothing : forall bo d bs tail done next rest, concat bs = head_zero bo d ++ tail ->
  map Append bs = done ++ next :: rest ->
  shows_nothing (run_ops done) /\
  forall b k, next = Append b -> shows_nothing (run_ops done ++ firstn k b).
Proof.
  intros bo d bs tail done next rest C E.
  destruct (append_prefix _ _ _ _ E) as (bd & bn & br & -> & -> & Cb). rewrite run_ops_map. split.
  - apply (cut_no_root bo d _ (bn ++ br) tail). congruence.
  - intros b k Eb. injection Eb as <-. destruct (firstn_prefix _ k bn) as [r Er].
    apply (cut_no_root bo d _ (r ++ br) tail).
    rewrite <- app_assoc. rewrite (app_assoc (firstn k bn)), <- Er. congruence.
Qed.

Lemma interrupted_save : forall lim z bo d o s file, save lim z bo d = (o, s) -> interrupted o file ->
  shows_nothing file.
Proof.
  intros lim z bo d o s file H (done & next & rest & E & Hf). apply save_write in H as [ss' H].
  apply write_inv in H. cbv zeta in H. cbn [ss_doc new_session] in H.
  destruct H as [(e' & bs & tail & _ & -> & C)|(v & l & bsl & m & n & bs & _ & _ & _ & _ & Hn & -> & C)].
  - destruct (appended_shows_nothing bo d _ _ _ _ _ C E) as [A B].
    destruct Hf as [->|(b & k & -> & ->)]; [exact A|now apply B].
  - destruct (last_split _ _ _ _ _ _ _ E) as [[r Er]|[[-> ->]|[-> ->]]].
    + destruct (appended_shows_nothing bo d _ _ _ _ _ C Er) as [A B].
      destruct Hf as [->|(b & k & -> & ->)]; [exact A|now apply B].
    + destruct Hf as [->|(b & k & F & _)]; [|discriminate]. rewrite run_ops_map.
      eapply (cut_no_root bo d _ []). rewrite app_nil_r. exact C.
    + destruct Hf as [->|(b & k & F & _)]; [|discriminate].
      unfold run_ops. rewrite fold_left_app, run_ops_appends. cbn [fold_left apply_op app].
      rewrite C, over_count. now apply count_no_root.
Qed.

(** ** Completed saves *)

Lemma in_doc_kid : forall d a b, walks_refs d -> in_doc d a ->
  (kid (dc_heap d) a b <-> refers (dc_heap d) a b).
Proof.
  intros d a b W Ha. split.
  - intros (nd & E & I). apply (W a nd Ha E) in I. exists nd. tauto.
  - intros (nd & E & I). exists nd. split; [exact E|]. apply (W a nd Ha E). tauto.
Qed.

Lemma in_doc_kreach : forall d a, walks_refs d -> dc_content d <> 0 ->
  (kreach (dc_heap d) (dc_content d) a <-> in_doc d a).
Proof.
  intros d a W H0. split.
  - intros R. induction R as [|b c R IH K]; [split; [exact H0|constructor]|].
    apply (in_doc_kid d b c W IH) in K. destruct IH as [_ IH]. split; [exact H0|].
    eapply reach_step; eauto.
  - intros [_ R]. induction R as [|b c R IH K]; [constructor|].
    eapply kreach_step; [exact IH|]. apply (in_doc_kid d b c W); [|exact K]. now split.
Qed.

Lemma in_doc_step : forall d a b, in_doc d a -> refers (dc_heap d) a b -> in_doc d b.
Proof. intros d a b [H0 R] K. split; [exact H0|]. eapply reach_step; eauto. Qed.

Lemma in_doc_not0 : forall d a, in_doc d a -> a <> 0.
Proof. intros d a [H0 R]. destruct R as [|b c R (nd & _ & _ & N)]; [exact H0|exact N]. Qed.

(** The objects of a document in the order in which a walk that ends yields them first. *)
Lemma walk_order : forall lim d l, walks_refs d -> walk_doc lim d = (l, None) ->
  let order := fresh [] l in
  NoDup order /\ (forall x, In x l -> in_doc d x) /\ (forall x, In x order <-> in_doc d x) /\
  (forall p x s, order = p ++ x :: s -> forall y, refers (dc_heap d) x y -> In y p) /\
  (dc_content d <> 0 -> exists p, order = p ++ [dc_content d]) /\
  (forall x, In x l -> exists nd, dc_heap d x = Ok nd).
Proof.
  intros lim d l W H order. unfold walk_doc in H.
  destruct (Z.eqb_spec (dc_content d) 0) as [E0|N0].
  - injection H as <-. subst order. cbn [fresh]. split; [constructor|]. split; [intros x []|].
    split; [intros x; cbn [In]; split; [tauto|]; intros [F _]; tauto|].
    split; [intros p x s E; destruct p; discriminate E|]. split; [tauto|intros x []].
  - destruct (walk_done _ _ _ _ H) as [B [p ->]].
    assert (forall x, In x (p ++ [dc_content d]) <-> in_doc d x) as In_l.
    { intros x. rewrite (walk_all _ _ _ _ H x). now apply in_doc_kreach. }
    assert (forall x, In x order <-> in_doc d x) as In_o.
    { intros x. rewrite <- In_l. subst order.
      pose proof (fresh_in (p ++ [dc_content d]) [] x) as F. cbn [app In] in F. tauto. }
    assert (forall x, In x (p ++ [dc_content d]) -> exists nd, dc_heap d x = Ok nd) as Here.
    { intros x Hx. apply in_split in Hx as (p' & s' & E). now destruct (B p' x s' E). }
    split; [apply (fresh_nodup _ []); constructor|]. split; [apply In_l|]. split; [exact In_o|].
    split; [|split; [intros _|exact Here]].
    + intros q x s E y R.
      assert (in_doc d x) as Dx by (apply In_o; rewrite E; apply in_or_app; right; now left).
      assert (In y ([] ++ q)) as G; [|exact G].
      apply (fresh_before (kid (dc_heap d)) (p ++ [dc_content d]) []) with (x := x) (s := s);
        [|exact E|now apply in_doc_kid].
      intros p0 x0 s0 E' y0 K. cbn [app]. destruct (B p0 x0 s0 E') as [_ B']. now apply B'.
    + exists (fresh [] p). subst order. apply fresh_last; [|cbn; tauto].
      now apply (walk_last lim (dc_heap d)).
Qed.


Lemma split_number : forall order a, NoDup order -> In a order -> exists p s, order = p ++ a :: s /\
  number order a = len p + 1.
Proof.
  intros order a ND H. apply in_split in H as (p & s & ->). exists p, s. split; [reflexivity|].
  apply number_new. apply NoDup_remove_2 in ND. intros I. apply ND. apply in_or_app. now left.
Qed.

Definition saved_head (bo : border) (d : document) (n : Z) : head :=
  {| hd_bo := bo; hd_text := save_text (dc_saved d); hd_count := n; hd_root := n |}.

Definition saved_hdr (bo : border) (d : document) (n stamp : Z) (v : bytes) : bytes :=
  head_pre bo d ++ enc bo 4 n ++ enc bo 4 n ++ head_post bo stamp v.

Lemma saved_header : forall bo d n stamp v, 0 <= n < 2 ^ 32 -> 0 <= stamp < 2 ^ 32 ->
  header_of (saved_hdr bo d n stamp v) (saved_head bo d n) stamp (version_read v).
Proof.
  intros bo d n stamp v Hn Hs rest. unfold saved_hdr. rewrite <- !app_assoc.
  eexists. split; [apply rhead_ok; assumption|]. cbn [hd_bo saved_head]. now apply rhead_rest_ok.
Qed.

Lemma saved_hdr_length : forall bo d n stamp v, length (saved_hdr bo d n stamp v) = 119%nat.
Proof.
  intros. unfold saved_hdr. now rewrite !app_length, head_pre_length, head_post_length, !enc_length.
Qed.

(** Everything about a completed save. *)
Lemma completed : forall lim z bo d o, walks_refs d -> ids_distinct d ->
  save lim z bo d = (o, None) ->
  exists order v ss,
    NoDup order /\ (forall x, In x order <-> in_doc d x) /\
    (forall p x s, order = p ++ x :: s -> forall y, refers (dc_heap d) x y -> In y p) /\
    (dc_content d <> 0 -> exists p, order = p ++ [dc_content d]) /\
    head_fits z d v /\ len order < 2 ^ 32 /\
    stores bo (dc_self d) (dc_heap d) (in_doc d) [] order ss /\
    run_ops o = saved_hdr bo d (len order) (to_timestamp z (dc_saved d)) v ++ stored_all bo ss /\
    exists l, walk_doc lim d = (l, None) /\ order = fresh [] l.
Proof.
  intros lim z bo d o W I H. apply save_write in H as [ss' H]. apply write_inv in H.
  cbv zeta in H. cbn [ss_doc new_session] in H.
  destruct H as [(e & bs & tail & F & _)|(v & l & bsl & m & n & bs & _ & Hv & Hl & Hs & Hn & -> & C)]; [discriminate|].
  destruct (walk_order lim d l W Hl) as (ND & Il & Io & Bf & Ls & _).
  change 0 with (len (@nil Z)) in Hs.
  destruct (save_loop_ok bo (dc_self d) (dc_heap d) (in_doc d) I l [] _ _ _ _ Il (tracks_nil _ _) Hs)
    as (En & ss & bs2 & S & E2 & C2).
  cbn [app] in En. assert (bs2 = bsl) as ->.
  { clear - E2. revert bs2 E2. induction bsl as [|x l IH]; intros [|y r] E; try discriminate; [reflexivity|].
    cbn [map] in E. injection E as -> E. f_equal. auto. }
  exists (fresh [] l), v, ss. repeat (split; [assumption|]). split; [rewrite <- En; apply Hn|].
  split; [exact S|]. split; [|exists l; now split]. unfold run_ops. rewrite fold_left_app, run_ops_appends.
  cbn [fold_left apply_op app]. rewrite C, over_count, over_root, C2, <- En. unfold saved_hdr.
  now rewrite <- !app_assoc.
Qed.

(** The completed file, opened. *)
Lemma completed_table : forall bo d order z v ss, head_fits z d v -> len order < 2 ^ 32 ->
  stores bo (dc_self d) (dc_heap d) (in_doc d) [] order ss ->
  open_table (saved_hdr bo d (len order) (to_timestamp z (dc_saved d)) v ++ stored_all bo ss) =
  Ok (table (saved_hdr bo d (len order) (to_timestamp z (dc_saved d)) v)
    (saved_head bo d (len order)) (to_timestamp z (dc_saved d)) (version_read v) ss).
Proof.
  intros bo d order z v ss Hv Hl S. apply stores_ok in S as [L F].
  apply (open_table_ok (saved_hdr bo d (len order) (to_timestamp z (dc_saved d)) v)
    (saved_head bo d (len order))); [|unfold len; cbn [saved_head hd_count]; now rewrite L|exact F].
  apply saved_header; [split; [apply len_nonneg|exact Hl]|apply Hv].
Qed.

Lemma completed_read : forall bo d order hdr t ver ss, NoDup order ->
  (forall x, In x order <-> in_doc d x) -> all_ok d ->
  stores bo (dc_self d) (dc_heap d) (in_doc d) [] order ss ->
  forall a nd, in_doc d a -> dc_heap d a = Ok nd ->
  read_object (table hdr (saved_head bo d (len order)) t ver ss) (number order a) =
  Ok (Some (obj_map (number order) (nd_obj nd))).
Proof.
  intros bo d order hdr t ver ss ND Io Ok' S a nd Ha Ea.
  destruct (split_number order a ND (proj2 (Io a) Ha)) as (p & s & Eo & ->).
  destruct (stores_ok _ _ _ _ _ _ _ S) as [_ F].
  destruct (stores_split _ _ _ _ _ _ _ S p a s Eo) as (pp & qq & nd' & m & data & -> & L & E' & _ & [T1 T2] & Wb).
  rewrite Ea in E'. injection E' as <-.
  replace (len p) with (len pp) by (unfold len; now rewrite L).
  rewrite read_object_ok by exact F. cbn [fst snd].
  assert (len (p ++ [a]) <= len order) as LE.
  { rewrite Eo, !len_app. unfold len. cbn [length]. lia. }
  erewrite (robject_saved _ (save_octx bo (dc_heap d) m)); [|split; [reflexivity|split]|now apply (Ok' a)|exact Wb].
  - f_equal. f_equal. apply map_ext_obj. intros r Hr. unfold reff.
    destruct (Z.eqb_spec r 0) as [->|N].
    + symmetry. apply number_none. intros I. apply Io in I. now apply in_doc_not0 in I.
    + destruct (written_refs _ _ _ (Ok' a nd Ha Ea) Wb r Hr) as [?|[x Hx]]; [contradiction|].
      rewrite Hx. unfold save_octx in Hx. cbn [orefs] in Hx.
      destruct (dc_heap d r) as [nr|e] eqn:Er; [|discriminate].
      assert (in_doc d r) as Dr by (apply (in_doc_step d a r Ha); exists nd; auto).
      rewrite (T1 r nr Dr Er) in Hx. unfold numo in Hx. cbn [app] in *.
      destruct (Z.eqb_spec (number (p ++ [a]) r) 0) as [|Nr]; [discriminate|]. injection Hx as <-.
      rewrite Eo. replace (p ++ a :: s) with ((p ++ [a]) ++ s) by (rewrite <- app_assoc; reflexivity).
      symmetry. apply number_app. now apply number_in.
  - unfold ref_valid, of_ictx. cbn [inobj of_head table saved_head hd_count].
    apply Z.ltb_lt. pose proof (len_nonneg _ order). lia.
  - intros r x Hx. unfold ref_valid, of_ictx. cbn [inobj of_head table saved_head hd_count].
    apply Z.ltb_lt. unfold save_octx in Hx. cbn [orefs] in Hx. destruct (dc_heap d r); [|discriminate].
    apply T2 in Hx. cbn [app] in Hx. lia.
Qed.

(** ** Saves that complete *)

(** A walk ends if nothing is below itself: [F] lists the objects. *)
Lemma walk_ends : forall h F (U : Z -> Prop), (forall a b, U a -> kid h a b -> U b) -> (forall a, U a -> In a F) ->
  (forall a, U a -> exists nd, h a = Ok nd) -> (forall a b, U a -> kid h a b -> kreach h b a -> False) ->
  forall n vs a lim, U a -> (forall v, In v vs -> U v /\ exists b, kid h v b /\ kreach h b a) ->
    NoDup vs -> (length F <= n + length vs)%nat -> (n <= lim)%nat ->
    exists l, walk lim h a = (l, None).
Proof.
  intros h F U Uk UF Uh Ac. induction n as [|n IH]; intros vs a lim Ua Hv ND Hn Hlim.
  - exfalso. assert (NoDup (a :: vs)) as ND'.
    { constructor; [|exact ND]. intros I. destruct (Hv a I) as (_ & b & K & R). exact (Ac a b Ua K R). }
    assert (incl (a :: vs) F) as IF.
    { intros x [<-|I]; [now apply UF|apply UF; now apply Hv]. }
    apply (NoDup_incl_length ND') in IF. cbn [length] in IF. lia.
  - destruct lim as [|lim]; [lia|]. rewrite walk_S. destruct (Uh a Ua) as [nd Ea]. rewrite Ea.
    assert (forall ks, (forall k, In k ks -> kid h a k) -> exists l, walks lim h ks = (l, None)) as Wk.
    { induction ks as [|k ks IHk]; intros Hk; [exists []; reflexivity|]. rewrite walks_cons.
      assert (kid h a k) as K by (apply Hk; now left).
      destruct (IH (a :: vs) k lim) as [l1 E1].
      - exact (Uk a k Ua K).
      - intros v [<-|I].
        + split; [exact Ua|]. exists k. split; [exact K|constructor].
        + destruct (Hv v I) as (Uv & b & Kb & Rb). split; [exact Uv|]. exists b. split; [exact Kb|].
          eapply kreach_step; [exact Rb|exact K].
      - constructor; [|exact ND]. intros I. destruct (Hv a I) as (_ & b & Kb & R). exact (Ac a b Ua Kb R).
      - cbn [length]. lia.
      - lia.
      - rewrite E1. destruct IHk as [l2 ->]; [intros; apply Hk; now right|]. eauto. }
    destruct (Wk (nd_kids nd)) as [l1 ->]; [intros k Hk; exists nd; now split|]. eauto.
Qed.

Lemma reach_trans : forall h a b c, reach h a b -> reach h b c -> reach h a c.
Proof. intros h a b c H R. induction R; [exact H|]. eapply reach_step; eauto. Qed.

Lemma kreach_reach : forall d a b, walks_refs d -> in_doc d a -> kreach (dc_heap d) a b ->
  reach (dc_heap d) a b /\ in_doc d b.
Proof.
  intros d a b W Ha R. induction R as [|b c R [IH1 IH2] K]; [split; [constructor|exact Ha]|].
  apply (in_doc_kid d b c W IH2) in K. split; [eapply reach_step; eauto|eapply in_doc_step; eauto].
Qed.

Lemma acyclic_kids : forall d, walks_refs d -> acyclic d ->
  forall a b, in_doc d a -> kid (dc_heap d) a b -> kreach (dc_heap d) b a -> False.
Proof.
  intros d W A a b Ha K R. apply (in_doc_kid d a b W Ha) in K as K'.
  pose proof (in_doc_step d a b Ha K') as Hb. destruct (kreach_reach d b a W Hb R) as [R' _].
  apply (A a Ha). exists b. now split.
Qed.

Lemma reach_kreach : forall d a b, walks_refs d -> in_doc d a -> reach (dc_heap d) a b ->
  kreach (dc_heap d) a b.
Proof.
  intros d a b W Ha R. induction R as [|c e R IH K]; [constructor|].
  assert (in_doc d c) as Hc. { destruct Ha as [H0 Rb]. split; [exact H0|]. eapply reach_trans; eauto. }
  eapply kreach_step; [exact IH|]. now apply in_doc_kid.
Qed.

Lemma cyclic_walk : forall lim d a l, walks_refs d -> in_doc d a -> reach_plus (dc_heap d) a a ->
  walk_doc lim d = (l, None) -> False.
Proof.
  intros lim d a l W Ha (b & K & R) H. unfold walk_doc in H.
  destruct (Z.eqb_spec (dc_content d) 0) as [E0|N0]; [destruct Ha; tauto|].
  assert (kreach (dc_heap d) (dc_content d) a) as Ka by now apply in_doc_kreach.
  destruct (walk_kreach _ _ _ Ka _ _ H) as (lim' & l' & _ & H').
  apply (in_doc_kid d a b W Ha) in K as Kb.
  apply (walk_no_cycle _ lim' a l' b H' Kb). apply reach_kreach; [exact W| |exact R].
  eapply in_doc_step; eauto.
Qed.

Lemma walk_completes : forall lim bo d F, walks_refs d -> acyclic d -> saveable bo d F ->
  (length F <= lim)%nat -> exists l, walk_doc lim d = (l, None).
Proof.
  intros lim bo d F W A [_ S] Hlim. unfold walk_doc.
  destruct (Z.eqb_spec (dc_content d) 0) as [E0|N0]; [now exists []|].
  apply (walk_ends (dc_heap d) F (in_doc d)) with (n := length F) (vs := []).
  - intros a b Ha K. apply (in_doc_step d a b Ha). now apply in_doc_kid.
  - intros a Ha. now apply S.
  - intros a Ha. destruct (S a Ha) as (_ & nd & E & _). eauto.
  - now apply acyclic_kids.
  - split; [exact N0|constructor].
  - intros v [].
  - constructor.
  - cbn [length]. lia.
  - exact Hlim.
Qed.

(** Levels that go down along references bound the depth of the walk. *)
Lemma walk_levels : forall h (U : Z -> Prop) (level : Z -> nat), (forall a b, U a -> kid h a b -> U b /\ (level b < level a)%nat) ->
  (forall a, U a -> exists nd, h a = Ok nd) ->
  forall lim a, U a -> (level a < lim)%nat -> exists l, walk lim h a = (l, None).
Proof.
  intros h U level Uk Uh. induction lim as [|lim IH]; intros a Ua Hl; [lia|].
  rewrite walk_S. destruct (Uh a Ua) as [nd Ea]. rewrite Ea.
  assert (forall ks, (forall k, In k ks -> kid h a k) -> exists l, walks lim h ks = (l, None)) as Wk.
  { induction ks as [|k ks IHk]; intros Hk; [exists []; reflexivity|]. rewrite walks_cons.
    destruct (Uk a k Ua) as [Uk' Lk]; [apply Hk; now left|].
    destruct (IH k Uk') as [l1 ->]; [lia|]. destruct IHk as [l2 ->]; [intros; apply Hk; now right|]. eauto. }
  destruct (Wk (nd_kids nd)) as [l1 ->]; [intros k Hk; exists nd; now split|]. eauto.
Qed.

Lemma save_completes_walk : forall lim z bo d F l, walks_refs d -> ids_distinct d -> all_ok d ->
  saveable bo d F -> header_fits z d -> walk_doc lim d = (l, None) ->
  exists o, save lim z bo d = (o, None).
Proof.
  intros lim z bo d F l W I Ok' S [[v Hv] Ht] Hl.
  destruct S as [HF S].
  destruct (walk_order lim d l W Hl) as (ND & Il & Io & Bf & Ls & Hh).
  assert (len (fresh [] l) < 2 ^ 32) as Ln.
  { assert (incl (fresh [] l) F) as G. { intros x Hx. apply S. now apply Io. }
    apply (NoDup_incl_length ND) in G. unfold len in *. lia. }
  destruct (save_loop_runs bo (dc_self d) (dc_heap d) (in_doc d) I l [] (fun _ => None))
    as (o3 & m & n & E3).
  - exact Il.
  - apply tracks_nil.
  - exact Hh.
  - intros p x s nd m' Hf Ex T. cbn [app] in T.
    assert (in_doc d x) as Dx by (apply Io; rewrite Hf; apply in_or_app; right; now left).
    destruct (S x Dx) as (_ & nd' & Ex' & Es & Fit & Sz). rewrite Ex in Ex'. injection Ex' as <-.
    pose proof (Ok' x nd Dx Ex) as Hok.
    destruct (fsp_obj (all_numbered bo) (save_octx bo (dc_heap d) m') (nd_obj nd) (proj1 Hok) Fit) as [_ G].
    assert (obj_fits (save_octx bo (dc_heap d) m') (nd_obj nd)) as Fit'.
    { apply G. unfold refs_fit. apply Forall_forall. intros r Hr. unfold fits_ref.
      destruct (Z.eq_dec r 0) as [->|N]; [now left|right].
      assert (refers (dc_heap d) x r) as R by (exists nd; auto).
      pose proof (in_doc_step d x r Dx R) as Dr. destruct (S r Dr) as (_ & nr & Er & _).
      pose proof (Bf p x s Hf r R) as Ip.
      assert (number (p ++ [x]) r <> 0) as Nn by (apply number_in; apply in_or_app; now left).
      exists (number (p ++ [x]) r). unfold save_octx. cbn [orefs]. rewrite Er.
      rewrite (proj1 T r nr Dr Er). unfold numo.
      destruct (Z.eqb_spec (number (p ++ [x]) r) 0); [contradiction|]. split; [reflexivity|].
      pose proof (number_range (p ++ [x]) r) as Rg. unfold fits_u32.
      assert (len (p ++ [x]) <= len (fresh [] l)).
      { rewrite Hf, !len_app. unfold len. cbn [length]. lia. }
      lia. }
    apply (obj_fit _ _ Hok) in Fit' as [data Hw].
    apply (write_object_intro bo (dc_self d) (dc_heap d) m' nd data Es Hw).
    + exact (ends3_last _ _ _ (proj1 Hok) Hw).
    + apply (obj_fit _ _ Hok) in Fit as [data0 Hw0]. pose proof (wsz_body _ _ _ _ _ Hw0 Hw) as EL.
      specialize (Sz data0 Hw0). unfold len in *. now rewrite <- EL.
  - change (len (@nil Z)) with 0 in E3.
    assert (n = len (fresh [] l)) as En.
    { change 0 with (len (@nil Z)) in E3.
      apply (save_loop_ok bo (dc_self d) (dc_heap d) (in_doc d) I l []) in E3 as [En _];
        [exact En|exact Il|apply tracks_nil]. }
    unfold save, write. cbn [ss_doc new_session ss_map ss_next].
    destruct (head_run z bo d) as (b1 & E1 & C1). rewrite E1.
    destruct (run_writers (head_counts bo ++ head_after z bo d)) as [o2 s2] eqn:E2.
    apply head_counts_run in E2 as (o2' & E2 & ->).
    destruct (head_after_intro z bo d v (conj Hv Ht)) as (b2 & Eb & _). rewrite Eb, run_writers_ok in E2.
    injection E2 as <- <-. fold (walk_doc lim d). rewrite Hl. rewrite E3.
    unfold save_counts, wu32.
    rewrite wunsigned_in by (rewrite En; split; [apply len_nonneg|exact Ln]).
    eexists. reflexivity.
Qed.

Lemma save_completes : forall lim z bo d F, walks_refs d -> ids_distinct d -> all_ok d -> acyclic d ->
  saveable bo d F -> header_fits z d -> (length F <= lim)%nat ->
  exists o, save lim z bo d = (o, None).
Proof.
  intros lim z bo d F W I Ok' A S Hh Hlim. destruct (walk_completes lim bo d F W A S Hlim) as [l Hl].
  exact (save_completes_walk lim z bo d F l W I Ok' S Hh Hl).
Qed.

Lemma save_completes_levels : forall lim z bo d F (level : Z -> nat), walks_refs d -> ids_distinct d -> all_ok d ->
  (forall a b, in_doc d a -> refers (dc_heap d) a b -> (level b < level a)%nat) ->
  saveable bo d F -> header_fits z d -> (dc_content d <> 0 -> (level (dc_content d) < lim)%nat) ->
  exists o, save lim z bo d = (o, None).
Proof.
  intros lim z bo d F level W I Ok' L S Hh Hlim.
  assert (exists l, walk_doc lim d = (l, None)) as [l Hl].
  { unfold walk_doc. destruct (Z.eqb_spec (dc_content d) 0) as [E0|N0]; [now exists []|].
    apply (walk_levels (dc_heap d) (in_doc d) level).
    - intros a b Ha K. apply (in_doc_kid d a b W Ha) in K. split; [exact (in_doc_step d a b Ha K)|now apply L].
    - intros a Ha. destruct (proj2 S a Ha) as (_ & nd & E & _). eauto.
    - split; [exact N0|constructor].
    - now apply Hlim. }
  exact (save_completes_walk lim z bo d F l W I Ok' S Hh Hl).
Qed.

Lemma numbered_number : forall l a, In a l -> numbered l (number l a) = a.
Proof.
  intros l a H. pose proof (proj2 (number_in l a) H) as N. pose proof (number_range l a) as R.
  unfold numbered. destruct (Z.leb_spec (number l a) 0); [lia|].
  revert H N R. clear. induction l as [|x l IH]; intros H N R; [destruct H|]. cbn [number] in *.
  destruct (Z.eqb_spec x a) as [->|D]; [reflexivity|]. destruct H as [H|H]; [congruence|].
  pose proof (number_range l a) as R'. pose proof (proj2 (number_in l a) H) as N'.
  specialize (IH H N' R'). destruct (number l a) as [|q|q] eqn:E; try lia.
  replace (Z.to_nat (Z.pos q + 1 - 1)) with (S (Z.to_nat (Z.pos q - 1))) by lia. exact IH.
Qed.

(** ** Both byte orders end alike *)

Lemma write_object_same : forall bo bo' self h m nd, closes (okind (nd_obj nd)) = true ->
  snd (run_writers (write_object bo self h m nd)) = snd (run_writers (write_object bo' self h m nd)).
Proof.
  intros bo bo' self h m nd Hk. unfold write_object. destruct (nd_doc nd =? self); [|reflexivity].
  pose proof (weq_body (save_octx bo h m) (save_octx bo' h m) (nd_obj nd) (fun _ => eq_refl)) as E.
  unfold weq in E.
  destruct (wbody (save_octx bo h m) (nd_obj nd)) as [x|e] eqn:W1,
           (wbody (save_octx bo' h m) (nd_obj nd)) as [y|e'] eqn:W2; cbn [wlen] in E; try discriminate E.
  - injection E as E. rewrite (ends3_last _ _ _ Hk W1), (ends3_last _ _ _ Hk W2).
    replace (len y) with (len x) by (unfold len; now rewrite E).
    unfold wassert, wfourcc, wu32, wunsigned. change (3 =? 3) with true. cbv iota.
    assert (len (class_id (okind (nd_obj nd))) = 4) as -> by (unfold len; now rewrite class_id_len).
    change (4 =? 4) with true. cbv iota. destruct ((0 <=? len x) && (len x <? pow256 4)); reflexivity.
  - injection E as ->. reflexivity.
Qed.

Lemma save_loop_same : forall bo bo' self h l m n,
  (forall x nd, In x l -> h x = Ok nd -> closes (okind (nd_obj nd)) = true) ->
  forall o s m' n' o2 s2 m2 n2, save_loop bo self h l m n = (o, s, m', n') ->
    save_loop bo' self h l m n = (o2, s2, m2, n2) -> s = s2 /\ n' = n2.
Proof.
  intros bo bo' self h l. induction l as [|a l IH]; intros m n Hk o s m' n' o2 s2 m2 n2 H1 H2; cbn [save_loop] in *.
  - injection H1 as _ <- _ <-. injection H2 as _ <- _ <-. now split.
  - destruct (h a) as [nd|e] eqn:Ea.
    2:{ injection H1 as _ <- _ <-. injection H2 as _ <- _ <-. now split. }
    assert (forall x nd, In x l -> h x = Ok nd -> closes (okind (nd_obj nd)) = true) as Hk'.
    { intros x nx Hx. apply Hk. now right. }
    destruct (m (nd_id nd)); [exact (IH m n Hk' _ _ _ _ _ _ _ _ H1 H2)|].
    set (m1 := fun i => if i =? nd_id nd then Some (n + 1) else m i) in *.
    pose proof (write_object_same bo bo' self h m1 nd (Hk a nd (or_introl eq_refl) Ea)) as E.
    destruct (run_writers (write_object bo self h m1 nd)) as [u s3].
    destruct (run_writers (write_object bo' self h m1 nd)) as [u' s3'].
    cbn [snd] in E. subst s3'. destruct s3 as [e|].
    + injection H1 as _ <- _ <-. injection H2 as _ <- _ <-. now split.
    + destruct (save_loop bo self h l m1 (n + 1)) as [[[p1 p2] p3] p4] eqn:L1.
      destruct (save_loop bo' self h l m1 (n + 1)) as [[[q1 q2] q3] q4] eqn:L2.
      injection H1 as _ <- _ <-. injection H2 as _ <- _ <-.
      exact (IH m1 (n + 1) Hk' _ _ _ _ _ _ _ _ L1 L2).
Qed.

Lemma head_after_same : forall z bo bo' d,
  snd (run_writers (head_after z bo d)) = snd (run_writers (head_after z bo' d)).
Proof.
  intros z bo bo' d.
  destruct (Z_le_dec 0 (to_timestamp z (dc_saved d))) as [H0|H0];
  [destruct (Z_lt_dec (to_timestamp z (dc_saved d)) (pow256 4)) as [H1|H1]|].
  - destruct (mac_encode (dc_version d)) as [v|e] eqn:E.
    + destruct (head_after_intro z bo d v) as (b & -> & _); [split; [exact E|split; assumption]|].
      destruct (head_after_intro z bo' d v) as (b' & -> & _); [split; [exact E|split; assumption]|].
      now rewrite !run_writers_ok.
    + unfold head_after. rewrite E. unfold wdatetime, wu32.
      rewrite !(wunsigned_in _ 4 (to_timestamp z (dc_saved d))) by (split; assumption).
      destruct bo, bo'; reflexivity.
  - assert (forall b, wu32 b (to_timestamp z (dc_saved d)) = Err StructError) as Eu.
    { intros b. unfold wu32, wunsigned.
      replace (to_timestamp z (dc_saved d) <? pow256 4) with false by (symmetry; apply Z.ltb_ge; lia).
      now rewrite andb_false_r. }
    unfold head_after, wdatetime. rewrite !Eu. destruct bo, bo'; reflexivity.
  - assert (forall b, wu32 b (to_timestamp z (dc_saved d)) = Err StructError) as Eu.
    { intros b. unfold wu32, wunsigned.
      replace (0 <=? to_timestamp z (dc_saved d)) with false by (symmetry; apply Z.leb_gt; lia).
      reflexivity. }
    unfold head_after, wdatetime. rewrite !Eu. destruct bo, bo'; reflexivity.
Qed.

Lemma save_same : forall lim z bo bo' d, walks_refs d -> all_ok d ->
  snd (save lim z bo d) = snd (save lim z bo' d).
Proof.
  intros lim z bo bo' d W Ok'. unfold save, write. cbn [ss_doc new_session ss_map ss_next].
  destruct (head_run z bo d) as (b1 & E1 & C1). rewrite E1.
  destruct (head_run z bo' d) as (b1' & E1' & C1'). rewrite E1'.
  pose proof (head_after_same z bo bo' d) as HA.
  destruct (run_writers (head_counts bo ++ head_after z bo d)) as [o2 s2] eqn:E2.
  destruct (run_writers (head_counts bo' ++ head_after z bo' d)) as [o2' s2'] eqn:E2'.
  apply head_counts_run in E2 as (p & E2 & _). apply head_counts_run in E2' as (p' & E2' & _).
  rewrite E2, E2' in HA. cbn [snd] in HA. subst s2'. destruct s2 as [e|]; [reflexivity|].
  fold (walk_doc lim d). destruct (walk_doc lim d) as [l ws] eqn:Ew.
  assert (forall x nd, In x l -> dc_heap d x = Ok nd -> closes (okind (nd_obj nd)) = true) as Hk.
  { intros x nd Hx E. apply (Ok' x nd); [|exact E]. unfold walk_doc in Ew.
    destruct (Z.eqb_spec (dc_content d) 0) as [E0|N0]; [injection Ew as <- _; destruct Hx|].
    apply (in_doc_kreach d x W N0). exact (walk_below _ _ _ _ _ Ew x Hx). }
  destruct (save_loop bo (dc_self d) (dc_heap d) l (fun _ => None) 0) as [[[o3 s3] m3] n3] eqn:L1.
  destruct (save_loop bo' (dc_self d) (dc_heap d) l (fun _ => None) 0) as [[[o3' s3'] m3'] n3'] eqn:L2.
  destruct (save_loop_same _ _ _ _ _ _ _ Hk _ _ _ _ _ _ _ _ L1 L2) as [<- <-].
  destruct s3 as [e|]; [reflexivity|]. destruct ws as [e|]; [reflexivity|].
  unfold save_counts, wu32, wunsigned. destruct ((0 <=? n3) && (n3 <? pow256 4)); reflexivity.
Qed.

(** The version as a text. *)
Lemma drop_lstrip : forall s b, Forall2 (fun c x => mac_enc1 c = Some x) s b ->
  Forall2 (fun c x => mac_enc1 c = Some x) (drop_nuls s) (lstrip0 b).
Proof.
  intros s b H. induction H as [|c x s b E H IH]; [constructor|]. cbn [drop_nuls lstrip0].
  pose proof (mac_enc1_zero c x E) as Z0. destruct (Z.eqb_spec c 0) as [->|N].
  - rewrite (proj2 Z0 eq_refl). exact IH.
  - destruct x; [exfalso; apply N; now apply Z0| |]; constructor; assumption.
Qed.

Lemma Forall2_rev : forall A B (R : A -> B -> Prop) l r, Forall2 R l r -> Forall2 R (rev l) (rev r).
Proof.
  intros A B R l r H. induction H; cbn [rev]; [constructor|]. apply Forall2_app; [assumption|].
  constructor; [assumption|constructor].
Qed.

Lemma trim_strip : forall s b, Forall2 (fun c x => mac_enc1 c = Some x) s b ->
  map mac_dec1 (strip0 b) = trim_nuls s.
Proof.
  intros s b H. unfold trim_nuls, strip0. apply drop_lstrip, Forall2_rev, drop_lstrip, Forall2_rev in H.
  induction H as [|c x s' b' E H IH]; [reflexivity|]. cbn [map]. f_equal; [|exact IH].
  now apply mac_enc1_dec in E.
Qed.

Lemma encode_forall : forall s b, mac_encode s = Ok b -> Forall2 (fun c x => mac_enc1 c = Some x) s b.
Proof.
  induction s as [|c s IH]; intros b H; cbn [mac_encode] in H.
  - injection H as <-. constructor.
  - destruct (mac_enc1 c) as [x|] eqn:E; [|discriminate]. destruct (mac_encode s) as [b'|e]; [|discriminate].
    injection H as <-. constructor; [exact E|now apply IH].
Qed.

Lemma version_text : forall s v, mac_encode s = Ok v ->
  version_read v = trim_nuls (firstn 30 s ++ repeat 32 (30 - length s)).
Proof.
  intros s v H. apply encode_forall in H. unfold version_read. apply trim_strip. unfold version_bytes.
  apply Forall2_app.
  - revert H. generalize 30%nat. intros n H. revert n. induction H; intros [|n]; cbn [firstn]; constructor; auto.
  - assert (length s = length v) as L by (clear - H; induction H; cbn [length]; congruence). rewrite firstn_length.
    replace (30 - Nat.min 30 (length v))%nat with (30 - length s)%nat by lia.
    generalize (30 - length s)%nat. induction n; cbn [repeat]; constructor; [reflexivity|assumption].
Qed.

(** What a save does depends on the document alone. *)
Lemma write_doc lim z bo s : write lim z bo s = write lim z bo (new_session (ss_doc s)).
Proof.
  destruct s as [d m n o]. unfold new_session. cbn [ss_doc].
  unfold write. cbn [ss_doc ss_map ss_next].
  destruct (run_writers (head_before z bo d)) as [o1 [e|]]; reflexivity.
Qed.

Lemma write_save lim z bo d s : ss_doc s = d -> fst (write lim z bo s) = save lim z bo d.
Proof. intros <-. unfold save. rewrite (write_doc lim z bo s). reflexivity. Qed.

Lemma write_keeps lim z bo s : ss_doc (snd (write lim z bo s)) = ss_doc s.
Proof.
  unfold write.
  destruct (run_writers (head_before z bo (ss_doc s))) as [o1 [e|]]; [reflexivity|].
  destruct (run_writers (head_counts bo ++ head_after z bo (ss_doc s))) as [o2 [e|]]; [reflexivity|].
  destruct (if dc_content (ss_doc s) =? 0 then _ else _) as [l ws].
  destruct (save_loop _ _ _ _ _ _) as [[[o3 s3] m] n]. destruct s3; [reflexivity|].
  destruct ws; [reflexivity|].
  destruct (save_counts _ _ _) as [o4 s4]. reflexivity.
Qed.
