(** When copying succeeds, and what it leaves alone when it does not. *)
From Coq Require Import ZArith List Bool Lia.
From Verif Require Import Base Copy CopySpec CopyProofs.
Import ListNotations.
Open Scope Z_scope.

(** ** Nothing that was there changes *)

Definition keeps (s s' : store) : Prop := (forall z, z < s_new s -> s_mem s' z = s_mem s z) /\ s_new s <= s_new s'.

Lemma keeps_refl : forall s, keeps s s.
Proof. intros s. split; [auto|lia]. Qed.

Lemma keeps_trans : forall s s1 s2, keeps s s1 -> keeps s1 s2 -> keeps s s2.
Proof. intros s s1 s2 [A B] [C D]. split; [|lia]. intros z Hz. rewrite C, A by lia. reflexivity. Qed.

Lemma keeps_update : forall s s1 b f, keeps s s1 -> s_new s <= b -> keeps s (update s1 b f).
Proof. intros s s1 b f [A B] H. split; [|exact B]. intros z Hz. rewrite update_other by lia. auto. Qed.

Lemma keeps_new : forall s t, keeps s (fst (new_thing s t)).
Proof. intros s t. split; [|cbn; lia]. intros z Hz. apply new_other. lia. Qed.

Definition keeping (conv : store -> value -> store * result value) : Prop := forall s v s' r, conv s v = (s', r) -> keeps s s'.
Definition cp_keeping (cp : store -> Z -> store * result Z) : Prop :=
  forall s a s' r, cp s a = (s', r) -> keeps s s' /\ forall b, r = Ok b -> s_new s <= b.

Lemma fill_keeps : forall conv, keeping conv -> forall l s0 s b s' e, keeps s0 s -> s_new s0 <= b -> fill conv s b l = (s', e) -> keeps s0 s'.
Proof.
  intros conv C. induction l as [|[k v] l IH]; intros s0 s b s' e K Hb H; cbn [fill] in H; [now injection H as <- <-|].
  destruct (conv s v) as [s1 [w|x]] eqn:Ev; pose proof (keeps_trans _ _ _ K (C _ _ _ _ Ev)) as K1.
  - exact (IH s0 _ b s' e (keeps_update _ _ _ _ K1 Hb) Hb H).
  - injection H as <- <-. exact K1.
Qed.

Lemma call_copy_keeps : forall cp, cp_keeping cp -> forall s v s' r, call_copy cp s v = (s', r) -> keeps s s' /\ forall b, r = Ok (VRef b) -> s_new s <= b.
Proof.
  intros cp C s v s' r H. unfold call_copy in H.
  destruct v as [|i|i|i|i|x]; try (injection H as <- <-; split; [apply keeps_refl|discriminate]).
  destruct (s_mem s x) as [[]|]; try (injection H as <- <-; split; [apply keeps_refl|discriminate]);
    destruct (cp s x) as [s1 [y|e]] eqn:E; injection H as <- <-; destruct (C _ _ _ _ E) as [K L]; split; auto; try discriminate;
    intros b Eb; injection Eb as <-; now apply L.
Qed.

Lemma list_entry_keeps : forall cp, cp_keeping cp -> keeping (list_entry cp).
Proof.
  intros cp C s v s' r H. unfold list_entry in H. destruct v as [|i|i|i|i|x]; try (injection H as <- <-; apply keeps_refl).
  destruct (s_mem s x) as [[]|]; try (injection H as <- <-; apply keeps_refl). exact (proj1 (call_copy_keeps cp C _ _ _ _ H)).
Qed.

Lemma attribute_keeps : forall cp, cp_keeping cp -> keeping (attribute cp).
Proof.
  intros cp C s v s' r H. unfold attribute in H.
  destruct v as [|i|i|i|i|x]; try (injection H as <- <-; apply keeps_refl); try (exact (proj1 (call_copy_keeps cp C _ _ _ _ H))).
  destruct (s_mem s x) as [[]|]; try (exact (proj1 (call_copy_keeps cp C _ _ _ _ H))).
  cbn [new_thing] in H. injection H as <- <-. apply (keeps_new s (TBlob data)).
Qed.

Lemma property_keeps : forall cp b, cp_keeping cp -> keeping (property cp b).
Proof.
  intros cp b C s v s' r H. unfold property in H.
  destruct v as [|i|i|i|i|x]; try (injection H as <- <-; apply keeps_refl).
  destruct (s_mem s x) as [[]|]; try (injection H as <- <-; apply keeps_refl); try (exact (proj1 (call_copy_keeps cp C _ _ _ _ H))).
  - destruct (call_copy cp s (VRef x)) as [s1 r1] eqn:E. destruct (call_copy_keeps cp C _ _ _ _ E) as [K L].
    destruct r1 as [w|e]; [|injection H as <- <-; exact K]. destruct w as [|i|i|i|i|y]; injection H as <- <-; try exact K.
    destruct parent; [|exact K]. apply keeps_update; [exact K|]. now apply L.
  - destruct (new_thing s (TList [])) as [s1 y] eqn:En. pose proof (keeps_new s (TList [])) as K. rewrite En in K. cbn [fst] in K.
    unfold new_thing in En. injection En as E1 <-.
    destruct (fill (list_entry cp) s1 (s_new s) (keyless items)) as [s2 [e|]] eqn:Ef; injection H as <- <-;
      apply (fill_keeps _ (list_entry_keeps cp C) _ s s1 (s_new s) _ _ K (Z.le_refl _) Ef).
Qed.

Lemma init_keeps : forall l s0 s root b, keeps s0 s -> s_new s0 <= b -> keeps s0 (init s root b l).
Proof.
  induction l as [|[k d] l IH]; intros s0 s root b K Hb; cbn [init]; [exact K|]. destruct d as [v|t].
  - apply IH; [|exact Hb]. now apply keeps_update.
  - destruct (new_thing s (t root)) as [s1 x] eqn:En. pose proof (keeps_new s (t root)) as Kn. rewrite En in Kn. cbn [fst] in Kn.
    apply IH; [|exact Hb]. apply keeps_update; [|exact Hb]. eapply keeps_trans; eauto.
Qed.

Lemma make_keeps : forall cl s root c s' r, make cl s root c = (s', r) -> keeps s s' /\ forall b, r = Ok b -> b = s_new s.
Proof.
  intros cl s root c s' r H. unfold make in H. destruct (cl c) as [i|]; [|injection H as <- <-; split; [apply keeps_refl|discriminate]].
  destruct (new_thing s (TObject root c [])) as [s1 x] eqn:En. pose proof (keeps_new s (TObject root c [])) as K. rewrite En in K. cbn [fst] in K.
  unfold new_thing in En. injection En as E1 <-. destruct (c_noargs i); injection H as <- <-.
  - split; [apply init_keeps; [exact K|lia]|]. intros b E. now injection E as <-.
  - split; [exact K|discriminate].
Qed.

Lemma copy_keeps : forall lim cl root, cp_keeping (copy lim cl root).
Proof.
  induction lim as [|lim IH]; intros cl root s a s' r H; cbn [copy] in H.
  - injection H as <- <-. split; [apply keeps_refl|discriminate].
  - specialize (IH cl root). destruct (s_mem s a) as [[ro c p|ro c par l|ro p|l|d|d]|]; try (injection H as <- <-; split; [apply keeps_refl|discriminate]).
    + destruct (make cl s root c) as [s1 [b|e]] eqn:Em; destruct (make_keeps _ _ _ _ _ _ Em) as [K L].
      2:{ injection H as <- <-. split; [exact K|discriminate]. }
      rewrite (L b eq_refl) in *. clear L.
      destruct (fill (property (copy lim cl root) (s_new s)) s1 (s_new s) p) as [s2 e] eqn:Ef.
      pose proof (fill_keeps _ (property_keeps _ (s_new s) IH) _ s s1 (s_new s) s2 e K (Z.le_refl _) Ef) as K2.
      destruct e; injection H as <- <-; (split; [exact K2|]); [discriminate|]. intros b' E. injection E as <-. lia.
    + destruct (new_thing s (TRefList root c None [])) as [s1 x] eqn:En. pose proof (keeps_new s (TRefList root c None [])) as K. rewrite En in K. cbn [fst] in K.
      unfold new_thing in En. injection En as E1 <-.
      destruct (fill (call_copy (copy lim cl root)) s1 (s_new s) (keyless l)) as [s2 e] eqn:Ef.
      assert (keeping (call_copy (copy lim cl root))) as C by (intros ? ? ? ? E; exact (proj1 (call_copy_keeps _ IH _ _ _ _ E))).
      pose proof (fill_keeps _ C _ s s1 (s_new s) s2 e K (Z.le_refl _) Ef) as K2.
      destruct e; injection H as <- <-; (split; [exact K2|]); [discriminate|]. intros b' E. injection E as <-. lia.
    + destruct (new_thing s (TAttrs root [])) as [s1 x] eqn:En. pose proof (keeps_new s (TAttrs root [])) as K. rewrite En in K. cbn [fst] in K.
      unfold new_thing in En. injection En as E1 <-.
      destruct (fill (attribute (copy lim cl root)) s1 (s_new s) p) as [s2 e] eqn:Ef.
      pose proof (fill_keeps _ (attribute_keeps _ IH) _ s s1 (s_new s) s2 e K (Z.le_refl _) Ef) as K2.
      destruct e; injection H as <- <-; (split; [exact K2|]); [discriminate|]. intros b' E. injection E as <-. lia.
Qed.

(** ** When it succeeds *)

Section Ends.
Variable cl : classes.
Variable root old : Z.
Variable m : memory.
Hypothesis order : in_order m old.

Definition like (s : store) : Prop := old <= s_new s /\ forall z, z < old -> s_mem s z = m z.

Lemma like_keeps : forall s s', like s -> keeps s s' -> like s'.
Proof. intros s s' [A B] [C D]. split; [lia|]. intros z Hz. rewrite C by lia. auto. Qed.

Lemma like_update : forall s b f, like s -> old <= b -> like (update s b f).
Proof. intros s b f [A B] H. split; [exact A|]. intros z Hz. rewrite update_other by lia. auto. Qed.

(** [conv] succeeds on [v] whatever has been made before. *)
Definition always (conv : store -> value -> store * result value) (v : value) : Prop := forall s, like s -> exists s' w, conv s v = (s', Ok w).
Definition sometimes (conv : store -> value -> store * result value) (v : value) : Prop := exists s s' w, like s /\ conv s v = (s', Ok w).

Lemma fill_always : forall conv, keeping conv -> forall l s b, like s -> old <= b -> Forall (fun kv => always conv (snd kv)) l ->
  exists s', fill conv s b l = (s', None).
Proof.
  intros conv C. induction l as [|[k v] l IH]; intros s b L Hb F; cbn [fill]; [eauto|].
  apply Forall_cons_iff in F as [V F]. destruct (V s L) as (s1 & w & E). cbn [snd] in E. rewrite E.
  apply IH; [|exact Hb|exact F]. apply like_update; [|exact Hb]. exact (like_keeps _ _ L (C _ _ _ _ E)).
Qed.

Lemma fill_sometimes : forall conv, keeping conv -> forall l s b s', like s -> old <= b -> fill conv s b l = (s', None) ->
  Forall (fun kv => sometimes conv (snd kv)) l.
Proof.
  intros conv C. induction l as [|[k v] l IH]; intros s b s' L Hb H; cbn [fill] in H; constructor.
  - destruct (conv s v) as [s1 [w|e]] eqn:E; [|discriminate]. exists s, s1, w. auto.
  - destruct (conv s v) as [s1 [w|e]] eqn:E; [|discriminate]. apply (IH (update s1 b (add k w)) b s'); auto.
    apply like_update; [|exact Hb]. exact (like_keeps _ _ L (C _ _ _ _ E)).
Qed.

Definition cp_always (cp : store -> Z -> store * result Z) (a : Z) : Prop := forall s, like s -> exists s' b, cp s a = (s', Ok b).
Definition cp_sometimes (cp : store -> Z -> store * result Z) (a : Z) : Prop := exists s s' b, like s /\ cp s a = (s', Ok b).

Lemma call_always : forall cp x t, x < old -> m x = Some t -> object_like t -> cp_always cp x -> always (call_copy cp) (VRef x).
Proof.
  intros cp x t Hx E O C s L. cbn [call_copy]. rewrite (proj2 L x Hx), E. destruct (C s L) as (s' & b & Ec). rewrite Ec.
  destruct t; try contradiction; eauto.
Qed.

Lemma call_sometimes : forall cp v, (forall r, v = VRef r -> r < old) -> sometimes (call_copy cp) v ->
  exists x t, v = VRef x /\ m x = Some t /\ object_like t /\ cp_sometimes cp x.
Proof.
  intros cp v Hv (s & s' & w & L & H). destruct v as [|i|i|i|i|x]; try discriminate. cbn [call_copy] in H. rewrite (proj2 L x (Hv x eq_refl)) in H.
  destruct (m x) as [[]|] eqn:E; try discriminate; (destruct (cp s x) as [s1 [y|e]] eqn:Ec; [|discriminate]);
    (eexists; eexists; split; [reflexivity|]; split; [exact E|]; split; [exact I|]; exists s, s1, y; auto).
Qed.

(** The chain of copies from an object that can be copied ends, and all in it can be copied. *)
Lemma copy_sometimes : forall lim a, a < old -> cp_sometimes (copy lim cl root) a -> ends m a /\ forall y, needs_all m a y -> copyable cl m y.
Proof.
  assert (forall a y, needs_all m a y -> a = y \/ exists x, needs m a x /\ needs_all m x y) as First.
  { intros a y N. induction N as [|x y N IH St]; [auto|]. right. destruct IH as [->|(z & N1 & N2)].
    - exists y. split; [exact St|constructor].
    - exists z. split; [exact N1|]. econstructor; eauto. }
  induction lim as [|lim IH]; intros a Ha (s & s' & b & L & H); cbn [copy] in H; [discriminate|].
  assert (copyable cl m a /\ forall y, needs m a y -> y < old /\ cp_sometimes (copy lim cl root) y) as [Ca Na].
  2:{ split.
      - constructor. intros y N. destruct (Na y N) as [Hy Cy]. exact (proj1 (IH y Hy Cy)).
      - intros y N. destruct (First a y N) as [<-|(x & N1 & N2)]; [exact Ca|]. destruct (Na x N1) as [Hx Cx]. exact (proj2 (IH x Hx Cx) y N2). }
  rewrite (proj2 L a Ha) in H. destruct (m a) as [t|] eqn:Ea; [|discriminate]. pose proof (order a t Ha Ea) as [Or _].
  unfold copyable. rewrite Ea. destruct t as [ro c p|ro c par l|ro p|l|d|d]; try discriminate.
  - destruct (make cl s root c) as [s1 [b1|e]] eqn:Em; [|discriminate]. destruct (make_keeps _ _ _ _ _ _ Em) as [K Eb]. rewrite (Eb b1 eq_refl) in *. clear Eb.
    split.
    { unfold make in Em. destruct (cl c) as [i|]; [|discriminate]. exists i. split; [reflexivity|]. destruct (new_thing s (TObject root c [])), (c_noargs i); [reflexivity|discriminate]. }
    destruct (fill (property (copy lim cl root) (s_new s)) s1 (s_new s) p) as [s2 [e|]] eqn:Ef; [discriminate|].
    pose proof (fill_sometimes _ (property_keeps _ (s_new s) (copy_keeps lim cl root)) p s1 (s_new s) s2 (like_keeps _ _ L K) (proj1 L) Ef) as F.
    rewrite Forall_forall in F. intros y N. inversion N as [? ? ? ? ? t E1 E2 E3 E4|? ? z ? ? ? l ? ? ? E1 E2 E3 E4 E5|? ? ? ? ? ? ? E1|? ? ? ? ? E1]; subst; rewrite Ea in E1; try discriminate.
    + injection E1 as <- <- <-. destruct (Or y E2) as [Hy _]. split; [exact Hy|].
      apply in_map_iff in E2 as ([k v] & E2 & I2). cbn [snd] in E2. subst v. destruct (F _ I2) as (s3 & s4 & w & L3 & H3). cbn [snd property] in H3.
      rewrite (proj2 L3 y Hy), E3 in H3. destruct t; try contradiction.
      * destruct (call_sometimes (copy lim cl root) (VRef y)) as (x & t & E & _ & _ & S); [intros r0 E; now injection E as <-|exists s3, s4, w; auto|]. now injection E as <-.
      * destruct (call_copy (copy lim cl root) s3 (VRef y)) as [s5 [w5|e]] eqn:Ec; [|discriminate].
        destruct (call_sometimes (copy lim cl root) (VRef y)) as (x & t & E & _ & _ & S); [intros r0 E; now injection E as <-|exists s3, s5, w5; auto|]. now injection E as <-.
      * destruct (call_sometimes (copy lim cl root) (VRef y)) as (x & t & E & _ & _ & S); [intros r0 E; now injection E as <-|exists s3, s4, w; auto|]. now injection E as <-.
    + injection E1 as <- <- <-. destruct (Or z E2) as [Hz _]. destruct (order z _ Hz E3) as [Oz _]. destruct (Oz y E4) as [Hy _]. split; [exact Hy|].
      apply in_map_iff in E2 as ([k v] & E2 & I2). cbn [snd] in E2. subst v. destruct (F _ I2) as (s3 & s4 & w & L3 & H3). cbn [snd property] in H3.
      rewrite (proj2 L3 z Hz), E3 in H3. destruct (new_thing s3 (TList [])) as [s5 x] eqn:En. pose proof (keeps_new s3 (TList [])) as K3. rewrite En in K3. cbn [fst] in K3.
      assert (x = s_new s3) as -> by (unfold new_thing in En; now injection En).
      destruct (fill (list_entry (copy lim cl root)) s5 (s_new s3) (keyless l)) as [s6 [e|]] eqn:Ef2; [discriminate|].
      pose proof (fill_sometimes _ (list_entry_keeps _ (copy_keeps lim cl root)) _ s5 (s_new s3) s6 (like_keeps _ _ L3 K3) (proj1 L3) Ef2) as F2.
      rewrite Forall_forall in F2. destruct (F2 (0, VRef y)) as (s7 & s8 & w2 & L7 & H7); [unfold keyless; apply in_map_iff; eauto|]. cbn [snd list_entry] in H7.
      rewrite (proj2 L7 y Hy), E5 in H7.
      destruct (call_sometimes (copy lim cl root) (VRef y)) as (x & t & E & _ & _ & S); [intros r0 E; now injection E as <-|exists s7, s8, w2; auto|]. now injection E as <-.
  - destruct (new_thing s (TRefList root c None [])) as [s1 x] eqn:En. pose proof (keeps_new s (TRefList root c None [])) as K. rewrite En in K. cbn [fst] in K.
    assert (x = s_new s) as -> by (unfold new_thing in En; now injection En).
    destruct (fill (call_copy (copy lim cl root)) s1 (s_new s) (keyless l)) as [s2 [e|]] eqn:Ef; [discriminate|].
    assert (keeping (call_copy (copy lim cl root))) as C by (intros ? ? ? ? E; exact (proj1 (call_copy_keeps _ (copy_keeps lim cl root) _ _ _ _ E))).
    pose proof (fill_sometimes _ C _ s1 (s_new s) s2 (like_keeps _ _ L K) (proj1 L) Ef) as F. rewrite Forall_forall in F.
    assert (forall v, In v l -> exists x t, v = VRef x /\ m x = Some t /\ object_like t /\ cp_sometimes (copy lim cl root) x) as G.
    { intros v I. apply call_sometimes; [intros r0 ->; apply (Or r0 I)|]. apply (F (0, v)). unfold keyless. apply in_map_iff. eauto. }
    split.
    { intros v I. destruct (G v I) as (x & t & E1 & E2 & E3 & _). eauto. }
    intros y N. inversion N as [? ? ? ? ? t E1 E2 E3 E4|? ? z ? ? ? l' ? ? ? E1 E2 E3 E4 E5|? ? ? ? ? ? t E1 E2|? ? ? ? ? E1]; subst; rewrite Ea in E1; try discriminate.
    injection E1 as <- <- <- <-. split; [apply (Or y E2)|]. destruct (G _ E2) as (x & t' & E & _ & _ & S). now injection E as <-.
  - destruct (new_thing s (TAttrs root [])) as [s1 x] eqn:En. pose proof (keeps_new s (TAttrs root [])) as K. rewrite En in K. cbn [fst] in K.
    assert (x = s_new s) as -> by (unfold new_thing in En; now injection En).
    destruct (fill (attribute (copy lim cl root)) s1 (s_new s) p) as [s2 [e|]] eqn:Ef; [discriminate|].
    pose proof (fill_sometimes _ (attribute_keeps _ (copy_keeps lim cl root)) _ s1 (s_new s) s2 (like_keeps _ _ L K) (proj1 L) Ef) as F. rewrite Forall_forall in F.
    assert (forall v, In v (map snd p) -> match v with VInt _ | VText _ => True
      | VRef y => exists t, m y = Some t /\ ((object_like t /\ cp_sometimes (copy lim cl root) y) \/ exists d, t = TBlob d) | _ => False end) as G.
    { intros v I. pose proof I as I0. apply in_map_iff in I as ([k v'] & E & I). cbn [snd] in E. subst v'. pose proof (F _ I) as S. cbn [snd] in S.
      assert (sometimes (call_copy (copy lim cl root)) v -> exists x t, v = VRef x /\ m x = Some t /\ object_like t /\ cp_sometimes (copy lim cl root) x) as Cs
        by (intros S'; apply call_sometimes; [intros r0 ->; apply (Or r0 I0)|exact S']).
      destruct v as [|i|i|i|i|y]; auto; try (destruct (Cs S) as (x & t & E & _); discriminate).
      - destruct S as (? & ? & ? & _ & S). discriminate.
      - destruct (Or y I0) as (Hy & t & Et). destruct S as (s3 & s4 & w & L3 & H3). cbn [attribute] in H3. rewrite (proj2 L3 y Hy), Et in H3. exists t. split; [exact Et|].
        destruct t as [| | | |d|]; try (left; destruct (Cs (ex_intro _ s3 (ex_intro _ s4 (ex_intro _ w (conj L3 H3))))) as (x & t & E & Ex & Ox & Sx); injection E as <-; rewrite Et in Ex; injection Ex as <-; auto).
        right. eauto. }
    split.
    { intros v I. specialize (G v I). destruct v as [|i|i|i|i|y]; auto. destruct G as (t & Et & [[O _]|O]); eauto. }
    intros y N. inversion N as [? ? ? ? ? t E1 E2 E3 E4|? ? z ? ? ? l' ? ? ? E1 E2 E3 E4 E5|? ? ? ? ? ? t E1 E2|? ? ? ? t E1 E2 E3 E4]; subst; rewrite Ea in E1; try discriminate.
    injection E1 as <- <-. split; [apply (Or y E2)|]. destruct (G _ E2) as (t' & E & [[_ S]|[d ->]]); [exact S|]. rewrite E3 in E. injection E as ->. contradiction.
Qed.

(** A limit that is enough for each of finitely many is enough for all. *)
Lemma enough : forall (P : nat -> value -> Prop) l, (forall v n n', (n <= n')%nat -> P n v -> P n' v) -> (forall v, In v l -> exists n, P n v) ->
  exists n, forall v, In v l -> P n v.
Proof.
  intros P l Mono. induction l as [|v l IH]; intros H; [exists 0%nat; intros v []|].
  destruct IH as [n N]; [intros u I; apply H; now right|]. destruct (H v (or_introl eq_refl)) as [n1 N1].
  exists (Nat.max n n1). intros u [<-|I]; [apply (Mono v n1)|apply (Mono u n)]; auto; lia.
Qed.

Lemma copy_always : forall a, ends m a -> a < old -> (forall y, needs_all m a y -> copyable cl m y) ->
  exists n, forall lim, (n <= lim)%nat -> cp_always (copy lim cl root) a.
Proof.
  intros a E. induction E as [a _ IH]. intros Ha Cy.
  assert (forall y, needs m a y -> y < old -> exists n, forall lim, (n <= lim)%nat -> cp_always (copy lim cl root) y) as Next.
  { intros y N Hy. apply (IH y N Hy). intros z Nz. apply Cy. clear - N Nz. induction Nz as [|x z Nz IH St]; [econstructor; [constructor|exact N]|econstructor; eauto]. }
  pose proof (Cy a (needs_self m a)) as Ca. unfold copyable in Ca. destruct (m a) as [t|] eqn:Ea; [|contradiction]. pose proof (order a t Ha Ea) as [Or _].
  assert (forall y v, v = VRef y -> In v (values t) -> y < old) as Hy by (intros y v -> I; apply (Or y I)).
  destruct t as [ro c p|ro c par l|ro p|l|d|d]; try contradiction.
  - destruct Ca as (i & Ei & Ni).
    destruct (enough (fun n v => forall lim, (n <= lim)%nat -> forall b, old <= b -> always (property (copy lim cl root) b) v) (map snd p)) as [n N].
    + intros v n n' Hn H lim Hl. apply H. lia.
    + intros v I. destruct v as [|j|j|j|j|x]; try solve [exists 0%nat; intros lim _ b _ s L; cbn [property]; eauto].
      destruct (Or x I) as (Hx & t & Et).
      assert (object_like t -> exists n, forall lim, (n <= lim)%nat -> always (call_copy (copy lim cl root)) (VRef x)) as Call.
      { intros O. destruct (Next x (needs_property m a x ro c p t Ea I Et O) Hx) as [n N]. exists n. intros lim Hl. exact (call_always _ x t Hx Et O (N lim Hl)). }
      destruct t as [r1 c1 p1|r1 c1 par1 l1|r1 p1|l1|d|d].
      * destruct (Call Logic.I) as [n N]. exists n. intros lim Hl b _ s L. cbn [property]. rewrite (proj2 L x Hx), Et. exact (N lim Hl s L).
      * destruct (Call Logic.I) as [n N]. exists n. intros lim Hl b _ s L. cbn [property]. rewrite (proj2 L x Hx), Et. destruct (N lim Hl s L) as (s' & w & E). rewrite E.
        destruct w; eauto.
      * destruct (Call Logic.I) as [n N]. exists n. intros lim Hl b _ s L. cbn [property]. rewrite (proj2 L x Hx), Et. exact (N lim Hl s L).
      * destruct (order x _ Hx Et) as [Ox _].
        destruct (enough (fun n v => forall lim, (n <= lim)%nat -> always (list_entry (copy lim cl root)) v) l1) as [n N].
        -- intros v n n' Hn H lim Hl. apply H. lia.
        -- intros v Iv. destruct v as [|j|j|j|j|y]; try solve [exists 0%nat; intros lim _ s L; cbn [list_entry]; eauto].
           destruct (Ox y Iv) as (Hyo & u & Eu).
           destruct u as [r2 c2 p2|r2 c2 par2 l2|r2 p2|l2|d|d]; try solve [exists 0%nat; intros lim _ s L; cbn [list_entry]; rewrite (proj2 L y Hyo), Eu; eauto].
           destruct (Next y (needs_in_list m a y x ro c p l1 r2 c2 p2 Ea I Et Iv Eu) Hyo) as [n N]. exists n. intros lim Hl s L. cbn [list_entry].
           rewrite (proj2 L y Hyo), Eu. exact (call_always _ y _ Hyo Eu Logic.I (N lim Hl) s L).
        -- exists n. intros lim Hl b _ s L. cbn [property]. rewrite (proj2 L x Hx), Et.
           destruct (new_thing s (TList [])) as [s1 z] eqn:En. pose proof (keeps_new s (TList [])) as K. rewrite En in K. cbn [fst] in K.
           assert (z = s_new s) as -> by (unfold new_thing in En; now injection En).
           destruct (fill_always _ (list_entry_keeps _ (copy_keeps lim cl root)) (keyless l1) s1 (s_new s) (like_keeps _ _ L K) (proj1 L)) as [s2 E].
           { apply Forall_forall. intros [k v] Ik. unfold keyless in Ik. apply in_map_iff in Ik as (v' & Ek & Ik). injection Ek as <- <-. exact (N v' Ik lim Hl). }
           rewrite E. eauto.
      * exists 0%nat. intros lim _ b _ s L. cbn [property]. rewrite (proj2 L x Hx), Et. eauto.
      * exists 0%nat. intros lim _ b _ s L. cbn [property]. rewrite (proj2 L x Hx), Et. eauto.
    + exists (S n). intros lim Hl s L. destruct lim as [|lim]; [lia|]. cbn [copy]. rewrite (proj2 L a Ha), Ea.
      destruct (make cl s root c) as [s1 [b1|e]] eqn:Em.
      2:{ unfold make in Em. rewrite Ei in Em. destruct (new_thing s (TObject root c [])). rewrite Ni in Em. discriminate. }
      destruct (make_keeps _ _ _ _ _ _ Em) as [K Eb]. rewrite (Eb b1 eq_refl).
      destruct (fill_always _ (property_keeps _ (s_new s) (copy_keeps lim cl root)) p s1 (s_new s) (like_keeps _ _ L K) (proj1 L)) as [s2 E].
      { apply Forall_forall. intros [k v] Ik. cbn [snd]. apply (N v); [apply (in_map snd) in Ik; exact Ik|lia|apply L]. }
      rewrite E. eauto.
  - destruct (enough (fun n v => forall lim, (n <= lim)%nat -> always (call_copy (copy lim cl root)) v) l) as [n N].
    + intros v n n' Hn H lim Hl. apply H. lia.
    + intros v I. destruct (Ca v I) as (y & t & -> & Et & O). destruct (Or y I) as [Hyo _].
      destruct (Next y (needs_item m a y ro c par l t Ea I Et O) Hyo) as [n N]. exists n. intros lim Hl. exact (call_always _ y t Hyo Et O (N lim Hl)).
    + exists (S n). intros lim Hl s L. destruct lim as [|lim]; [lia|]. cbn [copy]. rewrite (proj2 L a Ha), Ea.
      destruct (new_thing s (TRefList root c None [])) as [s1 z] eqn:En. pose proof (keeps_new s (TRefList root c None [])) as K. rewrite En in K. cbn [fst] in K.
      assert (z = s_new s) as -> by (unfold new_thing in En; now injection En).
      assert (keeping (call_copy (copy lim cl root))) as C by (intros ? ? ? ? E; exact (proj1 (call_copy_keeps _ (copy_keeps lim cl root) _ _ _ _ E))).
      destruct (fill_always _ C (keyless l) s1 (s_new s) (like_keeps _ _ L K) (proj1 L)) as [s2 E].
      { apply Forall_forall. intros [k v] Ik. unfold keyless in Ik. apply in_map_iff in Ik as (v' & Ek & Ik). injection Ek as <- <-. apply (N v' Ik lim). lia. }
      rewrite E. eauto.
  - destruct (enough (fun n v => forall lim, (n <= lim)%nat -> always (attribute (copy lim cl root)) v) (map snd p)) as [n N].
    + intros v n n' Hn H lim Hl. apply H. lia.
    + intros v I. pose proof (Ca v I) as Cv. destruct v as [|j|j|j|j|y]; try contradiction; try solve [exists 0%nat; intros lim _ s L; cbn [attribute]; eauto].
      destruct (Or y I) as [Hyo _]. destruct Cv as (t & Et & [O|[d ->]]).
      * destruct (Next y (needs_attribute m a y ro p t Ea I Et O) Hyo) as [n N]. exists n. intros lim Hl s L. cbn [attribute]. rewrite (proj2 L y Hyo), Et.
        pose proof (call_always _ y t Hyo Et O (N lim Hl) s L) as K. destruct t; try contradiction; exact K.
      * exists 0%nat. intros lim _ s L. cbn [attribute]. rewrite (proj2 L y Hyo), Et. cbn [new_thing]. eauto.
    + exists (S n). intros lim Hl s L. destruct lim as [|lim]; [lia|]. cbn [copy]. rewrite (proj2 L a Ha), Ea.
      destruct (new_thing s (TAttrs root [])) as [s1 z] eqn:En. pose proof (keeps_new s (TAttrs root [])) as K. rewrite En in K. cbn [fst] in K.
      assert (z = s_new s) as -> by (unfold new_thing in En; now injection En).
      destruct (fill_always _ (attribute_keeps _ (copy_keeps lim cl root)) p s1 (s_new s) (like_keeps _ _ L K) (proj1 L)) as [s2 E].
      { apply Forall_forall. intros [k v] Ik. cbn [snd]. apply (N v); [apply (in_map snd) in Ik; exact Ik|lia]. }
      rewrite E. eauto.
Qed.
End Ends.
