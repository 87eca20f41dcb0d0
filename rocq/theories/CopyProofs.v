(** What copying leaves alone and what it makes. *)
From Coq Require Import ZArith List Bool Lia.
From Verif Require Import Base Copy CopySpec.
Import ListNotations.
Open Scope Z_scope.

(** ** Dictionaries *)

Lemma get_set_same : forall V (l : list (Z * V)) k v, get (set l k v) k = Some v.
Proof.
  induction l as [|[k' u] l IH]; intros k v; cbn [set get]; [now rewrite Z.eqb_refl|].
  destruct (Z.eqb_spec k' k) as [->|N]; cbn [get]; [now rewrite Z.eqb_refl|]. destruct (Z.eqb_spec k' k); [contradiction|apply IH].
Qed.

Lemma get_set_other : forall V (l : list (Z * V)) k v j, j <> k -> get (set l k v) j = get l j.
Proof.
  induction l as [|[k' u] l IH]; intros k v j N; cbn [set get]; [destruct (Z.eqb_spec k j); [congruence|reflexivity]|].
  destruct (Z.eqb_spec k' k) as [->|N']; cbn [get].
  - destruct (Z.eqb_spec k j); [congruence|reflexivity].
  - destruct (k' =? j); [reflexivity|now apply IH].
Qed.

Lemma set_values : forall V (l : list (Z * V)) k v u, In u (map snd (set l k v)) -> u = v \/ In u (map snd l).
Proof.
  induction l as [|[k' x] l IH]; intros k v u H; cbn [set map snd In] in *; [intuition|].
  destruct (k' =? k); cbn [map snd In] in *; [intuition|]. destruct H as [H|H]; [auto|]. apply IH in H. intuition.
Qed.

Lemma set_new : forall V (l : list (Z * V)) k v, ~ In k (map fst l) -> set l k v = l ++ [(k, v)].
Proof.
  induction l as [|[k' x] l IH]; intros k v H; cbn [set app map fst In] in *; [reflexivity|].
  destruct (Z.eqb_spec k' k); [tauto|]. rewrite IH; tauto.
Qed.

Lemma get_in : forall V (l : list (Z * V)) k v, get l k = Some v -> In (k, v) l.
Proof.
  induction l as [|[k' x] l IH]; intros k v H; cbn [get] in H; [discriminate|].
  destruct (Z.eqb_spec k' k) as [->|]; [injection H as ->; now left|right; auto].
Qed.

Lemma get_none : forall V (l : list (Z * V)) k, get l k = None <-> ~ In k (map fst l).
Proof.
  induction l as [|[k' x] l IH]; intros k; cbn [get map fst In]; [tauto|].
  destruct (Z.eqb_spec k' k) as [->|N]; [split; [discriminate|tauto]|]. rewrite IH. tauto.
Qed.

(** ** Memory *)

Lemma update_same : forall s a f t, s_mem s a = Some t -> s_mem (update s a f) a = Some (f t).
Proof. intros s a f t E. cbn. now rewrite Z.eqb_refl, E. Qed.

Lemma update_other : forall s a f z, z <> a -> s_mem (update s a f) z = s_mem s z.
Proof. intros s a f z N. cbn. destruct (Z.eqb_spec z a); [contradiction|reflexivity]. Qed.

Lemma new_same : forall s t, s_mem (fst (new_thing s t)) (s_new s) = Some t.
Proof. intros. cbn. now rewrite Z.eqb_refl. Qed.

Lemma new_other : forall s t z, z <> s_new s -> s_mem (fst (new_thing s t)) z = s_mem s z.
Proof. intros s t z N. cbn. destruct (Z.eqb_spec z (s_new s)); [contradiction|reflexivity]. Qed.

Definition strip (t : thing) : thing := match t with TRefList r c _ l => TRefList r c None l | _ => t end.

Lemma strip_values : forall t u, strip t = strip u -> values t = values u.
Proof. intros [] [] H; cbn in *; try discriminate; congruence. Qed.

Lemma Forall2_weaken : forall A B (R R' : A -> B -> Prop) l r, Forall2 R l r ->
  (forall x y, In x l -> In y r -> R x y -> R' x y) -> Forall2 R' l r.
Proof.
  intros A B R R' l r H. induction H as [|x y l r H1 H2 IH]; intros K; constructor.
  - apply K; [now left|now left|exact H1].
  - apply IH. intros u w I J. apply K; now right.
Qed.

(** Equality depends only on what can be reached, and not on the parents of lists. *)
Lemma equal_frame : forall n m m' (P : Z -> Prop) v w,
  (forall z, P z -> option_map strip (m' z) = option_map strip (m z)) ->
  (forall z t c, P z -> m z = Some t -> In (VRef c) (values t) -> P c) ->
  (forall r, v = VRef r -> P r) -> (forall r, w = VRef r -> P r) -> equal n m v w -> equal n m' v w.
Proof.
  induction n as [|n IH]; intros m m' P v w Hm Hc Hv Hw E; [exact I|]. cbn [equal] in *.
  destruct v as [|i|i|i|i|x]; try exact E. destruct w as [|j|j|j|j|y]; try exact E.
  pose proof (Hm x (Hv x eq_refl)) as Ex. pose proof (Hm y (Hw y eq_refl)) as Ey.
  pose proof (fun t c => Hc x t c (Hv x eq_refl)) as Cx. pose proof (fun t c => Hc y t c (Hw y eq_refl)) as Cy.
  destruct (m x) as [tx|]; [|contradiction]. destruct (m y) as [ty|]; [|destruct tx; contradiction].
  specialize (Cx tx). specialize (Cy ty).
  cbn [option_map] in Ex, Ey. destruct (m' x) as [tx'|]; [|discriminate]. destruct (m' y) as [ty'|]; [|discriminate].
  cbn [option_map] in Ex, Ey. injection Ex as Ex. injection Ey as Ey.
  assert (forall l l', (forall c, In (VRef c) l -> P c) -> (forall c, In (VRef c) l' -> P c) -> Forall2 (equal n m) l l' -> Forall2 (equal n m') l l') as L.
  { intros l l' A B F. eapply Forall2_weaken; [exact F|]. intros u u' I I' K. apply (IH m m' P); auto; intros r ->; auto. }
  assert (forall p p' : list (Z * value), (forall c, In (VRef c) (map snd p) -> P c) -> (forall c, In (VRef c) (map snd p') -> P c) ->
    (forall k u, get p k = Some u -> exists u', get p' k = Some u' /\ equal n m u u') ->
    (forall k u, get p k = Some u -> exists u', get p' k = Some u' /\ equal n m' u u')) as D.
  { intros p p' A B F k u G. destruct (F k u G) as (u' & G' & K). exists u'. split; [exact G'|].
    apply get_in, (in_map snd) in G, G'. cbn [snd] in *. apply (IH m m' P); auto; intros r ->; auto. }
  destruct tx; destruct ty; try contradiction; destruct tx'; try discriminate Ex; destruct ty'; try discriminate Ey;
    cbn [strip] in Ex, Ey; cbn [values] in Cx, Cy; injection Ex as; injection Ey as; subst.
  - destruct E as [-> E]. split; [reflexivity|]. apply (D _ _ (fun c I => Cx c eq_refl I) (fun c I => Cy c eq_refl I) E).
  - destruct E as [-> E]. split; [reflexivity|]. apply L; auto.
  - destruct E as [Ek E]. split; [exact Ek|]. apply L; auto.
  - apply L; auto.
  - reflexivity.
  - reflexivity.
Qed.

(** What is in order is equal to itself. *)
Lemma equal_refl : forall m old, in_order m old -> forall n x t, x < old -> m x = Some t -> equal n m (VRef x) (VRef x).
Proof.
  intros m old O. induction n as [|n IH]; intros x t Hx E; [exact I|]. cbn [equal]. rewrite E.
  destruct (O x t Hx E) as [R _].
  assert (forall v, In v (values t) -> equal n m v v) as V.
  { intros v I. destruct v as [|i|i|i|i|y]; try (destruct n; [exact Logic.I|reflexivity]). destruct (R y I) as (Hy & u & Eu). exact (IH y u Hy Eu). }
  assert (forall l, (forall v, In v l -> equal n m v v) -> Forall2 (equal n m) l l) as L.
  { induction l as [|v l IHl]; intros K; constructor; [apply K; now left|]. apply IHl. intros u I. apply K. now right. }
  destruct t; cbn [values] in V; auto.
  split; [reflexivity|]. intros k u G. exists u. split; [exact G|]. apply V. apply get_in, (in_map snd) in G. exact G.
Qed.

(** ** Copying *)

Section Copying.
Variable cl : classes.
Variable root old : Z.
Variable m0 : memory.
Variable A : Z -> Prop.
Hypothesis order : in_order m0 old.
Hypothesis A_old : forall r, A r -> r < old /\ exists u, m0 r = Some u.
Hypothesis A_data : forall x t, x < old -> m0 x = Some t -> (match t with TBlob _ | TOther _ => True | _ => False end) -> A x.
Hypothesis A_list : forall a l b, a < old -> m0 a = Some (TList l) -> In (VRef b) l ->
  (exists r c p, m0 b = Some (TObject r c p)) \/ A b.
Hypothesis A_default : forall c i k d, cl c = Some i -> In (k, d) (c_defaults i) ->
  match d with
  | DValue v => forall b, v = VRef b -> A b
  | DNew t => belongs root (t root) /\ forall b, In (VRef b) (values (t root)) -> A b
  end.

Definition okref (lo hi r : Z) : Prop := A r \/ lo <= r < hi.
Definition okval (lo hi : Z) (v : value) : Prop := forall r, v = VRef r -> okref lo hi r.
Definition okthing (lo hi : Z) (t : thing) : Prop := belongs root t /\ forall v, In v (values t) -> okval lo hi v.
Definition range (m : memory) (lo hi : Z) : Prop := forall z, lo <= z < hi -> exists t, m z = Some t /\ okthing lo hi t.
Definition agrees (s : store) : Prop := old <= s_new s /\ forall z, z < old -> s_mem s z = m0 z.
Definition step (s s' : store) : Prop :=
  (forall z, z < s_new s -> s_mem s' z = s_mem s z) /\ s_new s <= s_new s' /\ range (s_mem s') (s_new s) (s_new s').

Definition there (v : value) : Prop := forall r, v = VRef r -> r < old /\ exists u, m0 r = Some u.

Lemma okval_wide : forall lo hi lo' hi' v, lo' <= lo -> hi <= hi' -> okval lo hi v -> okval lo' hi' v.
Proof. intros lo hi lo' hi' v H H' O r E. destruct (O r E); [now left|right; lia]. Qed.

Lemma okthing_wide : forall lo hi lo' hi' t, lo' <= lo -> hi <= hi' -> okthing lo hi t -> okthing lo' hi' t.
Proof. intros lo hi lo' hi' t H H' [B O]. split; [exact B|]. intros v I. eapply okval_wide; eauto. Qed.

Lemma range_same : forall m m' lo hi, (forall z, lo <= z < hi -> m' z = m z) -> range m lo hi -> range m' lo hi.
Proof. intros m m' lo hi E R z H. rewrite E by exact H. auto. Qed.

Lemma range_join : forall m lo mid hi, lo <= mid <= hi -> range m lo mid -> range m mid hi -> range m lo hi.
Proof.
  intros m lo mid hi H R1 R2 z Hz. destruct (Z_lt_le_dec z mid).
  - destruct (R1 z) as (t & E & O); [lia|]. exists t. split; [exact E|]. eapply okthing_wide; [| |exact O]; lia.
  - destruct (R2 z) as (t & E & O); [lia|]. exists t. split; [exact E|]. eapply okthing_wide; [| |exact O]; lia.
Qed.

Lemma range_empty : forall m lo, range m lo lo.
Proof. intros m lo z H. lia. Qed.

Lemma step_refl : forall s, step s s.
Proof. intros s. split; [auto|]. split; [lia|apply range_empty]. Qed.

Lemma step_agrees : forall s s', agrees s -> step s s' -> agrees s'.
Proof. intros s s' [H K] (S1 & S2 & _). split; [lia|]. intros z Hz. rewrite S1 by lia. auto. Qed.

(** What belongs to a finished part is not touched by what comes later. *)
Lemma equal_later : forall n m m' lo hi v w, (forall z, z < old -> m z = m0 z) -> range m lo hi ->
  (forall z, z < old \/ lo <= z < hi -> option_map strip (m' z) = option_map strip (m z)) ->
  there v -> okval lo hi w -> equal n m v w -> equal n m' v w.
Proof.
  intros n m m' lo hi v w Hm R E V W K.
  apply (equal_frame n m m' (fun z => z < old \/ lo <= z < hi)); auto.
  - intros z t c [Hz|Hz] Ez I.
    + rewrite Hm in Ez by exact Hz. left. apply (order z t Hz Ez). exact I.
    + destruct (R z Hz) as (t' & E' & _ & O). rewrite Ez in E'. injection E' as <-. destruct (O _ I c eq_refl) as [Ac|]; [|auto]. left. apply A_old. exact Ac.
  - intros r Er. left. apply (V r Er).
  - intros r Er. destruct (W r Er) as [Ar|]; [|auto]. left. apply A_old. exact Ar.
Qed.

Definition conv_ok (Pre : value -> Prop) (Post : memory -> value -> value -> Prop) (conv : store -> value -> store * result value) : Prop :=
  forall s v s' w, agrees s -> there v -> Pre v -> conv s v = (s', Ok w) ->
  step s s' /\ okval (s_new s) (s_new s') w /\ (forall n, equal n (s_mem s') v w) /\ Post (s_mem s') v w.

(** [Post] is about the value and the thing it leads to. *)
Definition stable (Post : memory -> value -> value -> Prop) : Prop :=
  forall m m' v w, (forall y, w = VRef y -> m' y = m y) -> Post m v w -> Post m' v w.

Definition adds (t : thing) (l : list (Z * value)) : thing := fold_left (fun t kw => add (fst kw) (snd kw) t) l t.

Lemma add_belongs : forall k w t, belongs root t -> belongs root (add k w t).
Proof. intros k w [] H; exact H. Qed.

Lemma add_values : forall k w t v, In v (values (add k w t)) -> v = w \/ In v (values t).
Proof.
  intros k w [] v H; cbn [add values] in *; try (apply set_values in H; tauto); try contradiction;
    apply in_app_iff in H; cbn [In] in H; intuition.
Qed.

Lemma add_ok : forall lo hi k w t, okthing lo hi t -> okval lo hi w -> okthing lo hi (add k w t).
Proof.
  intros lo hi k w t [B O] W. split; [now apply add_belongs|]. intros v I. apply add_values in I as [->|I]; auto.
Qed.

Lemma fill_ok : forall Pre Post conv, conv_ok Pre Post conv -> stable Post -> forall l s b t0 s', old <= b < s_new s -> agrees s ->
  s_mem s b = Some t0 -> okthing (b + 1) (s_new s) t0 -> range (s_mem s) (b + 1) (s_new s) ->
  Forall (fun kv => there (snd kv) /\ Pre (snd kv)) l -> fill conv s b l = (s', None) ->
  (forall z, z < s_new s -> z <> b -> s_mem s' z = s_mem s z) /\ s_new s <= s_new s' /\ range (s_mem s') (b + 1) (s_new s') /\
  exists ws, Forall2 (fun kv w => (forall n, equal n (s_mem s') (snd kv) w) /\ Post (s_mem s') (snd kv) w) l ws /\
    s_mem s' b = Some (adds t0 (combine (map fst l) ws)) /\ Forall (okval (s_new s) (s_new s')) ws /\
    okthing (b + 1) (s_new s') (adds t0 (combine (map fst l) ws)) /\
    (forall i j wi wj, (i < j)%nat -> nth_error ws i = Some wi -> nth_error ws j = Some wj ->
       forall r q, wi = VRef r -> wj = VRef q -> old <= r -> old <= q -> r <> q).
Proof.
  intros Pre Post conv C St. induction l as [|[k v] l IH]; intros s b t0 s' Hb Ag Eb Ot Rg F H; cbn [fill] in H.
  - injection H as <-. split; [auto|]. split; [lia|]. split; [exact Rg|]. exists []. split; [constructor|]. split; [exact Eb|]. split; [constructor|].
    split; [exact Ot|]. intros i j wi wj _ Ni. destruct i; discriminate.
  - apply Forall_cons_iff in F as [[V P] F]. cbn [snd] in V, P.
    destruct (conv s v) as [s1 [w|e]] eqn:Ev; [|discriminate].
    destruct (C s v s1 w Ag V P Ev) as ((S1 & S2 & S3) & W & Q & Po).
    pose proof (step_agrees s s1 Ag (conj S1 (conj S2 S3))) as Ag1.
    set (s2 := update s1 b (add k w)) in *.
    assert (forall z, z <> b -> s_mem s2 z = s_mem s1 z) as U by (intros z N; now apply update_other).
    assert (s_mem s2 b = Some (add k w t0)) as Eb2 by (apply update_same; rewrite S1 by lia; exact Eb).
    assert (s_new s2 = s_new s1) as N2 by reflexivity.
    destruct (IH s2 b (add k w t0) s') as (I1 & I2 & I3 & ws & I4 & I5 & I6 & I7 & I8).
    + lia.
    + split; [rewrite N2; apply Ag1|]. intros z Hz. rewrite U by lia. now apply Ag1.
    + exact Eb2.
    + rewrite N2. apply add_ok; [eapply okthing_wide; [| |exact Ot]; lia|eapply okval_wide; [| |exact W]; lia].
    + rewrite N2. apply (range_same (s_mem s1)); [intros z Hz; apply U; lia|].
      apply (range_join _ _ (s_new s)); [lia| |exact S3]. apply (range_same (s_mem s)); [intros z Hz; apply S1; lia|exact Rg].
    + exact F.
    + exact H.
    + rewrite N2 in *.
      split; [intros z Hz Nz; rewrite I1, U, S1 by lia; reflexivity|]. split; [lia|]. split; [exact I3|]. exists (w :: ws).
      assert (okval (s_new s) (s_new s') w) as Ww by (eapply okval_wide; [| |exact W]; lia).
      assert (Forall (okval (s_new s) (s_new s')) ws) as Wws by (eapply Forall_impl; [|exact I6]; intros u Hu; eapply okval_wide; [| |exact Hu]; lia).
      split; [constructor; [|exact I4]|].
      { cbn [snd]. assert (forall y, w = VRef y -> s_mem s' y = s_mem s1 y) as Same.
        { intros y Ey. destruct Ag as [Ao _]. destruct (W y Ey) as [Ay|Ry]; [apply A_old in Ay; rewrite I1, U by lia; reflexivity|rewrite I1, U by lia; reflexivity]. }
        split; [|exact (St _ _ v w Same Po)]. intros n. apply (equal_later n (s_mem s1) (s_mem s') (s_new s) (s_new s1)); auto; [apply Ag1|].
        intros z Hz. destruct Ag as [Ao _]. rewrite I1, U by lia. reflexivity. }
      cbn [map fst combine adds fold_left snd]. split; [exact I5|]. split; [constructor; auto|]. split; [exact I7|].
      intros i j wi wj Hij Ni Nj r q -> -> Hr Hq. destruct j as [|j]; [lia|]. destruct i as [|i].
      * cbn [nth_error] in Ni, Nj. injection Ni as ->.
        destruct (W r eq_refl) as [Ar|Rr]; [apply A_old in Ar; lia|].
        apply nth_error_In in Nj. rewrite Forall_forall in I6. destruct (I6 _ Nj q eq_refl) as [Aq|Rq]; [apply A_old in Aq; lia|lia].
      * cbn [nth_error] in Ni, Nj. eapply (I8 i j); eauto. lia.
Qed.

Definition sets {V} (p : list (Z * V)) (l : list (Z * V)) : list (Z * V) := fold_left (fun p kw => set p (fst kw) (snd kw)) l p.

Lemma adds_object : forall l r c p, adds (TObject r c p) l = TObject r c (sets p l).
Proof. induction l as [|[k w] l IH]; intros; [reflexivity|]. cbn [adds fold_left fst snd add]. apply IH. Qed.

Lemma adds_attrs : forall l r p, adds (TAttrs r p) l = TAttrs r (sets p l).
Proof. induction l as [|[k w] l IH]; intros; [reflexivity|]. cbn [adds fold_left fst snd add]. apply IH. Qed.

Lemma adds_list : forall l p, adds (TList p) l = TList (p ++ map snd l).
Proof. induction l as [|[k w] l IH]; intros; cbn [adds fold_left fst snd add map]; [now rewrite app_nil_r|]. fold (adds (TList (p ++ [w])) l). rewrite IH, <- app_assoc. reflexivity. Qed.

Lemma adds_reflist : forall l r c par p, adds (TRefList r c par p) l = TRefList r c par (p ++ map snd l).
Proof. induction l as [|[k w] l IH]; intros; cbn [adds fold_left fst snd add map]; [now rewrite app_nil_r|]. fold (adds (TRefList r c par (p ++ [w])) l). rewrite IH, <- app_assoc. reflexivity. Qed.

Lemma sets_other : forall V (l p : list (Z * V)) k, ~ In k (map fst l) -> get (sets p l) k = get p k.
Proof.
  induction l as [|[k' w] l IH]; intros p k H; [reflexivity|]. cbn [sets fold_left fst snd map In] in *.
  change (get (sets (set p k' w) l) k = get p k). rewrite IH by tauto. apply get_set_other. intros ->. tauto.
Qed.

Lemma sets_get : forall V (l p : list (Z * V)) k w, NoDup (map fst l) -> In (k, w) l -> get (sets p l) k = Some w.
Proof.
  induction l as [|[k' w'] l IH]; intros p k w ND H; [destruct H|]. cbn [map fst] in ND. apply NoDup_cons_iff in ND as [N ND].
  change (get (sets (set p k' w') l) k = Some w). destruct H as [E|H].
  - injection E as -> ->. rewrite sets_other by exact N. apply get_set_same.
  - now apply IH.
Qed.

Lemma sets_new : forall V (l p : list (Z * V)), NoDup (map fst (p ++ l)) -> sets p l = p ++ l.
Proof.
  induction l as [|[k w] l IH]; intros p ND; [now rewrite app_nil_r|]. change (sets (set p k w) l = p ++ (k, w) :: l).
  assert (set p k w = p ++ [(k, w)]) as ->.
  { apply set_new. rewrite map_app in ND. cbn [map fst] in ND. apply NoDup_remove_2 in ND. intros I. apply ND. apply in_app_iff. now left. }
  rewrite IH; rewrite <- app_assoc; [reflexivity|exact ND].
Qed.

Lemma Forall2_len : forall X Y (R : X -> Y -> Prop) l r, Forall2 R l r -> length l = length r.
Proof. intros X Y R l r H. induction H; cbn [length]; congruence. Qed.

Lemma combine_keys : forall X Y (l : list X) (r : list Y), length l = length r -> map fst (combine l r) = l /\ map snd (combine l r) = r.
Proof.
  induction l as [|x l IH]; intros [|y r] H; try discriminate; [auto|]. cbn [combine map fst snd]. injection H as H.
  destruct (IH r H) as [-> ->]. auto.
Qed.

Lemma Forall2_map_l : forall X Y W (f : X -> W) (R : W -> Y -> Prop) l r, Forall2 (fun x y => R (f x) y) l r -> Forall2 R (map f l) r.
Proof. intros X Y W f R l r H. induction H; cbn [map]; constructor; auto. Qed.

Lemma keyless_snd : forall l, map snd (keyless l) = l.
Proof. intros l. unfold keyless. rewrite map_map. apply map_id. Qed.

(** The pieces, given that [cp] does what copying should. *)
Definition copies (cp : store -> Z -> store * result Z) : Prop :=
  forall s a s' b, agrees s -> a < old -> cp s a = (s', Ok b) ->
  step s s' /\ s_new s <= b < s_new s' /\ forall n, equal n (s_mem s') (VRef a) (VRef b).

Definition post_copied (_ : memory) (v w : value) : Prop := exists y, w = VRef y /\ old <= y.
Definition post_entry (m : memory) (v w : value) : Prop :=
  match v with VRef x => match m0 x with Some (TObject _ _ _) => post_copied m v w | _ => w = v end | _ => w = v end.
Definition post_attribute (m : memory) (v w : value) : Prop :=
  match v with VRef _ => post_copied m v w | _ => w = v end.
Definition post_property (b : Z) (m : memory) (v w : value) : Prop :=
  match v with
  | VRef x => match m0 x with
    | Some (TRefList _ c par _) => exists y ws, w = VRef y /\ old <= y /\ m y = Some (TRefList root c (match par with Some _ => Some b | None => None end) ws)
    | Some (TObject _ _ _) | Some (TAttrs _ _) => post_copied m v w
    | Some (TList l) => exists y ws, w = VRef y /\ old <= y /\ m y = Some (TList ws) /\ Forall2 (post_entry m) l ws
    | _ => w = v
    end
  | _ => w = v
  end.

Lemma entry_any : forall m m' v w, post_entry m v w -> post_entry m' v w.
Proof. intros m m' v w H. exact H. Qed.

Lemma stable_copied : stable post_copied. Proof. intros m m' v w _ H. exact H. Qed.
Lemma stable_entry : stable post_entry. Proof. intros m m' v w _ H. exact H. Qed.
Lemma stable_attribute : stable post_attribute. Proof. intros m m' v w _ H. exact H. Qed.
Lemma stable_property : forall b, stable (post_property b).
Proof.
  intros b m m' v w E H. unfold post_property in *. destruct v as [|i|i|i|i|x]; auto. destruct (m0 x) as [[]|]; auto.
  - destruct H as (y & ws & -> & Hy & Em). exists y, ws. rewrite (E y eq_refl). auto.
  - destruct H as (y & ws & -> & Hy & Em & F). exists y, ws. rewrite (E y eq_refl). auto.
Qed.

(** What a copied reference list becomes. *)
Definition reflists (cp : store -> Z -> store * result Z) : Prop :=
  forall s a s' b r c par l, agrees s -> a < old -> m0 a = Some (TRefList r c par l) -> cp s a = (s', Ok b) ->
  exists ws, s_mem s' b = Some (TRefList root c None ws).

Lemma call_copy_ok : forall cp, copies cp -> conv_ok (fun _ => True) post_copied (call_copy cp).
Proof.
  intros cp C s v s' w Ag V _ H. unfold call_copy in H. destruct v as [|i|i|i|i|x]; try discriminate.
  destruct (V x eq_refl) as [Hx _].
  assert (match cp s x with (s1, Ok y) => (s1, Ok (VRef y)) | (s1, Err e) => (s1, Err e) end = (s', Ok w)) as H'.
  { destruct (s_mem s x) as [[]|]; try discriminate; exact H. }
  clear H. destruct (cp s x) as [s1 [y|e]] eqn:E; [|discriminate]. injection H' as <- <-.
  destruct (C s x s1 y Ag Hx E) as (S1 & Hy & Q). split; [exact S1|]. split; [|split; [exact Q|exists y; destruct Ag; split; [reflexivity|lia]]]. intros r Er. injection Er as <-. now right.
Qed.

Lemma equal_data : forall s n v, agrees s -> there v -> equal n (s_mem s) v v.
Proof.
  intros s n v [Ho Ag] V. destruct v as [|i|i|i|i|x]; try (destruct n; [exact I|reflexivity]).
  destruct (V x eq_refl) as (Hx & u & Eu).
  apply (equal_frame n m0 (s_mem s) (fun z => z < old)).
  - intros z Hz. now rewrite Ag.
  - intros z t c Hz Ez I. now apply (order z t Hz Ez).
  - intros r E. injection E as <-. exact Hx.
  - intros r E. injection E as <-. exact Hx.
  - exact (equal_refl m0 old order n x u Hx Eu).
Qed.

Lemma list_entry_ok : forall cp, copies cp ->
  conv_ok (fun v => forall b, v = VRef b -> (exists r c p, m0 b = Some (TObject r c p)) \/ A b) post_entry (list_entry cp).
Proof.
  intros cp C s v s' w Ag V P H. unfold list_entry in H.
  assert (forall x, v = VRef x -> s_mem s x = m0 x) as Ex by (intros x ->; apply Ag; apply (V x eq_refl)).
  assert ((s', Ok w) = (s, Ok v) -> (forall x, v = VRef x -> A x) -> post_entry (s_mem s') v v -> step s s' /\ okval (s_new s) (s_new s') w /\ (forall n, equal n (s_mem s') v w) /\ post_entry (s_mem s') v w) as Plain.
  { intros E Ha Po. injection E as -> ->. split; [apply step_refl|]. split; [intros r Er; left; auto|]. split; [|exact Po]. intros n. now apply equal_data. }
  destruct v as [|i|i|i|i|x]; try (apply Plain; [now symmetry|discriminate|reflexivity]).
  rewrite (Ex x eq_refl) in H. destruct (P x eq_refl) as [(r & c & p & Eo)|Ha].
  - rewrite Eo in H. destruct (call_copy_ok cp C s (VRef x) s' w Ag V I H) as (K1 & K2 & K3 & K4). cbn [post_entry]. rewrite Eo. auto.
  - cbn [post_entry] in *. destruct (m0 x) as [[]|] eqn:Em; try (apply Plain; [now symmetry|intros y Ey; injection Ey as <-; exact Ha|reflexivity]).
    apply (call_copy_ok cp C s (VRef x) s' w Ag V I H).
Qed.

Lemma attribute_ok : forall cp, copies cp -> conv_ok (fun _ => True) post_attribute (attribute cp).
Proof.
  intros cp C s v s' w Ag V _ H. pose proof (call_copy_ok cp C s v s' w Ag V I) as K.
  destruct v as [|i|i|i|i|x]; cbn [attribute] in H; try (now apply K in H); try discriminate H.
  - injection H as <- <-. split; [apply step_refl|]. split; [intros r Er; discriminate|]. split; [intros [|n]; reflexivity|reflexivity].
  - injection H as <- <-. split; [apply step_refl|]. split; [intros r Er; discriminate|]. split; [intros [|n]; reflexivity|reflexivity].
  - destruct (s_mem s x) as [[| | | |d|]|] eqn:E; try (apply K; exact H). clear K. injection H as <- <-.
    assert (x < s_new s) as Hx by (destruct Ag; destruct (V x eq_refl); lia).
    split; [split; [|split]|].
    + intros z Hz. apply (new_other s (TBlob d)). lia.
    + cbn. lia.
    + intros z Hz. cbn [s_new] in Hz. assert (z = s_new s) as -> by lia. exists (TBlob d). split; [apply (new_same s (TBlob d))|]. split; [exact I|intros v []].
    + split; [intros r Er; injection Er as <-; right; cbn; lia|]. split; [|exists (s_new s); destruct Ag; split; [reflexivity|lia]]. intros [|n]; [exact I|]. cbn [equal].
      pose proof (new_other s (TBlob d) x ltac:(lia)) as Ox. pose proof (new_same s (TBlob d)) as Os. cbn [fst new_thing] in Ox, Os.
      rewrite Ox, E, Os. reflexivity.
Qed.

Lemma there_in : forall x t v, x < old -> m0 x = Some t -> In v (values t) -> there v.
Proof. intros x t v Hx E I r ->. now apply (order x t Hx E). Qed.

Lemma property_ok : forall cp b, copies cp -> reflists cp -> conv_ok (fun _ => True) (post_property b) (property cp b).
Proof.
  intros cp b C Rl s v s' w Ag V _ H.
  assert (forall x, v = VRef x -> s_mem s x = m0 x) as Ex by (intros x ->; apply Ag; apply (V x eq_refl)).
  assert ((s', Ok w) = (s, Ok v) -> (forall x, v = VRef x -> A x) -> post_property b (s_mem s') v v ->
    step s s' /\ okval (s_new s) (s_new s') w /\ (forall n, equal n (s_mem s') v w) /\ post_property b (s_mem s') v w) as Plain.
  { intros E Ha Po. injection E as -> ->. split; [apply step_refl|]. split; [intros r Er; left; auto|]. split; [|exact Po]. intros n. now apply equal_data. }
  destruct v as [|i|i|i|i|x]; cbn [property] in H; try (apply Plain; [now symmetry|discriminate|reflexivity]).
  destruct (V x eq_refl) as [Hx [u Eu]].
  pose proof (fun s' w => call_copy_ok cp C s (VRef x) s' w Ag V I) as K.
  cbn [post_property] in *. rewrite (Ex x eq_refl), Eu in H. rewrite Eu in Plain. rewrite Eu. destruct u as [r c p|r c par l|r p|l|d|d].
  - now apply K.
  - destruct (call_copy cp s (VRef x)) as [s1 [w1|e]] eqn:Ec; [|discriminate].
    destruct (K s1 w1 eq_refl) as ((S1 & S2 & S3) & W & Q & (y & -> & Oy)).
    assert (s_new s <= y /\ exists ws, s_mem s1 y = Some (TRefList root c None ws)) as [Hy [ws Ews]].
    { unfold call_copy in Ec. rewrite (Ex x eq_refl), Eu in Ec. destruct (cp s x) as [s2 [y2|e]] eqn:E2; [|discriminate].
      injection Ec as <- <-. destruct (C s x s2 y2 Ag Hx E2) as (_ & H2 & _). split; [lia|]. exact (Rl s x s2 y2 r c par l Ag Hx Eu E2). }
    injection H as <- <-. destruct par as [q|]; [|split; [repeat split; assumption|]; split; [exact W|]; split; [exact Q|]; exists y, ws; auto].
    assert (forall z, option_map strip (s_mem (update s1 y (set_parent b)) z) = option_map strip (s_mem s1 z)) as St.
    { intros z. destruct (Z.eq_dec z y) as [->|N]; [|now rewrite update_other]. cbn [update s_mem]. rewrite Z.eqb_refl.
      destruct (s_mem s1 y) as [[]|]; reflexivity. }
    split; [split; [|split]|].
    + intros z Hz. rewrite update_other by lia. auto.
    + exact S2.
    + intros z Hz. destruct (S3 z Hz) as (t & Et & Bt & Ot). pose proof (St z) as Sz. rewrite Et in Sz.
      destruct (s_mem (update s1 y (set_parent b)) z) as [t'|]; [|discriminate]. cbn [option_map] in Sz. injection Sz as Sz.
      exists t'. split; [reflexivity|]. split.
      * destruct t', t; try discriminate Sz; cbn in *; congruence.
      * rewrite (strip_values _ _ Sz). exact Ot.
    + split; [exact W|]. split; [|exists y, ws; split; [reflexivity|]; split; [exact Oy|]; rewrite (update_same _ _ _ _ Ews); reflexivity].
      intros n. apply (equal_later n (s_mem s1) _ (s_new s) (s_new s1)); auto.
      destruct Ag as [Ao Ag]. intros z Hz. rewrite S1 by lia. auto.
  - now apply K.
  - destruct (new_thing s (TList [])) as [s1 y] eqn:En. pose proof En as En'. unfold new_thing in En'. injection En' as E1 Ey.
    pose proof (new_same s (TList [])) as Ns. pose proof (new_other s (TList [])) as No. rewrite En in Ns, No. cbn [fst] in Ns, No. subst y.
    assert (s_new s1 = s_new s + 1) as N1 by now rewrite <- E1.
    destruct (fill (list_entry cp) s1 (s_new s) (keyless l)) as [s2 [e|]] eqn:Ef; [discriminate|]. injection H as <- <-.
    destruct Ag as [Ao Ag].
    destruct (fill_ok _ _ _ (list_entry_ok cp C) stable_entry (keyless l) s1 (s_new s) (TList []) s2) as (F1 & F2 & F3 & ws & F4 & F5 & F6 & F7 & _).
    + lia.
    + split; [lia|]. intros z Hz. rewrite No by lia. auto.
    + exact Ns.
    + split; [exact I|intros v []].
    + rewrite N1. apply range_empty.
    + unfold keyless. apply Forall_forall. intros [k v] I. apply in_map_iff in I as (v' & E & I). injection E as <- <-. cbn [snd].
      split; [exact (there_in x _ v' Hx Eu I)|]. intros b' ->. exact (A_list x l b' Hx Eu I).
    + exact Ef.
    + pose proof (combine_keys _ _ (map fst (keyless l)) ws) as [_ Cs].
      { rewrite map_length. exact (Forall2_len _ _ _ _ _ F4). }
      rewrite adds_list, Cs in F5, F7. cbn [app] in F5, F7.
      split; [split; [|split]|].
      * intros z Hz. rewrite F1 by lia. apply No. lia.
      * lia.
      * intros z Hz. destruct (Z.eq_dec z (s_new s)) as [->|N].
        { exists (TList ws). split; [exact F5|]. eapply okthing_wide; [| |exact F7]; lia. }
        destruct (F3 z) as (t & Et & Ot); [lia|]. exists t. split; [exact Et|]. eapply okthing_wide; [| |exact Ot]; lia.
      * split; [intros r Er; injection Er as <-; right; lia|]. split.
        2:{ exists (s_new s), ws. split; [reflexivity|]. split; [lia|]. split; [exact F5|]. rewrite <- (keyless_snd l). apply Forall2_map_l.
            eapply Forall2_weaken; [exact F4|]. intros kv w0 _ _ E. apply E. }
        intros [|n]; [exact I|]. cbn [equal].
        rewrite F1, No, Ag, Eu, F5 by lia. rewrite <- (keyless_snd l). apply Forall2_map_l.
        eapply Forall2_weaken; [exact F4|]. intros kv w0 _ _ E. apply E.
  - apply Plain; [now symmetry| |reflexivity]. intros y Ey. injection Ey as <-. exact (A_data x _ Hx Eu I).
  - apply Plain; [now symmetry| |reflexivity]. intros y Ey. injection Ey as <-. exact (A_data x _ Hx Eu I).
Qed.

Lemma set_keys : forall V (l : list (Z * V)) k v j, In j (map fst (set l k v)) <-> j = k \/ In j (map fst l).
Proof.
  induction l as [|[k' u] l IH]; intros k v j; cbn [set map fst In]; [intuition|].
  destruct (Z.eqb_spec k' k) as [->|N]; cbn [map fst In]; [intuition|]. rewrite IH. intuition.
Qed.

Lemma init_ok : forall l s b c p0, old <= b < s_new s -> s_mem s b = Some (TObject root c p0) ->
  okthing (b + 1) (s_new s) (TObject root c p0) -> range (s_mem s) (b + 1) (s_new s) ->
  (forall k d, In (k, d) l -> match d with
    | DValue v => forall r, v = VRef r -> A r
    | DNew t => belongs root (t root) /\ forall r, In (VRef r) (values (t root)) -> A r end) ->
  let s' := init s root b l in
  (forall z, z < s_new s -> z <> b -> s_mem s' z = s_mem s z) /\ s_new s <= s_new s' /\ range (s_mem s') (b + 1) (s_new s') /\
  exists p1, s_mem s' b = Some (TObject root c p1) /\ okthing (b + 1) (s_new s') (TObject root c p1) /\
    forall k, In k (map fst p1) <-> In k (map fst p0) \/ In k (map fst l).
Proof.
  induction l as [|[k d] l IH]; intros s b c p0 Hb Eb Ot Rg D; cbn [init].
  - split; [auto|]. split; [lia|]. split; [exact Rg|]. exists p0. split; [exact Eb|]. split; [exact Ot|]. intros k. cbn. tauto.
  - assert (forall k0 d0, In (k0, d0) l -> match d0 with
      | DValue v => forall r, v = VRef r -> A r
      | DNew t => belongs root (t root) /\ forall r, In (VRef r) (values (t root)) -> A r end) as D' by (intros k0 d0 I; apply (D k0 d0); now right).
    pose proof (D k d (or_introl eq_refl)) as Dk. destruct d as [v|t].
    + set (s1 := update s b (add k v)).
      destruct (IH s1 b c (set p0 k v)) as (I1 & I2 & I3 & p1 & I4 & I5 & I6).
      * exact Hb.
      * unfold s1. rewrite (update_same _ _ _ _ Eb). reflexivity.
      * apply (add_ok (b + 1) (s_new s) k v (TObject root c p0) Ot). intros r E. left. auto.
      * apply (range_same (s_mem s)); [intros z Hz; apply update_other; lia|exact Rg].
      * exact D'.
      * cbv zeta in *. split; [intros z Hz Nz; rewrite I1 by auto; now apply update_other|]. split; [exact I2|]. split; [exact I3|].
        exists p1. split; [exact I4|]. split; [exact I5|]. intros j. rewrite I6, set_keys. cbn [map fst In]. intuition.
    + destruct (new_thing s (t root)) as [s1 x] eqn:En. pose proof (new_same s (t root)) as Ns. pose proof (new_other s (t root)) as No.
      rewrite En in Ns, No. cbn [fst] in Ns, No. unfold new_thing in En. injection En as E1 Ex. subst x.
      assert (s_new s1 = s_new s + 1) as N1 by now rewrite <- E1.
      set (s2 := update s1 b (add k (VRef (s_new s)))). assert (s_new s2 = s_new s + 1) as N2 by exact N1.
      destruct Dk as [Bt At].
      destruct (IH s2 b c (set p0 k (VRef (s_new s)))) as (I1 & I2 & I3 & p1 & I4 & I5 & I6).
      * lia.
      * unfold s2. rewrite (update_same s1 b _ (TObject root c p0)); [reflexivity|]. rewrite No by lia. exact Eb.
      * rewrite N2. apply (add_ok (b + 1) (s_new s + 1) k (VRef (s_new s)) (TObject root c p0)).
        -- eapply okthing_wide; [| |exact Ot]; lia.
        -- intros r E. injection E as <-. right. lia.
      * rewrite N2. apply (range_same (s_mem s1)); [intros z Hz; apply update_other; lia|].
        apply (range_join _ _ (s_new s)); [lia| |].
        -- apply (range_same (s_mem s)); [intros z Hz; apply No; lia|exact Rg].
        -- intros z Hz. assert (z = s_new s) as -> by lia. exists (t root). split; [exact Ns|]. split; [exact Bt|]. intros v I r ->. left. auto.
      * exact D'.
      * cbv zeta in *. rewrite N2 in I1, I2. split; [intros z Hz Nz; rewrite I1 by lia; unfold s2; rewrite update_other by exact Nz; apply No; lia|].
        split; [lia|]. split; [exact I3|]. exists p1. split; [exact I4|]. split; [exact I5|]. intros j. rewrite I6, set_keys. cbn [map fst In]. intuition.
Qed.

Lemma make_ok : forall s c s' b, agrees s -> make cl s root c = (s', Ok b) ->
  b = s_new s /\ (forall z, z < s_new s -> s_mem s' z = s_mem s z) /\ s_new s < s_new s' /\ range (s_mem s') (b + 1) (s_new s') /\
  exists i p1, cl c = Some i /\ s_mem s' b = Some (TObject root c p1) /\ okthing (b + 1) (s_new s') (TObject root c p1) /\
    forall k, In k (map fst p1) <-> In k (map fst (c_defaults i)).
Proof.
  intros s c s' b [Ao Ag] H. unfold make in H. destruct (cl c) as [i|] eqn:Ec; [|discriminate].
  destruct (new_thing s (TObject root c [])) as [s1 x] eqn:En. pose proof (new_same s (TObject root c [])) as Ns. pose proof (new_other s (TObject root c [])) as No.
  rewrite En in Ns, No. cbn [fst] in Ns, No. unfold new_thing in En. injection En as E1 Ex. subst x.
  assert (s_new s1 = s_new s + 1) as N1 by now rewrite <- E1.
  destruct (c_noargs i); [|discriminate]. injection H as <- <-.
  destruct (init_ok (c_defaults i) s1 (s_new s) c []) as (I1 & I2 & I3 & p1 & I4 & I5 & I6).
  - lia.
  - exact Ns.
  - split; [reflexivity|intros v []].
  - rewrite N1. apply range_empty.
  - intros k d I. exact (A_default c i k d Ec I).
  - cbv zeta in *. split; [reflexivity|]. split; [intros z Hz; rewrite I1 by lia; apply No; lia|]. split; [lia|]. split; [exact I3|].
    exists i, p1. split; [reflexivity|]. split; [exact I4|]. split; [exact I5|]. intros k. rewrite I6. cbn. tauto.
Qed.

(** What is at the new address once the copy is done. *)
Definition result_of (s s' : store) (a b : Z) : Prop :=
  match m0 a with
  | Some (TObject _ c p) => exists i p1, cl c = Some i /\ (forall k, In k (map fst p1) <-> In k (map fst (c_defaults i))) /\
      exists ws, length ws = length p /\ s_mem s' b = Some (TObject root c (sets p1 (combine (map fst p) ws))) /\
        Forall2 (fun kv w => (forall n, equal n (s_mem s') (snd kv) w) /\ post_property b (s_mem s') (snd kv) w) p ws /\
        Forall (okval (b + 1) (s_new s')) ws /\
        (forall i j wi wj, (i < j)%nat -> nth_error ws i = Some wi -> nth_error ws j = Some wj ->
           forall r q, wi = VRef r -> wj = VRef q -> old <= r -> old <= q -> r <> q)
  | Some (TRefList _ c _ l) => exists ws, s_mem s' b = Some (TRefList root c None ws) /\
        Forall2 (fun v w => (forall n, equal n (s_mem s') v w) /\ post_copied (s_mem s') v w) l ws /\
        (forall i j wi wj, (i < j)%nat -> nth_error ws i = Some wi -> nth_error ws j = Some wj ->
           forall r q, wi = VRef r -> wj = VRef q -> old <= r -> old <= q -> r <> q)
  | Some (TAttrs _ p) => exists ws, s_mem s' b = Some (TAttrs root (combine (map fst p) ws)) /\
        Forall2 (fun v w => (forall n, equal n (s_mem s') v w) /\ post_attribute (s_mem s') v w) (map snd p) ws
  | _ => False
  end.

Lemma copy_ok : forall lim, copies (copy lim cl root) /\
  forall s a s' b, agrees s -> a < old -> copy lim cl root s a = (s', Ok b) -> b = s_new s /\ result_of s s' a b.
Proof.
  assert (forall lim, (forall s a s' b, agrees s -> a < old -> copy lim cl root s a = (s', Ok b) ->
    (step s s' /\ s_new s <= b < s_new s' /\ forall n, equal n (s_mem s') (VRef a) (VRef b)) /\ b = s_new s /\ result_of s s' a b)) as K.
  2:{ intros lim. split; intros s a s' b Ag Ha H; destruct (K lim s a s' b Ag Ha H); tauto. }
  induction lim as [|lim IH]; intros s a s' b Ag Ha H; cbn [copy] in H; [discriminate|].
  assert (copies (copy lim cl root)) as C by (intros s1 a1 s2 b1 Ag1 Ha1 H1; exact (proj1 (IH s1 a1 s2 b1 Ag1 Ha1 H1))).
  assert (reflists (copy lim cl root)) as Rl.
  { intros s1 a1 s2 b1 r c par l Ag1 Ha1 E1 H1. destruct (IH s1 a1 s2 b1 Ag1 Ha1 H1) as (_ & _ & R). unfold result_of in R. rewrite E1 in R.
    destruct R as (ws & E & _). eauto. }
  destruct Ag as [Ao Ag]. rewrite Ag in H by exact Ha.
  destruct (m0 a) as [t|] eqn:Ea; [|discriminate]. unfold result_of. rewrite Ea.
  destruct t as [r c p|r c par l|r p|l|d|d]; try discriminate.
  - destruct (make cl s root c) as [s1 [b1|e]] eqn:Em; [|discriminate].
    destruct (make_ok s c s1 b1 (conj Ao Ag) Em) as (-> & M1 & M2 & M3 & i & p1 & Ec & M4 & M5 & M6).
    destruct (fill (property (copy lim cl root) (s_new s)) s1 (s_new s) p) as [s2 [e|]] eqn:Ef; [discriminate|]. injection H as <- <-.
    destruct (fill_ok _ _ _ (property_ok _ (s_new s) C Rl) (stable_property (s_new s)) p s1 (s_new s) (TObject root c p1) s2) as (F1 & F2 & F3 & ws & F4 & F5 & F6 & F7 & F8).
    + lia.
    + split; [lia|]. intros z Hz. rewrite M1 by lia. auto.
    + exact M4.
    + exact M5.
    + exact M3.
    + apply Forall_forall. intros [k v] I. split; [|exact Logic.I]. apply (there_in a _ v Ha Ea). apply (in_map snd) in I. exact I.
    + exact Ef.
    + rewrite adds_object in F5, F7.
      pose proof (Forall2_len _ _ _ _ _ F4) as L.
      pose proof (combine_keys _ _ (map fst p) ws) as [Ck Cs]; [now rewrite map_length|].
      assert (forall n, equal n (s_mem s2) (VRef a) (VRef (s_new s))) as Q.
      { intros [|n]; [exact I|]. cbn [equal]. rewrite F1, M1, Ag, Ea, F5 by lia. split; [reflexivity|].
        intros k u G. apply get_in in G. destruct (order a _ Ha Ea) as [_ ND].
        assert (exists w, In (k, w) (combine (map fst p) ws) /\ forall n, equal n (s_mem s2) u w) as (w & Iw & Qw).
        { clear - F4 G. induction F4 as [|[k' u'] w p ws E F4 IH]; [destruct G|]. cbn [map fst combine In]. destruct G as [G|G].
          - injection G as -> ->. exists w. split; [auto|apply E].
          - destruct (IH G) as (w' & Iw & Qw). exists w'. auto. }
        exists w. split; [|apply Qw]. apply sets_get; [rewrite Ck; exact ND|exact Iw]. }
      split; [split; [split; [|split]|split; [lia|exact Q]]|].
      * intros z Hz. rewrite F1 by lia. apply M1. lia.
      * lia.
      * intros z Hz. destruct (Z.eq_dec z (s_new s)) as [->|N].
        { eexists. split; [exact F5|]. eapply okthing_wide; [| |exact F7]; lia. }
        destruct (F3 z) as (t & Et & Ot); [lia|]. exists t. split; [exact Et|]. eapply okthing_wide; [| |exact Ot]; lia.
      * split; [reflexivity|]. exists i, p1. split; [exact Ec|]. split; [exact M6|]. exists ws. split; [lia|]. split; [exact F5|]. split; [exact F4|].
        split; [|exact F8]. eapply Forall_impl; [|exact F6]. intros w Hw. eapply okval_wide; [| |exact Hw]; lia.
  - destruct (new_thing s (TRefList root c None [])) as [s1 x] eqn:En. pose proof (new_same s (TRefList root c None [])) as Ns. pose proof (new_other s (TRefList root c None [])) as No.
    rewrite En in Ns, No. cbn [fst] in Ns, No. unfold new_thing in En. injection En as E1 Ex. subst x.
    assert (s_new s1 = s_new s + 1) as N1 by now rewrite <- E1.
    destruct (fill (call_copy (copy lim cl root)) s1 (s_new s) (keyless l)) as [s2 [e|]] eqn:Ef; [discriminate|]. injection H as <- <-.
    destruct (fill_ok _ _ _ (call_copy_ok _ C) stable_copied (keyless l) s1 (s_new s) (TRefList root c None []) s2) as (F1 & F2 & F3 & ws & F4 & F5 & F6 & F7 & F8).
    + lia.
    + split; [lia|]. intros z Hz. rewrite No by lia. auto.
    + exact Ns.
    + split; [reflexivity|intros v []].
    + rewrite N1. apply range_empty.
    + unfold keyless. apply Forall_forall. intros [k v] I. apply in_map_iff in I as (v' & E & I). injection E as <- <-. cbn [snd].
      split; [exact (there_in a _ v' Ha Ea I)|exact Logic.I].
    + exact Ef.
    + pose proof (combine_keys _ _ (map fst (keyless l)) ws) as [_ Cs].
      { rewrite map_length. exact (Forall2_len _ _ _ _ _ F4). }
      rewrite adds_reflist, Cs in F5, F7. cbn [app] in F5, F7.
      assert (Forall2 (fun v w => (forall n, equal n (s_mem s2) v w) /\ post_copied (s_mem s2) v w) l ws) as Q.
      { rewrite <- (keyless_snd l). apply Forall2_map_l. eapply Forall2_weaken; [exact F4|]. intros kv w _ _ E. apply E. }
      split; [split; [split; [|split]|split; [lia|]]|].
      * intros z Hz. rewrite F1 by lia. apply No. lia.
      * lia.
      * intros z Hz. destruct (Z.eq_dec z (s_new s)) as [->|N].
        { eexists. split; [exact F5|]. eapply okthing_wide; [| |exact F7]; lia. }
        destruct (F3 z) as (t & Et & Ot); [lia|]. exists t. split; [exact Et|]. eapply okthing_wide; [| |exact Ot]; lia.
      * intros [|n]; [exact I|]. cbn [equal]. rewrite F1, No, Ag, Ea, F5 by lia. split; [reflexivity|].
        eapply Forall2_weaken; [exact Q|]. intros v w _ _ E. apply E.
      * split; [reflexivity|]. exists ws. split; [exact F5|]. split; [exact Q|exact F8].
  - destruct (new_thing s (TAttrs root [])) as [s1 x] eqn:En. pose proof (new_same s (TAttrs root [])) as Ns. pose proof (new_other s (TAttrs root [])) as No.
    rewrite En in Ns, No. cbn [fst] in Ns, No. unfold new_thing in En. injection En as E1 Ex. subst x.
    assert (s_new s1 = s_new s + 1) as N1 by now rewrite <- E1.
    destruct (fill (attribute (copy lim cl root)) s1 (s_new s) p) as [s2 [e|]] eqn:Ef; [discriminate|]. injection H as <- <-.
    destruct (fill_ok _ _ _ (attribute_ok _ C) stable_attribute p s1 (s_new s) (TAttrs root []) s2) as (F1 & F2 & F3 & ws & F4 & F5 & F6 & F7 & F8).
    + lia.
    + split; [lia|]. intros z Hz. rewrite No by lia. auto.
    + exact Ns.
    + split; [reflexivity|intros v []].
    + rewrite N1. apply range_empty.
    + apply Forall_forall. intros [k v] I. split; [|exact Logic.I]. apply (there_in a _ v Ha Ea). apply (in_map snd) in I. exact I.
    + exact Ef.
    + pose proof (Forall2_len _ _ _ _ _ F4) as L.
      pose proof (combine_keys _ _ (map fst p) ws) as [Ck Cs]; [now rewrite map_length|].
      destruct (order a _ Ha Ea) as [_ ND].
      rewrite adds_attrs, sets_new in F5, F7 by (cbn [app]; rewrite Ck; exact ND). cbn [app] in F5, F7.
      assert (Forall2 (fun v w => (forall n, equal n (s_mem s2) v w) /\ post_attribute (s_mem s2) v w) (map snd p) ws) as Q by (apply Forall2_map_l; exact F4).
      split; [split; [split; [|split]|split; [lia|]]|].
      * intros z Hz. rewrite F1 by lia. apply No. lia.
      * lia.
      * intros z Hz. destruct (Z.eq_dec z (s_new s)) as [->|N].
        { eexists. split; [exact F5|]. eapply okthing_wide; [| |exact F7]; lia. }
        destruct (F3 z) as (t & Et & Ot); [lia|]. exists t. split; [exact Et|]. eapply okthing_wide; [| |exact Ot]; lia.
      * intros [|n]; [exact I|]. cbn [equal]. rewrite F1, No, Ag, Ea, F5 by lia. rewrite Ck, Cs. split; [reflexivity|].
        eapply Forall2_weaken; [exact Q|]. intros v w _ _ E. apply E.
      * split; [reflexivity|]. exists ws. split; [exact F5|exact Q].
Qed.
End Copying.
