(** A copy is a tree: each new thing is referred to once. *)
From Coq Require Import ZArith List Bool Lia.
From Verif Require Import Base Copy CopySpec CopyProofs CopyEnds.
Import ListNotations.
Open Scope Z_scope.

(** Where a value is put. *)
Fixpoint index {V} (l : list (Z * V)) (k : Z) : nat := match l with [] => O | (k', _) :: l' => if k' =? k then O else S (index l' k) end.
Definition place (k : Z) (t : thing) : nat :=
  match t with TObject _ _ p | TAttrs _ p => index p k | TRefList _ _ _ l | TList l => length l | _ => O end.

Lemma set_nth : forall V (l : list (Z * V)) k w i v, nth_error (map snd (set l k w)) i = Some v -> (i = index l k /\ v = w) \/ nth_error (map snd l) i = Some v.
Proof.
  induction l as [|[k' u] l IH]; intros k w i v H; cbn [set index map snd] in *.
  - destruct i as [|[|i]]; cbn in H; try discriminate. injection H as <-. auto.
  - destruct (k' =? k); cbn [map snd] in *; destruct i as [|i]; cbn [nth_error] in *; auto.
    + injection H as <-. auto.
    + destruct (IH k w i v H) as [[-> ->]|]; auto.
Qed.

Lemma app_nth : forall (l : list value) w i v, nth_error (l ++ [w]) i = Some v -> (i = length l /\ v = w) \/ nth_error l i = Some v.
Proof.
  intros l w i v H. destruct (Nat.lt_ge_cases i (length l)) as [L|L]; [rewrite nth_error_app1 in H by exact L; auto|].
  rewrite nth_error_app2 in H by exact L. destruct (i - length l)%nat as [|[|j]] eqn:E; cbn in H; try discriminate. injection H as <-. left. split; [lia|reflexivity].
Qed.

Lemma add_nth : forall k w t i v, nth_error (values (add k w t)) i = Some v -> (i = place k t /\ v = w) \/ nth_error (values t) i = Some v.
Proof.
  intros k w [] i v H; cbn [add values place] in *; auto; try (now apply set_nth); now apply app_nth.
Qed.

Section Tree.
Variable cl : classes.
Variable root old : Z.
Variable m0 : memory.
Hypothesis order : in_order m0 old.
Hypothesis defaults_old : forall c i k d, cl c = Some i -> In (k, d) (c_defaults i) ->
  match d with
  | DValue v => forall b, v = VRef b -> b < old
  | DNew t => forall b, In (VRef b) (values (t root)) -> b < old
  end.

(** New things refer to later new things, and no two places refer to the same one. *)
Definition up (m : memory) (lo hi : Z) : Prop := forall x t z, lo <= x < hi -> m x = Some t -> In (VRef z) (values t) -> old <= z -> x < z < hi.
Definition once (m : memory) (lo hi : Z) : Prop := forall x y tx ty i j z, lo <= x < hi -> lo <= y < hi -> m x = Some tx -> m y = Some ty ->
  nth_error (values tx) i = Some (VRef z) -> nth_error (values ty) j = Some (VRef z) -> old <= z -> x = y /\ i = j.
Definition tree (m : memory) (lo hi : Z) : Prop := up m lo hi /\ once m lo hi.

Lemma tree_same : forall m m' lo hi, (forall z, lo <= z < hi -> option_map values (m' z) = option_map values (m z)) -> tree m lo hi -> tree m' lo hi.
Proof.
  intros m m' lo hi E [U O].
  assert (forall x t', lo <= x < hi -> m' x = Some t' -> exists t, m x = Some t /\ values t = values t') as B.
  { intros x t' Hx Ex. pose proof (E x Hx) as K. rewrite Ex in K. destruct (m x) as [t|]; [|discriminate]. cbn [option_map] in K. injection K as K. eauto. }
  split.
  - intros x t z Hx Ex Iz Hz. destruct (B x t Hx Ex) as (u & Eu & Vu). rewrite <- Vu in Iz. exact (U x u z Hx Eu Iz Hz).
  - intros x y tx ty i j z Hx Hy Ex Ey Ni Nj Hz. destruct (B x tx Hx Ex) as (u & Eu & Vu). destruct (B y ty Hy Ey) as (v & Ev & Vv).
    rewrite <- Vu in Ni. rewrite <- Vv in Nj. exact (O x y u v i j z Hx Hy Eu Ev Ni Nj Hz).
Qed.

Lemma tree_empty : forall m lo, tree m lo lo.
Proof. intros m lo. split; intros x; intros; lia. Qed.

(** A value is old or the first new thing. *)
Definition rooted (s s' : store) (w : value) : Prop := forall r, w = VRef r -> old <= r -> r = s_new s /\ s_new s < s_new s'.

(** Putting one converted value into the thing at [b]. *)
Lemma tree_add : forall s s1 b t0 k w, old <= b < s_new s -> keeps s s1 -> tree (s_mem s) b (s_new s) -> tree (s_mem s1) (s_new s) (s_new s1) ->
  rooted s s1 w -> s_mem s b = Some t0 -> tree (s_mem (update s1 b (add k w))) b (s_new s1).
Proof.
  intros s s1 b t0 k w Hb [K1 K2] [U O] [U1 O1] R E0.
  assert (s_mem s1 b = Some t0) as E1 by (rewrite K1 by lia; exact E0).
  set (m2 := s_mem (update s1 b (add k w))).
  assert (m2 b = Some (add k w t0)) as Eb by (apply update_same; exact E1).
  assert (forall z, z <> b -> m2 z = s_mem s1 z) as En by (intros z N; now apply update_other).
  (* the places of references to new things *)
  assert (forall x t i z, b <= x < s_new s1 -> m2 x = Some t -> nth_error (values t) i = Some (VRef z) -> old <= z ->
    (x < s_new s /\ x < z < s_new s /\ exists t', s_mem s x = Some t' /\ nth_error (values t') i = Some (VRef z)) \/
    (x = b /\ i = place k t0 /\ z = s_new s /\ s_new s < s_new s1) \/
    (s_new s <= x /\ x < z < s_new s1 /\ s_mem s1 x = Some t)) as P.
  { intros x t i z Hx Ex Nx Hz. destruct (Z_lt_le_dec x (s_new s)) as [L|L].
    - destruct (Z.eq_dec x b) as [->|N].
      + rewrite Eb in Ex. injection Ex as <-. destruct (add_nth k w t0 i (VRef z) Nx) as [[Ei Ew]|Nx'].
        * right. left. destruct (R z (eq_sym Ew) Hz) as [-> Lt]. auto.
        * left. split; [exact L|]. split; [|eauto]. apply (U b t0 z); auto; [lia|]. exact (nth_error_In _ _ Nx').
      + left. rewrite En, K1 in Ex by lia. split; [exact L|]. split; [|eauto]. apply (U x t z); auto; [lia|]. exact (nth_error_In _ _ Nx).
    - right. right. rewrite En in Ex by lia. split; [exact L|]. split; [|exact Ex]. apply (U1 x t z); auto; [lia|]. exact (nth_error_In _ _ Nx). }
  split.
  - intros x t z Hx Ex Iz Hz. apply In_nth_error in Iz as [i Ni]. destruct (P x t i z Hx Ex Ni Hz) as [(L & Lz & _)|[(-> & _ & -> & Lz)|(L & Lz & _)]]; lia.
  - intros x y tx ty i j z Hx Hy Ex Ey Ni Nj Hz.
    destruct (P x tx i z Hx Ex Ni Hz) as [(L & Lz & t' & E' & N')|[(Xb & Ei & Zs & Lz)|(L & Lz & E')]];
    destruct (P y ty j z Hy Ey Nj Hz) as [(M & Mz & u' & F' & G')|[(Yb & Ej & Zs' & Mz)|(M & Mz & F')]]; try lia.
    + exact (O x y t' u' i j z ltac:(lia) ltac:(lia) E' F' N' G' Hz).
    + exact (O1 x y tx ty i j z ltac:(lia) ltac:(lia) E' F' Ni Nj Hz).
Qed.

Definition there (v : value) : Prop := forall r, v = VRef r -> r < old.

Definition conv_tree (conv : store -> value -> store * result value) : Prop := forall s v s' w, like old m0 s -> there v -> conv s v = (s', Ok w) ->
  tree (s_mem s') (s_new s) (s_new s') /\ rooted s s' w.
Definition cp_tree (cp : store -> Z -> store * result Z) : Prop := forall s a s' b, like old m0 s -> a < old -> cp s a = (s', Ok b) ->
  tree (s_mem s') (s_new s) (s_new s') /\ b = s_new s /\ s_new s < s_new s'.

Lemma fill_tree : forall conv, keeping conv -> conv_tree conv -> forall l s b t0 s', like old m0 s -> old <= b < s_new s -> s_mem s b = Some t0 ->
  tree (s_mem s) b (s_new s) -> Forall (fun kv => there (snd kv)) l -> fill conv s b l = (s', None) -> tree (s_mem s') b (s_new s') /\ s_new s <= s_new s'.
Proof.
  intros conv C T. induction l as [|[k v] l IH]; intros s b t0 s' L Hb E0 Tr F H; cbn [fill] in H; [injection H as <-; split; [exact Tr|lia]|].
  apply Forall_cons_iff in F as [V F]. cbn [snd] in V. destruct (conv s v) as [s1 [w|e]] eqn:E; [|discriminate].
  pose proof (C _ _ _ _ E) as K. destruct (T s v s1 w L V E) as [T1 R].
  destruct (IH (update s1 b (add k w)) b (add k w t0) s') as [I1 I2].
  - apply like_update; [|lia]. exact (like_keeps _ _ _ _ L K).
  - destruct K. cbn [update s_new]. lia.
  - apply update_same. destruct K as [K _]. rewrite K by lia. exact E0.
  - exact (tree_add s s1 b t0 k w Hb K Tr T1 R E0).
  - exact F.
  - exact H.
  - split; [exact I1|]. destruct K. cbn [update s_new] in I2. lia.
Qed.

Lemma call_tree : forall cp, cp_tree cp -> conv_tree (call_copy cp).
Proof.
  intros cp C s v s' w L V H. unfold call_copy in H. destruct v as [|i|i|i|i|x]; try discriminate.
  assert (exists y, cp s x = (s', Ok y) /\ w = VRef y) as (y & E & ->).
  { destruct (s_mem s x) as [[]|]; try discriminate; (destruct (cp s x) as [s1 [y|e]]; [|discriminate]); injection H as <- <-; eauto. }
  destruct (C s x s' y L (V x eq_refl) E) as (T & -> & N). split; [exact T|]. intros r Er _. injection Er as <-. auto.
Qed.

Lemma plain_tree : forall s v, there v -> tree (s_mem s) (s_new s) (s_new s) /\ rooted s s v.
Proof. intros s v V. split; [apply tree_empty|]. intros r Er Hr. apply V in Er. lia. Qed.

Lemma list_entry_tree : forall cp, cp_tree cp -> conv_tree (list_entry cp).
Proof.
  intros cp C s v s' w L V H. unfold list_entry in H. destruct v as [|i|i|i|i|x]; try (injection H as <- <-; now apply plain_tree).
  destruct (s_mem s x) as [[]|]; try (injection H as <- <-; now apply plain_tree). exact (call_tree cp C _ _ _ _ L V H).
Qed.

Lemma attribute_tree : forall cp, cp_tree cp -> conv_tree (attribute cp).
Proof.
  intros cp C s v s' w L V H. unfold attribute in H.
  destruct v as [|i|i|i|i|x]; try discriminate; try (injection H as <- <-; now apply plain_tree); try (exact (call_tree cp C _ _ _ _ L V H)).
  destruct (s_mem s x) as [[| | | |d|]|]; try (exact (call_tree cp C _ _ _ _ L V H)).
  destruct (new_thing s (TBlob d)) as [s1 y] eqn:En. pose proof (new_same s (TBlob d)) as Ns. rewrite En in Ns. cbn [fst] in Ns.
  unfold new_thing in En. injection En as E1 <-. injection H as <- <-. assert (s_new s1 = s_new s + 1) as N1 by now rewrite <- E1.
  split; [|intros r Er _; injection Er as <-; lia].
  split.
  - intros x0 t z Hx Ex Iz. assert (x0 = s_new s) as -> by lia. rewrite Ns in Ex. injection Ex as <-. destruct Iz.
  - intros x0 y tx ty i j z Hx Hy Ex Ey Ni. assert (x0 = s_new s) as -> by lia. rewrite Ns in Ex. injection Ex as <-. destruct i; discriminate.
Qed.

(** A new thing with only old values in it. *)
Lemma new_tree : forall s t, (forall z, In (VRef z) (values t) -> z < old) -> tree (s_mem (fst (new_thing s t))) (s_new s) (s_new (fst (new_thing s t))).
Proof.
  intros s t H. pose proof (new_same s t) as Ns. assert (s_new (fst (new_thing s t)) = s_new s + 1) as N1 by reflexivity. split.
  - intros x u z Hx Ex Iz Hz. assert (x = s_new s) as -> by lia. rewrite Ns in Ex. injection Ex as <-. apply H in Iz. lia.
  - intros x y tx ty i j z Hx Hy Ex Ey Ni _ Hz. assert (x = s_new s) as -> by lia. rewrite Ns in Ex. injection Ex as <-. apply nth_error_In, H in Ni. lia.
Qed.

Lemma there_of : forall x t v, x < old -> m0 x = Some t -> In v (values t) -> there v.
Proof. intros x t v Hx E I r ->. now apply (order x t Hx E). Qed.

Lemma property_tree : forall cp b, cp_keeping cp -> cp_tree cp -> conv_tree (property cp b).
Proof.
  intros cp b K C s v s' w L V H. unfold property in H. destruct v as [|i|i|i|i|x]; try (injection H as <- <-; now apply plain_tree).
  pose proof (proj2 L x (V x eq_refl)) as Ex. rewrite Ex in H.
  destruct (m0 x) as [[| |ro p|l| |]|] eqn:E0; try (injection H as <- <-; now apply plain_tree); try (exact (call_tree cp C _ _ _ _ L V H)).
  - destruct (call_copy cp s (VRef x)) as [s1 [w1|e]] eqn:Ec; [|discriminate]. destruct (call_tree cp C _ _ _ _ L V Ec) as [T R].
    destruct w1 as [|i|i|i|i|y]; injection H as <- <-; try (split; [exact T|exact R]). destruct parent as [q|]; [|split; [exact T|exact R]].
    split; [|exact R]. apply (tree_same (s_mem s1)); [|exact T]. intros z Hz. destruct (Z.eq_dec z y) as [->|N]; [|now rewrite update_other].
    cbn [update s_mem]. rewrite Z.eqb_refl. destruct (s_mem s1 y) as [[]|]; reflexivity.
  - destruct (new_thing s (TList [])) as [s1 y] eqn:En. pose proof (new_same s (TList [])) as Ns. pose proof (keeps_new s (TList [])) as Kn. pose proof (new_tree s (TList [])) as Tn.
    rewrite En in Ns, Kn, Tn. cbn [fst] in Ns, Kn, Tn. unfold new_thing in En. injection En as E1 <-. assert (s_new s1 = s_new s + 1) as N1 by now rewrite <- E1.
    destruct (fill (list_entry cp) s1 (s_new s) (keyless l)) as [s2 [e|]] eqn:Ef; [discriminate|]. injection H as <- <-.
    destruct (fill_tree _ (list_entry_keeps cp K) (list_entry_tree cp C) (keyless l) s1 (s_new s) (TList []) s2) as [T Le].
    + exact (like_keeps _ _ _ _ L Kn).
    + destruct L. lia.
    + exact Ns.
    + apply Tn. intros z [].
    + apply Forall_forall. intros [k v] I. unfold keyless in I. apply in_map_iff in I as (v' & E & I). injection E as <- <-.
      exact (there_of x _ v' (V x eq_refl) E0 I).
    + exact Ef.
    + split; [exact T|]. intros r Er _. injection Er as <-. lia.
Qed.

Lemma init_tree : forall l s b t0, like old m0 s -> old <= b < s_new s -> s_mem s b = Some t0 -> tree (s_mem s) b (s_new s) ->
  (forall k d, In (k, d) l -> match d with DValue v => forall r, v = VRef r -> r < old | DNew t => forall r, In (VRef r) (values (t root)) -> r < old end) ->
  tree (s_mem (init s root b l)) b (s_new (init s root b l)) /\ s_new s <= s_new (init s root b l) /\ exists t1, s_mem (init s root b l) b = Some t1.
Proof.
  induction l as [|[k d] l IH]; intros s b t0 L Hb E0 T D; cbn [init]; [split; [exact T|]; split; [lia|eauto]|].
  assert (forall k0 d0, In (k0, d0) l -> match d0 with DValue v => forall r, v = VRef r -> r < old | DNew t => forall r, In (VRef r) (values (t root)) -> r < old end) as D'
    by (intros k0 d0 I; apply (D k0 d0); now right).
  pose proof (D k d (or_introl eq_refl)) as Dk. destruct d as [v|t].
  - destruct (IH (update s b (add k v)) b (add k v t0)) as [I1 [I2 I3]]; auto.
    + apply like_update; [exact L|lia].
    + apply update_same. exact E0.
    + apply (tree_add s s b t0 k v Hb (keeps_refl s) T (tree_empty _ _)); [|exact E0]. intros r Er Hr. apply Dk in Er. lia.
  - destruct (new_thing s (t root)) as [s1 x] eqn:En. pose proof (keeps_new s (t root)) as Kn. pose proof (new_tree s (t root) Dk) as Tn. rewrite En in Kn, Tn. cbn [fst] in Kn, Tn.
    unfold new_thing in En. injection En as E1 <-. assert (s_new s1 = s_new s + 1) as N1 by now rewrite <- E1.
    destruct (IH (update s1 b (add k (VRef (s_new s)))) b (add k (VRef (s_new s)) t0)) as [I1 [I2 I3]]; auto.
    + apply like_update; [|lia]. exact (like_keeps _ _ _ _ L Kn).
    + cbn [update s_new]. lia.
    + apply update_same. destruct Kn as [Kn _]. rewrite Kn by lia. exact E0.
    + apply (tree_add s s1 b t0 k _ Hb Kn T Tn); [|exact E0]. intros r Er _. injection Er as <-. lia.
    + split; [exact I1|]. split; [|exact I3]. cbn [update s_new] in I2. lia.
Qed.

Lemma copy_tree : forall lim, cp_tree (copy lim cl root).
Proof.
  induction lim as [|lim IH]; intros s a s' b L Ha H; cbn [copy] in H; [discriminate|].
  pose proof (copy_keeps lim cl root) as K. rewrite (proj2 L a Ha) in H. destruct (m0 a) as [[ro c p|ro c par l|ro p|l|d|d]|] eqn:Ea; try discriminate.
  - destruct (make cl s root c) as [s1 [b1|e]] eqn:Em; [|discriminate]. destruct (make_keeps _ _ _ _ _ _ Em) as [Km Eb]. rewrite (Eb b1 eq_refl) in *. clear Eb b1.
    destruct (fill (property (copy lim cl root) (s_new s)) s1 (s_new s) p) as [s2 [e|]] eqn:Ef; [discriminate|]. injection H as <- <-.
    unfold make in Em. destruct (cl c) as [i|] eqn:Ec; [|discriminate]. destruct (new_thing s (TObject root c [])) as [s0 x] eqn:En.
    pose proof (new_same s (TObject root c [])) as Ns. pose proof (keeps_new s (TObject root c [])) as Kn. pose proof (new_tree s (TObject root c [])) as Tn.
    rewrite En in Ns, Kn, Tn. cbn [fst] in Ns, Kn, Tn. unfold new_thing in En. injection En as E1 <-. assert (s_new s0 = s_new s + 1) as N1 by now rewrite <- E1.
    destruct (c_noargs i); [|discriminate]. injection Em as <-.
    destruct (init_tree (c_defaults i) s0 (s_new s) _ (like_keeps _ _ _ _ L Kn) ltac:(destruct L; lia) Ns (Tn ltac:(intros z []))) as (I1 & I2 & t1 & I3).
    { intros k d I. exact (defaults_old c i k d Ec I). }
    destruct (fill_tree _ (property_keeps _ (s_new s) K) (property_tree _ (s_new s) K IH) p _ (s_new s) t1 s2 (like_keeps _ _ _ _ L Km) ltac:(destruct L; lia) I3 I1) as [T Le].
    + apply Forall_forall. intros [k v] I. cbn [snd]. apply (there_of a _ v Ha Ea). apply (in_map snd) in I. exact I.
    + exact Ef.
    + split; [exact T|]. split; [reflexivity|lia].
  - destruct (new_thing s (TRefList root c None [])) as [s1 x] eqn:En.
    pose proof (new_same s (TRefList root c None [])) as Ns. pose proof (keeps_new s (TRefList root c None [])) as Kn. pose proof (new_tree s (TRefList root c None [])) as Tn.
    rewrite En in Ns, Kn, Tn. cbn [fst] in Ns, Kn, Tn. unfold new_thing in En. injection En as E1 <-. assert (s_new s1 = s_new s + 1) as N1 by now rewrite <- E1.
    destruct (fill (call_copy (copy lim cl root)) s1 (s_new s) (keyless l)) as [s2 [e|]] eqn:Ef; [discriminate|]. injection H as <- <-.
    assert (keeping (call_copy (copy lim cl root))) as C by (intros ? ? ? ? E; exact (proj1 (call_copy_keeps _ K _ _ _ _ E))).
    destruct (fill_tree _ C (call_tree _ IH) (keyless l) s1 (s_new s) _ s2 (like_keeps _ _ _ _ L Kn) ltac:(destruct L; lia) Ns (Tn ltac:(intros z []))) as [T Le].
    + apply Forall_forall. intros [k v] I. unfold keyless in I. apply in_map_iff in I as (v' & E & I). injection E as <- <-. exact (there_of a _ v' Ha Ea I).
    + exact Ef.
    + split; [exact T|]. split; [reflexivity|lia].
  - destruct (new_thing s (TAttrs root [])) as [s1 x] eqn:En.
    pose proof (new_same s (TAttrs root [])) as Ns. pose proof (keeps_new s (TAttrs root [])) as Kn. pose proof (new_tree s (TAttrs root [])) as Tn.
    rewrite En in Ns, Kn, Tn. cbn [fst] in Ns, Kn, Tn. unfold new_thing in En. injection En as E1 <-. assert (s_new s1 = s_new s + 1) as N1 by now rewrite <- E1.
    destruct (fill (attribute (copy lim cl root)) s1 (s_new s) p) as [s2 [e|]] eqn:Ef; [discriminate|]. injection H as <- <-.
    destruct (fill_tree _ (attribute_keeps _ K) (attribute_tree _ IH) p s1 (s_new s) _ s2 (like_keeps _ _ _ _ L Kn) ltac:(destruct L; lia) Ns (Tn ltac:(intros z []))) as [T Le].
    + apply Forall_forall. intros [k v] I. cbn [snd]. apply (there_of a _ v Ha Ea). apply (in_map snd) in I. exact I.
    + exact Ef.
    + split; [exact T|]. split; [reflexivity|lia].
Qed.
End Tree.
