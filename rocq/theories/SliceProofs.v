(** Lemmas for C70. *)
From Coq Require Import ZArith List Bool Lia Sorted.
From Verif Require Import Base RefList RefListSpec Slices SliceSpec.
Import ListNotations.
Open Scope Z_scope.

Lemma div_below : forall a b i, 0 < b -> (i <= a / b <-> i * b <= a).
Proof.
  intros a b i Hb. split; intros H.
  - pose proof (Z.mul_div_le a b Hb). nia.
  - apply Z.div_le_lower_bound; lia.
Qed.

Lemma in_positions : forall start step count k,
  In k (slice_positions start step count) <-> exists i, 0 <= i < count /\ k = start + i * step.
Proof.
  intros start step count k. unfold slice_positions. rewrite in_map_iff. split.
  - intros (i & <- & Hi). apply in_seq in Hi. exists (Z.of_nat i). split; [lia|reflexivity].
  - intros (i & Hi & ->). exists (Z.to_nat i). rewrite Z2Nat.id by lia. split; [reflexivity|]. apply in_seq. lia.
Qed.

Lemma adjust_spec : forall n step x, 0 <= n ->
  (0 < step -> adjust n step x = Z.max 0 (Z.min n (counted n x))) /\
  (step < 0 -> adjust n step x = Z.max (-1) (Z.min (n - 1) (counted n x))).
Proof.
  intros n step x Hn. unfold adjust, counted. cbv zeta.
  destruct (Z.ltb_spec x 0), (Z.ltb_spec step 0); split; intros; try lia;
    try (destruct (Z.ltb_spec (x + n) 0); lia); destruct (Z.leb_spec n x); lia.
Qed.

Lemma positions_sorted : forall start step count, step <> 0 ->
  StronglySorted (fun a b => if 0 <? step then a < b else b < a) (slice_positions start step count).
Proof.
  intros start step count N. unfold slice_positions. generalize (Z.to_nat count) as m. intros m. generalize 0%nat as j.
  induction m as [|m IH]; intros j; cbn [seq map]; constructor; [apply IH|].
  apply Forall_forall. intros x Hx. apply in_map_iff in Hx as (i & <- & Hi). apply in_seq in Hi.
  destruct (Z.ltb_spec 0 step); nia.
Qed.

Lemma positions_taken : forall n s start stop step count, 0 <= n ->
  slice_indices n s = Some (start, stop, step, count) ->
  step = step_of s /\ taken n s (slice_positions start step count) /\ 0 <= count /\ len (slice_positions start step count) = count.
Proof.
  intros n s start stop step count Hn H. unfold slice_indices in H. fold (step_of s) in H.
  destruct (Z.eqb_spec (step_of s) 0) as [|N]; [discriminate H|]. cbv zeta in H. injection H as Hs Ht <- Hc.
  assert (0 <= count) as Cn.
  { subst count. destruct (Z.ltb_spec (step_of s) 0) as [L|L].
    - destruct (_ <? _) eqn:E; [|lia]. apply Z.ltb_lt in E.
      enough (0 <= (start - stop - 1) / - step_of s) by (subst; lia). apply Z.div_pos; lia.
    - destruct (_ <? _) eqn:E; [|lia]. apply Z.ltb_lt in E.
      enough (0 <= (stop - start - 1) / step_of s) by (subst; lia). apply Z.div_pos; lia. }
  split; [reflexivity|]. split; [|split; [exact Cn|]].
  2:{ unfold len, slice_positions. rewrite map_length, seq_length. lia. }
  split; [|now apply positions_sorted]. intros k. rewrite in_positions. unfold takes.
  destruct (Z.ltb_spec 0 (step_of s)) as [P|P].
  - assert (exists first last, (match sl_start s with Some x => Z.max 0 (counted n x) | None => 0 end) = first /\
      (match sl_stop s with Some x => counted n x | None => n end) = last /\ start = Z.min n first /\ 0 <= first /\
      stop = Z.max 0 (Z.min n last)) as (first & last & -> & -> & E1 & F0 & E2).
    { do 2 eexists. split; [reflexivity|]. split; [reflexivity|].
      destruct (Z.ltb_spec (step_of s) 0) as [L|_]; [lia|].
      destruct (sl_start s) as [x|], (sl_stop s) as [y|]; rewrite <- ?Hs, <- ?Ht;
        rewrite ?(proj1 (adjust_spec n (step_of s) _ Hn) P); lia. }
    destruct (Z.ltb_spec (step_of s) 0) as [L|_]; [lia|]. rewrite Hs, Ht in Hc.
    assert (forall i, 0 <= i -> (i < count <-> start + i * step_of s < stop)) as Ci.
    { intros i Hi. subst count. destruct (Z.ltb_spec start stop) as [B|B]; [|split; intros; nia].
      pose proof (div_below (stop - start - 1) (step_of s) i P). lia. }
    split.
    + intros (i & [H0 Hi] & ->). apply Ci in Hi; [|exact H0]. split; [nia|]. split; [nia|]. exists i. nia.
    + intros (Hk & Hb & i & H0 & ->). exists i. assert (start = first) as -> by nia. split; [|reflexivity].
      split; [exact H0|]. apply Ci; [exact H0|]. lia.
  - assert (exists first, (match sl_start s with Some x => Z.min (n - 1) (counted n x) | None => n - 1 end) = first /\
      start = Z.max (-1) first /\ first <= n - 1) as (first & -> & E1 & F0).
    { eexists. split; [reflexivity|]. destruct (Z.ltb_spec (step_of s) 0) as [L|L]; [|lia].
      destruct (sl_start s) as [x|]; rewrite <- ?Hs; rewrite ?(proj2 (adjust_spec n (step_of s) _ Hn) L); lia. }
    assert (forall k, 0 <= k < n -> (match sl_stop s with Some x => counted n x < k | None => True end <-> stop < k) ) as E2.
    { intros k0 Hk0. destruct (Z.ltb_spec (step_of s) 0) as [L|L]; [|lia].
      destruct (sl_stop s) as [y|]; rewrite <- Ht; rewrite ?(proj2 (adjust_spec n (step_of s) _ Hn) L); lia. }
    assert (-1 <= stop) as S1.
    { destruct (Z.ltb_spec (step_of s) 0) as [L|L]; [|lia].
      destruct (sl_stop s) as [y|]; rewrite <- Ht; rewrite ?(proj2 (adjust_spec n (step_of s) _ Hn) L); lia. }
    destruct (Z.ltb_spec (step_of s) 0) as [L|]; [|lia]. rewrite Hs, Ht in Hc.
    assert (forall i, 0 <= i -> (i < count <-> stop < start + i * step_of s)) as Ci.
    { intros i Hi. subst count. destruct (Z.ltb_spec stop start) as [B|B]; [|split; intros; nia].
      pose proof (div_below (start - stop - 1) (- step_of s) i ltac:(lia)). lia. }
    split.
    + intros (i & [H0 Hi] & ->). apply Ci in Hi; [|exact H0]. assert (0 <= start) by nia.
      assert (0 <= start + i * step_of s < n) as Hk by nia. split; [exact Hk|].
      split; [now apply E2|]. split; [nia|]. exists i. nia.
    + intros (Hk & Hb & Hf & i & H0 & ->). apply E2 in Hb; [|exact Hk]. exists i. assert (start = first) as -> by nia.
      split; [|reflexivity]. split; [exact H0|]. apply Ci; [exact H0|]. lia.
Qed.

Lemma indices_none : forall n s, slice_indices n s = None <-> step_of s = 0.
Proof.
  intros n s. unfold slice_indices. fold (step_of s). destruct (Z.eqb_spec (step_of s) 0); split; intros; try congruence; discriminate.
Qed.

Lemma delete_without : forall V (val : entry -> V) (gone : Z -> Prop) ps l i, (forall k, i <= k < i + len l -> In k ps <-> gone k) ->
  without gone i (map val l) (map val (py_delete ps i l)).
Proof.
  intros V val gone ps l. induction l as [|e l IH]; intros i H; cbn [map py_delete]; [constructor|].
  assert (len (e :: l) = len l + 1) as L by (unfold len; cbn [length]; lia).
  assert (0 <= len l) by (unfold len; lia).
  specialize (IH (i + 1) ltac:(intros k Hk; apply H; lia)).
  destruct (existsb (Z.eqb i) ps) eqn:E.
  - apply without_gone; [|exact IH]. apply H; [lia|]. apply existsb_exists in E as (k & Hk & E). apply Z.eqb_eq in E. now subst.
  - cbn [map]. apply without_kept; [|exact IH]. intros G. apply H in G; [|lia].
    assert (existsb (Z.eqb i) ps = true) as F by (apply existsb_exists; exists i; split; [exact G|apply Z.eqb_refl]). congruence.
Qed.

Lemma assign_one : forall (l : list entry) k x, (k < length l)%nat ->
  length (firstn k l ++ x :: skipn (S k) l) = length l /\
  forall j d, nth j (firstn k l ++ x :: skipn (S k) l) d = if Nat.eqb j k then x else nth j l d.
Proof.
  intros l k x H. split.
  - rewrite app_length. cbn [length]. rewrite firstn_length, skipn_length. lia.
  - intros j d. revert k H j. induction l as [|e l IH]; intros k H j; [cbn [length] in H; lia|].
    destruct k as [|k]; [destruct j; reflexivity|]. cbn [firstn app skipn]. destruct j as [|j]; [reflexivity|].
    cbn [nth Nat.eqb]. apply IH. cbn [length] in H. lia.
Qed.

Lemma assign_all : forall pxs l, NoDup (map fst pxs) -> (forall k, In k (map fst pxs) -> 0 <= k < len l) ->
  length (py_assign l pxs) = length l /\
  (forall k x d, In (k, x) pxs -> nth (Z.to_nat k) (py_assign l pxs) d = x) /\
  (forall k d, 0 <= k -> ~ In k (map fst pxs) -> nth (Z.to_nat k) (py_assign l pxs) d = nth (Z.to_nat k) l d).
Proof.
  induction pxs as [|[k x] pxs IH]; intros l ND R; [split; [reflexivity|]; split; [intros k x d []|reflexivity]|].
  unfold py_assign. cbn [fold_left fst snd]. fold (py_assign (firstn (Z.to_nat k) l ++ x :: skipn (S (Z.to_nat k)) l) pxs).
  cbn [map fst] in ND, R. inversion ND as [|? ? Nk ND']; subst.
  assert (0 <= k < len l) as Hk by (apply R; now left). unfold len in Hk.
  destruct (assign_one l (Z.to_nat k) x ltac:(lia)) as [L1 N1].
  set (l1 := firstn (Z.to_nat k) l ++ x :: skipn (S (Z.to_nat k)) l) in *.
  destruct (IH l1 ND') as (L2 & N2 & N3).
  { intros j Hj. assert (0 <= j < len l) by (apply R; now right). unfold len in *. lia. }
  split; [congruence|]. split.
  - intros j y d [E|I]; [|now apply N2]. injection E as <- <-. rewrite N3; [|lia|exact Nk]. rewrite N1, Nat.eqb_refl. reflexivity.
  - intros j d Hj Nj. cbn [map fst In] in Nj. rewrite N3; [|exact Hj|tauto]. rewrite N1.
    destruct (Nat.eqb_spec (Z.to_nat j) (Z.to_nat k)); [exfalso; apply Nj; left; lia|reflexivity].
Qed.

Lemma sorted_nodup : forall (up : bool) ps, StronglySorted (fun a b => if up then a < b else b < a) ps -> NoDup ps.
Proof.
  intros up ps H. induction H as [|p ps S IH F]; constructor; [|exact IH]. intros I.
  rewrite Forall_forall in F. specialize (F p I). destruct up; lia.
Qed.

Lemma combine_fst : forall (ps : list Z) (xs : list entry), length ps = length xs -> map fst (combine ps xs) = ps.
Proof.
  induction ps as [|p ps IH]; intros [|x xs] L; try discriminate L; [reflexivity|]. cbn [combine map fst]. rewrite IH; [reflexivity|now injection L].
Qed.

Lemma skipn_twice : forall {A} a b (l : list A), skipn a (skipn b l) = skipn (b + a) l.
Proof. intros A a b. induction b as [|b IH]; intros l; [reflexivity|]. destruct l; [now rewrite !skipn_nil|]. cbn [skipn Nat.add]. apply IH. Qed.
