(** Facts about the integration of curves. *)
From Coq Require Import ZArith List Bool Lia.
From Verif Require Import Base Timeline.
Import ListNotations.
Open Scope Z_scope.

Lemma Ok_inj : forall B (x y : B), Ok x = Ok y -> x = y.
Proof. congruence. Qed.

Section Generic.
Context (A : arith) (f : num A -> result (num A)) (hf : Z -> num A) (lo hi : Z).

(** [hf k] is half frame [k], for frames between [lo] and [hi]. *)
Definition halves : Prop :=
  (forall i, lo <= i <= hi -> n_of_Z A i = hf (2 * i)) /\
  (forall k, 2 * lo <= k < 2 * hi -> n_add A (hf k) (n_half A) = hf (k + 1)) /\
  (forall j k, 2 * lo <= j <= 2 * hi -> 2 * lo <= k <= 2 * hi -> n_ltb A (hf j) (hf k) = (j <? k)) /\
  (forall j k, 2 * lo <= j <= 2 * hi -> 2 * lo <= k <= 2 * hi -> n_eqb A (hf j) (hf k) = (j =? k)).

Fixpoint accumulate (k : Z) (n : nat) (pos : num A) : result (list (num A * num A)) :=
  match n with
  | O => Ok []
  | S n' =>
    match step A f pos (hf k) with
    | Err e => Err e
    | Ok p => match accumulate (k + 1) n' p with Err e => Err e | Ok l => Ok ((hf k, p) :: l) end
    end
  end.

Lemma iter_loop_acc : halves -> forall n i t pos, lo <= i -> i + Z.of_nat n <= hi ->
  (n = O -> n_add A t (n_half A) = hf (2 * i)) ->
  iter_loop A f n i t pos = accumulate (2 * i) (2 * n + 1) pos.
Proof.
  intros (HZ & HA & _ & _). induction n as [|n IH]; intros i t pos Hi Hn Ht.
  - cbn [iter_loop]. rewrite Ht by reflexivity. change (2 * 0 + 1)%nat with 1%nat. cbn [accumulate].
    destruct (step A f pos (hf (2 * i))); reflexivity.
  - cbn [iter_loop]. replace (2 * S n + 1)%nat with (S (S (2 * n + 1))) by lia. cbn [accumulate].
    rewrite HZ by lia. destruct (step A f pos (hf (2 * i))) as [p0|e]; [|reflexivity].
    rewrite HA by lia. destruct (step A f p0 (hf (2 * i + 1))) as [p1|e]; [|reflexivity].
    rewrite IH by (lia || (intros _; rewrite HA by lia; f_equal; lia)).
    replace (2 * (i + 1)) with (2 * i + 1 + 1) by lia.
    destruct (accumulate (2 * i + 1 + 1) (2 * n + 1) p1); reflexivity.
Qed.

Lemma integrate_iter_acc : halves -> forall start stop, lo <= start -> start < stop - 1 -> stop - 1 <= hi ->
  integrate_iter A f start stop =
    accumulate (2 * start) (Z.to_nat (2 * (stop - 1 - start) + 1)) (n_of_Z A 0).
Proof.
  intros H start stop L1 L2 L3. unfold integrate_iter. destruct (Z.leb_spec (stop - 1) start); [lia|].
  rewrite iter_loop_acc by (auto; lia). f_equal. lia.
Qed.

Lemma acc_length : forall n k pos l, accumulate k n pos = Ok l -> length l = n.
Proof.
  induction n as [|n IH]; intros k pos l H; cbn [accumulate] in H; [now injection H as <-|].
  destruct (step A f pos (hf k)) as [p|]; [|discriminate].
  destruct (accumulate (k + 1) n p) as [l'|] eqn:E; [|discriminate]. injection H as <-. cbn [length]. now rewrite (IH _ _ _ E).
Qed.

Lemma acc_times : forall n k pos l, accumulate k n pos = Ok l ->
  forall j t v, nth_error l j = Some (t, v) -> t = hf (k + Z.of_nat j).
Proof.
  induction n as [|n IH]; intros k pos l H j t v N; cbn [accumulate] in H; [injection H as <-; now destruct j|].
  destruct (step A f pos (hf k)) as [p|]; [|discriminate].
  destruct (accumulate (k + 1) n p) as [l'|] eqn:E; [|discriminate]. injection H as <-.
  destruct j as [|j]; cbn [nth_error] in N.
  - injection N as <- <-. f_equal. lia.
  - rewrite (IH _ _ _ E j t v N). f_equal. lia.
Qed.

Lemma acc_steps : forall n k pos l, accumulate k n pos = Ok l ->
  forall j t v, nth_error l j = Some (t, v) ->
    exists u, (j = 0%nat /\ u = pos \/ exists j' t', j = S j' /\ nth_error l j' = Some (t', u)) /\
      step A f u t = Ok v.
Proof.
  induction n as [|n IH]; intros k pos l H j t v N; cbn [accumulate] in H; [injection H as <-; now destruct j|].
  destruct (step A f pos (hf k)) as [p|] eqn:S0; [|discriminate].
  destruct (accumulate (k + 1) n p) as [l'|] eqn:E; [|discriminate]. injection H as <-.
  destruct j as [|j]; cbn [nth_error] in N.
  - injection N as <- <-. exists pos. auto.
  - destruct (IH _ _ _ E j t v N) as (u & [[-> ->]|(j' & t' & -> & N')] & S1).
    + exists p. split; [|exact S1]. right. exists 0%nat, (hf k). auto.
    + exists u. split; [|exact S1]. right. exists (S j'), t'. auto.
Qed.

Lemma acc_prefix : forall n m k pos l, accumulate k (n + m) pos = Ok l -> accumulate k n pos = Ok (firstn n l).
Proof.
  induction n as [|n IH]; intros m k pos l H; [reflexivity|].
  cbn [accumulate Nat.add] in *. destruct (step A f pos (hf k)) as [p|]; [|discriminate].
  destruct (accumulate (k + 1) (n + m) p) as [l'|] eqn:E; [|discriminate]. injection H as <-.
  rewrite (IH _ _ _ _ E). reflexivity.
Qed.

Lemma offset_spec : halves -> forall l k center found, lo <= center <= hi -> 2 * lo <= k ->
  k + Z.of_nat (length l) <= 2 * hi + 1 ->
  (forall j t v, nth_error l j = Some (t, v) -> t = hf (k + Z.of_nat j)) ->
  offset_at A center l found =
    if k <=? 2 * center then
      match nth_error l (Z.to_nat (2 * center - k)) with Some (_, v) => Some v | None => found end
    else found.
Proof.
  intros (HZ & _ & _ & HE). induction l as [|[t v] l IH]; intros k center found Hc Hk Hl Ht; cbn [offset_at].
  - destruct (k <=? 2 * center), (Z.to_nat (2 * center - k)); reflexivity.
  - cbn [length] in Hl. rewrite (Ht 0%nat t v eq_refl), Z.add_0_r, HZ, HE by lia.
    rewrite (IH (k + 1)); [|lia|lia|lia|].
    2:{ intros j t' v' N. rewrite (Ht (S j) t' v' N). f_equal. lia. }
    destruct (Z.eqb_spec k (2 * center)), (Z.leb_spec (k + 1) (2 * center)), (Z.leb_spec k (2 * center)); try lia.
    + replace (Z.to_nat (2 * center - k)) with 0%nat by lia. reflexivity.
    + replace (Z.to_nat (2 * center - k)) with (S (Z.to_nat (2 * center - (k + 1)))) by lia. reflexivity.
    + reflexivity.
Qed.

Definition shift (offset : num A) (tv : num A * num A) : num A * num A := (fst tv, n_sub A (snd tv) offset).

Lemma pick_spec : halves -> forall l k start stop offset, lo <= start <= hi -> lo <= stop <= hi -> 2 * lo <= k ->
  k + Z.of_nat (length l) <= 2 * stop + 1 ->
  (forall j t v, nth_error l j = Some (t, v) -> t = hf (k + Z.of_nat j)) ->
  pick A start stop offset l = map (shift offset) (skipn (Z.to_nat (2 * start - k)) l).
Proof.
  intros (HZ & _ & HL & _). induction l as [|[t v] l IH]; intros k start stop offset Hs He Hk Hl Ht; cbn [pick].
  - now destruct (Z.to_nat (2 * start - k)).
  - cbn [length] in Hl. rewrite (Ht 0%nat t v eq_refl), Z.add_0_r, !HZ, !HL by lia.
    destruct (Z.ltb_spec (2 * stop) k); [lia|].
    assert (pick A start stop offset l = map (shift offset) (skipn (Z.to_nat (2 * start - (k + 1))) l)) as E.
    { apply IH; [lia|lia|lia|lia|]. intros j t' v' N. rewrite (Ht (S j) t' v' N). f_equal. lia. }
    rewrite E. destruct (Z.ltb_spec k (2 * start)).
    + replace (Z.to_nat (2 * start - k)) with (S (Z.to_nat (2 * start - (k + 1)))) by lia. reflexivity.
    + replace (Z.to_nat (2 * start - k)) with 0%nat by lia.
      replace (Z.to_nat (2 * start - (k + 1))) with 0%nat by lia. reflexivity.
Qed.

(** The whole of it, when the first keyframe is not after the range. *)
Lemma range_acc : halves -> forall center base start stop, lo <= start -> lo <= center -> center <= stop <= hi ->
  start <= stop -> Z.min start center < stop ->
  integrate_range A f center base start stop =
    match accumulate (2 * Z.min start center) (Z.to_nat (2 * (stop - Z.min start center) + 1)) (n_of_Z A 0) with
    | Err e => Err e
    | Ok l =>
      match nth_error l (Z.to_nat (2 * center - 2 * Z.min start center)) with
      | None => Err TypeErr
      | Some (_, x) => Ok (map (shift (n_sub A x base)) (skipn (Z.to_nat (2 * start - 2 * Z.min start center)) l))
      end
    end.
Proof.
  intros H center base start stop L1 L2 L3 L4 L5. unfold integrate_range.
  destruct (Z.ltb_spec stop start); [lia|]. rewrite Z.max_r by lia.
  rewrite integrate_iter_acc by (auto; lia). replace (stop + 1 - 1 - Z.min start center) with (stop - Z.min start center) by lia.
  destruct (accumulate _ _ _) as [l|e] eqn:E; [|reflexivity].
  pose proof (acc_length _ _ _ _ E) as Ln. pose proof (acc_times _ _ _ _ E) as T.
  rewrite (offset_spec H l (2 * Z.min start center)) by (auto; lia).
  destruct (Z.leb_spec (2 * Z.min start center) (2 * center)); [|lia].
  destruct (nth_error l _) as [[t x]|]; [|reflexivity].
  rewrite (pick_spec H l (2 * Z.min start center)) by (auto; lia). reflexivity.
Qed.

Lemma nth_error_skipn' : forall B (l : list B) n j, nth_error (skipn n l) j = nth_error l (n + j).
Proof. induction l as [|x l IH]; intros [|n] j; cbn; auto; try (now destruct j). Qed.

Lemma range_ok : halves -> forall center base start stop r, lo <= start -> lo <= center -> center <= stop <= hi ->
  start <= stop -> Z.min start center < stop ->
  integrate_range A f center base start stop = Ok r ->
  length r = Z.to_nat (2 * (stop - start) + 1) /\
  exists x : Z -> num A,
    x (2 * Z.min start center - 1) = n_of_Z A 0 /\
    (forall k, 2 * Z.min start center <= k <= 2 * stop -> step A f (x (k - 1)) (hf k) = Ok (x k)) /\
    (forall k, 2 * start <= k <= 2 * stop ->
       nth_error r (Z.to_nat (k - 2 * start)) = Some (hf k, n_sub A (x k) (n_sub A (x (2 * center)) base))).
Proof.
  intros H center base start stop r L1 L2 L3 L4 L5 E. rewrite range_acc in E by auto.
  set (m := Z.min start center) in *. assert (m = Z.min start center) as Hm by reflexivity. clearbody m.
  destruct (accumulate _ _ _) as [l|e] eqn:Ac; [|discriminate].
  pose proof (acc_length _ _ _ _ Ac) as Ln. pose proof (acc_times _ _ _ _ Ac) as T. pose proof (acc_steps _ _ _ _ Ac) as St.
  destruct (nth_error l (Z.to_nat (2 * center - 2 * m))) as [[tc xc]|] eqn:Nc; [|discriminate].
  apply Ok_inj in E. subst r. split; [rewrite map_length, skipn_length; lia|].
  set (x := fun k => if k <? 2 * m then n_of_Z A 0 else
                     match nth_error l (Z.to_nat (k - 2 * m)) with Some (_, v) => v | None => n_of_Z A 0 end).
  assert (forall k, 2 * m <= k <= 2 * stop -> nth_error l (Z.to_nat (k - 2 * m)) = Some (hf k, x k)) as X.
  { intros k Hk. unfold x. destruct (Z.ltb_spec k (2 * m)); [lia|].
    destruct (nth_error l (Z.to_nat (k - 2 * m))) as [[t v]|] eqn:N.
    - rewrite (T _ _ _ N). f_equal. f_equal. f_equal. lia.
    - apply nth_error_None in N. lia. }
  exists x. split; [unfold x; destruct (Z.ltb_spec (2 * m - 1) (2 * m)); [reflexivity|lia]|]. split.
  - intros k Hk. destruct (St _ _ _ (X k Hk)) as (u & [[J ->]|(j' & t' & J & N')] & S).
    + replace (x (k - 1)) with (n_of_Z A 0); [exact S|]. unfold x.
      destruct (Z.ltb_spec (k - 1) (2 * m)); [reflexivity|lia].
    + replace (x (k - 1)) with u; [exact S|].
      pose proof (X (k - 1) ltac:(lia)) as N2. replace (Z.to_nat (k - 1 - 2 * m)) with j' in N2 by lia.
      rewrite N' in N2. congruence.
  - intros k Hk. rewrite nth_error_map, nth_error_skipn'.
    replace (Z.to_nat (2 * start - 2 * m) + Z.to_nat (k - 2 * start))%nat with (Z.to_nat (k - 2 * m)) by lia.
    rewrite X by lia. unfold shift. cbn [option_map fst snd].
    replace xc with (x (2 * center)); [reflexivity|]. pose proof (X (2 * center) ltac:(lia)). congruence.
Qed.

(** A range that ends earlier gives the same values. *)
Lemma range_prefix : halves -> forall center base start stop stop' r', lo <= start -> lo <= center ->
  center <= stop -> start <= stop -> Z.min start center < stop -> stop <= stop' <= hi ->
  integrate_range A f center base start stop' = Ok r' ->
  integrate_range A f center base start stop = Ok (firstn (Z.to_nat (2 * (stop - start) + 1)) r').
Proof.
  intros H center base start stop stop' r' L1 L2 L3 L4 L5 L6 E. rewrite range_acc in * by (auto; lia).
  set (m := Z.min start center) in *. assert (m = Z.min start center) as Hm by reflexivity. clearbody m.
  destruct (accumulate _ (Z.to_nat (2 * (stop' - m) + 1)) _) as [l|e] eqn:Ac; [|discriminate].
  pose proof (acc_length _ _ _ _ Ac) as Ln.
  replace (Z.to_nat (2 * (stop' - m) + 1)) with (Z.to_nat (2 * (stop - m) + 1) + Z.to_nat (2 * (stop' - stop)))%nat in Ac by lia.
  rewrite (acc_prefix _ _ _ _ _ Ac).
  assert (forall B (l : list B) n j, (j < n)%nat -> nth_error (firstn n l) j = nth_error l j) as NF.
  { clear. induction l as [|y l IH]; intros [|n] [|j] Hj; cbn; auto; try lia. apply IH. lia. }
  rewrite NF by lia.
  destruct (nth_error l (Z.to_nat (2 * center - 2 * m))) as [[tc xc]|] eqn:Nc; [|discriminate].
  apply Ok_inj in E. subst r'. f_equal. rewrite firstn_map, firstn_skipn_comm. f_equal. f_equal. f_equal. lia.
Qed.

(** A range that starts later, but not before the first keyframe, gives the same values. *)
Lemma range_suffix : halves -> forall center base start start' stop r', lo <= center -> center <= start' ->
  start' <= start -> start <= stop -> center < stop -> stop <= hi ->
  integrate_range A f center base start' stop = Ok r' ->
  integrate_range A f center base start stop = Ok (skipn (Z.to_nat (2 * (start - start'))) r').
Proof.
  intros H center base start start' stop r' L1 L2 L3 L4 L5 L6 E. rewrite range_acc in * by (auto; lia).
  rewrite !Z.min_r in * by lia. destruct (accumulate _ _ _) as [l|]; [|discriminate].
  destruct (nth_error l _) as [[tc xc]|]; [|discriminate]. apply Ok_inj in E. subst r'. f_equal.
  rewrite skipn_map. f_equal.
  assert (forall B n m (l : list B), skipn (n + m) l = skipn m (skipn n l)) as SS.
  { clear. induction n as [|n IH]; intros m [|y l]; cbn; auto. now destruct m. }
  rewrite <- SS. f_equal. lia.
Qed.

(** The first keyframe after the range: never a result. *)
Lemma range_late_center : halves -> forall center base start stop, lo <= start -> center <= hi -> start <= stop -> stop < center ->
  forall r, integrate_range A f center base start stop <> Ok r.
Proof.
  intros H center base start stop L1 L2 L3 L4 r. unfold integrate_range.
  destruct (Z.ltb_spec stop start); [discriminate|]. rewrite Z.min_l, Z.max_l by lia.
  unfold integrate_iter. destruct (Z.leb_spec (center - 1) start); [discriminate|].
  pose proof (integrate_iter_acc H start center) as IA. unfold integrate_iter in IA.
  destruct (Z.leb_spec (center - 1) start); [lia|]. rewrite IA by lia.
  destruct (accumulate _ _ _) as [l|] eqn:E; [|discriminate].
  pose proof (acc_length _ _ _ _ E) as Ln. pose proof (acc_times _ _ _ _ E) as T.
  rewrite (offset_spec H l (2 * start)) by (auto; lia).
  destruct (Z.leb_spec (2 * start) (2 * center)); [|discriminate].
  destruct (nth_error l (Z.to_nat (2 * center - 2 * start))) as [[t v]|] eqn:N; [|discriminate].
  assert (nth_error l (Z.to_nat (2 * center - 2 * start)) <> None) as Q by congruence. apply nth_error_Some in Q. lia.
Qed.

Lemma range_point : forall center base start, start = center \/ start = center - 1 ->
  integrate_range A f center base start start = Err NameErr.
Proof.
  intros center base start H. unfold integrate_range. rewrite Z.ltb_irrefl. unfold integrate_iter.
  destruct (Z.leb_spec (Z.max center (start + 1) - 1) (Z.min start center)); [reflexivity|lia].
Qed.
End Generic.
