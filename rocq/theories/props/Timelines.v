(** Properties C34, C35, C36 and C37. *)
From Coq Require Import ZArith List Bool Reals Lra Lia.
From Coq.Floats Require Import SpecFloat.
From Flocq Require Import Core.
From Verif Require Import Base Exp10 Components Timeline TimelineSpec TimelineProofs FloatProofs CurveSpec CurveProofs.
Import ListNotations.
Open Scope Z_scope.

(** ** C34 *)

Theorem C34_length_is_clips_less_transitions : forall l, seq_length l = clips l - transitions l.
Proof. intros l. unfold seq_length. now rewrite length_from_net. Qed.
Print Assumptions C34_length_is_clips_less_transitions.

(** The listing has an entry for each component, in order; each start is the running total. *)
Theorem C34_positions_are_running_totals : forall l,
  length (positions l) = length l /\
  forall i c, nth_error l i = Some c ->
    exists p, nth_error (positions l) i = Some (Z.of_nat i, p, c) /\
      p = clips (firstn i l) - transitions (firstn i l) - (if it_trans c then it_len c else 0).
Proof.
  intros l. split; [apply positions_from_length|]. intros i c H.
  destruct (stands_some l i c H) as [p S]. exists p. split; [now apply stands_pos|apply S].
Qed.
Print Assumptions C34_positions_are_running_totals.

(** A clip starts where the one before it ends; a transition ends where the clip before it ends;
    the clip after a transition starts with it. *)
Theorem C34_neighbours : forall l i j p c q d,
  nth_error (positions l) i = Some (Z.of_nat i, p, c) -> j = S i ->
  nth_error (positions l) j = Some (Z.of_nat j, q, d) ->
  (it_trans c = false -> it_trans d = false -> q = p + it_len c) /\
  (it_trans c = false -> it_trans d = true -> q + it_len d = p + it_len c) /\
  (it_trans c = true -> it_trans d = false -> q = p).
Proof.
  intros l i j p c q d Hc -> Hd. apply stands_pos in Hc as [Nc ->]. apply stands_pos in Hd as [Nd ->].
  fold (net (firstn i l)). fold (net (firstn (S i) l)). rewrite (net_firstn_S _ _ _ Nc).
  split; [|split]; intros -> ->; lia.
Qed.
Print Assumptions C34_neighbours.

(** The last component ends (a transition: starts) at the length of the sequence. *)
Theorem C34_last_position : forall l i p c, nth_error (positions l) i = Some (Z.of_nat i, p, c) ->
  length l = S i -> seq_length l = p + (if it_trans c then 0 else it_len c).
Proof.
  intros l i p c H L. apply stands_pos in H as [N ->]. fold (net (firstn i l)).
  unfold seq_length. rewrite length_from_net. pose proof (net_firstn_S _ _ _ N) as E.
  rewrite <- L, firstn_all in E. rewrite E. destruct (it_trans c); lia.
Qed.
Print Assumptions C34_last_position.

Definition clip (n : Z) : item := {| it_trans := false; it_len := n |}.
Definition trans (n : Z) : item := {| it_trans := true; it_len := n |}.

Example C34_example :
  seq_length [clip 10; trans 4; clip 20; clip 5] = 31 /\
  map (fun x => snd (fst x)) (positions [clip 10; trans 4; clip 20; clip 5]) = [0; 6; 6; 26].
Proof. split; reflexivity. Qed.

(** ** C35 *)

(** Index and position belong together, and the component has a length, if any has one;
    otherwise the answer is the first place. *)
Theorem C35_index_and_position_belong_together : forall l t i p, nearest_index_at_time l t = (i, p) ->
  (exists k c, i = Z.of_nat k /\ nth_error (positions l) k = Some (i, p, c) /\ nth_error l k = Some c /\ it_len c <> 0) \/
  (i = 0 /\ p = 0 /\ forall c, In c l -> it_len c = 0).
Proof.
  intros l t i p H. pose proof (nearest_from t (positions l) false 0 0) as F.
  unfold nearest_index_at_time in H. cbv zeta in F. rewrite H in F. cbn [fst snd] in F.
  assert (forall j q c, In (j, q, c) (positions l) -> exists k, j = Z.of_nat k /\
    nth_error (positions l) k = Some (j, q, c) /\ nth_error l k = Some c) as G.
  { intros j q c I. apply In_nth_error in I as [k N]. exists k. unfold positions in N.
    rewrite positions_from_nth in N. destruct (nth_error l k) as [d|] eqn:E; [|discriminate].
    injection N as <- <- <-. split; [lia|]. split; [|reflexivity]. unfold positions. now rewrite positions_from_nth, E. }
  destruct F as [[E Z]|(c & I & N)].
  - right. injection E as -> ->. split; [reflexivity|]. split; [reflexivity|]. intros c I.
    apply In_nth_error in I as [k Nk]. destruct (stands_some l k c Nk) as [q S]. apply stands_pos in S.
    apply nth_error_In in S. eapply Z; eauto.
  - left. destruct (G i p c I) as (k & A & B & C). exists k, c. auto.
Qed.
Print Assumptions C35_index_and_position_belong_together.

(** A sequence that is not empty always gives a component. *)
Theorem C35_component_found : forall l t, l <> [] -> exists c p, nearest_component_at_time l t = Ok (c, p) /\ In c l.
Proof.
  intros l t H. unfold nearest_component_at_time. destruct (nearest_index_at_time l t) as [i p] eqn:E.
  destruct (C35_index_and_position_belong_together l t i p E) as [(k & c & -> & _ & N & _)|(-> & -> & _)].
  - rewrite Nat2Z.id, N. exists c, p. split; [reflexivity|]. eapply nth_error_In; eauto.
  - destruct l as [|c l]; [congruence|]. exists c, 0. split; [reflexivity|now left].
Qed.
Print Assumptions C35_component_found.

(** In a sequence that makes sense, a time after the start and up to the end gives a component
    on which it falls: a clip owns the times after its start up to its end, a transition those
    from its start to before its end. *)
Theorem C35_component_plays : forall l t, proper l -> 0 < t <= seq_length l ->
  exists k p c, nearest_index_at_time l t = (Z.of_nat k, p) /\
    nth_error (positions l) k = Some (Z.of_nat k, p, c) /\ plays p c t.
Proof.
  intros l t P Ht. unfold seq_length in Ht. rewrite length_from_net in Ht.
  destruct (nearest_proper t l None 0 0 false 0 0 (clip 0) (proper_proper_from l P)) as (i & p & c & E & Pl & I);
    [lia|lia|intros _; split; [reflexivity|discriminate]|discriminate|].
  destruct I as [[I _]|I]; [discriminate|]. fold (positions l) in I.
  destruct (C35_index_and_position_belong_together l t i p E) as [(k & d & -> & N & _ & Nd)|(-> & -> & Z0)].
  - exists k, p, c. split; [exact E|]. split; [|exact Pl].
    apply In_nth_error in I as [k' N']. assert (k' = k) as ->.
    { unfold positions in N'. rewrite positions_from_nth in N'. destruct (nth_error l k'); [|discriminate].
      injection N' as Q _ _. lia. }
    exact N'.
  - exfalso. apply In_nth_error in I as [k' N']. unfold positions in N'. rewrite positions_from_nth in N'.
    destruct (nth_error l k') as [d|] eqn:D; [|discriminate]. injection N' as _ _ <-.
    apply nth_error_In in D. specialize (Z0 _ D). unfold plays in Pl. destruct (it_trans d); lia.
Qed.
Print Assumptions C35_component_plays.

(** Without transitions every list with no negative length makes sense. *)
Theorem C35_no_transitions_proper : forall l, (forall c, In c l -> it_trans c = false /\ 0 <= it_len c) -> proper l.
Proof.
  intros l H. repeat split.
  - intros i c N. apply nth_error_In in N. now apply H.
  - intros c N. apply nth_error_In in N. now apply H.
  - apply nth_error_In in H0. now apply H.
  - apply nth_error_In in H1. apply H in H1 as [H1 _]. congruence.
  - intros i c b N _ T. apply nth_error_In in N. apply H in N as [N _]. congruence.
Qed.
Print Assumptions C35_no_transitions_proper.

(** A time inside a transition gives that transition. *)
Theorem C35_transition_found : forall l k p c t, proper l -> no_overlap l ->
  nth_error (positions l) k = Some (Z.of_nat k, p, c) -> it_trans c = true -> p <= t < p + it_len c ->
  nearest_index_at_time l t = (Z.of_nat k, p).
Proof.
  intros l k p c t P NO N T Ht. unfold nearest_index_at_time.
  destruct (nth_error_split _ _ N) as (pre & post & E & L). rewrite E. apply nearest_hit; auto.
  intros j q d I Nd. apply In_nth_error in I as [n Nn].
  assert (n < k)%nat as Ln by (subst k; apply nth_error_Some; congruence).
  assert (nth_error (positions l) n = Some (j, q, d)) as Np by (rewrite E, nth_error_app1 by lia; exact Nn).
  assert (j = Z.of_nat n) as ->.
  { unfold positions in Np. rewrite positions_from_nth in Np. destruct (nth_error l n); [|discriminate].
    injection Np as Q _ _. lia. }
  apply stands_pos in Np. apply stands_pos in N.
  destruct (before_transition l n q d k p c P NO Np N Ln T Nd) as [A B]. split; [lia|]. intros Td. specialize (B Td). lia.
Qed.
Print Assumptions C35_transition_found.

(** Outside the sequence: the first or the last component that has a length. *)
Theorem C35_before_the_start : forall l t k p c, (forall i d, nth_error l i = Some d -> 0 <= it_len d) ->
  (forall d, In d l -> it_trans d = false) -> t <= 0 ->
  nth_error (positions l) k = Some (Z.of_nat k, p, c) -> it_len c <> 0 ->
  (forall j d, (j < k)%nat -> nth_error l j = Some d -> it_len d = 0) ->
  nearest_index_at_time l t = (Z.of_nat k, p).
Proof.
  intros l t k p c H0 HT Ht N Nc Z0. unfold nearest_index_at_time, positions in *.
  assert (forall l' i acc, (forall d, In d l' -> it_trans d = false /\ 0 <= it_len d) -> t <= acc -> forall a b,
    nearest_loop t (positions_from i acc l') true a b = (a, b)) as Stay.
  { intros l' i acc Hl Ha a b. revert i acc Hl Ha. induction l' as [|d l' IH]; intros i acc Hl Ha; [reflexivity|].
    rewrite positions_from_cons. cbn [nearest_loop]. destruct (Hl d) as [Td Ld]; [now left|].
    unfold start_of, next_of. rewrite Td. cbn [andb].
    destruct (Z.eqb_spec (it_len d) 0) as [E|E].
    - apply IH; [intros; apply Hl; now right|lia].
    - destruct (Z.geb_spec acc t); [reflexivity|lia]. }
  assert (forall l' i acc k p, (forall d, In d l' -> it_trans d = false /\ 0 <= it_len d) -> t <= acc ->
    nth_error (positions_from i acc l') k = Some (i + Z.of_nat k, p, c) ->
    (forall j d, (j < k)%nat -> nth_error l' j = Some d -> it_len d = 0) ->
    nearest_loop t (positions_from i acc l') false 0 0 = (i + Z.of_nat k, p)) as G.
  { clear - Stay Nc. induction l' as [|d l' IH]; intros i acc k p Hl Ha N Z0; [destruct k; discriminate|].
    rewrite positions_from_cons in *. cbn [nearest_loop]. destruct (Hl d) as [Td Ld]; [now left|].
    assert (forall e, In e l' -> it_trans e = false /\ 0 <= it_len e) as Hl' by (intros; apply Hl; now right).
    unfold start_of, next_of in *. rewrite Td in *. cbn [andb].
    destruct k as [|k]; cbn [nth_error] in N.
    - injection N as N1 -> ->. replace (i + Z.of_nat 0) with i by lia. rewrite (proj2 (Z.eqb_neq _ _) Nc). apply Stay; [exact Hl'|lia].
    - assert (it_len d = 0) as D by (apply (Z0 0%nat d); [lia|reflexivity]). rewrite D in *. cbn [Z.eqb].
      replace (i + Z.of_nat (S k)) with (i + 1 + Z.of_nat k) in * by lia.
      apply IH; [exact Hl'|lia|exact N|].
        intros j e J Ne. apply (Z0 (S j) e); [lia|exact Ne]. }
  change (Z.of_nat k) with (0 + Z.of_nat k). apply G; auto.
  intros d I. split; [now apply HT|]. apply In_nth_error in I as [j Nj]. eauto.
Qed.
Print Assumptions C35_before_the_start.

Theorem C35_after_the_end : forall l t k p c, (forall i d, nth_error l i = Some d -> 0 <= it_len d) ->
  (forall d, In d l -> it_trans d = false) -> seq_length l < t ->
  nth_error (positions l) k = Some (Z.of_nat k, p, c) -> it_len c <> 0 ->
  (forall j d, (k < j)%nat -> nth_error l j = Some d -> it_len d = 0) ->
  nearest_index_at_time l t = (Z.of_nat k, p).
Proof.
  intros l t k p c H0 HT Ht N Nc Z0. unfold seq_length in Ht. rewrite length_from_net in Ht.
  unfold nearest_index_at_time, positions in *.
  assert (forall l' i acc seen a b, (forall d, In d l' -> it_len d = 0) ->
    nearest_loop t (positions_from i acc l') seen a b = (a, b)) as Skip.
  { clear. intros l'. induction l' as [|d l' IH]; intros i acc seen a b H; [reflexivity|]. rewrite positions_from_cons. cbn [nearest_loop].
    rewrite (H d) by now left. cbn [Z.eqb]. apply IH. intros; apply H; now right. }
  assert (forall l' i acc k p seen a b, (forall d, In d l' -> it_trans d = false /\ 0 <= it_len d) -> acc + net l' < t ->
    nth_error (positions_from i acc l') k = Some (i + Z.of_nat k, p, c) ->
    (forall j d, (k < j)%nat -> nth_error l' j = Some d -> it_len d = 0) ->
    nearest_loop t (positions_from i acc l') seen a b = (i + Z.of_nat k, p)) as G.
  { clear - Skip Nc. induction l' as [|d l' IH]; intros i acc k p seen a b Hl Ha N Z0; [destruct k; discriminate|].
    rewrite positions_from_cons in *. cbn [nearest_loop]. destruct (Hl d) as [Td Ld]; [now left|].
    assert (forall e, In e l' -> it_trans e = false /\ 0 <= it_len e) as Hl' by (intros; apply Hl; now right).
    assert (0 <= net l') as Nl.
    { clear - Hl'. induction l' as [|e l' IH]; [rewrite net_nil; lia|]. rewrite net_cons.
      destruct (Hl' e) as [-> L]; [now left|]. assert (0 <= net l') by (apply IH; intros; apply Hl'; now right). lia. }
    rewrite net_cons in Ha. unfold start_of, next_of in *. rewrite Td in *. cbn [andb].
    assert (seen && (acc >=? t) = false) as Q.
    { destruct seen; [|reflexivity]. cbn [andb]. destruct (Z.geb_spec acc t); [lia|reflexivity]. }
    destruct k as [|k]; cbn [nth_error] in N.
    - injection N as N1 -> ->. replace (i + Z.of_nat 0) with i by lia. rewrite (proj2 (Z.eqb_neq _ _) Nc), Q. apply Skip.
      intros e I. apply In_nth_error in I as [j Nj]. apply (Z0 (S j) e); [lia|exact Nj].
    - replace (i + Z.of_nat (S k)) with (i + 1 + Z.of_nat k) in * by lia.
      assert (forall j e, (k < j)%nat -> nth_error l' j = Some e -> it_len e = 0) as Z1.
      { intros j e J Ne. apply (Z0 (S j) e); [lia|exact Ne]. }
      destruct (Z.eqb_spec (it_len d) 0); [|rewrite Q]; (apply IH; [exact Hl'|lia|exact N|exact Z1]). }
  change (Z.of_nat k) with (0 + Z.of_nat k). apply G; auto.
  intros d I. split; [now apply HT|]. apply In_nth_error in I as [j Nj]. eauto.
Qed.
Print Assumptions C35_after_the_end.

(** A sequence that makes sense, with a transition, and times around it; 16 is the cut. *)
Example C35_example :
  proper [clip 10; trans 4; clip 20; clip 5] /\ no_overlap [clip 10; trans 4; clip 20; clip 5] /\
  map (nearest_index_at_time [clip 10; trans 4; clip 20; clip 5]) [1; 5; 6; 9; 10; 26; 27; 31]
    = [(0, 0); (0, 0); (1, 6); (1, 6); (2, 6); (2, 6); (3, 26); (3, 26)].
Proof.
  split; [|split; [|reflexivity]].
  - apply (fun H => H). repeat split.
    + intros [|[|[|[|i]]]] c H; cbn in H; try (injection H as <-; cbn; lia). now destruct i.
    + intros c H. now injection H as <-.
    + destruct i as [|[|[|i]]]; cbn in H, H0; try (injection H as <-; injection H0 as <-; first [discriminate H1|reflexivity]).
      now destruct i.
    + destruct i as [|[|[|i]]]; cbn in H, H0; try (injection H as <-; injection H0 as <-; first [discriminate H1|cbn; lia]).
      now destruct i.
    + intros [|[|[|i]]] c b H H0 H1; cbn in H, H0; try (injection H as <-; injection H0 as <-; first [discriminate H1|cbn; lia]).
      now destruct i.
  - intros [|[|i]] c b d H H0 H1 H2 H3; cbn in H, H0, H1;
      [injection H as <-; discriminate H2|injection H1 as <-; discriminate H3|]. now destruct i.
Qed.

(** Without the second condition a time inside a transition need not give it: here the
    transition covers the whole clip before it. *)
Theorem C35_covered_clip_refuted : exists l k p c t,
  nth_error (positions l) k = Some (Z.of_nat k, p, c) /\ it_trans c = true /\ p <= t < p + it_len c /\
  0 < t <= seq_length l /\ nearest_index_at_time l t <> (Z.of_nat k, p).
Proof.
  exists [clip 5; clip 3; trans 3; clip 10], 2%nat, 5, (trans 3), 5.
  repeat split; try reflexivity; cbn; try lia. vm_compute. discriminate.
Qed.
Print Assumptions C35_covered_clip_refuted.

(** ** C36 *)

(** The search ends on every list of keyframes, in whatever order, with an index of the list or,
    when a keyframe has no time, with an error. *)
Theorem C36_search_ends : forall l t, l <> [] ->
  match nearest_index l t with
  | Ok k => 0 <= k < Z.of_nat (length l)
  | Err e => e = ValueErr
  end.
Proof.
  intros l t H. unfold nearest_index. destruct l as [|p0 l0]; [congruence|]. set (l := p0 :: l0) in *.
  assert (1 <= len l) as L1 by (unfold len, l; cbn [length]; lia).
  pose proof (search_ends (S (length l)) l t 0 (len l - 1)) as Se. unfold len in *.
  destruct (search (S (length l)) l t 0 (Z.of_nat (length l) - 1)); [|apply Se; lia].
  assert (0 <= a <= Z.max 0 (Z.of_nat (length l) - 1)); [apply Se; lia|lia].
Qed.
Print Assumptions C36_search_ends.

(** When the times increase the index is that of the last keyframe at or before the time, or 0. *)
Theorem C36_right_keyframe : forall l ts t, l <> [] -> has_times l ts -> increasing ts -> f_wf t -> f_fin t ->
  exists k, nearest_index l t = Ok (Z.of_nat k) /\ (k < length l)%nat /\ last_at_or_before ts (f_real t) k.
Proof. exact nearest_index_right. Qed.
Print Assumptions C36_right_keyframe.

Theorem C36_no_keyframes : forall t, nearest_index [] t = Err ValueErr.
Proof. reflexivity. Qed.
Print Assumptions C36_no_keyframes.

(** Every keyframe whose fields are in range and not zero has a time: [num / den * timescale]
    but for the rounding of the division and of the product. *)
Theorem C36_times : forall p, keyframe_ok p -> exists x, pcp_time p = Ok x /\ f_wf x /\ f_fin x /\
  f_real x = rnd (rnd (IZR (pcp_offset_num p) / IZR (pcp_offset_den p)) * IZR (pcp_timescale p)).
Proof. intros p H. destruct (keyframe_time p H) as (x & A & B & C & D & _). eauto. Qed.
Print Assumptions C36_times.

Definition key (n : Z) (v : cp_value) : param_control_point :=
  {| pcp_offset_num := n; pcp_offset_den := 2; pcp_timescale := 1; pcp_value := v; pcp_pp := [] |}.

(** Keyframes at 0.5, 1.5 and 4.5. *)
Definition three_keys : list param_control_point := [key 1 (CPInt 10); key 3 (CPInt 20); key 9 (CPInt 0)].

Lemma three_times : has_times three_keys [1 / 2; 3 / 2; 9 / 2]%R /\ increasing [1 / 2; 3 / 2; 9 / 2]%R.
Proof.
  split.
  - split; [reflexivity|]. intros [|[|[|i]]] p H; cbn in H; try (now destruct i); injection H as <-;
      (eexists _, _; split; [vm_compute; reflexivity|]; split; [reflexivity|]; split; [reflexivity|]; split; [|reflexivity];
       rewrite real_finite, bpow_neg_Z by lia; cbn [Z.opp Z.pow Z.pow_pos Pos.iter Z.mul Pos.mul]; lra).
  - intros [|[|[|i]]] [|[|[|j]]] a b L A B; cbn in A, B; try (now destruct i); try (now destruct j); try lia;
      injection A as <-; injection B as <-; lra.
Qed.

Example C36_example :
  map (nearest_index three_keys) [f_of_Z 0; f_of_Z 1; f_of_Z 2; f_of_Z 4; f_of_Z 5] = [Ok 0; Ok 0; Ok 1; Ok 1; Ok 2].
Proof. vm_compute. reflexivity. Qed.

(** ** C37 *)

(** Before the first keyframe: its value, whatever the kind of curve. *)
Theorem C37_before_first : forall smooth kind l ts t p, has_times l ts -> increasing ts -> f_wf t -> f_fin t ->
  nth_error l 0 = Some p -> (forall j b, nth_error ts j = Some b -> (f_real t < b)%R) ->
  value_at smooth kind l t = cp_float (pcp_value p).
Proof. exact before_first. Qed.
Print Assumptions C37_before_first.

(** At or after the last keyframe: its value, whatever the kind of curve. *)
Theorem C37_after_last : forall smooth kind l ts t k p, has_times l ts -> increasing ts -> f_wf t -> f_fin t ->
  nth_error l k = Some p -> length l = S k -> (forall a, nth_error ts k = Some a -> (a <= f_real t)%R) ->
  value_at smooth kind l t = cp_float (pcp_value p).
Proof. exact after_last. Qed.
Print Assumptions C37_after_last.

(** A stepped curve has the left keyframe's value, from its time to before the next. *)
Theorem C37_stepped : forall smooth l ts t k p a b, has_times l ts -> increasing ts -> f_wf t -> f_fin t ->
  nth_error l k = Some p -> nth_error ts k = Some a -> nth_error ts (S k) = Some b -> (a <= f_real t < b)%R ->
  value_at smooth 2 l t = cp_float (pcp_value p).
Proof.
  intros smooth l ts t k p a b HT HI Wt Ft Np Na Nb H.
  assert (exists q, nth_error l (S k) = Some q) as [q Nq].
  { destruct (nth_error l (S k)) eqn:E; [eauto|]. apply nth_error_None in E.
    assert (nth_error ts (S k) <> None) as Q by congruence. apply nth_error_Some in Q. destruct HT. lia. }
  destruct (between smooth 2 l ts t k p q a b HT HI Wt Ft Np Nq Na Nb H) as (x & y & _ & _ & _ & _ & _ & _ & _ & _ & S & _).
  now apply S.
Qed.
Print Assumptions C37_stepped.

(** A linear curve has the keyframe's value at its time. *)
Theorem C37_linear_at_keyframe : forall smooth l ts t k p q v1 v2 a, Forall keyframe_ok l ->
  has_times l ts -> increasing ts -> f_wf t -> f_fin t ->
  nth_error l k = Some p -> nth_error l (S k) = Some q -> has_value p v1 -> has_value q v2 ->
  nth_error ts k = Some a -> f_real t = a -> (Rabs (rnd (f_real v2 - f_real v1)) < fmax)%R ->
  exists r, value_at smooth 3 l t = Ok r /\ f_fin r /\ f_real r = f_real v1.
Proof.
  intros smooth l ts t k p q v1 v2 a HK HT HI Wt Ft Np Nq (V1 & W1 & F1) (V2 & W2 & F2) Na E Ov.
  assert (exists b, nth_error ts (S k) = Some b) as [b Nb].
  { destruct (nth_error ts (S k)) eqn:Q; [eauto|]. apply nth_error_None in Q.
    assert (nth_error l (S k) <> None) as Q' by congruence. apply nth_error_Some in Q'. destruct HT. lia. }
  assert (a < b)%R as Lab by (apply (HI k (S k)); auto).
  destruct (between smooth 3 l ts t k p q a b HT HI Wt Ft Np Nq Na Nb ltac:(lra))
    as (x & y & Ex & Ey & Wx & Wy & Fx & Fy & Rx & Ry & _ & L).
  assert (forall z u, In z l -> pcp_time z = Ok u -> (Rabs (f_real u) <= bpow radix2 62)%R) as Bd.
  { intros z u I Q. rewrite Forall_forall in HK. destruct (keyframe_time z (HK z I)) as (u' & Q' & _ & _ & _ & B'). congruence. }
  pose proof (Bd _ _ (nth_error_In _ _ Np) Ex) as Bx. pose proof (Bd _ _ (nth_error_In _ _ Nq) Ey) as By.
  destruct (share_real t x y Wt Wx Wy Ft Fx Fy Bx By) as (Z0 & Ww & Fw & Hw & Hz); [lra..|].
  rewrite (L eq_refl v1 v2 V1 V2 Z0). eexists. split; [reflexivity|].
  assert (f_real (fdiv (fsub t x) (fsub y x)) = 0)%R as W0 by (apply Hz; lra).
  assert (0 <= f_real (fdiv (fsub t x) (fsub y x)) < 1)%R as Hw' by lra.
  destruct (lerp_inside v1 v2 _ W1 W2 Ww F1 F2 Fw Hw' Ov) as (Fr & _ & _). split; [exact Fr|].
  apply lerp_zero; assumption.
Qed.
Print Assumptions C37_linear_at_keyframe.

(** Between two keyframes a linear curve stays between their values, provided the time has
    room to differ from the second keyframe's after subtraction of the first. *)
Theorem C37_linear_between : forall smooth l ts t k p q v1 v2 a b, Forall keyframe_ok l ->
  has_times l ts -> increasing ts -> f_wf t -> f_fin t ->
  nth_error l k = Some p -> nth_error l (S k) = Some q -> has_value p v1 -> has_value q v2 ->
  nth_error ts k = Some a -> nth_error ts (S k) = Some b -> (a <= f_real t < b)%R ->
  (rnd (f_real t - a) < rnd (b - a))%R -> (Rabs (rnd (f_real v2 - f_real v1)) < fmax)%R ->
  exists r, value_at smooth 3 l t = Ok r /\ f_fin r /\
    (Rmin (f_real v1) (f_real v2) <= f_real r <= Rmax (f_real v1) (f_real v2))%R.
Proof.
  intros smooth l ts t k p q v1 v2 a b HK HT HI Wt Ft Np Nq (V1 & W1 & F1) (V2 & W2 & F2) Na Nb Ht Hr Ov.
  destruct (between smooth 3 l ts t k p q a b HT HI Wt Ft Np Nq Na Nb Ht)
    as (x & y & Ex & Ey & Wx & Wy & Fx & Fy & Rx & Ry & _ & L).
  assert (forall z u, In z l -> pcp_time z = Ok u -> (Rabs (f_real u) <= bpow radix2 62)%R) as Bd.
  { intros z u I Q. rewrite Forall_forall in HK. destruct (keyframe_time z (HK z I)) as (u' & Q' & _ & _ & _ & B'). congruence. }
  pose proof (Bd _ _ (nth_error_In _ _ Np) Ex) as Bx. pose proof (Bd _ _ (nth_error_In _ _ Nq) Ey) as By.
  destruct (share_real t x y Wt Wx Wy Ft Fx Fy Bx By) as (Z0 & Ww & Fw & Hw & _); [lra..|].
  rewrite (L eq_refl v1 v2 V1 V2 Z0). eexists. split; [reflexivity|].
  assert (f_real (fdiv (fsub t x) (fsub y x)) < 1)%R as H1.
  { apply share_lt_1; auto; rewrite ?Rx, ?Ry; lra. }
  destruct (lerp_inside v1 v2 _ W1 W2 Ww F1 F2 Fw (conj (proj1 Hw) H1) Ov) as (Fr & U & D). split; [exact Fr|].
  destruct (Rle_or_lt (f_real v1) (f_real v2)) as [G|G].
  - rewrite Rmin_left, Rmax_right by lra. now apply U.
  - rewrite Rmin_right, Rmax_left by lra. apply D. lra.
Qed.
Print Assumptions C37_linear_between.

Definition no_smooth (l : list param_control_point) (i : Z) (t : float64) : result float64 := Err NotImplementedErr.

(** Stepped and linear, at 0, 0.5, 1, 1.5, 3, 4.5 and 9. *)
Example C37_example :
  let times := [f_of_Z 0; fdiv (f_of_Z 1) (f_of_Z 2); f_of_Z 1; fdiv (f_of_Z 3) (f_of_Z 2); f_of_Z 3;
                fdiv (f_of_Z 9) (f_of_Z 2); f_of_Z 9] in
  map (value_at no_smooth 2 three_keys) times = map (fun n => Ok (f_of_Z n)) [10; 10; 10; 20; 20; 0; 0] /\
  map (value_at no_smooth 3 three_keys) times = map (fun n => Ok (f_of_Z n)) [10; 10; 15; 20; 10; 0; 0] /\
  Forall keyframe_ok three_keys.
Proof.
  split; [vm_compute; reflexivity|]. split; [vm_compute; reflexivity|].
  repeat constructor; cbn; lia.
Qed.

(** Without the room, the share of the way rounds to 1 and the value passes the second
    keyframe's: keyframes at -2^53 with value -1.0 and at 0.5 with value 0.1, time 0.25. *)
Theorem C37_linear_overshoot_refuted : exists p q t x y v1 v2 r,
  Forall keyframe_ok [p; q] /\ pcp_time p = Ok x /\ pcp_time q = Ok y /\ fltb x t = true /\ fltb t y = true /\
  cp_float (pcp_value p) = Ok v1 /\ cp_float (pcp_value q) = Ok v2 /\ fltb v1 v2 = true /\
  value_at no_smooth 3 [p; q] t = Ok r /\ fltb v2 r = true.
Proof.
  exists {| pcp_offset_num := - 2 ^ 31; pcp_offset_den := 1; pcp_timescale := 2 ^ 22;
            pcp_value := CPInt (-1); pcp_pp := [] |},
         (key 1 (CPDouble 4591870180066957722)), (fdiv (f_of_Z 1) (f_of_Z 4)).
  exists (f_of_Z (- 2 ^ 53)), (fdiv (f_of_Z 1) (f_of_Z 2)), (f_of_Z (-1)), (f_of_bits 4591870180066957722),
         (S754_finite false 7205759403792800 (-56)).
  split; [repeat constructor; cbn; lia|]. repeat split; vm_compute; reflexivity.
Qed.
Print Assumptions C37_linear_overshoot_refuted.

(** When the values are too far apart for their difference to be a double, the value at the first
    keyframe's own time is not a number. *)
Theorem C37_linear_nan_refuted : exists p q v1 v2 t,
  Forall keyframe_ok [p; q] /\ pcp_time p = Ok t /\ has_value p v1 /\ has_value q v2 /\
  value_at no_smooth 3 [p; q] t = Ok S754_nan.
Proof.
  exists {| pcp_offset_num := 0; pcp_offset_den := 1; pcp_timescale := 1; pcp_value := CPDouble 18442240474082181119; pcp_pp := [] |},
         (key 4 (CPDouble 9218868437227405311)), (f_of_bits 18442240474082181119), (f_of_bits 9218868437227405311), (f_of_Z 0).
  split; [repeat constructor; cbn; lia|]. repeat split; vm_compute; reflexivity.
Qed.
Print Assumptions C37_linear_nan_refuted.
