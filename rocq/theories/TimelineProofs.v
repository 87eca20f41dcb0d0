(** Facts about sequences. *)
From Coq Require Import ZArith List Bool Lia.
From Verif Require Import Base Timeline TimelineSpec.
Import ListNotations.
Open Scope Z_scope.

Lemma clips_cons : forall c l, clips (c :: l) = (if it_trans c then 0 else it_len c) + clips l.
Proof. intros c l. unfold clips. cbn [filter]. destruct (it_trans c); reflexivity. Qed.
Lemma transitions_cons : forall c l, transitions (c :: l) = (if it_trans c then it_len c else 0) + transitions l.
Proof. intros c l. unfold transitions. cbn [filter]. destruct (it_trans c); reflexivity. Qed.

Definition net (l : list item) : Z := clips l - transitions l.
Lemma net_nil : net [] = 0.
Proof. reflexivity. Qed.
Lemma net_cons : forall c l, net (c :: l) = (if it_trans c then - it_len c else it_len c) + net l.
Proof. intros c l. unfold net. rewrite clips_cons, transitions_cons. destruct (it_trans c); lia. Qed.
Lemma net_app : forall a b, net (a ++ b) = net a + net b.
Proof. induction a as [|c a IH]; intros b; cbn [app]; rewrite ?net_nil, ?net_cons, ?IH; lia. Qed.

Lemma length_from_net : forall l acc, length_from acc l = acc + net l.
Proof.
  induction l as [|c l IH]; intros acc; cbn [length_from]; rewrite ?net_nil, ?net_cons, ?IH; [lia|].
  destruct (it_trans c); lia.
Qed.

Definition start_of (acc : Z) (c : item) : Z := if it_trans c then acc - it_len c else acc.
Definition next_of (acc : Z) (c : item) : Z := if it_trans c then acc - it_len c else acc + it_len c.

Lemma positions_from_cons : forall i acc c l,
  positions_from i acc (c :: l) = (i, start_of acc c, c) :: positions_from (i + 1) (next_of acc c) l.
Proof. intros. cbn [positions_from]. unfold start_of, next_of. now destruct (it_trans c). Qed.

Lemma positions_from_nth : forall l i acc k, nth_error (positions_from i acc l) k =
  match nth_error l k with
  | Some c => Some (i + Z.of_nat k, start_of (acc + net (firstn k l)) c, c)
  | None => None
  end.
Proof.
  induction l as [|c l IH]; intros i acc k.
  - now destruct k.
  - rewrite positions_from_cons. destruct k as [|k]; cbn [nth_error firstn].
    + now rewrite net_nil, !Z.add_0_r.
    + rewrite IH. destruct (nth_error l k) as [d|]; [|reflexivity]. rewrite net_cons.
      replace (i + 1 + Z.of_nat k) with (i + Z.of_nat (S k)) by lia.
      replace (next_of acc c + net (firstn k l)) with
        (acc + ((if it_trans c then - it_len c else it_len c) + net (firstn k l)))
        by (unfold next_of; destruct (it_trans c); lia).
      reflexivity.
Qed.

Lemma positions_from_length : forall l i acc, length (positions_from i acc l) = length l.
Proof. induction l as [|c l IH]; intros; [reflexivity|]. rewrite positions_from_cons. cbn [length]. now rewrite IH. Qed.

Lemma firstn_S_nth : forall A (l : list A) i c, nth_error l i = Some c -> firstn (S i) l = firstn i l ++ [c].
Proof.
  induction l as [|x l IH]; intros [|i] c H; try discriminate.
  - injection H as ->. reflexivity.
  - change (x :: firstn (S i) l = x :: (firstn i l ++ [c])). f_equal. now apply IH.
Qed.

Lemma net_firstn_S : forall l i c, nth_error l i = Some c ->
  net (firstn (S i) l) = net (firstn i l) + (if it_trans c then - it_len c else it_len c).
Proof. intros l i c H. rewrite (firstn_S_nth _ _ _ _ H), net_app, net_cons, net_nil. lia. Qed.

Lemma stands_pos : forall l i p c, stands l i p c <-> nth_error (positions l) i = Some (Z.of_nat i, p, c).
Proof.
  intros l i p c. unfold stands, positions. rewrite positions_from_nth. fold (net (firstn i l)).
  unfold start_of. destruct (nth_error l i) as [d|].
  - split.
    + intros [E ->]. injection E as ->. rewrite !Z.add_0_l.
      destruct (it_trans c); [reflexivity|]. now rewrite Z.sub_0_r.
    + intros E. injection E as <- <-. split; [reflexivity|]. destruct (it_trans d); lia.
  - split; [intros [E _]; discriminate|discriminate].
Qed.

(** ** The lookup *)

(** What the loop returns comes from the list it walks, or is what it started with. *)
Lemma nearest_from : forall t ps seen li lp,
  let r := nearest_loop t ps seen li lp in
  (r = (li, lp) /\ (seen = false -> forall i p c, In (i, p, c) ps -> it_len c = 0)) \/
  exists c, In (fst r, snd r, c) ps /\ it_len c <> 0.
Proof.
  intros t. induction ps as [|[[i p] c] ps IH]; intros seen li lp; cbn [nearest_loop].
  { left. split; [reflexivity|]. intros _ i p c []. }
  destruct (Z.eqb_spec (it_len c) 0) as [E|E].
  { destruct (IH seen li lp) as [[A B]|(d & Hd & Hn)].
    - left. split; [exact A|]. intros S i' p' c' [Q|Q]; [|now apply (B S i' p')]. injection Q as <- <- <-. exact E.
    - right. exists d. split; [now right|exact Hn]. }
  destruct (it_trans c && _); [right; exists c; split; [now left|exact E]|].
  destruct (seen && _) eqn:G.
  { left. split; [reflexivity|]. intros ->. discriminate G. }
  right. destruct (IH true i p) as [[A _]|(d & Hd & Hn)].
  - exists c. rewrite A. split; [now left|exact E].
  - exists d. split; [now right|exact Hn].
Qed.

(** *** Sequences that make sense *)

Fixpoint proper_from (prev : option item) (l : list item) : Prop :=
  match l with
  | [] => True
  | c :: l' =>
    0 <= it_len c /\
    (if it_trans c then match prev with Some a => it_trans a = false /\ it_len c < it_len a | None => False end
     else match prev with Some b => it_trans b = true -> it_len b <= it_len c | None => True end) /\
    proper_from (Some c) l'
  end.

Lemma proper_proper_from : forall l, proper l -> proper_from None l.
Proof.
  intros l (H0 & H1 & H2 & H3).
  assert (forall l' pre prev, l = pre ++ l' ->
    match prev with Some a => exists pre', pre = pre' ++ [a] | None => pre = [] end -> proper_from prev l') as G.
  { induction l' as [|c l' IH]; intros pre prev E Hp; cbn [proper_from]; [exact I|].
    assert (nth_error l (length pre) = Some c) as Nc.
    { rewrite E, nth_error_app2, Nat.sub_diag by lia. reflexivity. }
    split; [eauto|]. split.
    - destruct prev as [a|].
      + destruct Hp as [pre' ->]. rewrite app_length in Nc. cbn [length] in Nc. rewrite Nat.add_1_r in Nc.
        assert (nth_error l (length pre') = Some a) as Na.
        { rewrite E, <- app_assoc, nth_error_app2, Nat.sub_diag by lia. reflexivity. }
        destruct (it_trans c) eqn:T; [now apply (H2 _ a c Na Nc)|]. intros Ta. now apply (H3 _ a c Na Nc).
      + subst pre. cbn [length] in Nc. rewrite (H1 c Nc). exact I.
    - apply (IH (pre ++ [c])); [rewrite E, <- app_assoc; reflexivity|]. now exists pre. }
  now apply (G l []).
Qed.

(** State of the loop: the last component of nonzero length seen. *)
Lemma nearest_proper : forall t l prev i acc seen li lp lc, proper_from prev l ->
  0 < t <= acc + net l -> 0 <= i ->
  (seen = false -> acc = 0 /\ (forall a, prev = Some a -> it_len a = 0)) ->
  (seen = true -> it_len lc <> 0 /\ 0 <= it_len lc /\
     (exists a, prev = Some a /\ 0 <= it_len a /\ (it_len a <> 0 -> a = lc)) /\
     if it_trans lc then acc = lp /\ lp + it_len lc <= t /\ prev = Some lc
     else acc = lp + it_len lc /\ lp < t) ->
  exists k p c, nearest_loop t (positions_from i acc l) seen li lp = (k, p) /\ plays p c t /\
    (seen = true /\ (k, p, c) = (li, lp, lc) \/ In (k, p, c) (positions_from i acc l)).
Proof.
  intros t. induction l as [|c l IH]; intros prev i acc seen li lp lc Pr Ht Hi H0 H1.
  - cbn [positions_from nearest_loop]. rewrite net_nil in Ht. destruct seen.
    + exists li, lp, lc. split; [reflexivity|]. destruct (H1 eq_refl) as (N & L & _ & Q).
      split; [|now left]. unfold plays. destruct (it_trans lc); lia.
    + destruct (H0 eq_refl). lia.
  - rewrite positions_from_cons. cbn [nearest_loop]. rewrite net_cons in Ht.
    destruct Pr as (Lc & Pc & Pl).
    destruct (Z.eqb_spec (it_len c) 0) as [E|E].
    + assert (next_of acc c = acc) as Q by (unfold next_of; destruct (it_trans c); lia). rewrite Q.
      destruct (IH (Some c) (i + 1) acc seen li lp lc Pl) as (k & p & d & R & Pp & In'); [destruct (it_trans c); lia|lia| | |].
      * intros S. destruct (H0 S) as [A B]. split; [exact A|]. intros a Ha. injection Ha as <-. exact E.
      * intros S. destruct (H1 S) as (N & L & (a & Ea & La & Ua) & T). split; [exact N|]. split; [exact L|].
        split; [exists c; repeat split; auto; lia|].
        destruct (it_trans lc) eqn:Tl; [|exact T]. exfalso. destruct T as (_ & _ & Pe). rewrite Pe in *.
        destruct (it_trans c); [destruct Pc; congruence|]. specialize (Pc Tl). lia.
      * exists k, p, d. split; [exact R|]. split; [exact Pp|]. destruct In' as [Q'|Q']; [now left|right; now right].
    + unfold start_of, next_of in *. destruct (it_trans c) eqn:Tc; cbn [andb].
      * destruct prev as [a|]; [|destruct Pc]. destruct Pc as [Ta La].
        destruct seen.
        2:{ destruct (H0 eq_refl) as [_ B]. specialize (B a eq_refl). lia. }
        destruct (H1 eq_refl) as (N & L & (a' & Ea & La' & Ua) & T). injection Ea as <-.
        assert (a = lc) as -> by (apply Ua; lia). rewrite Ta in T. destruct T as [T1 T2].
        destruct ((acc - it_len c <=? t) && (t <? acc - it_len c + it_len c)) eqn:G.
        { exists i, (acc - it_len c), c. split; [reflexivity|]. split; [unfold plays; rewrite Tc; lia|right; now left]. }
        cbn [andb]. destruct (Z.geb_spec (acc - it_len c) t) as [G'|G'].
        { exists li, lp, lc. split; [reflexivity|]. split; [unfold plays; rewrite Ta; lia|now left]. }
        destruct (IH (Some c) (i + 1) (acc - it_len c) true i (acc - it_len c) c Pl) as (k & p & d & R & Pp & In');
          [lia|lia|discriminate| |].
        { intros _. split; [exact E|]. split; [exact Lc|]. split; [exists c; auto|]. rewrite Tc. split; [reflexivity|]. split; [lia|reflexivity]. }
        exists k, p, d. split; [exact R|]. split; [exact Pp|]. right. destruct In' as [[_ Q]|Q]; [left; congruence|now right].
      * destruct (seen && (acc >=? t)) eqn:G.
        { apply andb_prop in G as [-> G]. destruct (H1 eq_refl) as (N & L & _ & T).
          assert (acc >= t) by (apply Z.geb_le in G; lia).
          exists li, lp, lc. split; [reflexivity|]. split; [|now left]. unfold plays. destruct (it_trans lc); lia. }
        destruct (IH (Some c) (i + 1) (acc + it_len c) true i acc c Pl) as (k & p & d & R & Pp & In');
          [lia|lia|discriminate| |].
        { intros _. split; [exact E|]. split; [exact Lc|]. split; [exists c; auto|]. rewrite Tc. split; [reflexivity|].
          destruct seen; [|destruct (H0 eq_refl); lia]. cbn [andb] in G. destruct (Z.geb_spec acc t); [discriminate|lia]. }
        exists k, p, d. split; [exact R|]. split; [exact Pp|]. right. destruct In' as [[_ Q]|Q]; [left; congruence|now right].
Qed.

(** *** The transition a time falls in *)

Lemma nearest_hit : forall t pre i p c post seen li lp,
  (forall j q d, In (j, q, d) pre -> it_len d <> 0 -> q < t /\ (it_trans d = true -> q + it_len d <= t)) ->
  it_trans c = true -> p <= t < p + it_len c ->
  nearest_loop t (pre ++ (i, p, c) :: post) seen li lp = (i, p).
Proof.
  intros t. induction pre as [|[[j q] d] pre IH]; intros i p c post seen li lp H T Ht; cbn [app nearest_loop].
  - rewrite T. destruct (Z.eqb_spec (it_len c) 0); [lia|]. cbn [andb].
    destruct (Z.leb_spec p t); [|lia]. destruct (Z.ltb_spec t (p + it_len c)); [reflexivity|lia].
  - assert (forall j q d, In (j, q, d) pre -> it_len d <> 0 -> q < t /\ (it_trans d = true -> q + it_len d <= t)) as H'.
    { intros j' q' d' I. apply H with (j := j'). now right. }
    destruct (Z.eqb_spec (it_len d) 0); [now apply IH|].
    destruct (H j q d) as [A B]; [now left|assumption|].
    destruct (it_trans d && ((q <=? t) && (t <? q + it_len d))) eqn:G.
    { exfalso. destruct (it_trans d); [|discriminate]. specialize (B eq_refl). lia. }
    destruct (seen && (q >=? t)) eqn:G'; [destruct seen; [|discriminate]; cbn [andb] in G'; apply Z.geb_le in G'; lia|].
    now apply IH.
Qed.

(** Positions of a proper sequence never go back. *)
Lemma stands_step : forall l i p c q d, proper l -> stands l i p c -> stands l (S i) q d ->
  p <= q /\ (it_trans d = true -> p < q) /\
  (it_trans c = false -> q = p + it_len c - (if it_trans d then it_len d else 0)) /\
  (it_trans c = true -> q = p /\ it_trans d = false).
Proof.
  intros l i p c q d (P0 & P1 & P2 & P3) [Hc ->] [Hd ->].
  fold (net (firstn i l)). fold (net (firstn (S i) l)). rewrite (net_firstn_S _ _ _ Hc).
  pose proof (P0 _ _ Hc). pose proof (P0 _ _ Hd). pose proof (P2 _ _ _ Hc Hd) as Q.
  destruct (it_trans c) eqn:Tc, (it_trans d) eqn:Td; cbn [andb];
    try (destruct (Q eq_refl) as [Q1 Q2]; congruence);
    try (destruct (Q eq_refl) as [Q1 Q2]); repeat split; intros; try discriminate; lia.
Qed.

Lemma stands_some : forall l i c, nth_error l i = Some c -> exists p, stands l i p c.
Proof. intros l i c H. eexists. split; [exact H|reflexivity]. Qed.

Lemma stands_mono : forall l k i p c q d, proper l -> stands l i p c -> stands l (i + k) q d -> p <= q.
Proof.
  intros l. induction k as [|k IH]; intros i p c q d P Hc Hd.
  - rewrite Nat.add_0_r in Hd. destruct Hc as [A ->], Hd as [B ->]. rewrite A in B. injection B as <-. lia.
  - assert (exists e, nth_error l (S i) = Some e) as [e He].
    { destruct (nth_error l (S i)) eqn:N; [eauto|]. apply nth_error_None in N. destruct Hd as [B _].
      assert (nth_error l (i + S k) <> None) as B' by congruence. apply nth_error_Some in B'. lia. }
    destruct (stands_some _ _ _ He) as [r Hr].
    destruct (stands_step _ _ _ _ _ _ P Hc Hr) as [L _].
    replace (i + S k)%nat with (S i + k)%nat in Hd by lia. specialize (IH _ _ _ _ _ P Hr Hd). lia.
Qed.

Lemma before_transition : forall l j q d i p c, proper l -> no_overlap l ->
  stands l j q d -> stands l i p c -> (j < i)%nat -> it_trans c = true -> it_len d <> 0 ->
  q < p /\ (it_trans d = true -> q + it_len d <= p).
Proof.
  intros l j q d i p c P NO Hd Hc L T N.
  assert (forall n, (n < length l)%nat -> exists e r, stands l n r e) as St.
  { intros n Hn. destruct (nth_error l n) as [e|] eqn:E; [|apply nth_error_None in E; lia].
    destruct (stands_some _ _ _ E) as [r Hr]. eauto. }
  assert (i < length l)%nat as Li.
  { destruct Hc as [A _]. apply nth_error_Some. congruence. }
  destruct (St (i - 1)%nat ltac:(lia)) as (a & r & Ha).
  assert (stands l (S (i - 1)) p c) as Hc' by (replace (S (i - 1)) with i by lia; exact Hc).
  destruct (stands_step _ _ _ _ _ _ P Ha Hc') as (A1 & A2 & A3 & A4). specialize (A2 T).
  assert (q <= r) as A5.
  { apply (stands_mono l (i - 1 - j) j q d r a P Hd). replace (j + (i - 1 - j))%nat with (i - 1)%nat by lia. exact Ha. }
  split; [lia|]. intros Td.
  destruct (St (S j) ltac:(lia)) as (b & s & Hb).
  destruct (stands_step _ _ _ _ _ _ P Hd Hb) as (B1 & B2 & B3 & B4). destruct (B4 Td) as [-> Tb].
  destruct (Nat.eq_dec i (S j)) as [->|Ni].
  { destruct Hc as [C1 _], Hb as [C2 _]. congruence. }
  destruct (St (S (S j)) ltac:(lia)) as (e & u & He).
  destruct (stands_step _ _ _ _ _ _ P Hb He) as (D1 & D2 & D3 & D4). specialize (D3 Tb).
  assert (q + it_len d <= u) as Q.
  { destruct P as (P0 & P1 & P2 & P3). destruct Hd as [Nd _], Hb as [Nb _], He as [Ne _].
    destruct (it_trans e) eqn:Te.
    - pose proof (NO _ _ _ _ Nd Nb Ne Td Te). lia.
    - pose proof (P3 _ _ _ Nd Nb Td). lia. }
  assert (u <= p); [|lia].
  apply (stands_mono l (i - S (S j)) (S (S j)) u e p c P He).
  replace (S (S j) + (i - S (S j)))%nat with i by lia. exact Hc.
Qed.
