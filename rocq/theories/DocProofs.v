(** Invariants of a document's bookkeeping. *)
From Coq Require Import ZArith List Bool Lia.
From Verif Require Import Base DocModel.
Import ListNotations.
Open Scope Z_scope.

Lemma put_same : forall V (f : Z -> V) k v, put f k v k = v.
Proof. intros. unfold put. now rewrite Z.eqb_refl. Qed.

Lemma put_other : forall V (f : Z -> V) k v x, x <> k -> put f k v x = f x.
Proof. intros. unfold put. destruct (Z.eqb_spec x k); [contradiction|reflexivity]. Qed.

Record good (d : doc) : Prop := {
  g_reading : d_reading d = false;
  g_addr : forall a c, d_cells d a = Some c -> a < d_addr d;
  g_cached : forall a c i, d_cells d a = Some c -> c_id c = Some i -> d_cache d i = Some a;
  g_alive : forall i a, d_cache d i = Some a -> exists c, d_cells d a = Some c /\ c_id c = Some i;
  g_range : forall i a, d_cache d i = Some a -> 0 < i /\ (i <= d_count d \/ i <= d_next d);
  g_modified : forall i a, d_modified d i = Some a -> exists c, d_cells d a = Some c /\ c_id c = Some i;
  g_count : 0 <= d_count d <= d_next d }.

(** What changing contents leaves alone. *)
Record same_but_val (d d' : doc) (a : Z) : Prop := {
  s_open : d_open d' = d_open d; s_count : d_count d' = d_count d; s_disk : d_disk d' = d_disk d; s_cache : d_cache d' = d_cache d;
  s_next : d_next d' = d_next d; s_content : d_content d' = d_content d; s_reading : d_reading d' = d_reading d;
  s_addr : d_addr d' = d_addr d;
  s_others : forall b, b <> a -> d_cells d' b = d_cells d b;
  s_it : forall c, d_cells d a = Some c -> exists v, d_cells d' a = Some {| c_kind := c_kind c; c_id := c_id c; c_val := v |};
  s_none : d_cells d a = None -> d_cells d' a = None }.

Lemma same_refl : forall d a, same_but_val d d a.
Proof. intros. constructor; auto. intros c E. exists (c_val c). rewrite E. destruct c; reflexivity. Qed.

Lemma same_trans : forall d e f a, same_but_val d e a -> same_but_val e f a -> same_but_val d f a.
Proof.
  intros d e f a A B. destruct A, B. constructor; try congruence.
  - intros b N. rewrite s_others1, s_others0; auto.
  - intros c E. destruct (s_it0 c E) as [v Ev]. destruct (s_it1 _ Ev) as [v' Ev']. exists v'. exact Ev'.
  - auto.
Qed.

Lemma set_val_same : forall d a v, same_but_val d (set_val d a v) a.
Proof.
  intros d a v. unfold set_val. destruct (d_cells d a) as [c|] eqn:E; [|apply same_refl].
  constructor; cbn [with_cells d_open d_count d_disk d_cells d_cache d_next d_content d_reading d_addr]; auto.
  - intros b N. now rewrite put_other.
  - intros c0 E0. exists v. rewrite put_same. congruence.
  - congruence.
Qed.

Lemma set_val_val : forall d a v c, d_cells d a = Some c -> d_cells (set_val d a v) a = Some {| c_kind := c_kind c; c_id := c_id c; c_val := v |}.
Proof. intros d a v c E. unfold set_val. rewrite E. cbn [with_cells d_cells]. apply put_same. Qed.

Lemma set_val_modified : forall d a v, d_modified (set_val d a v) = d_modified d.
Proof. intros. unfold set_val. destruct (d_cells d a); reflexivity. Qed.

(** Marking puts the object under its own identity and does nothing else. *)
Lemma add_modified_cases : forall d a d' e, add_modified d a = (d', e) ->
  d' = d /\ e = Some AttributeErr /\ has_id d a = false \/
  (exists c i, d_cells d a = Some c /\ c_id c = Some i /\ d' = with_modified d (put (d_modified d) i (Some a)) /\ e = None).
Proof.
  intros d a d' e H. unfold add_modified in H. unfold has_id. destruct (d_cells d a) as [c|] eqn:E; [|injection H as <- <-; auto].
  destruct (c_id c) as [i|] eqn:Ei; injection H as <- <-; [|auto]. right. eauto 6.
Qed.

Lemma change_cases : forall d w a v, change d w a v = (set_val d a v, None) \/
  d_reading d = false /\ change d w a v = add_modified (set_val d a v) a.
Proof.
  intros d w a v. unfold change. set (d' := set_val d a v).
  assert (d_reading d' = d_reading d) as Er by apply set_val_same.
  destruct w; unfold mark_object, mark_self, mark_parent; auto; rewrite Er; destruct (d_reading d); cbn [negb andb]; auto.
  destruct (has_id d' a); auto.
Qed.

(** One change: contents of [a], and perhaps [modified_objects] under the identity of [a]. *)
Lemma with_modified_same : forall d m a, same_but_val d (with_modified d m) a.
Proof. intros d m a. constructor; try reflexivity; try (intros; assumption). intros c E. exists (c_val c). cbn [with_modified d_cells]. rewrite E. destruct c; reflexivity. Qed.

Lemma change_same : forall d w a v, same_but_val d (fst (change d w a v)) a.
Proof.
  intros d w a v. apply (same_trans d (set_val d a v)); [apply set_val_same|].
  destruct (change_cases d w a v) as [E|[_ E]]; rewrite E; [apply same_refl|].
  destruct (add_modified (set_val d a v) a) as [d2 e] eqn:E2. apply add_modified_cases in E2 as [(-> & _)|(c & i & _ & _ & -> & _)]; cbn [fst].
  - apply same_refl.
  - apply with_modified_same.
Qed.

Lemma set_val_id : forall d a v c i, d_cells (set_val d a v) a = Some c -> c_id c = Some i -> exists c0, d_cells d a = Some c0 /\ c_id c0 = Some i.
Proof.
  intros d a v c i Ec Ei. destruct (d_cells d a) as [c0|] eqn:E0.
  - exists c0. split; [reflexivity|]. rewrite (set_val_val d a v c0 E0) in Ec. injection Ec as <-. exact Ei.
  - rewrite (s_none _ _ _ (set_val_same d a v) E0) in Ec. discriminate.
Qed.

Lemma change_modified : forall d w a v i b, d_modified (fst (change d w a v)) i = Some b ->
  d_modified d i = Some b \/ d_reading d = false /\ b = a /\ exists c, d_cells d a = Some c /\ c_id c = Some i.
Proof.
  intros d w a v i b. assert (d_modified (set_val d a v) = d_modified d) as Em by apply set_val_modified.
  destruct (change_cases d w a v) as [E|[R E]]; rewrite E; cbn [fst]; intros H; [left; congruence|].
  destruct (add_modified (set_val d a v) a) as [d2 e] eqn:E2. apply add_modified_cases in E2 as [(-> & _)|(c & j & Ec & Ei & -> & _)]; cbn [fst] in H.
  - left. congruence.
  - cbn [with_modified d_modified] in H. unfold put in H. destruct (Z.eqb_spec i j) as [->|N]; [|left; congruence].
    injection H as <-. right. split; [exact R|]. split; [reflexivity|]. eapply set_val_id; eauto.
Qed.

Lemma change_keeps_modified : forall d w a v i b, (forall c, d_cells d a = Some c -> c_id c = Some i -> b = a) ->
  d_modified d i = Some b -> d_modified (fst (change d w a v)) i = Some b.
Proof.
  intros d w a v i b U H. assert (d_modified (set_val d a v) = d_modified d) as Em by apply set_val_modified.
  destruct (change_cases d w a v) as [E|[R E]]; rewrite E; cbn [fst]; [congruence|].
  destruct (add_modified (set_val d a v) a) as [d2 e] eqn:E2. apply add_modified_cases in E2 as [(-> & _)|(c & j & Ec & Ei & -> & _)]; cbn [fst]; [congruence|].
  cbn [with_modified d_modified]. unfold put. destruct (Z.eqb_spec i j) as [<-|N]; [|congruence]. f_equal. symmetry.
  destruct (set_val_id d a v c i Ec Ei) as (c0 & E0 & I0). eapply U; eauto.
Qed.

Lemma last_cons : forall (l : list Z) x y, last (x :: l) y = last l x.
Proof. induction l as [|z l IH]; intros x y; [reflexivity|]. change (last (x :: z :: l) y) with (last (z :: l) y). now rewrite !IH. Qed.

(** Assignments while reading change contents only and do not fail. *)
Lemma assigns_reading : forall vs d w a, d_reading d = true -> d_modified (fst (assigns d w a vs)) = d_modified d /\
  same_but_val d (fst (assigns d w a vs)) a /\ snd (assigns d w a vs) = None /\
  (forall c, d_cells d a = Some c -> exists c', d_cells (fst (assigns d w a vs)) a = Some c' /\ c_kind c' = c_kind c /\ c_id c' = c_id c /\ c_val c' = last vs (c_val c)).
Proof.
  induction vs as [|v vs IH]; intros d w a R; cbn [assigns].
  - cbn [fst snd]. split; [reflexivity|]. split; [apply same_refl|]. split; [reflexivity|]. intros c E. exists c. auto.
  - assert (change d w a v = (set_val d a v, None)) as E.
    { unfold change. assert (d_reading (set_val d a v) = true) as R' by (rewrite (s_reading _ _ _ (set_val_same d a v)); exact R).
      destruct w; unfold mark_object, mark_self, mark_parent; rewrite ?R'; reflexivity. }
    rewrite E. destruct (IH (set_val d a v) w a) as (A & B & C & D); [rewrite (s_reading _ _ _ (set_val_same d a v)); exact R|].
    split; [rewrite A; apply set_val_modified|]. split; [eapply same_trans; [apply set_val_same|exact B]|]. split; [exact C|].
    intros c Ec. destruct (D _ (set_val_val d a v c Ec)) as (c' & E' & K & I & V). exists c'. cbn [c_kind c_id c_val] in *. split; [exact E'|]. split; [exact K|]. split; [exact I|].
    rewrite V. symmetry. apply last_cons.
Qed.

Lemma same_good : forall d d' a, same_but_val d d' a -> good d ->
  (forall i b, d_modified d' i = Some b -> d_modified d i = Some b \/ b = a /\ exists c, d_cells d a = Some c /\ c_id c = Some i) -> good d'.
Proof.
  intros d d' a S G M.
  assert (forall b c, d_cells d b = Some c -> exists c', d_cells d' b = Some c' /\ c_id c' = c_id c) as F.
  { intros b c E. destruct (Z.eq_dec b a) as [->|N]; [|exists c; rewrite (s_others _ _ _ S b N); auto].
    destruct (s_it _ _ _ S c E) as [v Ev]. eexists. split; [exact Ev|reflexivity]. }
  assert (forall b c', d_cells d' b = Some c' -> exists c, d_cells d b = Some c /\ c_id c = c_id c') as B.
  { intros b c' E. destruct (Z.eq_dec b a) as [->|N]; [|exists c'; rewrite (s_others _ _ _ S b N) in E; auto].
    destruct (d_cells d a) as [c|] eqn:E0; [|rewrite (s_none _ _ _ S E0) in E; discriminate].
    exists c. split; [reflexivity|]. destruct (s_it _ _ _ S c E0) as [v Ev]. rewrite Ev in E. injection E as <-. reflexivity. }
  constructor.
  - rewrite (s_reading _ _ _ S). apply G.
  - intros b c E. apply B in E as (c0 & E & _). rewrite (s_addr _ _ _ S). eapply (g_addr d G); eauto.
  - intros b c i E Ei. apply B in E as (c0 & E & Eq). rewrite (s_cache _ _ _ S). eapply (g_cached d G); eauto. congruence.
  - intros i b E. rewrite (s_cache _ _ _ S) in E. destruct (g_alive d G i b E) as (c & Ec & Ei). destruct (F b c Ec) as (c' & Ec' & Eq). exists c'. split; [exact Ec'|congruence].
  - intros i b E. rewrite (s_cache _ _ _ S) in E. rewrite (s_count _ _ _ S), (s_next _ _ _ S). eapply (g_range d G); eauto.
  - intros i b E. apply M in E as [E|(-> & c & Ec & Ei)].
    + destruct (g_modified d G i b E) as (c & Ec & Ei). destruct (F b c Ec) as (c' & Ec' & Eq). exists c'. split; [exact Ec'|congruence].
    + destruct (F a c Ec) as (c' & Ec' & Eq). exists c'. split; [exact Ec'|congruence].
  - rewrite (s_count _ _ _ S), (s_next _ _ _ S). apply G.
Qed.

Lemma good_change : forall d w a v, good d -> good (fst (change d w a v)).
Proof.
  intros d w a v G. apply (same_good d _ a (change_same d w a v) G). intros i b H.
  apply change_modified in H as [H|(_ & -> & H)]; auto.
Qed.

Lemma good_assigns : forall vs d w a, good d -> good (fst (assigns d w a vs)).
Proof.
  induction vs as [|v vs IH]; intros d w a G; cbn [assigns]; [exact G|].
  pose proof (good_change d w a v G) as G'. destruct (change d w a v) as [d' [e|]]; cbn [fst] in *; auto.
Qed.

Lemma good_drop : forall d a, good d -> (forall i, d_modified d i <> Some a) -> good (drop d a).
Proof.
  intros d a G N. unfold drop. constructor; cbn [with_cache with_cells d_reading d_cells d_addr d_cache d_count d_next d_modified].
  - apply G.
  - intros b c E. unfold put in E. destruct (b =? a); [discriminate|]. eapply (g_addr d G); eauto.
  - intros b c i E Ei. unfold put in E. destruct (Z.eqb_spec b a) as [->|Nb]; [discriminate|].
    rewrite (g_cached d G b c i E Ei). destruct (Z.eqb_spec b a); [contradiction|reflexivity].
  - intros i b E. destruct (d_cache d i) as [x|] eqn:Ex; [|discriminate]. destruct (Z.eqb_spec x a) as [->|Nx]; [discriminate|].
    injection E as <-. rewrite put_other by exact Nx. now apply (g_alive d G).
  - intros i b E. destruct (d_cache d i) as [x|] eqn:Ex; [|discriminate]. eapply (g_range d G); eauto.
  - intros i b E. rewrite put_other by (intros ->; now apply (N i)). now apply (g_modified d G).
  - apply G.
Qed.

Lemma held_modified : forall d a, good d -> held d a = false -> forall i, d_modified d i <> Some a.
Proof.
  intros d a G H i E. destruct (g_modified d G i a E) as (c & Ec & Ei). unfold held in H. apply orb_false_iff in H as [_ H].
  rewrite Ec, Ei, E, Z.eqb_refl in H. discriminate.
Qed.

(** What loading gives when the object is not in memory. *)
Lemma load_new : forall d i d' r, good d -> 0 < i -> d_cache d i = None -> load d i = (d', r) ->
  good d' /\ d_modified d' = d_modified d /\ d_next d' = d_next d /\ d_count d' = d_count d /\ d_disk d' = d_disk d /\ d_content d' = d_content d /\ d_open d' = d_open d /\
  (forall b, b <> d_addr d -> d_cells d' b = d_cells d b) /\
  match r with
  | Ok (Some a) => a = d_addr d /\ i <= d_count d /\ d_cache d' i = Some a /\
      d_cells d' a = Some {| c_kind := st_kind (d_disk d i); c_id := Some i; c_val := last (st_steps (d_disk d i)) 0 |}
  | Ok None => False
  | Err _ => d_cells d' (d_addr d) = None
  end.
Proof.
  intros d i d' r G Hi Hc H. unfold load in H.
  assert (d_cells d (d_addr d) = None) as Fresh.
  { destruct (d_cells d (d_addr d)) as [c|] eqn:E; [|reflexivity]. apply (g_addr d G) in E. lia. }
  destruct (Z.eqb_spec i 0); [lia|]. rewrite Hc in H.
  destruct (negb (d_open d)); [injection H as <- <-; auto 12|].
  destruct ((i <? - (d_count d + 1)) || (d_count d <? i)) eqn:R; [injection H as <- <-; auto 12|].
  apply orb_false_iff in R as [_ R]. apply Z.ltb_ge in R.
  unfold alloc in H. cbn [with_reading d_addr] in H. cbv beta iota zeta in H.
  match type of H with context [assigns ?d2 ?w ?a ?vs] => set (D2 := d2) in H; set (W := w) in H end.
  assert (d_cells D2 (d_addr d) = Some {| c_kind := st_kind (d_disk d i); c_id := None; c_val := 0 |}) as E2.
  { unfold D2. cbn [with_reading d_cells d_addr]. apply put_same. }
  destruct (assigns_reading (st_steps (d_disk d i)) D2 W (d_addr d) eq_refl) as (Am & As & Ae & Av).
  destruct (Av _ E2) as (c' & Ec & Kc & Ic & Vc). cbn [c_kind c_id c_val] in Kc, Ic, Vc.
  destruct (assigns D2 W (d_addr d) (st_steps (d_disk d i))) as [D3 e3]. cbn [fst snd] in *. subst e3.
  assert (d_cache D3 = d_cache d) as Cc by (rewrite (s_cache _ _ _ As); reflexivity).
  assert (d_modified D3 = d_modified d) as Mm by (rewrite Am; reflexivity).
  assert (forall b, b <> d_addr d -> d_cells D3 b = d_cells d b) as Cells.
  { intros b N. rewrite (s_others _ _ _ As b N). unfold D2. cbn [with_reading d_cells d_addr]. now apply put_other. }
  assert (d_count D3 = d_count d /\ d_next D3 = d_next d /\ d_addr D3 = d_addr d + 1 /\ d_disk D3 = d_disk d /\ d_content D3 = d_content d /\ d_open D3 = d_open d) as (C1 & C2 & C3 & C4 & C5 & C6).
  { rewrite (s_count _ _ _ As), (s_next _ _ _ As), (s_addr _ _ _ As), (s_disk _ _ _ As), (s_content _ _ _ As), (s_open _ _ _ As). unfold D2. repeat split. }
  destruct (st_end (d_disk d i)) as [e|].
  - injection H as <- <-. unfold drop. cbn [with_cache with_cells with_reading d_cells d_cache d_modified d_next d_count d_disk d_content d_addr d_reading d_open].
    split.
    + constructor; cbn [with_cache with_cells with_reading d_cells d_cache d_modified d_next d_count d_disk d_content d_addr d_reading].
      * reflexivity.
      * intros b c E. unfold put in E. destruct (Z.eqb_spec b (d_addr d)); [discriminate|]. rewrite Cells in E by assumption. apply (g_addr d G) in E. lia.
      * intros b c j E Ej. unfold put in E. destruct (Z.eqb_spec b (d_addr d)) as [|N]; [discriminate|]. rewrite Cells in E by assumption.
        rewrite Cc, (g_cached d G b c j E Ej). destruct (Z.eqb_spec b (d_addr d)); [contradiction|reflexivity].
      * intros j b E. rewrite Cc in E. destruct (d_cache d j) as [x|] eqn:Ex; [|discriminate]. destruct (Z.eqb_spec x (d_addr d)) as [|N]; [discriminate|].
        injection E as <-. rewrite put_other by exact N. rewrite Cells by exact N. now apply (g_alive d G).
      * intros j b E. rewrite Cc in E. destruct (d_cache d j) as [x|] eqn:Ex; [|discriminate]. rewrite C1, C2. eapply (g_range d G); eauto.
      * intros j b E. rewrite Mm in E. destruct (g_modified d G j b E) as (c & Eb & Ej).
        assert (b <> d_addr d) as N by (intros ->; congruence). exists c. rewrite put_other by exact N. rewrite Cells by exact N. auto.
      * rewrite C1, C2. apply G.
    + repeat (split; [assumption|]). split; [|apply put_same]. intros b N. rewrite put_other by exact N. now apply Cells.
  - injection H as <- <-. unfold set_id. cbn [with_cache d_cells]. rewrite Ec.
    cbn [with_cache with_cells with_reading d_cells d_cache d_modified d_next d_count d_disk d_content d_addr d_reading d_open].
    split.
    + constructor; cbn [with_cache with_cells with_reading d_cells d_cache d_modified d_next d_count d_disk d_content d_addr d_reading].
      * reflexivity.
      * intros b c E. unfold put in E. destruct (Z.eqb_spec b (d_addr d)) as [->|N]; [lia|]. rewrite Cells in E by assumption. apply (g_addr d G) in E. lia.
      * intros b c j E Ej. rewrite Cc. unfold put in *. destruct (Z.eqb_spec b (d_addr d)) as [->|N].
        -- injection E as <-. cbn [c_id] in Ej. injection Ej as <-. now rewrite Z.eqb_refl.
        -- rewrite Cells in E by assumption. pose proof (g_cached d G b c j E Ej) as X. destruct (Z.eqb_spec j i) as [->|]; congruence.
      * intros j b E. rewrite Cc in E. unfold put in E. destruct (Z.eqb_spec j i) as [->|N].
        -- injection E as <-. eexists. split; [apply put_same|reflexivity].
        -- destruct (g_alive d G j b E) as (c & Eb & Ej). assert (b <> d_addr d) as Nb by (intros ->; congruence).
           exists c. rewrite put_other by exact Nb. rewrite Cells by exact Nb. auto.
      * intros j b E. rewrite Cc in E. rewrite C1, C2. unfold put in E. destruct (Z.eqb_spec j i) as [->|N]; [lia|]. eapply (g_range d G); eauto.
      * intros j b E. rewrite Mm in E. destruct (g_modified d G j b E) as (c & Eb & Ej).
        assert (b <> d_addr d) as N by (intros ->; congruence). exists c. rewrite put_other by exact N. rewrite Cells by exact N. auto.
      * rewrite C1, C2. apply G.
    + repeat (split; [assumption|]). split; [intros b N; rewrite put_other by exact N; now apply Cells|].
      split; [reflexivity|]. split; [exact R|]. split; [apply put_same|]. rewrite put_same, Kc, Vc. reflexivity.
Qed.

Lemma change_marks : forall d w a v c i, d_reading d = false -> d_cells d a = Some c -> c_id c = Some i -> w <> Unseen ->
  change d w a v = (with_modified (set_val d a v) (put (d_modified d) i (Some a)), None).
Proof.
  intros d w a v c i R E Ei W. unfold change.
  assert (d_reading (set_val d a v) = false) as R' by (rewrite (s_reading _ _ _ (set_val_same d a v)); exact R).
  pose proof (set_val_val d a v c E) as E'.
  assert (add_modified (set_val d a v) a = (with_modified (set_val d a v) (put (d_modified d) i (Some a)), None)) as A.
  { unfold add_modified. rewrite E'. cbn [c_id]. rewrite Ei, set_val_modified. reflexivity. }
  destruct w; [| | |contradiction]; unfold mark_object, mark_self, mark_parent, has_id; rewrite ?R', ?E'; cbn [negb andb c_id]; rewrite ?Ei; exact A.
Qed.

Lemma assigns_marks : forall vs d w a c i, d_reading d = false -> d_cells d a = Some c -> c_id c = Some i -> w <> Unseen ->
  d_modified d i = Some a ->
  exists d', assigns d w a vs = (d', None) /\ same_but_val d d' a /\ (forall j, d_modified d' j = d_modified d j) /\
    d_cells d' a = Some {| c_kind := c_kind c; c_id := Some i; c_val := last vs (c_val c) |}.
Proof.
  induction vs as [|v vs IH]; intros d w a c i R E Ei W M; cbn [assigns].
  - exists d. split; [reflexivity|]. split; [apply same_refl|]. split; [reflexivity|]. rewrite E, <- Ei. destruct c; reflexivity.
  - rewrite (change_marks d w a v c i R E Ei W).
    set (d1 := with_modified (set_val d a v) (put (d_modified d) i (Some a))).
    assert (same_but_val d d1 a) as S1 by (apply (same_trans d (set_val d a v)); [apply set_val_same|apply with_modified_same]).
    assert (forall j, d_modified d1 j = d_modified d j) as M1.
    { intros j. unfold d1. cbn [with_modified d_modified]. unfold put. destruct (Z.eqb_spec j i) as [->|]; congruence. }
    destruct (IH d1 w a {| c_kind := c_kind c; c_id := c_id c; c_val := v |} i) as (d' & Ea & Sa & Ma & Ca).
    + rewrite (s_reading _ _ _ S1). exact R.
    + apply (set_val_val d a v c E).
    + exact Ei.
    + exact W.
    + rewrite M1. exact M.
    + exists d'. split; [exact Ea|]. split; [eapply same_trans; eauto|]. split; [intros j; rewrite Ma; apply M1|].
      rewrite Ca. cbn [c_kind c_val]. now rewrite last_cons.
Qed.

(** Nothing has the next address or the next identity yet. *)
Lemma fresh_addr : forall d, good d -> d_cells d (d_addr d) = None.
Proof. intros d G. destruct (d_cells d (d_addr d)) as [c|] eqn:E; [|reflexivity]. apply (g_addr d G) in E. lia. Qed.

Lemma fresh_cache : forall d i, good d -> d_next d < i -> d_cache d i = None.
Proof.
  intros d i G H. destruct (d_cache d i) as [a|] eqn:E; [|reflexivity]. apply (g_range d G) in E. pose proof (g_count d G). lia.
Qed.

Lemma create_class : forall d k vs, good d -> k <> KHelper -> exists d', create d k vs = (d', d_addr d, None) /\ good d' /\
  d_next d' = d_next d + 1 /\ d_count d' = d_count d /\ d_disk d' = d_disk d /\ d_content d' = d_content d /\ d_open d' = d_open d /\
  d_cells d' (d_addr d) = Some {| c_kind := k; c_id := Some (d_next d + 1); c_val := last vs 0 |} /\
  (forall b, b <> d_addr d -> d_cells d' b = d_cells d b) /\
  (forall j, d_modified d' j = put (d_modified d) (d_next d + 1) (Some (d_addr d)) j).
Proof.
  intros d k vs G K. pose proof (fresh_addr d G) as Fa.
  unfold create, alloc. cbv beta iota zeta.
  set (i := d_next d + 1). set (a := d_addr d) in *.
  match goal with |- context [assigns ?x _ _ _] => set (d2 := x) end.
  set (c := {| c_kind := k; c_id := Some i; c_val := 0 |}).
  assert (d_cells d2 a = Some c /\ (forall b, b <> a -> d_cells d2 b = d_cells d b) /\ d_cache d2 = put (d_cache d) i (Some a) /\
    d_modified d2 = put (d_modified d) i (Some a) /\ d_next d2 = i /\ d_count d2 = d_count d /\ d_disk d2 = d_disk d /\ d_content d2 = d_content d /\ d_open d2 = d_open d /\
    d_reading d2 = d_reading d /\ d_addr d2 = a + 1) as (C1 & C2 & C3 & C4 & C5 & C6 & C7 & C8 & C9 & C10 & C11).
  { unfold d2, set_id. cbn [with_next d_cells d_next]. rewrite put_same.
    destruct k; try contradiction; cbn [with_next with_cells with_modified with_cache d_cells d_cache d_modified d_next d_count d_disk d_content d_reading d_addr d_open c_kind c_val]; fold i;
      (split; [apply put_same|]; split; [intros b N; now rewrite !put_other by exact N|]; repeat split). }
  assert (reader_way k <> Unseen) as W by (destruct k; discriminate).
  assert (d_reading d2 = false) as R by (rewrite C10; apply G).
  assert (d_modified d2 i = Some a) as M by (rewrite C4; apply put_same).
  destruct (assigns_marks vs d2 (reader_way k) a c i R C1 eq_refl W M) as (d' & Ea & Sa & Ma & Ca).
  exists d'. fold a. rewrite Ea. split; [reflexivity|].
  assert (good d2) as G2.
  { constructor.
    - exact R.
    - intros b c0 E. rewrite C11. destruct (Z.eq_dec b a) as [->|N]; [lia|]. rewrite C2 in E by exact N. apply (g_addr d G) in E. fold a in E. lia.
    - intros b c0 j E Ej. rewrite C3. destruct (Z.eq_dec b a) as [->|N].
      + rewrite C1 in E. injection E as <-. injection Ej as <-. apply put_same.
      + rewrite C2 in E by exact N. pose proof (g_cached d G b c0 j E Ej) as X. rewrite put_other; [exact X|].
        intros ->. rewrite (fresh_cache d i G) in X by (unfold i; lia). discriminate.
    - intros j b E. rewrite C3 in E. unfold put in E. destruct (Z.eqb_spec j i) as [->|N].
      + injection E as <-. exists c. auto.
      + destruct (g_alive d G j b E) as (c0 & Eb & Ej). exists c0. rewrite C2; [auto|]. intros ->. congruence.
    - intros j b E. rewrite C3 in E. rewrite C5, C6. pose proof (g_count d G). unfold put in E. destruct (Z.eqb_spec j i) as [->|N].
      + unfold i. lia.
      + apply (g_range d G) in E. unfold i. lia.
    - intros j b E. rewrite C4 in E. unfold put in E. destruct (Z.eqb_spec j i) as [->|N].
      + injection E as <-. exists c. auto.
      + destruct (g_modified d G j b E) as (c0 & Eb & Ej). exists c0. rewrite C2; [auto|]. intros ->. congruence.
    - rewrite C5, C6. pose proof (g_count d G). unfold i. lia. }
  split.
  { apply (same_good d2 d' a Sa G2). intros j b E. left. now rewrite <- Ma. }
  rewrite (s_next _ _ _ Sa), (s_count _ _ _ Sa), (s_disk _ _ _ Sa), (s_content _ _ _ Sa), (s_open _ _ _ Sa), Ca, C5, C6, C7, C8, C9.
  repeat (split; [reflexivity|]). split.
  - intros b N. rewrite (s_others _ _ _ Sa b N). now apply C2.
  - intros j. now rewrite Ma, C4.
Qed.

Lemma assigns_plain : forall vs d a c, d_cells d a = Some c -> c_id c = None ->
  exists d', assigns d ByProperty a vs = (d', None) /\ same_but_val d d' a /\ d_modified d' = d_modified d.
Proof.
  induction vs as [|v vs IH]; intros d a c E Ei; cbn [assigns].
  - exists d. split; [reflexivity|]. split; [apply same_refl|reflexivity].
  - assert (change d ByProperty a v = (set_val d a v, None)) as X.
    { unfold change, mark_object, has_id. rewrite (set_val_val d a v c E). cbn [c_id]. rewrite Ei, andb_false_r. reflexivity. }
    rewrite X. destruct (IH (set_val d a v) a _ (set_val_val d a v c E) Ei) as (d' & Ea & Sa & Ma).
    exists d'. split; [exact Ea|]. split; [eapply same_trans; [apply set_val_same|exact Sa]|]. rewrite Ma. apply set_val_modified.
Qed.

Lemma create_helper : forall d vs, good d -> exists d', create d KHelper vs = (d', d_addr d, None) /\ good d' /\
  d_next d' = d_next d /\ d_count d' = d_count d /\ d_disk d' = d_disk d /\ d_content d' = d_content d /\ d_open d' = d_open d /\
  (exists c, d_cells d' (d_addr d) = Some c /\ c_id c = None) /\
  (forall b, b <> d_addr d -> d_cells d' b = d_cells d b) /\ d_modified d' = d_modified d.
Proof.
  intros d vs G. pose proof (fresh_addr d G) as Fa. unfold create, alloc. cbv beta iota zeta. cbn [reader_way].
  match goal with |- context [assigns ?x _ _ _] => set (d2 := x) end. set (a := d_addr d) in *.
  destruct (assigns_plain vs d2 a {| c_kind := KHelper; c_id := None; c_val := 0 |} (put_same _ _ _ _) eq_refl) as (d' & Ea & Sa & Ma).
  exists d'. rewrite Ea. split; [reflexivity|].
  assert (forall b, b <> a -> d_cells d2 b = d_cells d b) as C2 by (intros b N; apply put_other; exact N).
  assert (good d2) as G2.
  { constructor.
    - apply G.
    - intros b c0 E. change (d_addr d2) with (a + 1). destruct (Z.eq_dec b a) as [->|N]; [lia|]. rewrite C2 in E by exact N. apply (g_addr d G) in E. fold a in E. lia.
    - intros b c0 j E Ej. change (d_cache d2) with (d_cache d). destruct (Z.eq_dec b a) as [->|N].
      + unfold d2 in E. cbn [d_cells] in E. rewrite put_same in E. injection E as <-. discriminate.
      + rewrite C2 in E by exact N. eapply (g_cached d G); eauto.
    - intros j b E. change (d_cache d2) with (d_cache d) in E. destruct (g_alive d G j b E) as (c0 & Eb & Ej). exists c0. rewrite C2; [auto|]. intros ->. congruence.
    - intros j b E. eapply (g_range d G); eauto.
    - intros j b E. change (d_modified d2) with (d_modified d) in E. destruct (g_modified d G j b E) as (c0 & Eb & Ej). exists c0. rewrite C2; [auto|]. intros ->. congruence.
    - apply G. }
  split.
  { apply (same_good d2 d' a Sa G2). intros j b E. left. now rewrite <- Ma. }
  rewrite (s_next _ _ _ Sa), (s_count _ _ _ Sa), (s_disk _ _ _ Sa), (s_content _ _ _ Sa), (s_open _ _ _ Sa).
  repeat (split; [reflexivity|]). split; [|split].
  - destruct (s_it _ _ _ Sa _ (put_same _ _ _ _)) as [v Ev]. eexists. split; [exact Ev|reflexivity].
  - intros b N. rewrite (s_others _ _ _ Sa b N). now apply C2.
  - rewrite Ma. reflexivity.
Qed.

(** ** One step *)

Lemma follow_cases : forall d i d' r, good d -> follow d i = (d', r) ->
  d' = d /\ (i <= 0 /\ r = Ok None \/ 0 < i /\ exists a, d_cache d i = Some a /\ r = Ok (Some a)) \/
  0 < i /\ d_cache d i = None /\ load d i = (d', r).
Proof.
  intros d i d' r G H. unfold follow in H. destruct (Z.leb_spec i 0); [injection H as <- <-; auto|].
  destruct (d_cache d i) as [a|] eqn:E; [|auto]. left. unfold load in H. destruct (Z.eqb_spec i 0); [lia|]. rewrite E in H.
  injection H as <- <-. split; [reflexivity|]. right. eauto.
Qed.

Lemma good_step : forall d o, good d -> good (doc_step d o).
Proof.
  intros d o G. destruct o as [i|k vs|w a v|a|a]; cbn [doc_step].
  - destruct (follow d i) as [d' r] eqn:E. cbn [fst]. apply follow_cases in E as [(-> & _)|(Hi & Hc & E)]; auto. eapply load_new in E; eauto. tauto.
  - assert (k = KHelper \/ k <> KHelper) as [->|K] by (destruct k; auto; right; discriminate).
    + destruct (create_helper d vs G) as (d' & E & G' & _). rewrite E. exact G'.
    + destruct (create_class d k vs G K) as (d' & E & G' & _). rewrite E. exact G'.
  - now apply good_change.
  - destruct G. constructor; assumption.
  - destruct (held d a) eqn:H; [exact G|]. apply good_drop; [exact G|]. now apply held_modified.
Qed.

(** ** Histories *)

From Verif Require Import DocSpec.

Lemma starts_good : forall n d, starts n d -> good d /\ d_count d = n /\ d_modified d = fun _ => None.
Proof.
  intros n d [(Hn & disk & ->)|(-> & ->)]; (split; [|split; reflexivity]); constructor; cbn [opened_doc empty_doc d_reading d_cells d_cache d_modified d_count d_next d_addr]; try discriminate; try reflexivity; lia.
Qed.

Lemma good_run : forall h d, good d -> good (run d h).
Proof. induction h as [|o h IH]; intros d G; [exact G|]. apply (IH (doc_step d o)). now apply good_step. Qed.

Lemma run_app : forall h1 h2 d, run d (h1 ++ h2) = run (run d h1) h2.
Proof. intros. apply fold_left_app. Qed.

Lemma change_next : forall d w a v, d_next (fst (change d w a v)) = d_next d /\ d_count (fst (change d w a v)) = d_count d.
Proof.
  intros d w a v. pose proof (change_same d w a v) as S'. split; apply S'.
Qed.

Lemma step_next : forall d o, good d -> d_next d <= d_next (doc_step d o) /\ d_count (doc_step d o) = d_count d.
Proof.
  intros d o G. destruct o as [i|k vs|w a v|a|a]; cbn [doc_step].
  - destruct (follow d i) as [d' r] eqn:E. cbn [fst]. apply follow_cases in E as [(-> & _)|(Hi & Hc & E)]; auto; [lia|]. eapply load_new in E; eauto.
    destruct E as (_ & _ & -> & -> & _). lia.
  - assert (k = KHelper \/ k <> KHelper) as [->|K] by (destruct k; auto; right; discriminate).
    + destruct (create_helper d vs G) as (d' & E & _ & N & C & _). rewrite E. cbn [fst]. rewrite N, C. lia.
    + destruct (create_class d k vs G K) as (d' & E & _ & N & C & _). rewrite E. cbn [fst]. rewrite N, C. lia.
  - destruct (change_next d w a v) as [-> ->]. lia.
  - cbn. lia.
  - destruct (held d a); cbn; lia.
Qed.

Lemma run_next : forall h d, good d -> d_next d <= d_next (run d h) /\ d_count (run d h) = d_count d.
Proof.
  induction h as [|o h IH]; intros d G; [cbn; lia|]. destruct (step_next d o G) as [A B].
  destruct (IH (doc_step d o) (good_step d o G)) as [A' B']. change (run d (o :: h)) with (run (doc_step d o) h). split; [lia|congruence].
Qed.

Lemma looks_modified : forall d o, good d -> looks o -> d_modified (doc_step d o) = d_modified d.
Proof.
  intros d o G L. destruct o as [i|k vs|w a v|a|a]; try contradiction; cbn [doc_step].
  - destruct (follow d i) as [d' r] eqn:E. cbn [fst]. apply follow_cases in E as [(-> & _)|(Hi & Hc & E)]; auto. eapply load_new in E; eauto. tauto.
  - reflexivity.
  - destruct (held d a); reflexivity.
Qed.

Lemma looks_run : forall h d, good d -> Forall looks h -> d_modified (run d h) = d_modified d.
Proof.
  induction h as [|o h IH]; intros d G F; [reflexivity|]. apply Forall_cons_iff in F as [L F].
  change (run d (o :: h)) with (run (doc_step d o) h). rewrite IH; auto using good_step. now apply looks_modified.
Qed.

(** An object the document holds stays as it is as long as nobody changes it. *)
Definition holds (d : doc) (a i : Z) : Prop := d_modified d i = Some a \/ d_content d = Some a.

Lemma kept_step : forall d o a i v, good d -> alive d a i v -> spares a o ->
  (d_modified d i = Some a \/ d_content d = Some a /\ keeps_content o) ->
  alive (doc_step d o) a i v /\ (d_modified d i = Some a -> d_modified (doc_step d o) i = Some a) /\
  (keeps_content o -> d_content (doc_step d o) = d_content d).
Proof.
  intros d o a i v G A S' H. pose proof A as [k0 E0]. pose proof (g_addr d G _ _ E0) as La.
  destruct o as [j|k vs|w b u|b|b]; cbn [doc_step].
  - destruct (follow d j) as [d' r] eqn:E. cbn [fst]. apply follow_cases in E as [(-> & _)|(Hi & Hc & E)]; auto. eapply load_new in E; eauto.
    destruct E as (_ & -> & _ & _ & _ & -> & _ & O & _). split; [|auto]. exists k0. rewrite O; [exact E0|lia].
  - assert (k = KHelper \/ k <> KHelper) as [->|K] by (destruct k; auto; right; discriminate).
    + destruct (create_helper d vs G) as (d' & E & _ & _ & _ & _ & C & _ & _ & O & M). rewrite E. cbn [fst]. rewrite M. split; [|auto].
      exists k0. rewrite O; [exact E0|lia].
    + destruct (create_class d k vs G K) as (d' & E & _ & _ & _ & _ & C & _ & _ & O & M). rewrite E. cbn [fst]. split; [exists k0; rewrite O; [exact E0|lia]|].
      split; [|auto]. intros X. rewrite M, put_other; [exact X|]. intros ->. destruct (g_range d G _ _ (g_cached d G _ _ _ E0 eq_refl)) as [_ R]. pose proof (g_count d G). lia.
  - cbn [spares] in S'. pose proof (change_same d w b u) as Sm.
    split; [exists k0; rewrite (s_others _ _ _ Sm); auto|]. split; [|intros _; apply Sm].
    intros X. apply change_keeps_modified; [|exact X]. intros c Ec Ei.
    pose proof (g_cached d G _ _ _ Ec Ei). pose proof (g_cached d G _ _ _ E0 eq_refl). congruence.
  - cbn [keeps_content] in H. split; [exact A|]. split; [auto|contradiction].
  - assert (held d a = true) as Ha.
    { unfold held. rewrite E0. cbn [c_id]. destruct H as [->|[-> _]]; rewrite Z.eqb_refl; auto using orb_true_r. }
    destruct (held d b) eqn:Hb; [auto|]. split; [|auto]. exists k0. cbn [drop with_cache with_cells d_cells]. rewrite put_other; [exact E0|]. intros ->. congruence.
Qed.

Lemma kept_run : forall h d a i v, good d -> alive d a i v -> Forall (spares a) h ->
  (d_modified d i = Some a \/ d_content d = Some a /\ Forall keeps_content h) ->
  alive (run d h) a i v /\ (d_modified d i = Some a -> d_modified (run d h) i = Some a).
Proof.
  induction h as [|o h IH]; intros d a i v G A F H; [auto|]. apply Forall_cons_iff in F as [S' F].
  change (run d (o :: h)) with (run (doc_step d o) h).
  destruct (kept_step d o a i v G A S') as (A' & M & C).
  { destruct H as [H|[H K]]; [auto|]. apply Forall_cons_iff in K as [K _]. auto. }
  destruct (IH (doc_step d o) a i v (good_step d o G) A' F) as [A2 M2].
  { destruct H as [H|[H K]]; [auto|]. apply Forall_cons_iff in K as [K K']. right. rewrite C; auto. }
  split; [exact A2|auto].
Qed.

Lemma alive_follow : forall d a i v, good d -> alive d a i v -> follow d i = (d, Ok (Some a)).
Proof.
  intros d a i v G [k E]. pose proof (g_cached d G _ _ _ E eq_refl) as C. destruct (g_range d G _ _ C) as [P _].
  unfold follow, load. destruct (Z.leb_spec i 0); [lia|]. destruct (Z.eqb_spec i 0); [lia|]. now rewrite C.
Qed.

(** The file stays what it was. *)
Lemma step_disk : forall d o, good d -> d_disk (doc_step d o) = d_disk d.
Proof.
  intros d o G. destruct o as [i|k vs|w a v|a|a]; cbn [doc_step].
  - destruct (follow d i) as [d' r] eqn:E. cbn [fst]. apply follow_cases in E as [(-> & _)|(Hi & Hc & E)]; auto. eapply load_new in E; eauto. tauto.
  - assert (k = KHelper \/ k <> KHelper) as [->|K] by (destruct k; auto; right; discriminate).
    + destruct (create_helper d vs G) as (d' & E & _ & _ & _ & D & _). rewrite E. exact D.
    + destruct (create_class d k vs G K) as (d' & E & _ & _ & _ & D & _). rewrite E. exact D.
  - apply (s_disk _ _ _ (change_same d w a v)).
  - reflexivity.
  - destruct (held d a); reflexivity.
Qed.

Lemma run_disk : forall h d, good d -> d_disk (run d h) = d_disk d.
Proof.
  induction h as [|o h IH]; intros d G; [reflexivity|]. change (run d (o :: h)) with (run (doc_step d o) h).
  rewrite IH by now apply good_step. now apply step_disk.
Qed.
