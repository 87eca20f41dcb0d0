(** When an accelerated reader follows a standard one: rules and primitives. *)
From Coq Require Import ZArith String List Bool Lia.
From Verif Require Import Base IoCtx Text Exp10 MobId Attributes Components TrackGroups.
From Verif Require Import LocProofs RefsProofs Ext ExtSpec.
Import ListNotations.
Open Scope Z_scope.

Definition mk (p b : bytes) (d : props) : st := {| past := p; rest := b; bag := d |}.

(** Whenever the standard reader [r] accepts, [e] does as well, leaves the same bytes, and adds
    properties so that [R] holds of the value of [r], the value of [e] and the properties [acc]
    before this call together with the new ones; or it throws and [Q] holds. [W] is what the bytes
    left have to satisfy for this. *)
Definition sim {A B} (W : bytes -> Prop) (Q : A -> Prop) (acc : props) (R : A -> B -> props -> Prop)
    (e : M B) (r : reader A) : Prop :=
  forall b x t, Forall is_byte b -> r b = Ok (x, t) -> W t -> forall p d,
    (exists v p' add, e (mk p b d) = (Done v, mk p' t (d ++ add)) /\ R x v (acc ++ add)) \/
    (Q x /\ exists s, e (mk p b d) = (Thrown, s)).

Definition any (t : bytes) : Prop := True.
Definition more (t : bytes) : Prop := t <> [].
Definition never {A} (x : A) : Prop := False.

(** The value is related by [P], no property is added. *)
Definition val {A B} (acc : props) (P : A -> B -> Prop) : A -> B -> props -> Prop :=
  fun x v a => P x v /\ a = acc.

Definition rejects_end {A} (r : reader A) : Prop := exists e, r [] = Err e.

(** ** Rules *)

Lemma sim_weaken {A B} (W W' : bytes -> Prop) (Q Q' : A -> Prop) acc
    (R R' : A -> B -> props -> Prop) e r :
  (forall t, W' t -> W t) -> (forall x, Q x -> Q' x) -> (forall x v a, R x v a -> R' x v a) ->
  sim W Q acc R e r -> sim W' Q' acc R' e r.
Proof.
  intros HW HQ HR H b x t Hb E Hw p d.
  destruct (H b x t Hb E (HW _ Hw) p d) as [(v & p' & a & E1 & Hr)|(Hq & s & E1)].
  - left. exists v, p', a. split; [exact E1|]. apply HR. exact Hr.
  - right. split; [apply HQ; exact Hq|]. exists s. exact E1.
Qed.

Lemma loc_bytes {A} (r : reader A) b x t :
  loc r -> Forall is_byte b -> r b = Ok (x, t) -> Forall is_byte t.
Proof.
  intros Hl Hb E. destruct (Hl _ _ _ E) as [[c ->] _]. apply Forall_app in Hb. apply Hb.
Qed.

(** The first part may need that there are more bytes, if the second one never accepts none. *)
Lemma sim_bind_gen {A B C D} (W1 W : bytes -> Prop) (Q1 : A -> Prop) (Q : C -> Prop) acc
    (R1 : A -> B -> props -> Prop) (R : C -> D -> props -> Prop) e1 (r1 : reader A) k1 k :
  loc r1 ->
  (forall x b y t, k x b = Ok (y, t) -> W1 b) ->
  sim W1 Q1 acc R1 e1 r1 ->
  (forall x, Q1 x -> res Q (k x)) ->
  (forall x v a, R1 x v a -> sim W Q a R (k1 v) (k x)) ->
  sim W Q acc R (ebind e1 k1) (bind r1 k).
Proof.
  intros Hl HW H1 HQ H2 b y t Hb E Hw p d. unfold bind in E.
  destruct (r1 b) as [[x t1]|] eqn:E1; [|discriminate].
  pose proof (loc_bytes _ _ _ _ Hl Hb E1) as Hb1.
  destruct (H1 b x t1 Hb E1 (HW _ _ _ _ E) p d) as [(v & p' & add & Ee & Hr)|(Hq & s & Ee)].
  - unfold ebind. rewrite Ee.
    destruct (H2 x v _ Hr t1 y t Hb1 E Hw p' (d ++ add))
      as [(v2 & p2 & add2 & Ee2 & Hr2)|(Hq & s & Ee2)].
    + left. exists v2, p2, (add ++ add2). rewrite Ee2, <- !app_assoc. split; [reflexivity|].
      rewrite <- app_assoc in Hr2. exact Hr2.
    + right. split; [exact Hq|]. exists s. exact Ee2.
  - right. split; [apply (HQ x Hq t1 y t Hb1 E)|]. unfold ebind. rewrite Ee. exists s. reflexivity.
Qed.

Lemma sim_bind {A B C D} W (Q1 : A -> Prop) (Q : C -> Prop) acc (R1 : A -> B -> props -> Prop)
    (R : C -> D -> props -> Prop) e1 (r1 : reader A) k1 k :
  loc r1 -> sim any Q1 acc R1 e1 r1 -> (forall x, Q1 x -> res Q (k x)) ->
  (forall x v a, R1 x v a -> sim W Q a R (k1 v) (k x)) ->
  sim W Q acc R (ebind e1 k1) (bind r1 k).
Proof. intros Hl H1 HQ H2. eapply sim_bind_gen; eauto. intros. exact I. Qed.

Lemma sim_bind_more {A B C D} W (Q1 : A -> Prop) (Q : C -> Prop) acc (R1 : A -> B -> props -> Prop)
    (R : C -> D -> props -> Prop) e1 (r1 : reader A) k1 k :
  loc r1 -> (forall x, rejects_end (k x)) -> sim more Q1 acc R1 e1 r1 ->
  (forall x, Q1 x -> res Q (k x)) ->
  (forall x v a, R1 x v a -> sim W Q a R (k1 v) (k x)) ->
  sim W Q acc R (ebind e1 k1) (bind r1 k).
Proof.
  intros Hl HN H1 HQ H2. eapply sim_bind_gen; eauto.
  intros x b y t E ->. destruct (HN x) as [e E']. rewrite E' in E. discriminate.
Qed.

(** The last part of a reader: only the bytes left over count. *)
Lemma sim_bind_last {A B C D} (W : bytes -> Prop) (Q1 : A -> Prop) (Q : C -> Prop) acc
    (R1 : A -> B -> props -> Prop) (R : C -> D -> props -> Prop) e1 (r1 : reader A) k1 k :
  loc r1 -> (forall x b y t, k x b = Ok (y, t) -> t = b) -> sim W Q1 acc R1 e1 r1 ->
  (forall x, Q1 x -> res Q (k x)) ->
  (forall x v a, R1 x v a -> sim W Q a R (k1 v) (k x)) ->
  sim W Q acc R (ebind e1 k1) (bind r1 k).
Proof.
  intros Hl HN H1 HQ H2 b y t Hb E Hw p d. unfold bind in E.
  destruct (r1 b) as [[x t1]|] eqn:E1; [|discriminate].
  pose proof (loc_bytes _ _ _ _ Hl Hb E1) as Hb1.
  pose proof (HN _ _ _ _ E) as <-.
  destruct (H1 b x t Hb E1 Hw p d) as [(v & p' & add & Ee & Hr)|(Hq & s & Ee)].
  - unfold ebind. rewrite Ee.
    destruct (H2 x v _ Hr t y t Hb1 E Hw p' (d ++ add))
      as [(v2 & p2 & add2 & Ee2 & Hr2)|(Hq & s & Ee2)].
    + left. exists v2, p2, (add ++ add2). rewrite Ee2, <- !app_assoc. split; [reflexivity|].
      rewrite <- app_assoc in Hr2. exact Hr2.
    + right. split; [exact Hq|]. exists s. exact Ee2.
  - right. split; [apply (HQ x Hq t y t Hb1 E)|]. unfold ebind. rewrite Ee. exists s. reflexivity.
Qed.

Lemma sim_ret {A B} W (Q : A -> Prop) acc (R : A -> B -> props -> Prop) v x :
  R x v acc -> sim W Q acc R (eret v) (ret x).
Proof.
  intros HR b y t Hb E Hw p d. injection E as <- <-. left. exists v, p, [].
  rewrite !app_nil_r. split; [reflexivity|exact HR].
Qed.

Lemma sim_fail {A B} W (Q : A -> Prop) acc (R : A -> B -> props -> Prop) e err :
  sim W Q acc R e (fail err).
Proof. intros b y t Hb E. discriminate E. Qed.

Lemma sim_put {A B} W (Q : A -> Prop) acc (R : A -> B -> props -> Prop) n p k r :
  sim W Q (acc ++ [(n, p)]) R (k tt) r -> sim W Q acc R (ebind (put n p) k) r.
Proof.
  intros H b x t Hb E Hw q d. unfold ebind, put, mk. cbn [past rest bag].
  destruct (H b x t Hb E Hw q (d ++ [(n, p)])) as [(v & p' & a & E1 & Hr)|(Hq & s & E1)].
  - left. exists v, p', ([(n, p)] ++ a). unfold mk in E1. rewrite E1, <- app_assoc.
    split; [reflexivity|]. rewrite <- app_assoc in Hr. exact Hr.
  - right. split; [exact Hq|]. exists s. exact E1.
Qed.

Lemma sim_put_ret {A} W (Q : A -> Prop) acc (R : A -> unit -> props -> Prop) n p x :
  R x tt (acc ++ [(n, p)]) -> sim W Q acc R (put n p) (ret x).
Proof.
  intros H b y t Hb E Hw q d. injection E as <- <-. left. exists tt, q, [(n, p)].
  split; [reflexivity|exact H].
Qed.

Lemma sim_assoc {A B C D} W (Q : A -> Prop) acc (R : A -> D -> props -> Prop)
    (a : M B) (f : B -> M C) g r :
  sim W Q acc R (ebind a (fun x => ebind (f x) g)) r -> sim W Q acc R (ebind (ebind a f) g) r.
Proof.
  intros H b x t Hb E Hw p d. destruct (H b x t Hb E Hw p d) as [(v & p' & add & E1 & Hr)|(Hq & s & E1)].
  - left. exists v, p', add. split; [|exact Hr]. rewrite <- E1. unfold ebind.
    destruct (a (mk p b d)) as [[?| |] ?]; reflexivity.
  - right. split; [exact Hq|]. exists s. rewrite <- E1. unfold ebind.
    destruct (a (mk p b d)) as [[?| |] ?]; reflexivity.
Qed.

Lemma sim_skip {A B} W (Q : A -> Prop) acc (R : A -> B -> props -> Prop) (k : unit -> M B) r :
  sim W Q acc R (k tt) r -> sim W Q acc R (ebind (eret tt) k) r.
Proof. intros H. exact H. Qed.

Lemma sim_eret {A B C} W (Q : A -> Prop) acc (R : A -> B -> props -> Prop) (v : C) (k : C -> M B) r :
  sim W Q acc R (k v) r -> sim W Q acc R (ebind (eret v) k) r.
Proof. intros H. exact H. Qed.

Lemma sim_throw {A B C} W (Q : A -> Prop) acc (R : A -> B -> props -> Prop) (k : C -> M B) r :
  res Q r -> sim W Q acc R (ebind ethrow k) r.
Proof.
  intros H b x t Hb E Hw p d. right. split; [apply (H b x t Hb E)|].
  exists (mk p b d). reflexivity.
Qed.

Lemma sim_assert {A B} W (Q : A -> Prop) acc (R : A -> B -> props -> Prop) e c (k : unit -> reader A) :
  (c = true -> sim W Q acc R e (k tt)) -> sim W Q acc R e (bind (rassert c) k).
Proof.
  intros H. destruct c; [apply (H eq_refl)|]. intros b x t Hb E. discriminate E.
Qed.

Lemma sim_ign {A} W (Q : A -> Prop) acc (R : A -> unit -> props -> Prop) e r :
  sim W Q acc R e r -> sim W Q acc R (ign e) r.
Proof.
  intros H b x t Hb E Hw p d. destruct (H b x t Hb E Hw p d) as [(v & p' & a & E1 & Hr)|(Hq & s & E1)].
  - left. exists v, p', a. unfold ign. rewrite E1. split; [reflexivity|exact Hr].
  - right. split; [exact Hq|]. exists s. unfold ign. rewrite E1. reflexivity.
Qed.

(** ** Lists and loops *)

Lemma sim_list {A B} acc (P : A -> B -> Prop) n (e : M B) (r : reader A) :
  loc r -> sim any never acc (val acc P) e r ->
  sim any never acc (val acc (Forall2 P)) (elist n e) (rlist n r).
Proof.
  intros Hl H. induction n; cbn [elist rlist].
  - apply sim_ret. split; constructor.
  - eapply sim_bind; [exact Hl|exact H|intros x []|].
    intros x v a [HP ->]. eapply sim_bind; [apply loc_rlist; exact Hl|exact IHn|intros ? []|].
    intros l l' a [Hf ->]. apply sim_ret. split; [constructor; assumption|reflexivity].
Qed.

Lemma sim_list_more {A B} acc (P : A -> B -> Prop) n (e : M B) (r : reader A) :
  loc r -> sim more never acc (val acc P) e r ->
  sim more never acc (val acc (Forall2 P)) (elist n e) (rlist n r).
Proof.
  intros Hl H. induction n; cbn [elist rlist].
  - apply sim_ret. split; constructor.
  - intros b y t Hb E Hw p d. unfold bind in E.
    destruct (r b) as [[x t1]|] eqn:E1; [|discriminate].
    pose proof (loc_bytes _ _ _ _ Hl Hb E1) as Hb1.
    destruct (rlist n r t1) as [[l t2]|] eqn:E2; [|discriminate].
    unfold ret in E. injection E as <- <-.
    assert (Hw1 : more t1).
    { intros ->. destruct (loc_rlist _ n r Hl _ _ _ E2) as [[c Hc] _].
      symmetry in Hc. apply app_eq_nil in Hc. apply Hw, Hc. }
    destruct (H b x t1 Hb E1 Hw1 p d) as [(v & p' & a & Ee & [HP Ha])|[[] _]].
    destruct (IHn t1 l t2 Hb1 E2 Hw p' (d ++ a)) as [(v2 & p2 & a2 & Ee2 & [HP2 Ha2])|[[] _]].
    left. exists (v :: v2), p2, []. unfold ebind. rewrite Ee, Ee2. cbn [eret].
    assert (a = []) by (apply (app_inv_head acc); rewrite app_nil_r; exact Ha).
    assert (a2 = []) by (apply (app_inv_head acc); rewrite app_nil_r; exact Ha2).
    subst. rewrite !app_nil_r. split; [reflexivity|]. split; [constructor; assumption|reflexivity].
Qed.

Lemma mk_back x p b d : eback (mk (x :: p) b d) = (Done tt, mk p (x :: b) d).
Proof. reflexivity. Qed.

Lemma eu8_cons x p b d : eu8 (mk p (x :: b) d) = (Done x, mk (x :: p) b d).
Proof. reflexivity. Qed.

Lemma sim_loop {S L} (I : S -> L -> props -> Prop) (eh : Z -> L -> M L) (h : Z -> S -> reader S) :
  (forall tag s, loc (h tag s)) ->
  (forall tag s l acc, I s l acc -> sim more never acc I (eh tag l) (h tag s)) ->
  forall fuel s l acc b s' t p d, Forall is_byte b -> I s l acc ->
  ext_loop fuel h s b = Ok (s', t) ->
  exists l' p' add, eloop fuel eh l (mk p b d) = (Done l', mk p' t (d ++ add)) /\ I s' l' (acc ++ add).
Proof.
  intros Hl Hh. induction fuel; intros s l acc b s' t p d Hb HI E; [discriminate|].
  cbn [ext_loop] in E. destruct b as [|x b1]; [discriminate|].
  cbn [eloop]. unfold ebind at 1. rewrite eu8_cons.
  destruct (x =? 1).
  - destruct b1 as [|tag b2]; [discriminate|]. unfold ebind at 1. rewrite eu8_cons.
    destruct (h tag s b2) as [[s1 b3]|] eqn:Eh; [|discriminate].
    assert (Hb2 : Forall is_byte b2) by (inversion Hb as [|? ? ? Hb']; inversion Hb'; assumption).
    pose proof (loc_bytes _ _ _ _ (Hl tag s) Hb2 Eh) as Hb3.
    assert (Hw : more b3).
    { intros ->. destruct fuel; discriminate. }
    destruct (Hh tag s l acc HI b2 s1 b3 Hb2 Eh Hw (tag :: x :: p) d)
      as [(l1 & p1 & a1 & E1 & HI1)|[[] _]].
    unfold ebind at 1. rewrite E1.
    destruct (IHfuel s1 l1 (acc ++ a1) b3 s' t p1 (d ++ a1) Hb3 HI1 E)
      as (l2 & p2 & a2 & E2 & HI2).
    exists l2, p2, (a1 ++ a2). rewrite E2, <- !app_assoc. split; [reflexivity|].
    rewrite <- app_assoc in HI2. exact HI2.
  - injection E as <- <-. unfold ebind. rewrite mk_back.
    exists l, p, []. rewrite !app_nil_r. split; [reflexivity|exact HI].
Qed.

Lemma sim_while {S L} W (I : S -> L -> props -> Prop) (eh : Z -> L -> M L) (h : Z -> S -> reader S)
    s l acc :
  (forall tag s, loc (h tag s)) ->
  (forall tag s l acc, I s l acc -> sim more never acc I (eh tag l) (h tag s)) ->
  I s l acc -> sim W never acc I (ewhile eh l) (iter_ext h s).
Proof.
  intros Hl Hh HI b x t Hb E _ p d. left. unfold iter_ext in E.
  unfold ewhile. cbn [rest mk].
  exact (sim_loop I eh h Hl Hh _ s l acc b x t p d Hb HI E).
Qed.

Lemma sim_sections {S} W (I : S -> unit -> props -> Prop) (eh : Z -> M unit) (h : Z -> S -> reader S)
    s acc :
  (forall tag s, loc (h tag s)) ->
  (forall tag s acc, I s tt acc -> sim more never acc I (eh tag) (h tag s)) ->
  I s tt acc -> sim W never acc I (esections eh) (iter_ext h s).
Proof.
  intros Hl Hh HI. apply sim_while; [exact Hl| |exact HI].
  intros tag s0 [] a Ha. apply Hh. exact Ha.
Qed.

(** ** Numbers *)

Lemma lor_add a b k : 0 <= k -> 0 <= a < 2 ^ k -> Z.lor a (Z.shiftl b k) = a + 2 ^ k * b.
Proof.
  intros Hk Ha.
  assert (H : Z.land a (Z.shiftl b k) = 0).
  { apply Z.bits_inj'. intros n Hn. rewrite Z.land_spec, Z.bits_0.
    destruct (Z.lt_ge_cases n k) as [L|L].
    - rewrite Z.shiftl_spec_low by exact L. apply andb_false_r.
    - rewrite <- (Z.mod_small a (2 ^ k)) by exact Ha.
      rewrite Z.mod_pow2_bits_high by lia. reflexivity. }
  rewrite <- Z.lxor_lor by exact H. rewrite <- Z.add_nocarry_lxor by exact H.
  rewrite Z.shiftl_mul_pow2 by exact Hk. lia.
Qed.

(** The bytes of a number, read one by one. *)
Lemma le_dec_bound (b : bytes) : Forall is_byte b -> 0 <= le_dec b < 256 ^ len b.
Proof.
  induction 1 as [|x l Hx _ IH]; cbn [le_dec].
  - cbv. split; [discriminate|reflexivity].
  - unfold len in *. cbn [List.length]. rewrite Nat2Z.inj_succ, Z.pow_succ_r by lia.
    unfold is_byte in Hx. lia.
Qed.

Lemma sim_prim {A} (P : Z -> A -> Prop) W n (f : bytes -> Z) (e : M A) acc :
  (forall b, length b = n -> Forall is_byte b -> forall p t d, exists v p',
     e (mk p (b ++ t) d) = (Done v, mk p' t d) /\ P (f b) v) ->
  sim W never acc (val acc P) e (bind (take n) (fun b => ret (f b))).
Proof.
  intros H b x t Hb E _ p d. unfold bind, take in E.
  destruct (Nat.ltb_spec (length b) n) as [|L]; [discriminate|].
  unfold ret in E. injection E as <- <-. left.
  rewrite <- (firstn_skipn n b) in Hb. apply Forall_app in Hb. destruct Hb as [Hb _].
  assert (Hn : length (firstn n b) = n) by (rewrite firstn_length; lia).
  destruct (H _ Hn Hb p (skipn n b) d) as (v & p' & Ee & HP).
  exists v, p', []. rewrite firstn_skipn in Ee. rewrite !app_nil_r. split; [exact Ee|].
  split; [exact HP|reflexivity].
Qed.

Lemma eu16_run a b p t d : 0 <= a < 256 ->
  eu16 (mk p (a :: b :: t) d) = (Done (a + 256 * b), mk (b :: a :: p) t d).
Proof.
  intros Ha. unfold eu16, ebind. rewrite eu8_cons, eu8_cons. unfold eret.
  rewrite lor_add by (try lia; exact Ha). reflexivity.
Qed.

Lemma eu32_run a b a' b' p t d :
  is_byte a -> is_byte b -> is_byte a' -> is_byte b' ->
  eu32 (mk p (a :: b :: a' :: b' :: t) d)
  = (Done (le_dec [a; b; a'; b']), mk (b' :: a' :: b :: a :: p) t d).
Proof.
  unfold is_byte. intros Ha Hb Ha' Hb'. unfold eu32, ebind.
  rewrite eu16_run by exact Ha. rewrite eu16_run by exact Ha'. unfold eret.
  rewrite lor_add by lia. do 2 f_equal. cbn [le_dec]. lia.
Qed.

Lemma eu64_run a b c e a' b' c' e' p t d :
  Forall is_byte [a; b; c; e; a'; b'; c'; e'] ->
  eu64 (mk p (a :: b :: c :: e :: a' :: b' :: c' :: e' :: t) d)
  = (Done (le_dec [a; b; c; e; a'; b'; c'; e']),
     mk (e' :: c' :: b' :: a' :: e :: c :: b :: a :: p) t d).
Proof.
  intros H. repeat match goal with H : Forall _ (_ :: _) |- _ => inversion H; clear H; subst end.
  unfold eu64, ebind. rewrite eu32_run by assumption. rewrite eu32_run by assumption. unfold eret.
  unfold is_byte in *. rewrite lor_add.
  - do 2 f_equal. cbn [le_dec]. lia.
  - lia.
  - cbn [le_dec]. lia.
Qed.

Ltac take_apart b Hn Hb :=
  repeat (destruct b as [|? b]; [discriminate Hn|]);
  destruct b; [|discriminate Hn];
  repeat match goal with H : Forall _ (_ :: _) |- _ => inversion H; clear H; subst end.

Lemma sim_u8 W acc : sim W never acc (val acc eq) eu8 ru8.
Proof.
  apply sim_prim. intros b Hn Hb p t d. take_apart b Hn Hb. cbn [app].
  eexists _, _. split; [apply eu8_cons|]. cbn [dec le_dec]. lia.
Qed.

Lemma sim_u16 W acc : sim W never acc (val acc eq) eu16 (ru16 LE).
Proof.
  apply sim_prim. intros b Hn Hb p t d. take_apart b Hn Hb. cbn [app].
  eexists _, _. split; [apply eu16_run; assumption|]. cbn [dec le_dec]. lia.
Qed.

Lemma sim_u32 W acc : sim W never acc (val acc eq) eu32 (ru32 LE).
Proof.
  apply sim_prim. intros b Hn Hb p t d. take_apart b Hn Hb. cbn [app].
  eexists _, _. split; [apply eu32_run; assumption|]. reflexivity.
Qed.

Lemma sim_u64 W acc : sim W never acc (val acc eq) eu64 (ru64 LE).
Proof.
  apply sim_prim. intros b Hn Hb p t d.
  pose proof Hb as Hb'. take_apart b Hn Hb. cbn [app].
  eexists _, _. split; [apply eu64_run; repeat (apply Forall_cons; [assumption|]); apply Forall_nil|]. reflexivity.
Qed.

Lemma sim_double W acc : sim W never acc (val acc eq) edouble rdouble.
Proof. apply sim_u64. Qed.

(** A signed number read as an unsigned one and as a signed one. *)
Definition rel_signed (w : Z) (x v : Z) : Prop := x = as_signed w v /\ 0 <= v < 2 ^ w.

Lemma sim_signed W acc n w (e : M Z) :
  w = 8 * Z.of_nat n -> (0 < n)%nat ->
  (forall W acc, sim W never acc (val acc eq) e (runsigned LE n)) ->
  sim W never acc (val acc (rel_signed w)) e (rsigned LE n).
Proof.
  intros -> Hn H b x t Hb E Hw p d. unfold rsigned, bind, take in E.
  destruct (Nat.ltb_spec (length b) n) as [|L]; [discriminate|].
  unfold ret in E. injection E as Ex Et.
  destruct (H W acc b (le_dec (firstn n b)) t Hb) with (p := p) (d := d)
    as [(v & p' & a & Ee & [Hv Ha])|[[] _]].
  - unfold runsigned, bind, take. destruct (Nat.ltb_spec (length b) n); [lia|].
    unfold ret. cbn [dec]. rewrite Et. reflexivity.
  - exact Hw.
  - left. exists v, p', a. split; [exact Ee|]. split; [|exact Ha]. subst v.
    rewrite <- (firstn_skipn n b) in Hb. apply Forall_app in Hb. destruct Hb as [Hb _].
    pose proof (le_dec_bound _ Hb) as HB. unfold len in HB. rewrite firstn_length in HB.
    replace (Nat.min n (length b)) with n in HB by lia.
    assert (P : 256 ^ Z.of_nat n = 2 ^ (8 * Z.of_nat n)) by (rewrite Z.pow_mul_r by lia; reflexivity).
    split; [|rewrite <- P; exact HB].
    rewrite <- Ex. unfold as_signed, pow256. cbn [dec].
    rewrite <- P.
    assert (P2 : 256 ^ Z.of_nat n / 2 = 2 ^ (8 * Z.of_nat n - 1)).
    { rewrite P. replace (8 * Z.of_nat n) with (Z.succ (8 * Z.of_nat n - 1)) at 1 by lia.
      rewrite Z.pow_succ_r by lia. rewrite Z.mul_comm, Z.div_mul by lia. reflexivity. }
    rewrite P2. reflexivity.
Qed.

Lemma sim_u16_s16 W acc : sim W never acc (val acc (rel_signed 16)) eu16 (rs16 LE).
Proof. apply sim_signed; [reflexivity|lia|apply sim_u16]. Qed.

Lemma sim_u32_s32 W acc : sim W never acc (val acc (rel_signed 32)) eu32 (rs32 LE).
Proof. apply sim_signed; [reflexivity|lia|apply sim_u32]. Qed.

Lemma sim_then {A B C} W (Q : A -> Prop) acc (P : A -> B -> Prop) (P' : A -> C -> Prop)
    (e : M B) (f : B -> C) r :
  sim W Q acc (val acc P) e r -> (forall x v, P x v -> P' x (f v)) ->
  sim W Q acc (val acc P') (ebind e (fun v => eret (f v))) r.
Proof.
  intros H HP b x t Hb E Hw p d.
  destruct (H b x t Hb E Hw p d) as [(v & p' & a & Ee & [Hv Ha])|(Hq & s & Ee)].
  - left. exists (f v), p', a. unfold ebind. rewrite Ee. split; [reflexivity|].
    split; [apply HP; exact Hv|exact Ha].
  - right. split; [exact Hq|]. exists s. unfold ebind. rewrite Ee. reflexivity.
Qed.

Lemma sim_s8 W acc : sim W never acc (val acc eq) es8 rs8.
Proof.
  unfold es8. apply (sim_then W never acc (rel_signed 8)).
  - apply sim_signed; [reflexivity|lia|apply sim_u8].
  - intros x v [-> _]. reflexivity.
Qed.

Lemma sim_s16 W acc : sim W never acc (val acc eq) es16 (rs16 LE).
Proof.
  unfold es16. apply (sim_then W never acc (rel_signed 16)); [apply sim_u16_s16|].
  intros x v [-> _]. reflexivity.
Qed.

Lemma sim_s32 W acc : sim W never acc (val acc eq) es32 (rs32 LE).
Proof.
  unfold es32. apply (sim_then W never acc (rel_signed 32)); [apply sim_u32_s32|].
  intros x v [-> _]. reflexivity.
Qed.

Lemma sim_s64 W acc : sim W never acc (val acc eq) es64 (rs64 LE).
Proof.
  unfold es64. apply (sim_then W never acc (rel_signed 64)).
  - apply sim_signed; [reflexivity|lia|apply sim_u64].
  - intros x v [-> _]. reflexivity.
Qed.

Lemma sim_date W acc : sim W never acc (val acc eq) eu32 (rdate LE).
Proof. apply sim_u32. Qed.

Lemma sim_ref W acc n : sim W never acc (val acc eq) eu32 (rref {| ibo := LE; inobj := n |}).
Proof.
  intros b x t Hb E Hw p d. unfold rref, bind in E. cbn [ibo] in E.
  destruct (ru32 LE b) as [[y t']|] eqn:Ey; [|discriminate].
  destruct (ref_valid _ y); [|discriminate]. unfold ret in E. injection E as <- <-.
  exact (sim_u32 W acc b y t' Hb Ey Hw p d).
Qed.

Lemma sim_bool W acc : sim W never acc (val acc eq) ebool rbool.
Proof.
  unfold ebool, rbool. eapply sim_bind; [apply loc_u8|apply sim_u8|intros ? []|].
  intros x v a [<- ->]. apply sim_ret. split; reflexivity.
Qed.

Lemma sim_tag W acc n : sim W never acc (val acc eq) (etag n) (rtag n).
Proof.
  unfold etag, rtag. eapply sim_bind; [apply loc_u8|apply sim_u8|intros ? []|].
  intros x v a [<- ->]. destruct (x =? n); [|apply sim_fail]. apply sim_ret. split; reflexivity.
Qed.

Lemma sim_exp10 W acc : sim W never acc (val acc eq) eexp10 (rexp10 LE).
Proof.
  unfold eexp10, rexp10. eapply sim_bind; [auto with loc|apply sim_s32|intros ? []|].
  intros x v a [<- ->]. eapply sim_bind; [auto with loc|apply sim_s16|intros ? []|].
  intros y v a [<- ->]. unfold exp10_value. destruct (pow10 y); [|apply sim_fail].
  apply sim_ret. split; reflexivity.
Qed.

(** ** Byte strings and texts *)

Lemma elist_u8 (b : bytes) p t d :
  elist (length b) eu8 (mk p (b ++ t) d) = (Done b, mk (rev b ++ p) t d).
Proof.
  revert p. induction b as [|x b IH]; intros p; [reflexivity|].
  cbn [elist length app]. unfold ebind. rewrite eu8_cons, IH. unfold eret.
  cbn [rev]. rewrite <- app_assoc. reflexivity.
Qed.

Lemma sim_bytes acc n : sim more never acc (val acc eq) (ebytes n) (fread n).
Proof.
  intros b x t Hb E Hw p d. unfold fread in E.
  destruct (Z.ltb_spec n 0) as [|Ln]; [injection E as <- <-; destruct (Hw eq_refl)|].
  injection E as <- <-. unfold len in *.
  destruct (Z.leb_spec n (Z.of_nat (length b))) as [L|L].
  - left. rewrite Z.min_l in * by lia. unfold ebytes.
    exists (firstn (Z.to_nat n) b). eexists _, []. rewrite !app_nil_r. split; [|split; reflexivity].
    pose proof (elist_u8 (firstn (Z.to_nat n) b) p (skipn (Z.to_nat n) b) d) as H.
    rewrite firstn_skipn, firstn_length in H.
    replace (Nat.min (Z.to_nat n) (length b)) with (Z.to_nat n) in H by lia. exact H.
  - exfalso. apply Hw. rewrite Z.min_r by lia. rewrite Nat2Z.id. apply skipn_all.
Qed.

Lemma sim_bytes_signed acc x v : rel_signed 32 x v ->
  sim more never acc (val acc eq) (ebytes v) (fread x).
Proof.
  intros [Hx Hv]. unfold as_signed in Hx. destruct (Z.ltb_spec v (2 ^ (32 - 1))) as [L|L].
  - subst x. apply sim_bytes.
  - intros b y t Hb E Hw. unfold fread in E. destruct (Z.ltb_spec x 0); [|lia].
    injection E as <- <-. destruct (Hw eq_refl).
Qed.

Lemma mac_dec1_zero x : is_byte x -> mac_dec1 x = 0 -> x = 0.
Proof.
  intros Hx E.
  assert (H : forallb (fun k => negb (mac_dec1 (Z.of_nat k) =? 0) || Nat.eqb k 0) (seq 0 256) = true)
    by (vm_compute; reflexivity).
  rewrite forallb_forall in H. specialize (H (Z.to_nat x)).
  unfold is_byte in Hx. rewrite Z2Nat.id in H by lia. rewrite E in H.
  assert (Hi : In (Z.to_nat x) (seq 0 256)) by (apply in_seq; lia).
  specialize (H Hi). cbn [negb orb Z.eqb] in H. apply Nat.eqb_eq in H. lia.
Qed.

Lemma lstrip0_cons x b : lstrip0 (x :: b) = if x =? 0 then lstrip0 b else x :: b.
Proof. destruct x; reflexivity. Qed.

Lemma lstrip0_mac (b : bytes) : Forall is_byte b ->
  lstrip0 (map mac_dec1 b) = map mac_dec1 (lstrip0 b) /\ Forall is_byte (lstrip0 b).
Proof.
  induction 1 as [|x b Hx Hb [IH IHb]]; [split; constructor|].
  cbn [map]. rewrite !lstrip0_cons. destruct (Z.eqb_spec x 0) as [->|N].
  - change (mac_dec1 0 =? 0) with true. cbn iota. split; assumption.
  - destruct (Z.eqb_spec (mac_dec1 x) 0) as [E|_].
    + destruct (N (mac_dec1_zero x Hx E)).
    + split; [reflexivity|constructor; assumption].
Qed.

Lemma strip0_mac (b : bytes) : Forall is_byte b ->
  strip0 (map mac_dec1 b) = map mac_dec1 (strip0 b).
Proof.
  intros Hb. unfold strip0. destruct (lstrip0_mac b Hb) as [-> Hb'].
  rewrite <- map_rev. destruct (lstrip0_mac (rev (lstrip0 b))) as [-> _].
  - apply Forall_rev. exact Hb'.
  - rewrite <- map_rev. reflexivity.
Qed.

Definition rel_text (x v : str) : Prop := x = strip0 v.

Lemma sim_text acc : sim more never acc (val acc rel_text) etext (rstr LE).
Proof.
  unfold etext, edata16, rstr, rstr_enc. apply sim_assoc.
  eapply sim_bind; [auto with loc|apply sim_u16|intros ? []|].
  intros n n' a [<- ->]. destruct (Z.ltb_spec n 65535), (Z.leb_spec 65535 n); try lia.
  - intros b x t Hb E Hw p d. unfold bind in E.
    destruct (fread n b) as [[s t']|] eqn:Ef; [|discriminate].
    cbn [decode] in E. unfold mac_decode in E. unfold ret in E. injection E as <- <-.
    destruct (sim_bytes acc n b s t' Hb Ef Hw p d) as [(v & p' & a & Ee & [<- Ha])|[[] _]].
    left. exists (map mac_dec1 s), p', a. unfold ebind. rewrite Ee. split; [reflexivity|].
    split; [|exact Ha]. unfold rel_text. symmetry. apply strip0_mac.
    unfold fread in Ef. destruct (n <? 0).
    + injection Ef as <- <-. exact Hb.
    + injection Ef as <- <-. rewrite <- (firstn_skipn (Z.to_nat (Z.min n (len b))) b) in Hb.
      apply Forall_app in Hb. apply Hb.
  - apply sim_eret. apply sim_ret. split; reflexivity.
Qed.

(** ** Identifiers *)

Lemma sim_rawuuid acc W n :
  sim W never acc (fun x (_ : unit) a => a = acc ++ [(n, One (CUuid x))]) (erawuuid n) (rrawuuid LE).
Proof.
  unfold erawuuid, rrawuuid. intros b x t Hb E Hw p d. unfold bind in E.
  destruct (fread 16 b) as [[s t']|] eqn:Ef; [|discriminate].
  unfold of_result, uuid_of_bytes_le in E. destruct (Z.eqb_spec (len s) 16) as [Es|]; [|discriminate].
  unfold ret in E. injection E as <- <-.
  unfold fread in Ef. cbn [Z.ltb Z.compare] in Ef. injection Ef as <- <-.
  unfold len in *. rewrite firstn_length in Es.
  assert (L : (16 <= length b)%nat) by lia.
  rewrite Z.min_l by lia. change (Z.to_nat 16) with 16%nat.
  left. exists tt. eexists _, [(n, One (CUuid (uuid_swap (firstn 16 b))))].
  split; [|reflexivity]. unfold ebind, ebytes.
  pose proof (elist_u8 (firstn 16 b) p (skipn 16 b) d) as H.
  rewrite firstn_skipn, firstn_length in H. replace (Nat.min 16 (length b)) with 16%nat in H by lia.
  change (Z.to_nat 16) with 16%nat. rewrite H. reflexivity.
Qed.

Lemma sim_rassoc {A B C D} W (Q : C -> Prop) acc (R : C -> D -> props -> Prop)
    e (a : reader A) (f : A -> reader B) (g : B -> reader C) :
  sim W Q acc R e (bind a (fun x => bind (f x) g)) -> sim W Q acc R e (bind (bind a f) g).
Proof.
  intros H b x t Hb E. apply (H b x t Hb). rewrite <- E. unfold bind.
  destruct (a b) as [[? ?]|]; reflexivity.
Qed.

Lemma sim_of_result {A B C} W (Q : B -> Prop) acc (R : B -> C -> props -> Prop) e
    (o : result A) (k : A -> reader B) :
  (forall y, o = Ok y -> sim W Q acc R e (k y)) -> sim W Q acc R e (bind (of_result o) k).
Proof.
  intros H. destruct o as [y|err]; [exact (H y eq_refl)|]. intros b x t Hb E. discriminate E.
Qed.

Lemma fread_full n (b x t : bytes) :
  fread n b = Ok (x, t) -> len x = n -> 0 <= n ->
  b = x ++ t /\ forall p d, ebytes n (mk p b d) = (Done x, mk (rev x ++ p) t d).
Proof.
  intros E Hx Hn. assert (Eb : b = x ++ t).
  { unfold fread in E. destruct (n <? 0).
    - injection E as <- <-. symmetry. apply app_nil_r.
    - injection E as <- <-. symmetry. apply firstn_skipn. }
  split; [exact Eb|]. intros p d. rewrite Eb. unfold ebytes, len in *.
  replace (Z.to_nat n) with (length x) by lia. apply elist_u8.
Qed.

(** Bytes whose number is looked at later on. *)
Lemma sim_fread_checked {A B} W (Q : A -> Prop) acc (R : A -> B -> props -> Prop) n k1 k :
  0 <= n ->
  (forall x b y t, k x b = Ok (y, t) -> len x = n) ->
  (forall x, len x = n -> Forall is_byte x -> sim W Q acc R (k1 x) (k x)) ->
  sim W Q acc R (ebind (ebytes n) k1) (bind (fread n) k).
Proof.
  intros Hn HL H b y t Hb E Hw p d. unfold bind in E.
  destruct (fread n b) as [[x t1]|] eqn:E1; [|discriminate].
  pose proof (HL _ _ _ _ E) as Hx. destruct (fread_full _ _ _ _ E1 Hx Hn) as [Eb Ee].
  rewrite Eb in Hb. apply Forall_app in Hb. destruct Hb as [Hbx Hbt].
  unfold ebind. rewrite Ee. exact (H x Hx Hbx t1 y t Hbt E Hw _ d).
Qed.

(** Bytes after which there are more. *)
Lemma sim_fread_more {A B} W (Q : A -> Prop) acc (R : A -> B -> props -> Prop) n k1 k :
  0 <= n -> (forall x, rejects_end (k x)) ->
  (forall x, len x = n -> Forall is_byte x -> sim W Q acc R (k1 x) (k x)) ->
  sim W Q acc R (ebind (ebytes n) k1) (bind (fread n) k).
Proof.
  intros Hn HL H b y t Hb E Hw p d. unfold bind in E.
  destruct (fread n b) as [[x t1]|] eqn:E1; [|discriminate].
  assert (Hx : len x = n).
  { unfold fread in E1. destruct (Z.ltb_spec n 0); [lia|]. injection E1 as <- <-.
    unfold len in *. destruct (Z.leb_spec n (Z.of_nat (length b))) as [L|L].
    - rewrite Z.min_l by lia. rewrite firstn_length. lia.
    - exfalso. rewrite Z.min_r in E by lia. rewrite Nat2Z.id, skipn_all in E.
      destruct (HL (firstn (length b) b)) as [e E']. rewrite E' in E. discriminate. }
  destruct (fread_full _ _ _ _ E1 Hx Hn) as [Eb Ee].
  rewrite Eb in Hb. apply Forall_app in Hb. destruct Hb as [Hbx Hbt].
  unfold ebind. rewrite Ee. exact (H x Hx Hbx t1 y t Hbt E Hw _ d).
Qed.

(** A number that has to be a given one. *)
Lemma sim_count {A B} W (Q : A -> Prop) acc (R : A -> B -> props -> Prop) n k1 (k : unit -> reader A) :
  0 <= n < 2 ^ 31 ->
  sim W Q acc R (k1 tt) (k tt) ->
  sim W Q acc R (ebind eu32 (fun v => ebind (if v =? n then eret tt else efail) k1))
    (bind (rs32 LE) (fun x => bind (rassert (x =? n)) k)).
Proof.
  intros Hn H. eapply sim_bind; [auto with loc|apply sim_u32_s32|intros ? []|].
  intros x v a [[Hx Hv] ->]. apply sim_assert. intros Ex. apply Z.eqb_eq in Ex.
  unfold as_signed in Hx. destruct (Z.ltb_spec v (2 ^ (32 - 1))) as [L|L]; [|lia].
  assert (Ev : v = n) by lia. cbv beta. rewrite Ev, Z.eqb_refl. apply sim_skip. exact H.
Qed.

Lemma sim_count_u {A B} W (Q : A -> Prop) acc (R : A -> B -> props -> Prop) n k1 (k : unit -> reader A) :
  sim W Q acc R (k1 tt) (k tt) ->
  sim W Q acc R (ebind eu32 (fun v => ebind (if v =? n then eret tt else efail) k1))
    (bind (ru32 LE) (fun x => bind (rassert (x =? n)) k)).
Proof.
  intros H. eapply sim_bind; [auto with loc|apply sim_u32|intros ? []|].
  intros x v a [<- ->]. apply sim_assert. intros Ex. cbv beta. rewrite Ex. apply sim_skip. exact H.
Qed.

(** A value both readers agree on. *)
Lemma sim_step {A B C} W (Q : B -> Prop) acc (R : B -> C -> props -> Prop) (e1 : M A) r1 k1 k :
  loc r1 -> sim any never acc (val acc eq) e1 r1 ->
  (forall v, sim W Q acc R (k1 v) (k v)) ->
  sim W Q acc R (ebind e1 k1) (bind r1 k).
Proof.
  intros Hl H1 H. eapply sim_bind; [exact Hl|exact H1|intros ? []|].
  intros x v a [<- ->]. apply H.
Qed.

Lemma step_tag {A B} (k1 : unit -> M B) (k : unit -> reader A) W Q acc (R : A -> B -> props -> Prop) c :
  sim W Q acc R (k1 tt) (k tt) -> sim W Q acc R (ebind (etag c) k1) (bind (rtag c) k).
Proof.
  intros H. apply sim_step; [auto with loc|apply sim_tag|]. intros []. exact H.
Qed.

Lemma step_u8 {A B} (k1 : Z -> M B) (k : Z -> reader A) W Q acc (R : A -> B -> props -> Prop) :
  (forall v, sim W Q acc R (k1 v) (k v)) -> sim W Q acc R (ebind eu8 k1) (bind ru8 k).
Proof. intros H. apply sim_step; [auto with loc|apply sim_u8|exact H]. Qed.

Lemma ebytes12 : ebytes 12 = elist 12 eu8.
Proof. reflexivity. Qed.

Lemma Forall2_eq {A} (l l' : list A) : Forall2 eq l l' -> l = l'.
Proof. induction 1; congruence. Qed.

Ltac len_list l H :=
  repeat (let x := fresh "x" in destruct l as [|x l];
    [exfalso; unfold len in H; cbn [List.length] in H; lia|]);
  let x := fresh "x" in
  destruct l as [|x l]; [|exfalso; unfold len in H; cbn [List.length] in H; lia].

Lemma len_cons_inv {A} (l : list A) n : 0 < n -> len l = n -> exists x t, l = x :: t /\ len t = n - 1.
Proof.
  intros Hn H. destruct l as [|x t]; unfold len in *; cbn [List.length] in *; [lia|].
  exists x, t. split; [reflexivity|lia].
Qed.

Ltac explode l H :=
  lazymatch type of H with
  | len _ = 0 => destruct l; [clear H|exfalso; unfold len in H; cbn [List.length] in H; lia]
  | len _ = ?n =>
    let x := fresh "x" in let t := fresh "t" in let E := fresh "E" in let H' := fresh "H" in
    destruct (len_cons_inv l n ltac:(lia) H) as (x & t & E & H'); subst l; clear H;
    let m := eval vm_compute in (n - 1) in change (n - 1) with m in H'; explode t H'
  end.

Lemma sim_mobid acc W n :
  sim W never acc (fun x (_ : unit) a => a = acc ++ [(n, One (CMob x))]) (emobid n) (rmobid LE).
Proof.
  unfold emobid, rmobid. apply step_tag. apply sim_count; [lia|].
  rewrite ebytes12.
  eapply sim_bind; [apply loc_rlist; auto with loc|
    apply sim_list; [auto with loc|apply sim_u8]|intros ? []|].
  intros label l' a [Hl ->]. apply Forall2_eq in Hl. subst l'.
  apply sim_of_result. intros m1 E1. unfold m_set_label in E1.
  destruct (Z.eqb_spec (len label) 12) as [L|]; [|discriminate].
  destruct (forallb byte_ok label); [|discriminate]. injection E1 as <-.
  apply step_tag, step_u8. intros a. apply sim_of_result. intros m2 E2.
  unfold m_set_length, m_set_byte in E2. destruct (byte_ok a); [|discriminate]. injection E2 as <-.
  apply step_tag, step_u8. intros b. apply sim_of_result. intros m3 E3.
  unfold m_set_instanceHigh, m_set_byte in E3. destruct (byte_ok b); [|discriminate]. injection E3 as <-.
  apply step_tag, step_u8. intros c. apply sim_of_result. intros m4 E4.
  unfold m_set_instanceMid, m_set_byte in E4. destruct (byte_ok c); [|discriminate]. injection E4 as <-.
  apply step_tag, step_u8. intros d. apply sim_of_result. intros m5 E5.
  unfold m_set_instanceLow, m_set_byte in E5. destruct (byte_ok d); [|discriminate]. injection E5 as <-.
  unfold ruuid. apply sim_rassoc.
  apply step_tag. apply sim_rassoc. apply sim_fread_more; [lia|intros; eexists; reflexivity|].
  intros d1 L1 _. apply sim_rassoc, step_tag, sim_rassoc.
  apply sim_fread_more; [lia|intros; eexists; reflexivity|].
  intros d2 L2 _. apply sim_rassoc, step_tag, sim_rassoc.
  apply sim_fread_more; [lia|intros; eexists; reflexivity|].
  intros d3 L3 _. apply sim_rassoc, step_tag, sim_rassoc.
  eapply sim_bind; [auto with loc|apply sim_u32_s32|intros ? []|].
  intros x v ? [[Hx Hv] ->]. apply sim_rassoc, sim_assert. intros Ex. apply Z.eqb_eq in Ex.
  unfold as_signed in Hx. destruct (Z.ltb_spec v (2 ^ (32 - 1))) as [L5|L5]; [|lia].
  assert (Ev : v = 8) by lia. cbv beta. rewrite Ev, Z.eqb_refl. apply sim_skip.
  apply sim_rassoc. apply sim_fread_checked; [lia| |].
  - intros d4 bb y t E. unfold bind, of_result, uuid_of_bytes_le in E.
    destruct (Z.eqb_spec (len (d1 ++ d2 ++ d3 ++ d4)) 16) as [E4|]; [|discriminate].
    unfold len in *. rewrite !app_length in E4. lia.
  - intros d4 L4 _. apply sim_of_result. intros u Eu. unfold uuid_of_bytes_le in Eu.
    destruct (len (d1 ++ d2 ++ d3 ++ d4) =? 16); [|discriminate]. injection Eu as <-.
    apply sim_put_ret. do 4 f_equal.
    explode label L. explode d1 L1. explode d2 L2. explode d3 L3. explode d4 L4. reflexivity.
Qed.

(** What follows may be left out on the accelerated side when it changes nothing. *)
Lemma sim_close {A} W (Q : A -> Prop) acc (R : A -> unit -> props -> Prop) c x :
  R x tt acc -> sim W Q acc R (etag c) (bind (rtag c) (fun _ => ret x)).
Proof.
  intros H b y t Hb E _ p d. unfold bind in E.
  destruct (rtag c b) as [[[] t1]|] eqn:Et; [|discriminate]. injection E as <- <-.
  destruct (sim_tag any acc c b tt t1 Hb Et I p d) as [(v & p' & a & Ee & [Hv Ha])|[[] _]].
  left. exists v, p', a. split; [exact Ee|]. destruct v. rewrite Ha. exact H.
Qed.

(** The value is put into an object afterwards. *)
Lemma sim_map {A B C} W (Q1 : A -> Prop) (Q : B -> Prop) acc (R1 : A -> C -> props -> Prop)
    (R : B -> C -> props -> Prop) e (r : reader A) (f : A -> B) :
  sim W Q1 acc R1 e r -> (forall x, Q1 x -> Q (f x)) -> (forall x v a, R1 x v a -> R (f x) v a) ->
  sim W Q acc R e (bind r (fun x => ret (f x))).
Proof.
  intros H HQ HR b y t Hb E Hw p d. unfold bind in E.
  destruct (r b) as [[x t1]|] eqn:E1; [|discriminate]. unfold ret in E. injection E as <- <-.
  destruct (H b x t1 Hb E1 Hw p d) as [(v & p' & a & Ee & Hr)|(Hq & s & Ee)].
  - left. exists v, p', a. split; [exact Ee|apply HR; exact Hr].
  - right. split; [apply HQ; exact Hq|exists s; exact Ee].
Qed.

Lemma sim_rret {A B C} W (Q : B -> Prop) acc (R : B -> C -> props -> Prop) e (v : A) (k : A -> reader B) :
  sim W Q acc R e (k v) -> sim W Q acc R e (bind (ret v) k).
Proof. intros H. exact H. Qed.

Lemma sim_drop {A B} W (Q : A -> Prop) acc (I : A -> B -> props -> Prop) (R : A -> unit -> props -> Prop)
    e (r : reader A) :
  sim W Q acc I e r -> (forall x v a, I x v a -> R x tt a) ->
  sim W Q acc R (ebind e (fun _ => eret tt)) r.
Proof.
  intros H HR b x t Hb E Hw p d. destruct (H b x t Hb E Hw p d) as [(v & p' & a & Ee & Hr)|(Hq & s & Ee)].
  - left. exists tt, p', a. unfold ebind. rewrite Ee. split; [reflexivity|eapply HR; exact Hr].
  - right. split; [exact Hq|]. exists s. unfold ebind. rewrite Ee. reflexivity.
Qed.

(** The end of an object that only the standard reader looks at. *)
Lemma sim_closed {A B} (Q : A -> Prop) acc (R : A -> B -> props -> Prop) e (r : reader A) data x t :
  sim any Q acc R e r -> Forall is_byte data -> r data = Ok (x, t) ->
  forall p d,
    (exists v p' t' add, e (mk p data d) = (Done v, mk p' t' (d ++ add)) /\ R x v (acc ++ add)) \/
    (Q x /\ exists s, e (mk p data d) = (Thrown, s)).
Proof.
  intros H Hb E p d.
  destruct (H data x t Hb E I p d) as [(v & p' & a & Ee & Hr)|Hq]; [|right; exact Hq].
  left. exists v, p', t, a. split; assumption.
Qed.

Lemma sim_unclosed {A B} (Q : A -> Prop) acc (R : A -> B -> props -> Prop) e (r : reader A) data x t :
  sim any Q acc R e r -> Forall is_byte data ->
  bind r (fun o => bind (rtag 3) (fun _ => ret o)) data = Ok (x, t) ->
  forall p d,
    (exists v p' t' add, e (mk p data d) = (Done v, mk p' t' (d ++ add)) /\ R x v (acc ++ add)) \/
    (Q x /\ exists s, e (mk p data d) = (Thrown, s)).
Proof.
  intros H Hb E. unfold bind at 1 in E. destruct (r data) as [[o t']|] eqn:Er; [|discriminate].
  unfold bind in E. destruct (rtag 3 t') as [[? ?]|]; [|discriminate].
  unfold ret in E. injection E as <- _.
  eapply sim_closed; eassumption.
Qed.
