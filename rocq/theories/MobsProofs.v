(** Facts about mob lookup and the listing of dependent mobs. *)
From Coq Require Import ZArith List Bool Lia.
From Verif Require Import Base Mobs MobsSpec.
Import ListNotations.
Open Scope Z_scope.

(** ** Lookup *)

(** The entries the loop makes. *)
Definition entries (mid : Z -> Z) (ms : list Z) : list (Z * Z) := rev (map (fun m => (mid m, m)) ms).

Lemma build_all : forall mid ms d, build_dict mid (map Some ms) d = (entries mid ms ++ d, None).
Proof.
  induction ms as [|m ms IH]; intros d; [reflexivity|]. cbn [map build_dict]. rewrite IH. unfold entries. cbn [map rev].
  now rewrite <- app_assoc.
Qed.

Lemma dict_get_app : forall a b key, dict_get (a ++ b) key = match dict_get a key with Some v => Some v | None => dict_get b key end.
Proof.
  induction a as [|[k v] a IH]; intros b key; [reflexivity|]. cbn [app dict_get]. destruct (k =? key); [reflexivity|apply IH].
Qed.

(** ** The walk *)

Section Walk.
Variable refs : Z -> list Z.
Variable mid : Z -> Z.
Variable self : Z.

Inductive steps : walk_state -> walk_state -> Prop :=
| steps_refl : forall s, steps s s
| steps_turn : forall s mob rest t, w_stack s = mob :: rest -> steps (walk_turn refs mid self s mob rest) t -> steps s t.

Lemma steps_trans : forall a b c, steps a b -> steps b c -> steps a c.
Proof. induction 1; auto. intros. eapply steps_turn; eauto. Qed.

Lemma steps_loop : forall a b, steps a b -> w_stack b = [] -> exists n, forall k, (n <= k)%nat -> walk_loop k refs mid self a = Ok (rev (w_out b)).
Proof.
  induction 1 as [s|s mob rest t E H IH]; intros B.
  - exists O. intros k _. destruct k; cbn [walk_loop]; now rewrite B.
  - destruct (IH B) as [n Hn]. exists (S n). intros k Hk. destruct k as [|k]; [lia|]. cbn [walk_loop]. rewrite E. apply Hn. lia.
Qed.

Notation leads := (leads refs).

Lemma leads_trans : forall a b c, leads a b -> leads b c -> leads a c.
Proof. induction 1; auto. intros. eapply leads_step; eauto. Qed.

Lemma visitedb_in : forall v x, visitedb v x = true <-> In x v.
Proof.
  intros v x. unfold visitedb. rewrite existsb_exists. split.
  - intros (y & I & E). apply Z.eqb_eq in E. now subst.
  - intros I. exists x. split; [exact I|apply Z.eqb_refl].
Qed.

Variable top : Z.
Hypothesis ids : ids_apart refs mid top.

(** What holds between turns: the mobs whose IDs are in [visited] have been yielded (but for
    [self]), each after all that its sources lead to. *)
Record fine (s : walk_state) : Prop := {
  f_from : forall i, In i (w_visited s) -> exists a, leads top a /\ mid a = i;
  f_closed : forall a b, leads top a -> In (mid a) (w_visited s) -> leads a b -> In (mid b) (w_visited s);
  f_out : forall a, In a (w_out s) <-> leads top a /\ In (mid a) (w_visited s) /\ a <> self;
  f_nodup : NoDup (w_out s);
  f_order : forall p a q, w_out s = p ++ a :: q -> forall b, leads a b -> b <> a -> b <> self -> In b q }.

Lemma filter_none : forall (f : Z -> bool) l, filter f l = [] -> forall x, In x l -> f x = false.
Proof.
  intros f l H x I. destruct (f x) eqn:E; [|reflexivity]. exfalso.
  assert (In x (filter f l)) as J by (apply filter_In; auto). rewrite H in J. exact J.
Qed.

(** A mob on top of the stack is worked off: the rest of the stack is reached, and exactly what the
    mob leads to has become visited. [n] bounds the length of ways from it. *)
Lemma work_off : forall a, Acc (fun y x => In y (refs x)) a -> forall s rest,
  leads top a -> fine s -> w_stack s = a :: rest ->
  exists t, steps s t /\ w_stack t = rest /\ fine t /\
    (forall i, In i (w_visited t) <-> In i (w_visited s) \/ exists b, leads a b /\ mid b = i).
Proof.
  induction 1 as [a _ IH]; intros s rest Ta F E.
  (* the last turn for [a]: all sources visited *)
  assert (forall s, fine s -> w_stack s = a :: rest -> (forall r, In r (refs a) -> In (mid r) (w_visited s)) ->
    exists t, steps s t /\ w_stack t = rest /\ fine t /\
      (forall i, In i (w_visited t) <-> In i (w_visited s) \/ i = mid a)) as Last.
  { clear s F E. intros s F E All.
    exists (walk_turn refs mid self s a rest). split; [eapply steps_turn; [exact E|apply steps_refl]|].
    unfold walk_turn. destruct (filter _ (refs a)) as [|x l] eqn:Ef.
    2:{ exfalso. assert (In x (filter (fun r => negb (visitedb (w_visited s) (mid r))) (refs a))) as I by (rewrite Ef; now left).
        apply filter_In in I as [I N]. apply All, visitedb_in in I. rewrite I in N. discriminate. }
    destruct (visitedb (w_visited s) (mid a)) eqn:V; cbn [w_stack w_visited w_out].
    - apply visitedb_in in V. split; [reflexivity|]. split.
      + destruct F. constructor; assumption.
      + intros i. split; [auto|]. intros [?| ->]; assumption.
    - assert (~ In (mid a) (w_visited s)) as NV by (intros I; apply visitedb_in in I; congruence).
      split; [reflexivity|]. split; [|intros i; cbn [In]; split; intros [?|?]; auto].
      assert (forall b, leads a b -> b <> a -> In (mid b) (w_visited s)) as Below.
      { intros b L N. inversion L as [|? r ? I L']; subst; [contradiction|].
        eapply (f_closed s F); [|apply All; exact I|exact L']. eapply leads_trans; [exact Ta|]. eapply leads_step; [exact I|apply leads_refl]. }
      constructor; cbn [w_stack w_visited w_out].
      + intros i [<-|I]; [eauto|]. now apply (f_from s F).
      + intros x b Tx [Ex|Ix] L.
        * apply ids in Ex; [|assumption|assumption]. subst x. destruct (Z.eq_dec b a) as [->|N]; [now left|]. right. now apply Below.
        * right. now apply (f_closed s F x b).
      + intros x. destruct (Z.eqb_spec a self) as [->|N].
        * rewrite (f_out s F x). split.
          -- intros (A & B & C). repeat split; auto. now right.
          -- intros (A & [B|B] & C); [|auto]. exfalso. apply C. symmetry. now apply ids.
        * cbn [In]. rewrite (f_out s F x). split.
          -- intros [<-|(A & B & C)]; [repeat split; auto; now left|repeat split; auto].
          -- intros (A & [B|B] & C); [left; now apply ids|right; auto].
      + destruct (Z.eqb_spec a self) as [->|N]; [apply F|]. constructor; [|apply F]. intros I. apply (f_out s F) in I as (_ & I & _). contradiction.
      + intros p x q Eo b L Nb Ns. destruct (Z.eqb_spec a self) as [->|N]; [eapply (f_order s F); eauto|].
        destruct p as [|y p]; cbn [app] in Eo; injection Eo as Ey Eo.
        * subst x q. apply (f_out s F). repeat split; auto. eapply leads_trans; eauto.
        * eapply (f_order s F); eauto. }
  (* work off the sources pushed *)
  assert (forall l s st, (forall r, In r l -> In r (refs a)) -> fine s -> w_stack s = l ++ st ->
    exists t, steps s t /\ w_stack t = st /\ fine t /\
      (forall i, In i (w_visited t) <-> In i (w_visited s) \/ exists r b, In r l /\ leads r b /\ mid b = i)) as Many.
  { clear s F E Last. induction l as [|r l IHl]; intros s st Hl F E.
    - exists s. split; [apply steps_refl|]. split; [exact E|]. split; [exact F|]. intros i. split; [auto|]. intros [?|(r & b & [] & _)]; auto.
    - assert (In r (refs a)) as Ir by (apply Hl; now left).
      destruct (IH r Ir s (l ++ st)) as (t & St & Es & Ft & Vt); auto.
      { eapply leads_trans; [exact Ta|]. eapply leads_step; [exact Ir|apply leads_refl]. }
      destruct (IHl t st) as (u & Su & Eu & Fu & Vu); auto.
      { intros x I. apply Hl. now right. }
      exists u. split; [eapply steps_trans; eauto|]. split; [exact Eu|]. split; [exact Fu|].
      intros i. rewrite Vu, Vt. split.
      + intros [[?|(b & L & Eb)]|(x & b & I & L & Eb)]; auto; right; [exists r, b|exists x, b]; cbn [In]; auto.
      + intros [?|(x & b & [<-|I] & L & Eb)]; auto; [left; right; eauto|right; eauto]. }
  pose (new := filter (fun r => negb (visitedb (w_visited s) (mid r))) (refs a)).
  destruct new as [|x l] eqn:En.
  - destruct (Last s F E) as (t & St & Et & Ft & Vt).
    { intros r I. pose proof (filter_none _ _ En r I) as N. apply negb_false_iff in N. now apply visitedb_in. }
    exists t. repeat (split; [assumption|]). intros i. rewrite Vt. split.
    + intros [?| ->]; auto. right. exists a. split; [apply leads_refl|reflexivity].
    + intros [?|(b & L & <-)]; auto. inversion L as [|? r ? I L']; subst; [now right|]. left.
      pose proof (filter_none _ _ En r I) as N. apply negb_false_iff in N. apply visitedb_in in N.
      eapply (f_closed s F); [|exact N|exact L']. eapply leads_trans; [exact Ta|]. eapply leads_step; [exact I|apply leads_refl].
  - destruct (Many (rev new) (walk_turn refs mid self s a rest) (a :: rest)) as (t & St & Et & Ft & Vt).
    { intros r I. apply in_rev in I. unfold new in I. now apply filter_In in I. }
    { unfold walk_turn. fold new. rewrite En. destruct F. constructor; assumption. }
    { unfold walk_turn. fold new. rewrite En. reflexivity. }
    assert (w_visited (walk_turn refs mid self s a rest) = w_visited s) as Ev by (unfold walk_turn; fold new; rewrite En; reflexivity).
    rewrite Ev in Vt.
    destruct (Last t Ft Et) as (u & Su & Eu & Fu & Vu).
    { intros r I. apply Vt. destruct (visitedb (w_visited s) (mid r)) eqn:V; [left; now apply visitedb_in|].
      right. exists r, r. split; [|split; [apply leads_refl|reflexivity]]. apply -> in_rev. apply filter_In. split; [exact I|]. now rewrite V. }
    exists u. split.
    { eapply steps_turn; [exact E|]. eapply steps_trans; eauto. }
    repeat (split; [assumption|]). intros i. rewrite Vu, Vt. split.
    + intros [[?|(r & b & I & L & Eb)]| ->]; auto; right.
      * exists b. split; [|exact Eb]. apply in_rev in I. apply filter_In in I as [I _]. eapply leads_step; eauto.
      * exists a. split; [apply leads_refl|reflexivity].
    + intros [?|(b & L & <-)]; auto. inversion L as [|? r ? I L']; subst; [now right|]. left.
      destruct (visitedb (w_visited s) (mid r)) eqn:V.
      * left. apply visitedb_in in V. eapply (f_closed s F); [|exact V|exact L']. eapply leads_trans; [exact Ta|]. eapply leads_step; [exact I|apply leads_refl].
      * right. exists r, b. split; [|auto]. apply -> in_rev. apply filter_In. split; [exact I|]. now rewrite V.
Qed.

Lemma fine_start : fine {| w_visited := []; w_stack := [self]; w_out := [] |}.
Proof.
  constructor; cbn [w_visited w_out In]; try tauto.
  - constructor.
  - intros p a q E. destruct p; discriminate.
Qed.

(** ** Finite and without cycles: the order of sources is well founded. *)

Lemma acc_from : forall L, (forall a, leads top a -> In a L) -> acyclic refs top ->
  forall k p a, leads top a -> NoDup (a :: p) -> (forall x, In x p -> leads top x /\ leads x a) ->
  (length L <= length p + k)%nat -> Acc (fun y x => In y (refs x)) a.
Proof.
  intros L HL AC. induction k as [|k IH]; intros p a Ta ND Hp Hk.
  - exfalso. assert (length (a :: p) <= length L)%nat as H.
    { apply NoDup_incl_length; [exact ND|]. intros x [<-|I]; apply HL; [exact Ta|now apply Hp]. }
    cbn [length] in H. lia.
  - constructor. intros b I.
    assert (leads top b) as Tb by (eapply leads_trans; [exact Ta|]; eapply leads_step; [exact I|apply leads_refl]).
    assert (forall x, In x (a :: p) -> leads top x /\ leads x b) as Hq.
    { intros x [<-|J]; [split; [exact Ta|]|split; [now apply Hp|]; eapply leads_trans; [now apply Hp|]];
        eapply leads_step; [exact I|apply leads_refl|exact I|apply leads_refl]. }
    apply (IH (a :: p) b Tb); [|exact Hq|cbn [length]; lia].
    constructor; [|exact ND]. intros [E|J].
    + subst b. apply (AC a a Ta I). apply leads_refl.
    + apply (AC a b Ta I). now apply Hp.
Qed.

(** ** When the loop ends there were no cycles. *)

(** Mobs became visited after their sources. *)
Definition ordered (v : list Z) : Prop :=
  forall p i q, v = p ++ i :: q -> exists a, leads top a /\ mid a = i /\ forall r, In r (refs a) -> In (mid r) q.

Lemma ordered_tail : forall i v, ordered (i :: v) -> ordered v.
Proof. intros i v H p j q E. apply (H (i :: p) j q). now rewrite E. Qed.

Lemma ordered_suffix : forall p q, ordered (p ++ q) -> ordered q.
Proof. induction p as [|i p IH]; intros q H; [exact H|]. apply IH. eapply ordered_tail. exact H. Qed.

Lemma ordered_closed : forall a b, leads a b -> forall v, leads top a -> ordered v -> In (mid a) v -> In (mid b) v.
Proof.
  induction 1 as [a|a r c I L IH]; intros v Ta O V; [exact V|].
  apply in_split in V as (p & q & ->). destruct (O p (mid a) q eq_refl) as (a' & Ta' & Ea & Hr).
  apply ids in Ea; [|assumption|assumption]. subst a'.
  apply IH; [eapply leads_trans; [exact Ta|eapply leads_step; [exact I|apply leads_refl]]|exact O|].
  apply in_or_app. right. right. now apply Hr.
Qed.

Lemma ordered_acyclic : forall n v a b, (length v <= n)%nat -> leads top a -> ordered v -> In (mid a) v -> In b (refs a) -> ~ leads b a.
Proof.
  induction n as [|n IH]; intros v a b Hn Ta O V I L.
  - destruct v; [contradiction|cbn [length] in Hn; lia].
  - apply in_split in V as (p & q & ->). destruct (O p (mid a) q eq_refl) as (a' & Ta' & Ea & Hr).
    apply ids in Ea; [|assumption|assumption]. subst a'.
    assert (leads top b) as Tb by (eapply leads_trans; [exact Ta|]; eapply leads_step; [exact I|apply leads_refl]).
    assert (ordered q) as Oq by (eapply ordered_tail; eapply ordered_suffix; exact O).
    apply (IH q a b); auto.
    + rewrite app_length in Hn. cbn [length] in Hn. lia.
    + apply (ordered_closed b a L q Tb Oq). now apply Hr.
Qed.

Record going (s : walk_state) : Prop := {
  g_stack : forall a, In a (w_stack s) -> leads top a;
  g_ordered : ordered (w_visited s);
  g_top : In (mid top) (w_visited s) \/ exists l, w_stack s = l ++ [top] }.

Lemma going_turn : forall s a rest, going s -> w_stack s = a :: rest -> going (walk_turn refs mid self s a rest).
Proof.
  intros s a rest G E.
  assert (leads top a) as Ta by (apply (g_stack s G); rewrite E; now left).
  assert (forall x, In x rest -> leads top x) as Tr by (intros x I; apply (g_stack s G); rewrite E; now right).
  unfold walk_turn. destruct (filter _ (refs a)) as [|y new] eqn:Ef.
  - pose proof (filter_none _ _ Ef) as N.
    assert (In (mid top) (w_visited s) \/ (exists l, rest = l ++ [top]) \/ a = top) as T.
    { destruct (g_top s G) as [?|[l El]]; [now left|right]. rewrite E in El. destruct l as [|x l]; cbn [app] in El; injection El as -> ->; eauto. }
    destruct (visitedb (w_visited s) (mid a)) eqn:V.
    + constructor; cbn [w_stack w_visited]; [exact Tr|apply G|]. destruct T as [?|[?| ->]]; auto. left. now apply visitedb_in.
    + constructor; cbn [w_stack w_visited]; [exact Tr| |].
      * intros p i q Eq. destruct p as [|j p]; cbn [app] in Eq; injection Eq as <- Eq.
        -- exists a. split; [exact Ta|]. split; [reflexivity|]. subst q. intros r I. apply N in I. apply negb_false_iff in I. now apply visitedb_in.
        -- eapply (g_ordered s G); eauto.
      * destruct T as [?|[?| ->]]; auto; left; [now right|now left].
  - constructor; cbn [w_stack w_visited].
    + intros x I. apply in_app_or in I as [I|[<-|I]]; auto. apply in_rev in I. rewrite <- Ef in I. apply filter_In in I as [I _].
      eapply leads_trans; [exact Ta|]. eapply leads_step; [exact I|apply leads_refl].
    + apply G.
    + destruct (g_top s G) as [?|[l El]]; [now left|right]. rewrite E in El. exists (rev (y :: new) ++ l). rewrite El. now rewrite app_assoc.
Qed.

Lemma going_end : forall n s l, going s -> walk_loop n refs mid self s = Ok l -> exists t, going t /\ w_stack t = [].
Proof.
  induction n as [|n IH]; intros s l G H; cbn [walk_loop] in H; destruct (w_stack s) as [|a rest] eqn:E; try discriminate; eauto.
  apply (IH _ _ (going_turn s a rest G E) H).
Qed.
End Walk.
