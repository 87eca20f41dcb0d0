(** C38 and C39: finding mobs and listing dependent mobs. *)
From Coq Require Import ZArith List Bool Lia.
From Verif Require Import Base Mobs MobsSpec MobsProofs.
Import ListNotations.
Open Scope Z_scope.

(** ** C38 *)

(** Additions and lookups. *)
Inductive bin_op := Add (m : Z) | Find (id : Z).

Definition bin_step (mid : Z -> Z) (b : mobs_bin) (o : bin_op) : mobs_bin :=
  match o with Add m => add_mob mid b m | Find id => fst (find_by_mob_id mid b id) end.

Definition added (h : list bin_op) : list Z := flat_map (fun o => match o with Add m => [m] | Find _ => [] end) h.

(** After any additions and lookups on a bin that had the mobs [ms] a lookup gives the last mob with
    the ID, or nothing if there is none; the mobs are listed in the order added. *)
Theorem C38_lookup : forall mid ms h id,
  let b := fold_left (bin_step mid) h {| b_items := map Some ms; b_dict := [] |} in
  (exists r, snd (find_by_mob_id mid b id) = Ok r /\ last_with mid (ms ++ added h) id r) /\
  bin_mobs b = map Some (ms ++ added h).
Proof.
  intros mid ms h id. cbv zeta.
  assert (forall h ms b, b_items b = map Some ms -> (b_dict b = [] \/ b_dict b = entries mid ms) ->
    exists b', b' = fold_left (bin_step mid) h b /\ b_items b' = map Some (ms ++ added h) /\
      (b_dict b' = [] \/ b_dict b' = entries mid (ms ++ added h))) as K.
  { clear. induction h as [|o h IH]; intros ms b Ei Ed.
    - exists b. cbn [fold_left added flat_map]. rewrite app_nil_r. auto.
    - cbn [fold_left]. destruct o as [m|id].
      + destruct (IH (ms ++ [m]) (add_mob mid b m)) as (b' & E' & Hi & Hd).
        * unfold add_mob. cbn [b_items]. rewrite Ei, map_app. reflexivity.
        * unfold add_mob. cbn [b_dict]. destruct (b_dict b) as [|e d] eqn:E; [now left|right].
          destruct Ed as [Ed|Ed]; [discriminate|]. rewrite Ed. unfold entries. rewrite map_app, rev_app_distr. reflexivity.
        * exists b'. rewrite <- app_assoc in Hi, Hd. auto.
      + apply IH; unfold bin_step, find_by_mob_id; destruct (b_dict b) as [|e d] eqn:E; cbn [fst b_items b_dict].
        * rewrite Ei, build_all. cbn [fst b_items]. reflexivity.
        * exact Ei.
        * rewrite Ei, build_all, app_nil_r. cbn [fst b_dict]. now right.
        * rewrite E. destruct Ed as [Ed|Ed]; [discriminate|now right]. }
  destruct (K h ms {| b_items := map Some ms; b_dict := [] |} eq_refl (or_introl eq_refl)) as (b' & <- & Hi & Hd).
  split; [|exact Hi].
  assert (forall l, last_with mid l id (dict_get (entries mid l) id)) as G.
  { clear. intros l. induction l as [|m l IH] using rev_ind; [intros m []|].
    unfold entries. rewrite map_app, rev_app_distr. cbn [map rev app dict_get]. fold (entries mid l).
    destruct (Z.eqb_spec (mid m) id) as [E|N].
    - exists l, []. repeat split; auto.
    - destruct (dict_get (entries mid l) id) as [x|]; cbn [last_with] in *.
      + destruct IH as (p & q & -> & Ex & Hq). exists p, (q ++ [m]). rewrite <- app_assoc. repeat split; auto.
        intros m' I. apply in_app_or in I as [I|[<-|[]]]; auto.
      + intros m' I. apply in_app_or in I as [I|[<-|[]]]; auto. }
  exists (dict_get (entries mid (ms ++ added h)) id). split; [|apply G].
  unfold find_by_mob_id. destruct Hd as [Hd|Hd]; rewrite Hd.
  - rewrite Hi, build_all, app_nil_r. reflexivity.
  - destruct (entries mid (ms ++ added h)) eqn:E; [|reflexivity]. cbn [snd]. rewrite Hi, build_all, E. reflexivity.
Qed.
Print Assumptions C38_lookup.

Example C38_example : let mid m := m mod 10 in
  snd (find_by_mob_id mid (fold_left (bin_step mid) [Find 3; Add 23; Find 5; Add 14] {| b_items := map Some [13; 5]; b_dict := [] |}) 3) = Ok (Some 23).
Proof. reflexivity. Qed.

(** The mobs of a kind are listed in the order of the items, if every item has a mob of a known type. *)
Theorem C38_kinds : forall kind ms, (forall m, In m ms -> 1 <= mk_type (kind m) <= 3) ->
  let b := {| b_items := map Some ms; b_dict := [] |} in
  toplevel kind b = (filter (fun m => (mk_type (kind m) =? 1) && (mk_usage (kind m) =? 0)) ms, None) /\
  compositionmobs kind b = (filter (fun m => mk_type (kind m) =? 1) ms, None) /\
  mastermobs kind b = (filter (fun m => mk_type (kind m) =? 2) ms, None).
Proof.
  intros kind ms H. cbv zeta.
  assert (forall keep, filter_mobs kind keep (map Some ms) = (filter (fun m => keep (kind m)) ms, None)) as K.
  { intros keep. induction ms as [|m ms IH]; [reflexivity|]. cbn [map filter_mobs item_type filter].
    assert ((mk_type (kind m) =? 1) || (mk_type (kind m) =? 2) || (mk_type (kind m) =? 3) = true) as ->.
    { specialize (H m (or_introl eq_refl)). rewrite !orb_true_iff, !Z.eqb_eq. lia. }
    rewrite IH by (intros x I; apply H; now right). reflexivity. }
  unfold toplevel, compositionmobs, mastermobs. cbn [b_items]. rewrite !K. auto.
Qed.
Print Assumptions C38_kinds.

Example C38_kinds_example : mastermobs (fun m => {| mk_type := m mod 3 + 1; mk_usage := 0 |}) {| b_items := map Some [4; 3; 7; 8]; b_dict := [] |} = ([4; 7], None).
Proof. reflexivity. Qed.

(** Changes that do not go through [add_mob] are not noticed once the table has been made: an item
    put in the list, and a mob given another ID. *)
Theorem C38_unnoticed_refuted : exists mid mid' b m id,
  let b1 := fst (find_by_mob_id mid b 1) in
  let b2 := {| b_items := b_items b1 ++ [Some m]; b_dict := b_dict b1 |} in
  mid m = id /\ snd (find_by_mob_id mid b2 id) = Ok None /\
  (exists m1, In (Some m1) (b_items b1) /\ mid' m1 = 9 /\ snd (find_by_mob_id mid' b1 9) = Ok None).
Proof.
  exists (fun m => m), (fun m => if m =? 1 then 9 else m), {| b_items := [Some 1]; b_dict := [] |}, 2, 2. cbv zeta.
  split; [reflexivity|]. split; [reflexivity|]. exists 1. split; [now left|]. split; reflexivity.
Qed.
Print Assumptions C38_unnoticed_refuted.

(** An item without a mob makes the first lookup fail, and later lookups miss the mobs after it
    without failing. *)
Theorem C38_missing_mob_refuted : exists mid b id m, In (Some m) (b_items b) /\ mid m = id /\
  let '(b1, r1) := find_by_mob_id mid b id in r1 = Err AttributeErr /\ snd (find_by_mob_id mid b1 id) = Ok None.
Proof. exists (fun m => m), {| b_items := [Some 1; None; Some 2]; b_dict := [] |}, 2, 2. split; [right; right; now left|]. repeat split. Qed.
Print Assumptions C38_missing_mob_refuted.

(** ** C39 *)

(** Whatever leads from [self] through sources, finite in number and without cycles: the listing
    ends; it has exactly the mobs reached other than [self], each once, and none before one it
    depends on. *)
Theorem C39_listing : forall refs mid self, finite refs self -> acyclic refs self -> ids_apart refs mid self ->
  exists n l, (forall k, (n <= k)%nat -> dependant_mobs k refs mid self = Ok l) /\
    (forall a, In a l <-> leads refs self a /\ a <> self) /\ NoDup l /\
    (forall p a q, l = p ++ a :: q -> forall b, leads refs a b -> b <> a -> In b p).
Proof.
  intros refs mid self [L HL] AC ID.
  assert (Acc (fun y x => In y (refs x)) self) as A.
  { apply (acc_from refs self L HL AC (length L) [] self); [apply leads_refl|repeat constructor; intros []|intros x []|cbn; lia]. }
  destruct (work_off refs mid self self ID self A _ [] (leads_refl _ _) (fine_start refs mid self self) eq_refl) as (t & St & Et & Ft & Vt).
  destruct (steps_loop refs mid self _ _ St Et) as [n Hn].
  exists n, (rev (w_out t)). split; [exact Hn|]. split; [|split].
  - intros a. rewrite <- in_rev. rewrite (f_out _ _ _ _ _ Ft). split; [intros (? & ? & ?); auto|].
    intros (La & Na). split; [exact La|]. split; [|exact Na]. apply Vt. right. eauto.
  - apply NoDup_rev. apply (f_nodup _ _ _ _ _ Ft).
  - intros p a q E b Lb Nb. apply (f_equal (@rev Z)) in E. rewrite rev_involutive, rev_app_distr in E. cbn [rev] in E. rewrite <- app_assoc in E. cbn [app] in E.
    apply in_rev. eapply (f_order _ _ _ _ _ Ft); [exact E|exact Lb|exact Nb|].
    intros ->. assert (In a (w_out t)) as I by (rewrite E; apply in_or_app; right; now left).
    apply (f_out _ _ _ _ _ Ft) in I as (La & _ & Na).
    inversion La as [|? r ? I L']; subst; [contradiction|]. apply (AC self r (leads_refl _ _) I). eapply leads_trans; eauto.
Qed.
Print Assumptions C39_listing.

(** 1 uses 2 and 3; 2 and 3 use 4; 4 uses 5. *)
Definition diamond (a : Z) : list Z :=
  if a =? 1 then [2; 3; 2] else if (a =? 2) || (a =? 3) then [4] else if a =? 4 then [5] else [].

Example C39_example : dependant_mobs 20 diamond (fun m => m + 100) 1 = Ok [5; 4; 2; 3] /\ finite diamond 1 /\ acyclic diamond 1.
Proof.
  assert (forall a b, leads diamond a b -> 1 <= a -> (b = a \/ (a < b <= 5))%Z) as K.
  { induction 1 as [a|a b c I L IH]; intros H; [now left|]. unfold diamond in I.
    destruct (Z.eqb_spec a 1) as [->|]; [cbn in I; destruct I as [<-|[<-|[<-|[]]]]; lia|].
    destruct (Z.eqb_spec a 2) as [->|]; [cbn in I; destruct I as [<-|[]]; lia|].
    destruct (Z.eqb_spec a 3) as [->|]; [cbn in I; destruct I as [<-|[]]; lia|]. cbn [orb] in I.
    destruct (Z.eqb_spec a 4) as [->|]; [cbn in I; destruct I as [<-|[]]; lia|]. destruct I. }
  split; [reflexivity|]. split.
  - exists [1; 2; 3; 4; 5]. intros a H. apply K in H; [|lia]. cbn. lia.
  - intros a b La I Lb. apply K in La; [|lia].
    assert (leads diamond a b) as Lab by (eapply leads_step; [exact I|apply leads_refl]).
    assert (b <> a) as N.
    { intros ->. unfold diamond in I. destruct (Z.eqb_spec a 1) as [->|]; [cbn in I; lia|].
      destruct (Z.eqb_spec a 2) as [->|]; [cbn in I; lia|]. destruct (Z.eqb_spec a 3) as [->|]; [cbn in I; lia|]. cbn [orb] in I.
      destruct (Z.eqb_spec a 4) as [->|]; [cbn in I; lia|]. destruct I. }
    apply K in Lab; [|lia]. apply K in Lb; lia.
Qed.

(** If the sources lead in a circle the listing never ends. *)
Theorem C39_circle : forall refs mid self a b, ids_apart refs mid self -> leads refs self a -> In b (refs a) -> leads refs b a ->
  forall n, dependant_mobs n refs mid self = Err OutOfFuel.
Proof.
  intros refs mid self a b ID La I Lb n.
  destruct (dependant_mobs n refs mid self) as [l|e] eqn:E.
  - exfalso. unfold dependant_mobs in E.
    assert (going refs mid self {| w_visited := []; w_stack := [self]; w_out := [] |}) as G0.
    { constructor; cbn [w_stack w_visited].
      - intros x [<-|[]]. apply leads_refl.
      - intros p i q Eq. destruct p; discriminate.
      - right. now exists []. }
    destruct (going_end refs mid self self n _ l G0 E) as (t & Gt & Et).
    destruct (g_top _ _ _ _ Gt) as [V|[x V]]; [|rewrite Et in V; destruct x; discriminate].
    eapply (ordered_acyclic refs mid self ID (length (w_visited t)) (w_visited t) a b); eauto; [apply Gt|].
    eapply (ordered_closed refs mid self ID); [exact La|apply leads_refl|apply Gt|exact V].
  - assert (forall n s e, walk_loop n refs mid self s = Err e -> e = OutOfFuel) as K.
    { clear. induction n as [|n IH]; intros s e H; cbn [walk_loop] in H; destruct (w_stack s); try discriminate; [congruence|eauto]. }
    apply K in E. now subst.
Qed.
Print Assumptions C39_circle.

Example C39_circle_example : let refs a := if a =? 1 then [2] else [1] in
  ids_apart refs (fun m => m) 1 /\ leads refs 1 2 /\ In 1 (refs 2) /\ leads refs 1 2.
Proof. cbv zeta. split; [intros a b _ _ E; exact E|]. split; [|split; [now left|]]; (eapply leads_step; [now left|apply leads_refl]). Qed.
