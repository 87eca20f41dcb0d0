(** Saving a document that was saved and opened is saving the document. *)
From Coq Require Import ZArith List Bool Lia.
From Verif Require Import Base IoCtx RoundTrip Text TextProofs Dates Objects ObjSpec ObjProofs ObjTheory DateSpec
  FileModel FileSpec HeaderProofs TableProofs SaveProofs Opened SampleDocs ResaveSpec ResaveTheory MoveProofs.
Import ListNotations.
Open Scope Z_scope.

(** ** The walk and the loop, over renumbered objects *)

Section Sim.
Variables (h h' : heap) (f : Z -> Z) (U : Z -> Prop).
Hypothesis closedU : forall a nd k, U a -> h a = Ok nd -> In k (nd_kids nd) -> U k.
Hypothesis closedR : forall a nd r, U a -> h a = Ok nd -> In r (obj_refs (nd_obj nd)) -> r <> 0 -> U r.
Hypothesis here : forall a, U a -> exists nd, h a = Ok nd.
Hypothesis f0 : f 0 = 0.
Hypothesis fU : forall a, U a -> f a <> 0.
Hypothesis finj : forall a b, U a -> U b -> f a = f b -> a = b.
Hypothesis ids : forall a b na nb, U a -> U b -> h a = Ok na -> h b = Ok nb -> nd_id na = nd_id nb -> a = b.
Variables self self' : Z.
Hypothesis there : forall a nd, U a -> h a = Ok nd ->
  exists nd', h' (f a) = Ok nd' /\ nd_doc nd' = self' /\ nd_id nd' = f a /\
    nd_obj nd' = obj_map f (nd_obj nd) /\ nd_kids nd' = map f (nd_kids nd).
Hypothesis mine : forall a nd, U a -> h a = Ok nd -> nd_doc nd = self.

Lemma walk_sim : forall lim a, U a ->
  walk lim h' (f a) = (map f (fst (walk lim h a)), snd (walk lim h a)).
Proof.
  induction lim as [|lim IH]; intros a Ha; [reflexivity|]. rewrite !walk_S.
  destruct (here a Ha) as [nd E]. rewrite E. destruct (there a nd Ha E) as (nd' & -> & _ & _ & _ & ->).
  assert (forall ks, (forall k, In k ks -> U k) ->
    walks lim h' (map f ks) = (map f (fst (walks lim h ks)), snd (walks lim h ks))) as W.
  { induction ks as [|k ks IHk]; intros Hk; [reflexivity|]. cbn [map]. rewrite !walks_cons.
    rewrite IH by (apply Hk; now left). destruct (walk lim h k) as [l [e|]]; cbn [fst snd]; [reflexivity|].
    rewrite IHk by (intros; apply Hk; now right). destruct (walks lim h ks) as [l' s']. cbn [fst snd].
    now rewrite map_app. }
  rewrite W by (intros k Hk; now apply (closedU a nd)). destruct (walks lim h (nd_kids nd)) as [l [e|]]; cbn [fst snd]; [reflexivity|].
  now rewrite map_app.
Qed.

Definition paired (m m' : mapping) : Prop := forall a nd, U a -> h a = Ok nd -> m' (f a) = m (nd_id nd).

Lemma write_object_sim : forall bo m m' a nd nd', paired m m' -> U a -> h a = Ok nd -> h' (f a) = Ok nd' ->
  write_object bo self' h' m' nd' = write_object bo self h m nd.
Proof.
  intros bo m m' a nd nd' P Ha E E'. destruct (there a nd Ha E) as (nd2 & E2 & D & _ & O & _).
  rewrite E' in E2. injection E2 as <-. unfold write_object. rewrite D, (mine a nd Ha E), !Z.eqb_refl, O.
  rewrite (move_refs (save_octx bo h m)); [destruct (nd_obj nd); reflexivity|reflexivity|].
  intros r Hr. unfold wref, save_octx. cbn [obo orefs]. destruct (Z.eqb_spec r 0) as [->|N].
  - now rewrite f0.
  - pose proof (closedR a nd r Ha E Hr N) as Hu. destruct (Z.eqb_spec (f r) 0) as [F|_]; [now apply fU in F|].
    destruct (here r Hu) as [nr Er]. rewrite Er. destruct (there r nr Hu Er) as (nr' & -> & _ & -> & _).
    now rewrite (P r nr Hu Er).
Qed.

Lemma save_loop_sim : forall bo l m m' n, (forall x, In x l -> U x) -> paired m m' ->
  forall o s mm k, save_loop bo self h l m n = (o, s, mm, k) ->
  exists mm', save_loop bo self' h' (map f l) m' n = (o, s, mm', k).
Proof.
  intros bo l. induction l as [|a l IH]; intros m m' n Hl P o s mm k H; cbn [map save_loop] in *.
  - injection H as <- <- <- <-. eauto.
  - assert (U a) as Ha by (apply Hl; now left). destruct (here a Ha) as [nd E].
    destruct (there a nd Ha E) as (nd' & E' & _ & I' & _). rewrite E in H. rewrite E', I', (P a nd Ha E).
    destruct (m (nd_id nd)) as [x|] eqn:Em.
    { apply (IH m m' n) with (mm := mm); [intros; apply Hl; now right|exact P|exact H]. }
    set (m1 := fun i => if i =? nd_id nd then Some (n + 1) else m i) in *.
    set (m1' := fun i => if i =? f a then Some (n + 1) else m' i).
    assert (paired m1 m1') as P1.
    { intros b nb Hb Eb. unfold m1, m1'. destruct (Z.eqb_spec (f b) (f a)) as [Ef|Nf].
      - apply finj in Ef as ->; [|assumption|assumption]. rewrite E in Eb. injection Eb as <-. now rewrite Z.eqb_refl.
      - destruct (Z.eqb_spec (nd_id nb) (nd_id nd)) as [Ei|_]; [|now apply P].
        apply (ids b a nb nd Hb Ha Eb E) in Ei as ->. congruence. }
    rewrite (write_object_sim bo m1 m1' a nd nd' P1 Ha E E').
    destruct (run_writers (write_object bo self h m1 nd)) as [o1 [e|]].
    { injection H as <- <- <- <-. eauto. }
    destruct (save_loop bo self h l m1 (n + 1)) as [[[o2 s2] mm2] k2] eqn:E2.
    destruct (IH m1 m1' (n + 1) (fun x Hx => Hl x (or_intror Hx)) P1 _ _ _ _ E2) as [mm' ->].
    injection H as <- <- <- <-. eauto.
Qed.
End Sim.

(** ** The header *)

Lemma forall_encode : forall s b, Forall2 (fun c x => mac_enc1 c = Some x) s b -> mac_encode s = Ok b.
Proof. intros s b H. induction H as [|c x s b E H IH]; cbn [mac_encode]; [reflexivity|]. now rewrite E, IH. Qed.

Lemma version_forall : forall s v, mac_encode s = Ok v ->
  Forall2 (fun c x => mac_enc1 c = Some x) (firstn 30 s ++ repeat 32 (30 - length s)) (version_bytes v).
Proof.
  intros s v H. apply encode_forall in H. unfold version_bytes. apply Forall2_app.
  - revert H. generalize 30%nat. intros n H. revert n. induction H; intros [|n]; cbn [firstn]; constructor; auto.
  - assert (length s = length v) as L by (clear - H; induction H; cbn [length]; congruence). rewrite firstn_length.
    replace (30 - Nat.min 30 (length v))%nat with (30 - length s)%nat by lia.
    generalize (30 - length s)%nat. induction n; cbn [repeat]; constructor; [reflexivity|assumption].
Qed.

Lemma drop_nuls_id : forall s, hd 1 s <> 0 -> drop_nuls s = s.
Proof. intros [|c s] H; [reflexivity|]. cbn [drop_nuls hd] in *. now apply Z.eqb_neq in H as ->. Qed.

Lemma last_nth : forall (s : list Z) d, last s d = nth (length s - 1) s d.
Proof.
  intros s d. destruct s as [|x s] using rev_ind; [reflexivity|]. rewrite last_last, app_length. cbn [length].
  rewrite app_nth2 by lia. replace (length s + 1 - 1 - length s)%nat with 0%nat by lia. reflexivity.
Qed.

Definition pad30 (s : str) : str := firstn 30 s ++ repeat 32 (30 - length s).

Lemma pad30_length : forall s, length (pad30 s) = 30%nat.
Proof. intros s. unfold pad30. rewrite app_length, firstn_length, repeat_length. lia. Qed.

Lemma pad30_hd : forall s, hd 1 s <> 0 -> hd 1 (pad30 s) <> 0.
Proof. intros [|c s] H; unfold pad30; cbn [firstn app hd length repeat Nat.sub] in *; [discriminate|exact H]. Qed.

Lemma nth_firstn' : forall (s : list Z) n i d, (i < n)%nat -> nth i (firstn n s) d = nth i s d.
Proof.
  induction s as [|x s IH]; intros [|n] i d H; try lia; cbn [firstn]; [reflexivity|].
  destruct i; cbn [nth]; [reflexivity|]. apply IH. lia.
Qed.

Lemma pad30_last : forall s, nth 29 s 1 <> 0 -> last (pad30 s) 1 <> 0.
Proof.
  intros s H. rewrite last_nth, pad30_length. change (30 - 1)%nat with 29%nat. unfold pad30.
  destruct (Nat.lt_ge_cases (length s) 30) as [L|L].
  - rewrite app_nth2; rewrite firstn_length; [|lia].
    rewrite nth_indep with (d' := 32); [|rewrite repeat_length; lia]. rewrite nth_repeat. discriminate.
  - rewrite app_nth1 by (rewrite firstn_length; lia). now rewrite nth_firstn' by lia.
Qed.

Lemma version_again : forall s v, mac_encode s = Ok v -> hd 1 s <> 0 -> nth 29 s 1 <> 0 ->
  mac_encode (version_read v) = Ok (version_bytes v).
Proof.
  intros s v H H1 H2. rewrite (version_text s v H). fold (pad30 s).
  assert (trim_nuls (pad30 s) = pad30 s) as ->.
  { unfold trim_nuls. rewrite (drop_nuls_id (pad30 s)) by now apply pad30_hd.
    rewrite drop_nuls_id; [apply rev_involutive|]. rewrite hd_rev_last. now apply pad30_last. }
  apply forall_encode. now apply version_forall.
Qed.

Lemma version_bytes_again : forall v, version_bytes (version_bytes v) = version_bytes v.
Proof.
  intros v. pose proof (version_length v) as L. unfold version_bytes at 1.
  rewrite (firstn_all2 (version_bytes v)) by lia. rewrite L. now rewrite app_nil_r.
Qed.

(** A version that was read from a header the library has written satisfies the conditions. *)
Lemma lstrip0_hd : forall b, hd 1 (lstrip0 b) <> 0.
Proof. induction b as [|x b IH]; cbn [lstrip0 hd]; [discriminate|]. destruct x; cbn [hd]; [exact IH|discriminate|discriminate]. Qed.

Lemma lstrip0_len : forall b, (length (lstrip0 b) <= length b)%nat.
Proof. induction b as [|[]]; cbn [lstrip0 length]; lia. Qed.

Lemma lstrip0_last : forall b, last b 1 <> 0 -> last (lstrip0 b) 1 <> 0.
Proof.
  induction b as [|x b IH]; intros H; [exact H|]. cbn [lstrip0]. destruct x; [|exact H|exact H].
  apply IH. destruct b; [discriminate|exact H].
Qed.

Lemma strip0_ends : forall b, hd 1 (strip0 b) <> 0 /\ last (strip0 b) 1 <> 0 /\ (length (strip0 b) <= length b)%nat.
Proof.
  intros b. unfold strip0. split; [|split].
  - rewrite hd_rev_last. apply lstrip0_last. rewrite <- hd_rev_last, rev_involutive. apply lstrip0_hd.
  - rewrite <- hd_rev_last, rev_involutive. apply lstrip0_hd.
  - rewrite rev_length. etransitivity; [apply lstrip0_len|]. rewrite rev_length. apply lstrip0_len.
Qed.

(** ** Saves, forwards *)

Lemma save_intro : forall lim z bo d v l bsl m n, head_fits z d v -> walk_doc lim d = (l, None) ->
  save_loop bo (dc_self d) (dc_heap d) l (fun _ => None) 0 = (map Append bsl, None, m, n) -> 0 <= n < 2 ^ 32 ->
  exists o, save lim z bo d = (o, None) /\
    run_ops o = saved_hdr bo d n (to_timestamp z (dc_saved d)) v ++ concat bsl.
Proof.
  intros lim z bo d v l bsl m n Hv Hl E3 Hn.
  assert (exists o, save lim z bo d = (o, None)) as [o Ho].
  { unfold save, write. cbn [ss_doc new_session ss_map ss_next].
    destruct (head_run z bo d) as (b1 & E1 & C1). rewrite E1.
    destruct (run_writers (head_counts bo ++ head_after z bo d)) as [o2 s2] eqn:E2.
    apply head_counts_run in E2 as (o2' & E2 & ->).
    destruct (head_after_intro z bo d v Hv) as (b2 & Eb & _). rewrite Eb, run_writers_ok in E2.
    injection E2 as <- <-. fold (walk_doc lim d). rewrite Hl. rewrite E3.
    unfold save_counts, wu32. rewrite wunsigned_in by exact Hn. eexists. reflexivity. }
  exists o. split; [exact Ho|]. destruct (save_write _ _ _ _ _ _ Ho) as [ss' H]. apply write_inv in H.
  cbv zeta in H. cbn [ss_doc new_session] in H.
  destruct H as [(e & bs & tail & F & _)|(v' & l' & bsl' & m' & n' & bs & _ & Hv' & Hl' & Hs' & Hn' & -> & C)]; [discriminate|].
  rewrite Hl in Hl'. injection Hl' as <-. rewrite E3 in Hs'. injection Hs' as Eb _ <-.
  assert (bsl' = bsl) as ->.
  { clear - Eb. revert bsl' Eb. induction bsl as [|x l IH]; intros [|y r] E; try discriminate; [reflexivity|].
    cbn [map] in E. injection E as -> E. f_equal. auto. }
  assert (v' = v) as -> by (destruct Hv, Hv'; congruence).
  unfold run_ops. rewrite fold_left_app, run_ops_appends.
  cbn [fold_left apply_op app]. rewrite C, over_count, over_root. unfold saved_hdr. now rewrite <- !app_assoc.
Qed.

Lemma save_elim : forall lim z bo d o, save lim z bo d = (o, None) ->
  exists v l bsl m n, head_fits z d v /\ walk_doc lim d = (l, None) /\
    save_loop bo (dc_self d) (dc_heap d) l (fun _ => None) 0 = (map Append bsl, None, m, n) /\ 0 <= n < 2 ^ 32 /\
    run_ops o = saved_hdr bo d n (to_timestamp z (dc_saved d)) v ++ concat bsl.
Proof.
  intros lim z bo d o Ho. destruct (save_write _ _ _ _ _ _ Ho) as [ss' H]. apply write_inv in H.
  cbv zeta in H. cbn [ss_doc new_session] in H.
  destruct H as [(e & bs & tail & F & _)|(v & l & bsl & m & n & bs & _ & Hv & Hl & Hs & Hn & -> & C)]; [discriminate|].
  exists v, l, bsl, m, n. repeat (split; [assumption|]).
  unfold run_ops. rewrite fold_left_app, run_ops_appends.
  cbn [fold_left apply_op app]. rewrite C, over_count, over_root. unfold saved_hdr. now rewrite <- !app_assoc.
Qed.

(** ** Both *)

Lemma saved_through : forall lim z bo bo' d o o2 t self kids,
  walks_refs d -> ids_distinct d -> all_ok d -> consistent kids ->
  (forall a nd, in_doc d a -> dc_heap d a = Ok nd -> nd_kids nd = kids a (nd_obj nd)) ->
  from_timestamp z (to_timestamp z (dc_saved d)) = dc_saved d ->
  hd 1 (dc_version d) <> 0 -> nth 29 (dc_version d) 1 <> 0 ->
  save lim z bo d = (o, None) -> save lim z bo' d = (o2, None) -> open_table (run_ops o) = Ok t ->
  exists o', save lim z bo' (opened_doc z t self kids) = (o', None) /\ run_ops o' = run_ops o2.
Proof.
  intros lim z bo bo' d o o2 t self kids W I A Co Or Ts V1 V2 H H2 T.
  destruct (completed lim z bo d o W I H) as (order & v & ss & ND & Io & Bf & Ls & Hv & Hn & S & E & _).
  pose proof (completed_table bo d order z v ss Hv Hn S) as T'. rewrite <- E in T'.
  rewrite T in T'. injection T' as ->.
  set (hdr := saved_hdr bo d (len order) (to_timestamp z (dc_saved d)) v) in *.
  set (t := table hdr (saved_head bo d (len order)) (to_timestamp z (dc_saved d)) (version_read v) ss) in *.
  set (d' := opened_doc z t self kids).
  assert (forall a, in_doc d a -> exists nd, dc_heap d a = Ok nd /\ nd_doc nd = dc_self d) as Here.
  { intros a Ha. apply Io in Ha. clear - S Ha.
    induction S as [done|done b l ss nd m data Eb Es _ _ _ _ _ IH]; [destruct Ha|].
    destruct Ha as [<-|Ha]; eauto. }
  assert (number order 0 = 0) as N0 by (apply number_none; intros G; apply Io in G; now apply in_doc_not0 in G).
  assert (forall a, in_doc d a -> number order a <> 0) as NU by (intros a Ha; apply number_in; now apply Io).
  assert (forall a nd, in_doc d a -> dc_heap d a = Ok nd ->
    exists nd', dc_heap d' (number order a) = Ok nd' /\ nd_doc nd' = self /\ nd_id nd' = number order a /\
    nd_obj nd' = obj_map (number order) (nd_obj nd) /\ nd_kids nd' = map (number order) (nd_kids nd)) as There.
  { intros a nd Ha Ea. unfold d'. cbn [opened_doc dc_heap]. unfold load.
    pose proof (completed_read bo d order hdr (to_timestamp z (dc_saved d)) (version_read v) ss ND Io A S a nd Ha Ea) as R.
    fold t in R. rewrite R. eexists. split; [reflexivity|]. cbn [nd_doc nd_id nd_obj nd_kids].
    repeat (split; [reflexivity|]). rewrite (Or a nd Ha Ea). apply Co.
    - exact (proj1 (A a nd Ha Ea)).
    - intros r Hr. split; [|intros ->; exact N0]. intros F. destruct (Z.eq_dec r 0) as [|N]; [assumption|].
      exfalso. apply (NU r); [|exact F]. apply (in_doc_step d a r Ha). exists nd. auto.
    - intros r r' Hr Hr' F. destruct (Z.eq_dec r 0) as [->|N].
      + destruct (Z.eq_dec r' 0) as [->|N']; [reflexivity|]. exfalso. apply (NU r'); [|congruence].
        apply (in_doc_step d a r' Ha). exists nd. auto.
      + apply (number_inj order); [|exact F]. apply Io. apply (in_doc_step d a r Ha). exists nd. auto. }
  destruct (save_elim lim z bo' d o2 H2) as (v2 & l & bsl & m & n & Hv2 & Hl & Hs & Hn2 & ->).
  assert (v2 = v) as -> by (destruct Hv, Hv2; congruence).
  assert (forall a nd k, in_doc d a -> dc_heap d a = Ok nd -> In k (nd_kids nd) -> in_doc d k) as CU.
  { intros a nd k Ha Ea Hk. apply (in_doc_step d a k Ha). exists nd. split; [exact Ea|]. now apply (W a nd Ha Ea). }
  assert (forall a nd r, in_doc d a -> dc_heap d a = Ok nd -> In r (obj_refs (nd_obj nd)) -> r <> 0 -> in_doc d r) as CR.
  { intros a nd r Ha Ea Hr N. apply (in_doc_step d a r Ha). exists nd. auto. }
  assert (forall a, in_doc d a -> exists nd, dc_heap d a = Ok nd) as Here1.
  { intros a Ha. destruct (Here a Ha) as (nd & ? & _). eauto. }
  assert (forall a nd, in_doc d a -> dc_heap d a = Ok nd -> nd_doc nd = dc_self d) as Mine.
  { intros a nd Ha Ea. destruct (Here a Ha) as (nd' & E' & D). congruence. }
  assert (forall a b, in_doc d a -> in_doc d b -> number order a = number order b -> a = b) as Inj.
  { intros a b Ha _ F. apply (number_inj order); [now apply Io|exact F]. }
  assert (dc_content d' = number order (dc_content d)) as Ec.
  { unfold d', t. cbn [opened_doc dc_content of_head table saved_head hd_root].
    destruct (Z.eq_dec (dc_content d) 0) as [E0|Nz].
    - rewrite E0, N0. destruct order as [|x order]; [reflexivity|].
      destruct (proj1 (Io x) (or_introl eq_refl)) as [F _]. contradiction.
    - destruct (Ls Nz) as [p Ep]. rewrite Ep at 2. rewrite number_new; [rewrite Ep, len_app; reflexivity|].
      rewrite Ep in ND. apply NoDup_remove_2 in ND. now rewrite app_nil_r in ND. }
  assert (walk_doc lim d' = (map (number order) l, None)) as Hl'.
  { unfold walk_doc in *. rewrite Ec. destruct (Z.eqb_spec (dc_content d) 0) as [E0|Nz].
    - injection Hl as <-. rewrite E0, N0. reflexivity.
    - assert (in_doc d (dc_content d)) as Dc by (split; [exact Nz|constructor]).
      destruct (Z.eqb_spec (number order (dc_content d)) 0) as [F|_]; [now apply NU in F|].
      rewrite (walk_sim (dc_heap d) (dc_heap d') (number order) (in_doc d) CU Here1 self There lim _ Dc).
      now rewrite Hl. }
  destruct (walk_order lim d l W Hl) as (_ & Il & _).
  destruct (save_loop_sim (dc_heap d) (dc_heap d') (number order) (in_doc d) CR Here1 N0 NU Inj I (dc_self d) self There
    Mine bo' l (fun _ => None) (fun _ => None) 0 Il (fun _ _ _ _ => eq_refl) _ _ _ _ Hs) as [mm Hs'].
  assert (head_fits z d' (version_bytes v)) as Hv'.
  { split.
    - unfold d', t. cbn [opened_doc dc_version of_version table]. apply (version_again (dc_version d)); [apply Hv|exact V1|exact V2].
    - unfold d', t. cbn [opened_doc dc_saved of_stamp table]. rewrite Ts. apply Hv. }
  assert (dc_self d' = self) as Sf by reflexivity. rewrite <- Sf in Hs'.
  destruct (save_intro lim z bo' d' (version_bytes v) _ bsl mm n Hv' Hl' Hs' Hn2) as (o' & Ho' & Ro').
  exists o'. split; [exact Ho'|]. rewrite Ro'. f_equal.
  assert (dc_saved d' = dc_saved d) as Sv by exact Ts.
  unfold saved_hdr, head_pre, head_post. rewrite Sv, version_bytes_again. reflexivity.
Qed.

(** ** What a file holds that was saved *)

Lemma read_version_ends : forall s v, mac_encode s = Ok v ->
  hd 1 (version_read v) <> 0 /\ nth 29 (version_read v) 1 <> 0.
Proof.
  intros s v H. rewrite (version_text s v H). fold (pad30 s).
  assert (forall l, hd 1 (drop_nuls l) <> 0) as D.
  { induction l as [|x l IH]; cbn [drop_nuls]; [discriminate|]. destruct (Z.eqb_spec x 0); [exact IH|assumption]. }
  assert (forall l, (length (drop_nuls l) <= length l)%nat) as Dl.
  { induction l as [|x l IH]; cbn [drop_nuls length]; [lia|]. destruct (x =? 0); cbn [length]; lia. }
  assert (forall l, last l 1 <> 0 -> last (drop_nuls l) 1 <> 0) as Da.
  { induction l as [|x l IH]; intros L; [exact L|]. cbn [drop_nuls]. destruct (Z.eqb_spec x 0); [|exact L].
    apply IH. destruct l; [discriminate|exact L]. }
  set (q := trim_nuls (pad30 s)).
  assert (hd 1 q <> 0 /\ last q 1 <> 0 /\ (length q <= 30)%nat) as (A & B & C).
  { unfold q, trim_nuls. split; [|split].
    - rewrite hd_rev_last. apply Da. rewrite <- hd_rev_last, rev_involutive. apply D.
    - rewrite <- hd_rev_last, rev_involutive. apply D.
    - rewrite rev_length. etransitivity; [apply Dl|]. rewrite rev_length. etransitivity; [apply Dl|].
      rewrite pad30_length. lia. }
  split; [exact A|]. destruct (Nat.eq_dec (length q) 30) as [E|N].
  - rewrite last_nth, E in B. exact B.
  - rewrite nth_overflow by lia. discriminate.
Qed.

Lemma saved_opened : forall lim z bo d o t self kids,
  walks_refs d -> ids_distinct d -> all_ok d -> save lim z bo d = (o, None) -> open_table (run_ops o) = Ok t ->
  all_ok (opened_doc z t self kids) /\ of_stamp t = to_timestamp z (dc_saved d) /\
  hd 1 (of_version t) <> 0 /\ nth 29 (of_version t) 1 <> 0.
Proof.
  intros lim z bo d o t self kids W I A H T.
  destruct (completed lim z bo d o W I H) as (order & v & ss & ND & Io & Bf & Ls & Hv & Hn & S & E & _).
  pose proof (completed_table bo d order z v ss Hv Hn S) as T'. rewrite <- E in T'.
  rewrite T in T'. injection T' as ->.
  set (hdr := saved_hdr bo d (len order) (to_timestamp z (dc_saved d)) v) in *.
  set (t := table hdr (saved_head bo d (len order)) (to_timestamp z (dc_saved d)) (version_read v) ss) in *.
  assert (number order 0 = 0) as N0 by (apply number_none; intros G; apply Io in G; now apply in_doc_not0 in G).
  split; [|split; [reflexivity|exact (read_version_ends _ v (proj1 Hv))]].
  assert (forall a, in_doc d a -> exists nd, dc_heap d a = Ok nd) as Here.
  { intros a Ha. apply Io in Ha. clear - S Ha.
    induction S as [done|done b l ss nd m data Eb Es _ _ _ _ _ IH]; [destruct Ha|].
    destruct Ha as [<-|Ha]; eauto. }
  assert (forall a nd, in_doc d a -> dc_heap d a = Ok nd ->
    read_object t (number order a) = Ok (Some (obj_map (number order) (nd_obj nd)))) as R.
  { intros a nd Ha Ea. exact (completed_read bo d order hdr _ _ ss ND Io A S a nd Ha Ea). }
  assert (dc_content (opened_doc z t self kids) = number order (dc_content d)) as Ec.
  { unfold t. cbn [opened_doc dc_content of_head table saved_head hd_root].
    destruct (Z.eq_dec (dc_content d) 0) as [E0|Nz].
    - rewrite E0, N0. destruct order as [|x order]; [reflexivity|].
      destruct (proj1 (Io x) (or_introl eq_refl)) as [F _]. contradiction.
    - destruct (Ls Nz) as [p Ep]. rewrite Ep at 2. rewrite number_new; [rewrite Ep, len_app; reflexivity|].
      rewrite Ep in ND. apply NoDup_remove_2 in ND. now rewrite app_nil_r in ND. }
  assert (forall a, in_doc (opened_doc z t self kids) a -> exists b, in_doc d b /\ a = number order b) as Src.
  { intros a [Nc Ra]. rewrite Ec in Nc, Ra.
    assert (dc_content d <> 0) as Nz by (intros F; rewrite F in Nc; contradiction).
    induction Ra as [|x y Rx IH (nd & En & Ir & Ny)].
    - exists (dc_content d). split; [split; [exact Nz|constructor]|reflexivity].
    - destruct IH as (b & Hb & ->). destruct (Here b Hb) as [nb Eb].
      apply load_inv in En as (ob & Ro & ->). rewrite (R b nb Hb Eb) in Ro. injection Ro as <-.
      cbn [nd_obj] in Ir. rewrite refs_map_obj in Ir by exact (proj1 (A b nb Hb Eb)).
      apply in_map_iff in Ir as (r & <- & Ir). exists r. split; [|reflexivity].
      apply (in_doc_step d b r Hb). exists nb. split; [exact Eb|]. split; [exact Ir|].
      intros ->. contradiction. }
  intros a nd Ha En. destruct (Src a Ha) as (b & Hb & ->). destruct (Here b Hb) as [nb Eb].
  apply load_inv in En as (ob & Ro & ->). rewrite (R b nb Hb Eb) in Ro. injection Ro as <-.
  cbn [nd_obj]. apply ok_map. exact (A b nb Hb Eb).
Qed.

Lemma nonzero_map : forall f l, (forall r, In r l -> f r = 0 <-> r = 0) ->
  nonzero (map f l) = map f (nonzero l).
Proof.
  intros f l Z0. induction l as [|r l IH]; [reflexivity|].
  assert (f r = 0 <-> r = 0) as Hr by (apply Z0; now left).
  unfold nonzero in *. cbn [map filter].
  destruct (Z.eqb_spec (f r) 0); destruct (Z.eqb_spec r 0); cbn [negb]; [|tauto|tauto|];
    [|cbn [map]; f_equal]; apply IH; intros x Hx; apply Z0; now right.
Qed.
