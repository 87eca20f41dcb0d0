(** A save in one byte order goes as the save in the other. *)
From Coq Require Import ZArith List Bool Lia.
From Verif Require Import Base IoCtx RoundTrip Text Dates Objects ObjSpec OrderProofs ObjProofs ObjTheory FileModel FileSpec
  HeaderProofs TableProofs SaveProofs.
Import ListNotations.
Open Scope Z_scope.

(** Steps of the same kind, at the same place, of equally many bytes. *)
Definition steps_alike (a b : fop) : Prop :=
  match a, b with
  | Append x, Append y => length x = length y
  | Overwrite p x, Overwrite q y => p = q /\ length x = length y
  | _, _ => False
  end.

Lemma alike_app : forall a a' b b', Forall2 steps_alike a a' -> Forall2 steps_alike b b' -> Forall2 steps_alike (a ++ b) (a' ++ b').
Proof. intros. now apply Forall2_app. Qed.

Lemma alike_length : forall l l', Forall2 steps_alike l l' -> length l = length l'.
Proof. intros l l' H. induction H; cbn [length]; congruence. Qed.

Lemma alike_run : forall l l', Forall2 steps_alike l l' -> forall f f', length f = length f' ->
  length (fold_left apply_op l f) = length (fold_left apply_op l' f').
Proof.
  intros l l' H. induction H as [|a b l l' S _ IH]; intros f f' E; [exact E|]. cbn [fold_left]. apply IH.
  destruct a as [x|p x], b as [y|q y]; cbn [steps_alike apply_op] in *; try contradiction.
  - rewrite !app_length. lia.
  - destruct S as [-> S]. unfold overwrite. rewrite !app_length, !firstn_length, !skipn_length. lia.
Qed.

Lemma alike_writers : forall l l', Forall2 weq l l' ->
  Forall2 steps_alike (fst (run_writers l)) (fst (run_writers l')) /\ snd (run_writers l) = snd (run_writers l').
Proof.
  intros l l' H. induction H as [|a b l l' W _ (IH1 & IH2)]; cbn [run_writers]; [split; [constructor|reflexivity]|].
  unfold weq in W. destruct a as [x|e], b as [y|e']; cbn [wlen] in W; try discriminate.
  - apply Ok_inj in W. destruct (run_writers l) as [o s], (run_writers l') as [o' s']. cbn [fst snd] in *.
    split; [now constructor|exact IH2].
  - injection W as ->. cbn [fst snd]. split; [constructor|reflexivity].
Qed.

Section Both.
Variables (bo bo' : border) (self : Z) (h : heap) (U : Z -> Prop).
Hypothesis closing : forall a nd, U a -> h a = Ok nd -> closes (okind (nd_obj nd)) = true.

Lemma alike_object : forall a nd m, U a -> h a = Ok nd ->
  Forall2 weq (write_object bo self h m nd) (write_object bo' self h m nd).
Proof.
  intros a nd m Ua E. unfold write_object. destruct (nd_doc nd =? self); [|now repeat constructor].
  pose proof (weq_body (save_octx bo h m) (save_octx bo' h m) (nd_obj nd) (fun _ => eq_refl)) as W. unfold weq in W.
  pose proof (closing a nd Ua E) as C.
  destruct (wbody (save_octx bo h m) (nd_obj nd)) as [d|e] eqn:Ed, (wbody (save_octx bo' h m) (nd_obj nd)) as [d'|e'] eqn:Ed';
    cbn [wlen] in W; try discriminate.
  - rewrite (ends3_last _ _ _ C Ed), (ends3_last _ _ _ C Ed'). apply Ok_inj in W. unfold len. rewrite W.
    repeat constructor; [apply weq_fourcc|apply weq_u32|now apply weq_bytes].
  - injection W as ->. repeat constructor.
Qed.

Lemma alike_loop : forall l m n, (forall a, In a l -> U a) -> match save_loop bo self h l m n, save_loop bo' self h l m n with
  | (o, s, mm, k), (o', s', mm', k') => Forall2 steps_alike o o' /\ s = s' /\ mm = mm' /\ k = k' end.
Proof.
  induction l as [|a l IH]; intros m n Ul; cbn [save_loop]; [now repeat constructor|].
  destruct (h a) as [nd|e] eqn:E; [|now repeat constructor]. assert (U a) as Ua by (apply Ul; now left).
  assert (forall x, In x l -> U x) as Ul' by (intros; apply Ul; now right).
  destruct (m (nd_id nd)); [now apply IH|].
  set (m1 := fun i => if i =? nd_id nd then Some (n + 1) else m i).
  destruct (alike_writers _ _ (alike_object a nd m1 Ua E)) as [F S].
  destruct (run_writers (write_object bo self h m1 nd)) as [o s], (run_writers (write_object bo' self h m1 nd)) as [o' s'].
  cbn [fst snd] in F, S. subst s'. destruct s as [e|]; [now repeat split|].
  specialize (IH m1 (n + 1) Ul'). destruct (save_loop bo self h l m1 (n + 1)) as [[[o2 s2] m2] k2],
    (save_loop bo' self h l m1 (n + 1)) as [[[o2' s2'] m2'] k2']. destruct IH as (F2 & -> & -> & ->).
  repeat split. now apply alike_app.
Qed.
End Both.

Lemma walk_inside : forall (h : heap) (U : Z -> Prop), (forall a nd k, U a -> h a = Ok nd -> In k (nd_kids nd) -> U k) ->
  forall lim a, U a -> forall x, In x (fst (walk lim h a)) -> U x.
Proof.
  intros h U C. induction lim as [|lim IH]; intros a Ha x Hx; [destruct Hx|]. rewrite walk_S in Hx.
  destruct (h a) as [nd|e] eqn:E; [|destruct Hx].
  assert (forall ks, (forall k, In k ks -> U k) -> forall y, In y (fst (walks lim h ks)) -> U y) as W.
  { induction ks as [|k ks IHk]; intros Hk y Hy; [destruct Hy|]. rewrite walks_cons in Hy.
    specialize (IH k (Hk k (or_introl eq_refl)) y). specialize (IHk (fun j Hj => Hk j (or_intror Hj)) y).
    destruct (walk lim h k) as [l [e|]]; [now apply IH|]. destruct (walks lim h ks) as [l' s'].
    cbn [fst] in *. apply in_app_or in Hy as [Hy|Hy]; auto. }
  specialize (W (nd_kids nd) (fun k Hk => C a nd k Ha E Hk) x).
  destruct (walks lim h (nd_kids nd)) as [l [e|]]; cbn [fst] in *; [now apply W|].
  apply in_app_or in Hx as [Hx|[<-|[]]]; auto.
Qed.

Lemma alike_saves : forall lim z bo bo' d, walks_refs d -> (forall a nd, in_doc d a -> dc_heap d a = Ok nd -> closes (okind (nd_obj nd)) = true) ->
  Forall2 steps_alike (fst (save lim z bo d)) (fst (save lim z bo' d)) /\ snd (save lim z bo d) = snd (save lim z bo' d).
Proof.
  intros lim z bo bo' d W C. unfold save, write. cbn [ss_doc new_session ss_map ss_next].
  assert (Forall2 weq (head_before z bo d) (head_before z bo' d)) as H1.
  { unfold head_before. repeat constructor; [|apply weq_fourcc|apply weq_str|apply weq_str]. destruct bo, bo'; reflexivity. }
  destruct (alike_writers _ _ H1) as [F1 S1]. clear H1.
  destruct (run_writers (head_before z bo d)) as [o1 s1], (run_writers (head_before z bo' d)) as [o1' s1'].
  cbn [fst snd] in F1, S1. subst s1'. destruct s1 as [e|]; [now split|].
  assert (Forall2 weq (head_counts bo ++ head_after z bo d) (head_counts bo' ++ head_after z bo' d)) as H2.
  { unfold head_counts, head_after. repeat apply Forall2_app.
    - repeat constructor; apply weq_u32.
    - repeat constructor; try apply weq_u32; try apply weq_fourcc.
      unfold wdatetime. destruct bo, bo'; reflexivity.
    - destruct (mac_encode (dc_version d)); repeat constructor; try apply weq_u32; try apply weq_u16; try apply weq_fourcc. }
  destruct (alike_writers _ _ H2) as [F2 S2]. clear H2.
  destruct (run_writers (head_counts bo ++ head_after z bo d)) as [o2 s2],
    (run_writers (head_counts bo' ++ head_after z bo' d)) as [o2' s2'].
  cbn [fst snd] in F2, S2. subst s2'. destruct s2 as [e|]; [split; [now apply alike_app|reflexivity]|].
  destruct (if dc_content d =? 0 then ([], None) else walk lim (dc_heap d) (dc_content d)) as [l ws] eqn:El.
  assert (forall a, In a l -> in_doc d a) as Il.
  { intros a Ha. destruct (Z.eqb_spec (dc_content d) 0) as [_|N]; [injection El as <- <-; destruct Ha|].
    apply (walk_inside (dc_heap d) (in_doc d)) with lim (dc_content d); [|split; [exact N|constructor]|now rewrite El].
    intros x nd k Hx E Hk. apply (in_doc_step d x k Hx). exists nd. split; [exact E|]. now apply (W x nd Hx E). }
  clear El.
  pose proof (alike_loop bo bo' (dc_self d) (dc_heap d) (in_doc d) C l (fun _ => None) 0 Il) as L.
  destruct (save_loop bo (dc_self d) (dc_heap d) l (fun _ => None) 0) as [[[o3 s3] m3] k3],
    (save_loop bo' (dc_self d) (dc_heap d) l (fun _ => None) 0) as [[[o3' s3'] m3'] k3'].
  destruct L as (F3 & -> & -> & ->).
  assert (Forall2 steps_alike (o1 ++ o2 ++ o3) (o1' ++ o2' ++ o3')) as F by (repeat apply alike_app; assumption).
  destruct s3' as [e|]; [now split|]. destruct ws as [e|]; [now split|].
  assert (len (run_ops o1) = len (run_ops o1')) as El.
  { unfold len, run_ops. now rewrite (alike_run _ _ F1 [] [] eq_refl). }
  rewrite El. unfold save_counts. pose proof (weq_u32 bo bo' k3') as Q. unfold weq in Q.
  destruct (wu32 bo k3') as [b|e], (wu32 bo' k3') as [b'|e']; cbn [wlen] in Q; try discriminate; cbn [fst snd].
  - apply Ok_inj in Q. split; [|reflexivity]. repeat (apply alike_app; [assumption|]). repeat constructor; exact Q.
  - injection Q as ->. split; [|reflexivity]. rewrite !app_nil_r. exact F.
Qed.
