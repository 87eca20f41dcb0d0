(** Saves that meet objects of other documents. *)
From Coq Require Import ZArith List Bool Lia.
From Verif Require Import Base IoCtx Text Dates Objects ObjSpec FileModel FileSpec HeaderProofs TableProofs SaveProofs ObjProofs ObjTheory.
Import ListNotations.
Open Scope Z_scope.

Section Foreign.
Variable bo : border.
Variable self : Z.
Variable h : heap.
Variable U : Z -> Prop.

(** An object of the document itself, with its id. *)
Definition own_id (i : Z) : Prop := exists b nb, U b /\ h b = Ok nb /\ nd_doc nb = self /\ nd_id nb = i.

(** What is stored is an object of the document itself. *)
Definition own_stored (s : stored) : Prop := exists b nb m, U b /\ h b = Ok nb /\ nd_doc nb = self /\
  fst s = class_id (okind (nd_obj nb)) /\ wbody (save_octx bo h m) (nd_obj nb) = Ok (snd s).

Lemma save_loop_own : forall l m n o m' n', (forall x, In x l -> U x) -> (forall i x, m i = Some x -> own_id i) ->
  save_loop bo self h l m n = (o, None, m', n') ->
  (forall a nd, In a l -> h a = Ok nd -> own_id (nd_id nd)) /\
  exists ss bs, Forall own_stored ss /\ Forall stored_ok ss /\ n' = n + len ss /\ o = map Append bs /\ concat bs = stored_all bo ss.
Proof.
  induction l as [|a l IH]; intros m n o m' n' HU Hm H; cbn [save_loop] in H.
  - injection H as <- <- <-. split; [intros a nd []|]. exists [], []. repeat split; try constructor. change (len (@nil stored)) with 0. lia.
  - destruct (h a) as [nd|e] eqn:Ea; [|discriminate].
    assert (U a) as Ua by (apply HU; now left). assert (forall x, In x l -> U x) as HU' by (intros; apply HU; now right).
    destruct (m (nd_id nd)) as [x|] eqn:Em.
    + destruct (IH m n o m' n' HU' Hm H) as [A B]. split; [|exact B].
      intros b nb [<-|I] Eb; [|eauto]. rewrite Ea in Eb. injection Eb as <-. eauto.
    + set (m1 := fun i => if i =? nd_id nd then Some (n + 1) else m i) in *.
      destruct (run_writers (write_object bo self h m1 nd)) as [o1 [e|]] eqn:E1; [discriminate|].
      destruct (save_loop bo self h l m1 (n + 1)) as [[[o2 s2] m2] n2] eqn:E2. injection H as <- -> <- <-.
      apply write_object_ok in E1 as (Es & data & Hw & H3 & Hl & bs1 & -> & C1).
      assert (own_id (nd_id nd)) as O by (exists a, nd; auto).
      assert (forall i x, m1 i = Some x -> own_id i) as Hm1.
      { intros i x. unfold m1. destruct (Z.eqb_spec i (nd_id nd)) as [->|]; eauto. }
      destruct (IH m1 (n + 1) o2 m2 n2 HU' Hm1 E2) as [A (ss & bs & Os & Ok' & -> & -> & C)].
      split.
      { intros b nb [<-|I] Eb; [|eauto]. rewrite Ea in Eb. injection Eb as <-. exact O. }
      exists ((class_id (okind (nd_obj nd)), data) :: ss), (bs1 ++ bs).
      split; [constructor; [exists a, nd, m1; auto 6|exact Os]|].
      split; [constructor; [split; [apply class_id_len|exact Hl]|exact Ok']|].
      split; [unfold len; cbn [length]; lia|]. split; [now rewrite map_app|]. rewrite concat_app, C1, C. reflexivity.
Qed.
End Foreign.

Lemma map_append_inj : forall a b, map Append a = map Append b -> a = b.
Proof. induction a as [|x a IH]; intros [|y b] E; try discriminate; [reflexivity|]. cbn [map] in E. injection E as -> E. f_equal. auto. Qed.

Lemma completed_own : forall lim z bo d o, walks_refs d -> save lim z bo d = (o, None) ->
  (forall a nd, in_doc d a -> dc_heap d a = Ok nd -> own_id (dc_self d) (dc_heap d) (in_doc d) (nd_id nd)) /\
  exists v ss, Forall (own_stored bo (dc_self d) (dc_heap d) (in_doc d)) ss /\ Forall stored_ok ss /\ head_fits z d v /\ len ss < 2 ^ 32 /\
    run_ops o = saved_hdr bo d (len ss) (to_timestamp z (dc_saved d)) v ++ stored_all bo ss.
Proof.
  intros lim z bo d o W H. apply save_write in H as [ss' H]. apply write_inv in H.
  cbv zeta in H. cbn [ss_doc new_session] in H.
  destruct H as [(e & bs & tail & F & _)|(v & l & bsl & m & n & bs & _ & Hv & Hl & Hs & Hn & -> & C)]; [discriminate|].
  destruct (walk_order lim d l W Hl) as (ND & Il & Io & Bf & Ls & _).
  apply (save_loop_own bo (dc_self d) (dc_heap d) (in_doc d)) in Hs as [A (ss & bs2 & Os & Ok' & En & Eb & C2)]; [|exact Il|discriminate].
  apply map_append_inj in Eb as <-. split.
  - intros a nd Ha Ea. apply (A a nd); [|exact Ea]. pose proof (proj2 (Io a) Ha) as I.
    pose proof (fresh_in l [] a) as X. cbn [app In] in X. tauto.
  - exists v, ss. split; [exact Os|]. split; [exact Ok'|]. split; [exact Hv|]. rewrite Z.add_0_l in En. subst n. split; [lia|].
    unfold run_ops. rewrite fold_left_app, run_ops_appends.
    cbn [fold_left apply_op app]. rewrite C, over_count, over_root, C2. unfold saved_hdr. now rewrite <- !app_assoc.
Qed.

Lemma own_table : forall bo d z v ss, head_fits z d v -> len ss < 2 ^ 32 -> Forall stored_ok ss ->
  open_table (saved_hdr bo d (len ss) (to_timestamp z (dc_saved d)) v ++ stored_all bo ss) =
  Ok (table (saved_hdr bo d (len ss) (to_timestamp z (dc_saved d)) v)
    (saved_head bo d (len ss)) (to_timestamp z (dc_saved d)) (version_read v) ss).
Proof.
  intros bo d z v ss Hv Hl F.
  apply (open_table_ok (saved_hdr bo d (len ss) (to_timestamp z (dc_saved d)) v) (saved_head bo d (len ss))); [|reflexivity|exact F].
  apply saved_header; [split; [apply len_nonneg|exact Hl]|apply Hv].
Qed.
