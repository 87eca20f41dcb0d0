(** From the round-trip lemma and the success condition of a class to [saves]. *)
From Coq Require Import ZArith List Bool.
From Verif Require Import Base IoCtx Text Exp10 MobId Storable Attributes Components TrackGroups
  Misc Essence BinModel Fits RoundTrip FitsProofs Saved Samples.
Import ListNotations.
Open Scope Z_scope.

Lemma saves_intro : forall A r w ren refs (ok : A -> Prop) fits (whole : A -> Prop),
  (forall i c, compat i c -> forall P o, ok o -> rt P (r i) (w c o) (ren (reff c) o)) ->
  (forall c o, ok o -> wiff (w c o) (fits c o)) ->
  (forall o, whole o -> ren (fun x => x) o = o) ->
  (forall f o, refs (ren f o) = map f (refs o)) ->
  saves r w ren refs ok fits whole.
Proof.
  intros A r w ren refs ok fits whole Hrt Hfit Hid Hrefs. split; [|split; auto].
  intros i c o Hc Hok. destruct (Hfit c o Hok) as [H1 H2]. split.
  - intros Hf. destruct (H2 Hf) as [bs Hbs]. exists bs. split; [exact Hbs|].
    intros rest. apply (Hrt i c Hc anyr o Hok); [exact Hbs|exact I].
  - intros Hn. destruct (w c o) as [bs|e] eqn:E; [|eauto].
    exfalso. apply Hn, H1. unfold wok. eauto.
Qed.

Lemma sample_compat : forall bo, compat (sample_in bo) (sample_out bo).
Proof.
  intros bo. split; [reflexivity|]. split; [reflexivity|].
  intros r x H. cbn in H. destruct ((1 <=? r) && (r <=? 120)) eqn:E; [|discriminate].
  injection H as <-. apply andb_true_iff in E as [E1 E2]. apply Z.leb_le in E1, E2.
  cbn. apply Z.ltb_lt. Lia.lia.
Qed.

(** Checks the side conditions of a concrete object. *)
Ltac head_of t := lazymatch t with ?f _ => head_of f | _ => t end.
Ltac leaf_ok := vm_compute; repeat split; first [discriminate | repeat constructor; discriminate].
Ltac sample_ok :=
  repeat lazymatch goal with
  | |- _ /\ _ => split
  | |- True => exact I
  | |- Forall ?P ?l => let l' := eval vm_compute in l in change (Forall P l');
      first [apply Forall_nil | apply Forall_cons; cbv beta]
  | |- NoDup _ => solve [vm_compute; repeat first [apply NoDup_nil | apply NoDup_cons];
      cbn [In]; intros H; repeat destruct H as [H|H]; first [discriminate H | contradiction]]
  | |- str_ok _ => solve [leaf_ok]
  | |- utf8_ok _ => solve [leaf_ok]
  | |- uuid_wf _ => solve [leaf_ok]
  | |- mobid_wf _ => solve [leaf_ok]
  | |- exp10_stable _ => solve [vm_compute; reflexivity]
  | |- opt_ok ?P ?o => let o' := eval vm_compute in o in change (opt_ok P o'); cbv beta iota delta [opt_ok]
  | |- attr_value_ok ?v => let v' := eval vm_compute in v in change (attr_value_ok v');
      cbv beta iota delta [attr_value_ok]
  | |- same_presence _ _ => solve [vm_compute; split; discriminate]
  | |- _ = _ => solve [reflexivity]
  | |- _ < _ => solve [reflexivity]
  | |- _ <= _ => solve [vm_compute; discriminate]
  | |- _ -> _ => solve [intros H; vm_compute; vm_compute in H; first [discriminate H | discriminate]]
  | |- _ \/ _ => first [left; reflexivity | right]
  | |- ?g => let h := head_of g in progress (unfold h)
  end.
