(** The accelerated readers follow the standard ones, class by class. *)
From Coq Require Import ZArith String List Bool Lia.
From Verif Require Import Base IoCtx Text Exp10 MobId Attributes Components TrackGroups Essence Misc.
From Verif Require Import Objects LocProofs RefsProofs Ext ExtSpec ExtSim ExtStrict.
Import ListNotations.
Open Scope string_scope.
Open Scope list_scope.
Open Scope Z_scope.

(** ** The same properties, with the allowances or without

    With [p] there are none: see [ExtStrict]. *)

Definition sgn (p : bool) (w v : Z) : Z := if p then v else as_signed w v.
Definition txt (p : bool) (s : str) : str := if p then s else strip0 s.
Definition value_p (p : bool) (v : cp_value) : cp_value := if p then v else signed_value v.
Definition point_p (p : bool) (v : param_control_point) : param_control_point :=
  if p then v else signed_point v.

Definition standard_p (p : bool) (n : string) (c : cell) : cell :=
  match c with
  | CInt v =>
    if String.eqb n "media_kind_id" then CInt (sgn p 16 v)
    else if String.eqb n "usage_code" || String.eqb n "component_width" then CInt (sgn p 32 v)
    else c
  | CText s => CText (txt p s)
  | CPoints l => CPoints (map (point_p p) l)
  | _ => c
  end.

Definition same_prop_p (p : bool) (n : string) (v : option vprop) (d : option prop) : Prop :=
  match v, d with
  | None, None => True
  | Some (VOne c), Some (One c') => c = standard_p p n c'
  | Some (VMany l), Some (Many l') => Forall2 same_child l l'
  | _, _ => False
  end.

Definition alike_p (p : bool) (v : view) (d : props) : Prop :=
  forall n, same_prop_p p n (vlook v n) (lookup d n).

Definition entry_p (p : bool) (e : str * attr_value) : str * attr_value :=
  (txt p (fst e), match snd e with AStr s => AStr (txt p s) | v => v end).

Lemma standard_p_true n c : standard_p true n c = c.
Proof.
  destruct c; cbn [standard_p]; try reflexivity.
  - destruct (String.eqb n "media_kind_id"); [reflexivity|].
    destruct (String.eqb n "usage_code" || String.eqb n "component_width"); reflexivity.
  - f_equal. apply map_id.
Qed.

Lemma alike_p_false v d : alike_p false v d -> alike v d.
Proof. exact (fun H => H). Qed.

Lemma alike_p_true v d : alike_p true v d -> exact v d.
Proof.
  intros H n. specialize (H n). unfold same_prop_p, exact_prop in *.
  destruct (vlook v n) as [[c|l]|], (lookup d n) as [[c'|l']|]; try exact H.
  rewrite standard_p_true in H. exact H.
Qed.

Lemma entry_p_true e : entry_p true e = e.
Proof. destruct e as [k []]; reflexivity. Qed.

(** ** Collections of properties *)

Lemma lookup_app {V} (a b : list (string * V)) n :
  lookup (a ++ b) n = match lookup b n with Some v => Some v | None => lookup a n end.
Proof.
  induction a as [|[k v] a IH]; cbn [lookup app].
  - destruct (lookup b n); reflexivity.
  - rewrite IH. destruct (lookup b n); reflexivity.
Qed.

Lemma vlook_app {V} (a b : list (string * option V)) n :
  vlook (a ++ b) n = match vlook a n with Some v => Some v | None => vlook b n end.
Proof.
  induction a as [|[k o] a IH]; cbn [vlook app]; [reflexivity|].
  destruct (String.eqb k n), o; try reflexivity; exact IH.
Qed.

Definition has (l : list string) (n : string) : bool := existsb (fun k => String.eqb k n) l.

Lemma vlook_has {V} (a : list (string * option V)) n : has (map fst a) n = false -> vlook a n = None.
Proof.
  induction a as [|[k o] a IH]; cbn [vlook map fst has existsb]; [reflexivity|].
  intros H. apply orb_false_iff in H. destruct H as [-> H]. apply IH. exact H.
Qed.

Lemma has_in l n : has l n = true -> In n l.
Proof.
  intros H. apply existsb_exists in H. destruct H as (k & Hk & E). apply String.eqb_eq in E.
  subst k. exact Hk.
Qed.

Lemma in_has l n : In n l -> has l n = true.
Proof. intros H. apply existsb_exists. exists n. split; [exact H|apply String.eqb_refl]. Qed.

Definition apart (l l' : list string) : bool := forallb (fun n => negb (has l n)) l'.

Lemma apart_none {V} (a b : list (string * option V)) n :
  apart (map fst a) (map fst b) = true -> vlook a n = None \/ vlook b n = None.
Proof.
  intros H. destruct (has (map fst b) n) eqn:E.
  - left. apply vlook_has. unfold apart in H. rewrite forallb_forall in H.
    specialize (H n (has_in _ _ E)). apply negb_true_iff. exact H.
  - right. apply vlook_has. exact E.
Qed.

Lemma same_none_l p n d : same_prop_p p n None d -> d = None.
Proof. destruct d; [intros []|reflexivity]. Qed.

(** Properties of the base class and of the class itself. *)
Lemma alike_app p V W a b :
  alike_p p V a -> alike_p p W b -> apart (map fst V) (map fst W) = true ->
  alike_p p (V ++ W) (a ++ b).
Proof.
  intros HV HW HA n. rewrite vlook_app, lookup_app. specialize (HV n). specialize (HW n).
  destruct (apart_none V W n HA) as [E|E]; rewrite E in *.
  - apply same_none_l in HV. rewrite HV. destruct (lookup b n); exact HW.
  - apply same_none_l in HW. rewrite HW. destruct (vlook V n); exact HV.
Qed.

(** Properties in the same order. *)
Inductive leaf (pl : bool) : view -> props -> Prop :=
| leaf_nil : leaf pl [] []
| leaf_none n V d : leaf pl V d -> leaf pl ((n, None) :: V) d
| leaf_some n v p V d :
    same_prop_p pl n (Some v) (Some p) -> leaf pl V d ->
    leaf pl ((n, Some v) :: V) ((n, p) :: d).

Fixpoint distinct (l : list string) : bool :=
  match l with
  | [] => true
  | n :: l' => negb (has l' n) && distinct l'
  end.

Lemma leaf_alike p V d : distinct (map fst V) = true -> leaf p V d -> alike_p p V d.
Proof.
  intros HD H. induction H as [|k V d H IH|k v q V d HP H IH]; cbn [map fst distinct] in *.
  - intros n. exact I.
  - apply andb_true_iff in HD. destruct HD as [HN HD].
    intros n. cbn [vlook]. specialize (IH HD n). destruct (String.eqb k n); exact IH.
  - apply andb_true_iff in HD. destruct HD as [HN HD]. apply negb_true_iff in HN.
    intros n. cbn [vlook lookup]. pose proof (IH HD n) as HI.
    destruct (String.eqb_spec k n) as [<-|N].
    + rewrite (vlook_has V k HN) in HI. apply same_none_l in HI. rewrite HI. exact HP.
    + destruct (vlook V n), (lookup d n); exact HI.
Qed.

(** A change of one property. *)
Inductive same_but {C} (n : string) :
    list (string * option C) -> list (string * option C) -> Prop :=
| but_nil : same_but n [] []
| but_same k o V V' : same_but n V V' -> same_but n ((k, o) :: V) ((k, o) :: V')
| but_here o o' V V' : same_but n V V' -> same_but n ((n, o) :: V) ((n, o') :: V').

Lemma same_but_look {C} n (V V' : list (string * option C)) m :
  same_but n V V' -> m <> n -> vlook V' m = vlook V m.
Proof.
  intros H N. induction H as [|k o V V' _ IH|o o' V V' _ IH]; cbn [vlook]; [reflexivity| |].
  - destruct (String.eqb k m), o; try reflexivity; exact IH.
  - destruct (String.eqb_spec n m) as [->|_]; [destruct (N eq_refl)|exact IH].
Qed.

Lemma same_but_app {C} n (A V V' : list (string * option C)) :
  same_but n V V' -> same_but n (A ++ V) (A ++ V').
Proof. intros H. induction A as [|[k o] A IH]; cbn [app]; [exact H|apply but_same; exact IH]. Qed.

Lemma alike_set p V V' acc n q :
  alike_p p V acc -> same_but n V V' -> same_prop_p p n (vlook V' n) (Some q) ->
  alike_p p V' (acc ++ [(n, q)]).
Proof.
  intros H HB HP m. rewrite lookup_app. cbn [lookup].
  destruct (String.eqb_spec n m) as [<-|N]; [exact HP|].
  rewrite (same_but_look n V V' m HB) by (intros E; apply N; symmetry; exact E). apply H.
Qed.

(** The readers of [ExtStrict]: a number taken as an unsigned one by one reader and as a signed one
    by the other, and texts. *)
Definition rel_sgn (p : bool) (w x v : Z) : Prop := x = sgn p w v.
Definition rel_txt (p : bool) (x v : str) : Prop := x = txt p v.

Lemma signed_small w x v : rel_signed w x v -> 0 <= x -> v = x.
Proof.
  intros [Hx Hv] L. unfold as_signed in Hx. destruct (v <? 2 ^ (w - 1)); lia.
Qed.

Lemma sim_sgn W acc p w e r :
  sim W never acc (val acc (rel_signed w)) e r -> loc r ->
  sim W never acc (val acc (rel_sgn p w)) e
    (if p then bind r (fun v => bind (rassert (0 <=? v)) (fun _ => ret v)) else r).
Proof.
  intros H Hl. destruct p.
  - intros b x t Hb E Hw q d. unfold bind in E.
    destruct (r b) as [[y t']|] eqn:Er; [|discriminate].
    destruct (Z.leb_spec 0 y) as [L|]; [|discriminate]. unfold ret in E. cbn [rassert] in E.
    unfold ret in E. injection E as <- <-.
    destruct (H b y t' Hb Er Hw q d) as [(v & q' & a & Ee & [Hv Ha])|[[] _]].
    left. exists v, q', a. split; [exact Ee|]. split; [|exact Ha].
    symmetry. eapply signed_small; eassumption.
  - eapply sim_weaken; [intros t Ht; exact Ht|intros x Hx; exact Hx| |exact H].
    intros x v a [[Hx _] Ha]. split; [exact Hx|exact Ha].
Qed.

Lemma sim_s16_p W acc p : sim W never acc (val acc (rel_sgn p 16)) eu16 (rs16_p p LE).
Proof. apply sim_sgn; [apply sim_u16_s16|auto with loc]. Qed.
Lemma sim_s32_p W acc p : sim W never acc (val acc (rel_sgn p 32)) eu32 (rs32_p p LE).
Proof. apply sim_sgn; [apply sim_u32_s32|auto with loc]. Qed.

Lemma sim_str_p acc p : sim more never acc (val acc (rel_txt p)) etext (rstr_p p LE).
Proof.
  destruct p; [|apply sim_text].
  unfold etext, edata16, rstr_p, rraw. apply sim_assoc, sim_rassoc.
  eapply sim_bind; [auto with loc|apply sim_u16|intros ? []|].
  intros n n' a [<- ->]. destruct (Z.ltb_spec n 65535), (Z.leb_spec 65535 n); try lia.
  - intros b x t Hb E Hw p d. unfold bind in E.
    destruct (fread n b) as [[s t']|] eqn:Ef; [|discriminate].
    destruct (no_outer_zeros s); [|discriminate]. cbn [rassert] in E. unfold ret in E.
    injection E as <- <-.
    destruct (sim_bytes acc n b s t' Hb Ef Hw p d) as [(v & p' & a & Ee & [<- Ha])|[[] _]].
    left. exists (map mac_dec1 s), p', a. unfold ebind. rewrite Ee. split; [reflexivity|].
    split; [reflexivity|exact Ha].
  - apply sim_eret, sim_rret. apply sim_assert. intros _. apply sim_ret. split; reflexivity.
Qed.

(** ** Tactics *)

Ltac prims := first [ apply sim_tag | apply sim_u8 | apply sim_s8 | apply sim_u16 | apply sim_s16
  | apply sim_u32 | apply sim_s32 | apply sim_ref | apply sim_date | apply sim_s64 | apply sim_double
  | apply sim_bool | apply sim_exp10 ].

Ltac nothing_left := intros; try match goal with |- context [rstr_p ?p _] => destruct p end;
  eexists; reflexivity.

Ltac prim_step := first
  [ apply sim_step; [solve [auto with loc]|solve [prims]|intros ?]
  | eapply sim_bind; [solve [auto with loc]|first [apply sim_u16_s16|apply sim_u32_s32]|intros ? []|];
    let x := fresh "x" in let v := fresh "v" in let a := fresh "a" in let Hx := fresh "Hx" in
    let Hv := fresh "Hv" in intros x v a [[Hx Hv] ->]
  | eapply sim_bind; [solve [auto with loc]|first [apply sim_s16_p|apply sim_s32_p]|intros ? []|];
    let x := fresh "x" in let v := fresh "v" in let a := fresh "a" in intros x v a [-> ->]
  | eapply sim_bind_more; [solve [auto with loc]|nothing_left|apply sim_str_p|intros ? []|];
    let x := fresh "x" in let v := fresh "v" in let a := fresh "a" in
    intros x v a [-> ->] ].

Ltac step := lazymatch goal with
  | |- sim _ _ _ _ (ebind (puts _ _ _) _) _ => unfold puts at 1; apply sim_assoc
  | |- sim _ _ _ _ (puts _ _ _) _ => unfold puts at 1
  | |- sim _ _ _ _ (ebind (ebind _ _) _) _ => apply sim_assoc
  | |- sim _ _ _ _ (ebind (put _ _) _) _ => apply sim_put
  | |- sim _ _ _ _ (ebind (eret _) _) _ => apply sim_eret
  | |- sim _ _ _ _ _ (bind (rassert _) _) => apply sim_assert; let H := fresh "Ha" in intros H
  | |- sim _ _ _ _ _ (bind (bind _ _) _) => apply sim_rassoc
  | |- sim _ _ _ _ _ (bind (ret _) _) => apply sim_rret
  | |- sim _ _ _ _ (ebind (etag _) _) (bind (rtag _) _) => apply step_tag
  | |- sim _ _ _ _ _ (fail _) => apply sim_fail
  | |- sim _ _ _ _ (put _ _) (ret _) => apply sim_put_ret
  | |- sim _ _ _ _ (eret _) (ret _) => apply sim_ret
  | |- sim _ _ _ _ (ebind _ _) (bind _ _) => prim_step
  end; cbv beta.

Ltac leaf_tac := apply leaf_alike; [reflexivity|];
  cbv [int_ ref_ bool_ opt_ component_view parameter_item_view media_descriptor_view
    effect_param_list_view]; cbn;
  repeat first [apply leaf_some; [try reflexivity|]|apply leaf_none|apply leaf_nil].

(** The invariant of the optional sections: the properties of what was read so far. *)
Ltac buts := cbv [int_ ref_ bool_ opt_ opt1_ component_view parameter_item_view media_descriptor_view
    track_view]; cbn; repeat first [apply but_same|apply but_here]; apply but_nil.

Ltac set_tac := eapply alike_set; [eassumption|buts|reflexivity].

Ltac cases := repeat (lazymatch goal with
  | |- sim _ _ _ _ (if ?c then _ else _) (if ?c then _ else _) => destruct c
  end).


Ltac loc_s := intros; repeat (lazymatch goal with
  | |- loc (bind (iter_ext _ _) _) => apply loc_bind; [apply loc_iter_ext; auto with loc|intros]
  | |- loc (bind (rlist _ _) _) => apply loc_bind; [apply loc_rlist; auto with loc|intros]
  | |- loc (bind _ _) => apply loc_bind; [auto with loc|intros]
  | |- loc (iter_ext _ _) => apply loc_iter_ext; auto with loc
  | |- loc (ret _) => apply loc_ret
  end).

(** ** Components *)

Ltac base H := eapply sim_bind; [solve [auto with loc]|apply sim_ign, H|intros ? []|];
  let p := fresh "p" in let a := fresh "a" in let HP := fresh "HP" in intros p [] a HP; cbv beta.

Ltac own := unfold sequence_view, clip_view, filler_view, source_clip_view, param_clip_view,
    track_ref_view;
  rewrite <- ?app_assoc; cbn [app]; apply alike_app; [eassumption|leaf_tac|reflexivity].

Ltac set_base_tac := eapply alike_set; [eassumption|apply same_but_app; buts|reflexivity].

Ltac resb := lazymatch goal with
  | |- res _ (bind (iter_ext _ _) _) => eapply res_bind
  | |- res _ (bind _ _) => eapply res_bind; [apply res_any; auto with loc|intros ? _]
  end.

Ltac assocs := repeat (lazymatch goal with
  | |- sim _ _ _ _ (ebind (ebind _ _) _) _ => apply sim_assoc
  | |- sim _ _ _ _ (ebind (eret _) _) _ => apply sim_eret
  end).

Ltac but_tac := apply same_but_app; buts.

Section Components.
Variable (n : option Z) (strict pl : bool).
Let i : ictx := {| ibo := LE; inobj := n |}.

Ltac sections V := eapply sim_bind; [apply loc_iter_ext; auto with loc|
    apply sim_sections with (I := fun x (_ : unit) a => alike_p pl (V x) a);
      [intros; auto with loc|let t := fresh "tag" in let s := fresh "s" in let a := fresh "acc" in
       let HI := fresh "HI" in intros t s a HI|]
    |intros ? []|
    let o := fresh "o" in let a := fresh "a" in let HO := fresh "HO" in intros o [] a HO; cbv beta].

Lemma sim_component W :
  sim W never [] (fun x _ a => alike_p pl (component_view x) a) ecomp (rcomponent_s pl i).
Proof.
  unfold ecomp, rcomponent_s. repeat step.
  apply sim_sections with (I := fun x _ a => alike_p pl (component_view x) a).
  - intros. auto with loc.
  - intros tag s acc HI. unfold component_ext. cases; repeat step. set_tac.
  - cbn [app]. leaf_tac.
Qed.

Lemma sim_clip W : sim W never [] (fun x _ a => alike_p pl (clip_view x) a) eclip (rclip_s pl i).
Proof. unfold eclip, rclip_s. base sim_component. repeat step. own. Qed.

Lemma sim_refs W acc k :
  sim W never acc (val acc eq) (elist k eu32) (rlist k (rref i)).
Proof.
  eapply sim_weaken; [intros t _; exact I|intros x Hx; exact Hx| |
    apply sim_list with (P := eq); [auto with loc|apply sim_ref]].
  intros x v a [Hf ->]. split; [apply Forall2_eq; exact Hf|reflexivity].
Qed.

Lemma sim_sequence W : sim W never [] (fun x _ a => alike_p pl (sequence_view x) a) esequence (rsequence_s pl i).
Proof.
  unfold esequence, rsequence_s. base sim_component. repeat step.
  apply sim_step; [apply loc_rlist; auto with loc|apply sim_refs|]. intros l.
  step. apply sim_close. own.
Qed.

Lemma sim_filler W : sim W never [] (fun x _ a => alike_p pl (filler_view x) a) efiller (rfiller_s pl i).
Proof.
  unfold efiller, rfiller_s. base sim_clip. repeat step. apply sim_close. exact HP.
Qed.

Lemma sim_sourceclip W :
  sim W never [] (fun x _ a => alike_p pl (source_clip_view x) a) esourceclip (rsource_clip_s pl i).
Proof.
  unfold esourceclip, rsource_clip_s. base sim_clip. repeat step. sections source_clip_view.
  - unfold source_clip_ext. cases; [|apply sim_fail].
    eapply sim_map; [apply sim_ign, sim_mobid|intros ? []|].
    intros m [] a' ->. set_base_tac.
  - own.
  - apply sim_close. exact HO.
Qed.

Lemma sim_trackref W :
  sim W never [] (fun x _ a => alike_p pl (track_ref_view x) a) etrackref (rtrack_ref_s pl i).
Proof.
  unfold etrackref, rtrack_ref_s. base sim_clip. repeat step. apply sim_close. own.
Qed.

Definition rel_value (x v : cp_value) : Prop := x = value_p pl v.

Lemma sim_point_value W acc t :
  sim W never acc (val acc rel_value) (epoint_value t) (rcp_value_s pl i t).
Proof.
  unfold epoint_value, rcp_value_s. cases; repeat step; (split; [|reflexivity]); unfold rel_value, value_p;
    destruct pl; reflexivity.
Qed.

Definition rel_property (x v : param_point_property) : Prop :=
  ppp_code x = ppp_code v /\ ppp_type x = ppp_type v /\ ppp_value x = value_p pl (ppp_value v).

Lemma sim_point_property W acc :
  sim W never acc (val acc rel_property) epoint_property (rparam_point_property_s pl i).
Proof.
  unfold epoint_property, rparam_point_property_s. step. step.
  destruct (Z.eqb_spec x 2) as [E2|N2].
  { assert (v0 = 2) by (rewrite <- E2; apply signed_small with (w := 16); [split; assumption|lia]).
    subst v0. cbn [Z.eqb Pos.eqb]. repeat step. split; [|reflexivity].
    split; [reflexivity|]. split; [exact E2|destruct pl; reflexivity]. }
  destruct (Z.eqb_spec x 1) as [E1|N1].
  { assert (v0 = 1) by (rewrite <- E1; apply signed_small with (w := 16); [split; assumption|lia]).
    subst v0. cbn [Z.eqb Pos.eqb]. repeat step. split; [|reflexivity].
    split; [reflexivity|]. split; [exact E1|destruct pl; reflexivity]. }
  intros b y t Hb E. discriminate E.
Qed.

Definition rel_point (x v : param_control_point) : Prop := x = point_p pl v.

Lemma sim_point W acc t : sim W never acc (val acc rel_point) (epoint t) (rparam_control_point_s pl i t).
Proof.
  unfold epoint, rparam_control_point_s. repeat step.
  eapply sim_bind; [auto with loc|apply sim_point_value|intros ? []|]. intros x y a [Hv ->].
  repeat step. apply Z.leb_le in Ha.
  assert (E : v2 = x0) by (apply signed_small with (w := 16); [split; assumption|exact Ha]).
  rewrite E.
  eapply sim_bind; [apply loc_rlist; auto with loc|
    apply sim_list; [auto with loc|apply sim_point_property]|intros ? []|].
  intros l l' a [Hl ->]. step. split; [|reflexivity]. unfold rel_point, point_p, signed_point.
  cbn [pcp_offset_num pcp_offset_den pcp_timescale pcp_value pcp_pp].
  unfold rel_value, rel_property, value_p in *. clear - Hv Hl. destruct pl; rewrite Hv; f_equal.
  - induction Hl as [|q q' l l' (H1 & H2 & H3) _ IH]; [reflexivity|].
    rewrite <- IH. f_equal. destruct q, q'; cbn in *. congruence.
  - induction Hl as [|q q' l l' (H1 & H2 & H3) _ IH]; [reflexivity|].
    cbn [map]. rewrite <- IH. f_equal. destruct q; cbn in *. congruence.
Qed.

Lemma sim_paramclip W :
  sim W never [] (fun x _ a => alike_p pl (param_clip_view x) a) eparamclip (rparam_clip_s pl i).
Proof.
  unfold eparamclip, rparam_clip_s. base sim_clip. repeat step.
  assert (E : v0 = x).
  { apply signed_small with (w := 16); [split; assumption|].
    apply orb_true_iff in Ha. destruct Ha as [Ha|Ha];
      [apply orb_true_iff in Ha; destruct Ha as [Ha|Ha]|]; apply Z.eqb_eq in Ha; lia. }
  apply Z.leb_le in Ha0.
  assert (E1 : v1 = x0) by (apply signed_small with (w := 32); [split; assumption|exact Ha0]).
  rewrite E, E1.
  eapply sim_bind; [apply loc_rlist; auto with loc|
    apply sim_list; [auto with loc|apply sim_point]|intros ? []|].
  intros l l' a' [Hl ->]. step. sections param_clip_view.
  - unfold param_clip_ext. cases; repeat step; set_base_tac.
  - assert (El : l = map (point_p pl) l').
    { clear - Hl. induction Hl as [|q q' l l' H _ IH]; [reflexivity|]. cbn [map]. congruence. }
    rewrite El. own.
  - apply sim_close. exact HO.
Qed.

Lemma sim_item_value W acc t :
  sim W never acc (fun x (_ : unit) a => a = acc ++ [("value", One (value_cell x))])
    (eitem_value t) (rprit_value i t).
Proof.
  unfold eitem_value, rprit_value. cases; repeat step; reflexivity.
Qed.

Lemma sim_paramitem W :
  sim W never [] (fun x _ a => alike_p pl (parameter_item_view x) a) eparamitem (rparameter_item_s pl i).
Proof.
  unfold eparamitem, rparameter_item_s. do 2 step.
  eapply sim_bind; [auto with loc|apply sim_rawuuid|intros ? []|]. intros u [] a ->. repeat step.
  eapply sim_bind; [|apply sim_item_value|intros ? []|].
  { unfold rprit_value. repeat (destruct (_ =? _)); loc. }
  intros value [] a ->. repeat step. sections parameter_item_view.
  - unfold parameter_item_ext. cases; repeat step; set_tac.
  - cbn [app]. leaf_tac. destruct value; reflexivity.
  - apply sim_close. exact HO.
Qed.

(** ** Track groups *)

Definition piece {C} (e : string * option C) : list (string * C) :=
  match snd e with Some c => [(fst e, c)] | None => [] end.

Lemma pieces_look {C} (V : list (string * option C)) m :
  distinct (map fst V) = true -> vlook V m = lookup (flat_map piece V) m.
Proof.
  induction V as [|[k o] V IH]; cbn [map fst distinct flat_map vlook]; [reflexivity|].
  intros H. apply andb_true_iff in H. destruct H as [HN H]. apply negb_true_iff in HN.
  specialize (IH H). destruct o as [c|]; unfold piece at 1; cbn [fst snd app lookup].
  - destruct (String.eqb_spec k m) as [<-|N].
    + rewrite <- IH, (vlook_has V k HN). reflexivity.
    + rewrite <- IH. destruct (vlook V m); reflexivity.
  - rewrite <- IH. destruct (String.eqb k m); reflexivity.
Qed.

Lemma sim_flag {A} W acc flags bit nm (f : A -> cell) (e : M cell) (r : reader A) :
  sim any never acc (val acc (fun x v => v = f x)) e r -> loc r ->
  sim W never acc (val acc (fun x v => v = piece (nm, opt1_ f x))) (eflag flags bit nm e)
    (rflag flags bit r).
Proof.
  intros H Hl. unfold eflag, rflag. destruct (Z.testbit flags bit).
  - eapply sim_bind; [exact Hl|exact H|intros ? []|]. intros x v a [-> ->].
    apply sim_ret. split; reflexivity.
  - apply sim_ret. split; reflexivity.
Qed.

Lemma sim_eint W acc (e : M Z) r : sim W never acc (val acc eq) e r ->
  sim W never acc (val acc (fun x v => v = CInt x)) (eint e) r.
Proof.
  intros H. unfold eint. eapply sim_then; [exact H|]. intros x v ->. reflexivity.
Qed.

Lemma sim_eref W acc : sim W never acc (val acc (fun x v => v = CRef x)) eref (rref i).
Proof. unfold eref. eapply sim_then; [apply sim_ref|]. intros x v ->. reflexivity. Qed.

Lemma sim_ebit W acc : sim W never acc (val acc (fun x v => v = CBool x)) ebit rbool.
Proof. unfold ebit. eapply sim_then; [apply sim_bool|]. intros x v ->. reflexivity. Qed.

Lemma loc_rflag {A} flags bit (r : reader A) : loc r -> loc (rflag flags bit r).
Proof. intros H. unfold rflag. destruct (Z.testbit flags bit); loc. Qed.

Definition rel_track (x : track) (v : child) : Prop := same_child (track_view x) v.

Ltac flag_step := eapply sim_bind;
  [apply loc_rflag; solve [auto with loc]
  |apply sim_flag; [first [apply sim_eint; prims|apply sim_eref|apply sim_ebit]|solve [auto with loc]]
  |intros ? []|];
  let x := fresh "x" in let v := fresh "v" in let a := fresh "a" in intros x v a [-> ->].

Lemma sim_track W acc : sim W never acc (val acc rel_track) etrack (rtrack i).
Proof.
  unfold etrack, rtrack. step. do 10 flag_step. cbv zeta beta.
  change unknown_flags with 0xFC00. destruct (Z.land v 0xFC00 =? 0); cbn [negb]; [|apply sim_fail].
  step. apply sim_ret. split; [|reflexivity].
  intros m. etransitivity; [apply pieces_look; reflexivity|].
  unfold track_view. cbn [flat_map]. unfold piece at 11. cbn [snd opt1_ trak_lock_number].
  rewrite ?app_nil_r. reflexivity.
Qed.

Lemma same_child_set V V' d m c :
  same_child V d -> same_but m V V' -> vlook V' m = Some c -> same_child V' (d ++ [(m, c)]).
Proof.
  intros H HB HV k. rewrite lookup_app. cbn [lookup].
  destruct (String.eqb_spec m k) as [<-|N]; [exact HV|].
  rewrite (same_but_look m V V' k HB) by (intros E; apply N; symmetry; exact E). apply H.
Qed.

Lemma sim_locks W acc l l' : Forall2 rel_track l l' ->
  sim W never acc (val acc (Forall2 rel_track)) (elocks l') (rmapm (rlock i) l).
Proof.
  intros H. revert W. induction H as [|x v l l' Hx _ IH]; intros W; cbn [elocks rmapm].
  - apply sim_ret. split; constructor.
  - unfold rlock at 1. repeat step.
    eapply sim_bind; [apply loc_rmapm; auto with loc|apply IH|intros ? []|].
    intros y y' a [Hy ->]. apply sim_ret. split; [|reflexivity]. constructor; [|exact Hy].
    apply same_child_set with (V := track_view x); [exact Hx| |reflexivity].
    buts.
Qed.

Lemma Forall2_map_l {A B C} (P : B -> C -> Prop) (f : A -> B) l l' :
  Forall2 (fun x v => P (f x) v) l l' -> Forall2 P (map f l) l'.
Proof. induction 1; cbn [map]; constructor; assumption. Qed.

Definition no_tracks (x : track_group) : Prop := strict = false /\ trkg_tracks x = [].

Lemma sim_trackgroup W :
  sim W no_tracks [] (fun x _ a => alike_p pl (track_group_view x) a) etrackgroup (rtrack_group_s strict pl i).
Proof.
  unfold etrackgroup, rtrack_group_s.
  eapply sim_bind; [solve [auto with loc]|apply sim_ign, sim_component|intros ? []|].
  intros p [] a HP. repeat step.
  destruct (Z.ltb_spec v2 0) as [L|L].
  { apply sim_throw. replace (Z.to_nat v2) with 0%nat by lia. cbn [rlist].
    assert (HS : strict = false).
    { destruct strict; [|reflexivity]. cbn [negb orb] in Ha. apply Z.leb_le in Ha. lia. }
    eapply res_bind; [apply res_ret with (Q := fun l => l = []); reflexivity|].
    intros l ->. apply res_iter_ext; [|split; [exact HS|reflexivity]].
    intros tag s [_ Hs]. unfold track_group_ext. destruct (tag =? 1); [|apply res_fail].
    rewrite Hs. cbn [rmapm].
    eapply res_bind; [apply res_ret with (Q := fun l => l = []); reflexivity|].
    intros l ->. apply res_ret. split; [exact HS|reflexivity]. }
  step. apply sim_weaken with (W := W) (Q := never) (R := fun x _ a => alike_p pl (track_group_view x) a);
    [trivial|intros ? []|trivial|].
  eapply sim_bind; [apply loc_rlist; auto with loc|
    apply sim_list; [auto with loc|apply sim_track]|intros ? []|].
  intros l l' a' [Hl ->]. step.
  eapply sim_drop.
  - apply sim_while with (I := fun x v a => alike_p pl (track_group_view x) a /\
      Forall2 rel_track (trkg_tracks x) v).
    + intros. auto with loc.
    + intros tag s m acc [HA HT]. unfold track_group_ext. cases; [|apply sim_fail].
      eapply sim_bind; [apply loc_rmapm; auto with loc|apply sim_locks; exact HT|intros ? []|].
      intros y y' b [Hy ->]. step. step. split; [|exact Hy].
      eapply alike_set; [exact HA| |apply Forall2_map_l; exact Hy].
      apply same_but_app.
      buts.
    + split; [|exact Hl]. unfold track_group_view.
      rewrite <- ?app_assoc; cbn [app]; apply alike_app; [exact HP|leaf_tac|reflexivity].
      apply Forall2_map_l. exact Hl.
  - intros x v3 b [H _]. exact H.
Qed.

Lemma sim_trackeffect W :
  sim W (fun x => no_tracks (tkfx_group x)) [] (fun x _ a => alike_p pl (track_effect_view x) a)
    etrackeffect (rtrack_effect_s strict pl i).
Proof.
  unfold etrackeffect, rtrack_effect_s.
  eapply sim_bind; [solve [auto with loc]|apply sim_ign, sim_trackgroup| |].
  - intros x Hx. repeat resb. apply res_iter_ext; [|exact Hx].
    intros tag s Hs. unfold track_effect_ext. destruct (tag =? 2); [|apply res_fail].
    repeat resb. apply res_ret. exact Hs.
  - intros p [] a HP. repeat step.
    eapply sim_weaken with (W := any) (Q := never) (R := fun x _ a => alike_p pl (track_effect_view x) a);
      [intros; exact I|intros ? []|trivial|].
    apply sim_sections.
    + intros. auto with loc.
    + intros tag s acc HI. unfold track_effect_ext. cases; repeat step. set_base_tac.
    + unfold track_effect_view. rewrite <- ?app_assoc; cbn [app].
      apply alike_app; [exact HP|leaf_tac|reflexivity].
Qed.

Lemma sim_composition W :
  sim W (fun x => no_tracks (cmpo_group x)) [] (fun x _ a => alike_p pl (composition_view x) a)
    ecomposition (rcomposition_s strict pl i).
Proof.
  unfold ecomposition, rcomposition_s.
  eapply sim_bind; [solve [auto with loc]|apply sim_ign, sim_trackgroup| |].
  - intros x Hx. repeat resb.
    + apply res_iter_ext with (Q := fun y => no_tracks (cmpo_group y)); [|exact Hx].
      intros tag s Hs. unfold composition_ext. destruct (tag =? 1); [|destruct (tag =? 2); [|apply res_fail]];
      repeat resb; apply res_ret; exact Hs.
    + intros y Hy. resb. apply res_ret. exact Hy.
  - intros p [] a HP. repeat step. sections composition_view.
    + unfold composition_ext. cases; repeat step; [set_base_tac|].
      eapply sim_map; [apply sim_ign, sim_mobid|intros ? []|].
      intros m [] a' ->. set_base_tac.
    + unfold composition_view. rewrite <- ?app_assoc; cbn [app].
      apply alike_app; [exact HP|leaf_tac|reflexivity].
    + apply sim_close. exact HO.
Qed.

(** ** Descriptors *)

Lemma sim_mediadescriptor W :
  sim W never [] (fun x _ a => alike_p pl (media_descriptor_view x) a)
    emediadescriptor (rmedia_descriptor_base i).
Proof.
  unfold emediadescriptor, rmedia_descriptor_base. repeat step.
  apply sim_sections with (I := fun x _ a => alike_p pl (media_descriptor_view x) a).
  - intros. auto with loc.
  - intros tag s acc HI. unfold media_descriptor_ext. cases.
    + step. apply sim_count; [lia|].
      eapply sim_map; [apply sim_rawuuid|intros ? []|].
      intros m [] a' ->. set_tac.
    + step. unfold puts, edata32. repeat step.
      eapply sim_bind_last; [auto with loc| |apply sim_bytes_signed; split; eassumption|intros ? []|].
      * intros y b z t E. injection E as _ <-. reflexivity.
      * intros y y' a [<- ->]. step. set_tac.
    + repeat step. set_tac.
    + apply sim_fail.
  - cbn [app]. leaf_tac.
Qed.

Lemma sim_mediafiledescriptor W :
  sim W never [] (fun x _ a => alike_p pl (media_file_descriptor_view x) a)
    emediafiledescriptor (rmedia_file_descriptor_base i).
Proof.
  unfold emediafiledescriptor, rmedia_file_descriptor_base.
  eapply sim_bind; [auto with loc|apply sim_mediadescriptor|intros ? []|].
  intros p [] a HP. repeat step. unfold media_file_descriptor_view.
  rewrite <- ?app_assoc; cbn [app]. apply alike_app; [exact HP|leaf_tac|reflexivity].
Qed.

Lemma sim_corner W acc : sim W never acc (val acc eq) ecorner (rpoint i).
Proof. unfold ecorner, rpoint. repeat step. split; reflexivity. Qed.

Lemma sim_box W acc : sim W never acc (val acc (fun x v => box_cell x = CPairs v)) ebox (rbounds_box i).
Proof.
  unfold ebox, rbounds_box. cbn [elist].
  assert (HL : loc (rpoint i)) by (unfold rpoint; loc).
  apply sim_step; [exact HL|apply sim_corner|]. intros p0. assocs.
  apply sim_step; [exact HL|apply sim_corner|]. intros p1. assocs.
  apply sim_step; [exact HL|apply sim_corner|]. intros p2. assocs.
  apply sim_step; [exact HL|apply sim_corner|]. intros p3. assocs.
  apply sim_ret. split; [|reflexivity]. destruct p0, p1, p2, p3. reflexivity.
Qed.

Lemma loc_rbounds_box : loc (rbounds_box i).
Proof. unfold rbounds_box, rpoint. loc. Qed.
Hint Resolve loc_rbounds_box : loc.

Lemma sim_line_map W acc :
  sim W (fun x => strict = false /\ x = []) acc (val acc eq) eline_map (rline_map_s strict i).
Proof.
  unfold eline_map, rline_map_s. prim_step. cbv beta. unfold as_signed in Hx.
  apply sim_assert. intros Ha.
  destruct (Z.leb_spec (2 ^ 31) v) as [L|L].
  - destruct (Z.ltb_spec v (2 ^ (32 - 1))); [lia|]. assert (Hn : x < 0) by lia.
    intros b y t Hb E _ p d. right. split; [|exists (mk p b d); reflexivity].
    split; [destruct strict; [|reflexivity]; cbn [negb orb] in Ha; apply Z.leb_le in Ha; lia|].
    destruct (Z.eqb_spec x 0); [lia|].
    assert (x / 4 <= 0) by (apply Z.div_le_upper_bound; lia).
    replace (Z.to_nat (x / 4)) with 0%nat in E by lia. injection E as <- _. reflexivity.
  - destruct (Z.ltb_spec v (2 ^ (32 - 1))); [|lia]. subst x.
    apply sim_weaken with (W := any) (Q := never) (R := val acc eq);
      [intros; exact I|intros ? []|trivial|].
    destruct (Z.eqb_spec v 0) as [->|N].
    + change (Z.to_nat (0 / 4)) with 0%nat. cbn [elist]. apply sim_ret. split; reflexivity.
    + eapply sim_weaken; [intros t Ht; exact Ht|intros x Hx; exact Hx| |
        apply sim_list with (P := eq); [auto with loc|apply sim_s32]].
      intros y y' a [Hf ->]. split; [apply Forall2_eq; exact Hf|reflexivity].
Qed.

Lemma sim_did_section tag s acc :
  alike_p pl (did_descriptor_view s) acc ->
  sim more never acc (fun x (_ : unit) a => alike_p pl (did_descriptor_view x) a) (edid_section tag)
    (did_descriptor_ext i tag s).
Proof.
  intros HI. unfold edid_section, did_descriptor_ext.
  destruct (tag =? 1); [repeat step; set_base_tac|].
  destruct (tag =? 2); [repeat step; set_base_tac|].
  destruct (tag =? 3); [repeat step; set_base_tac|].
  destruct (tag =? 4).
  { repeat step.
    apply alike_set with (V := did_descriptor_view (set_didd_client_fill_start s (Some v)));
      [|but_tac|reflexivity].
    set_base_tac. }
  destruct (tag =? 5); [repeat step; set_base_tac|].
  destruct (tag =? 6); [repeat step; set_base_tac|].
  destruct (tag =? 8).
  { unfold puts. repeat step.
    eapply sim_bind; [auto with loc|apply sim_box|intros ? []|]. intros b1 l1 a1 [E1 ->]. repeat step.
    eapply sim_bind; [auto with loc|apply sim_box|intros ? []|]. intros b2 l2 a2 [E2 ->]. repeat step.
    eapply sim_bind; [auto with loc|apply sim_box|intros ? []|]. intros b3 l3 a3 [E3 ->]. repeat step.
    apply alike_set with (V := did_descriptor_view (set_didd_essence_box (set_didd_valid_box s (Some b1)) (Some b2)));
      [|but_tac|exact E3].
    apply alike_set with (V := did_descriptor_view (set_didd_valid_box s (Some b1)));
      [|but_tac|exact E2].
    eapply alike_set; [eassumption|but_tac|exact E1]. }
  destruct (tag =? 9).
  { unfold puts. repeat step.
    eapply sim_bind; [auto with loc|apply sim_box|intros ? []|]. intros b1 l1 a1 [E1 ->]. repeat step.
    apply alike_set with (V := did_descriptor_view (set_didd_framing_box s (Some b1)));
      [|but_tac|reflexivity].
    eapply alike_set; [eassumption|but_tac|exact E1]. }
  destruct (tag =? 10).
  { step. eapply sim_map; [apply sim_rawuuid|intros ? []|]. intros m [] a' ->. set_base_tac. }
  destruct (tag =? 11).
  { step. eapply sim_bind; [auto with loc|apply sim_rawuuid|intros ? []|]. intros u [] a' ->. step.
    eapply sim_map; [apply sim_rawuuid|intros ? []|]. intros m [] a' ->.
    apply alike_set with (V := did_descriptor_view (set_didd_color_primaries s (Some u)));
      [|but_tac|reflexivity].
    set_base_tac. }
  destruct (tag =? 12).
  { step. eapply sim_map; [apply sim_rawuuid|intros ? []|]. intros m [] a' ->. set_base_tac. }
  destruct (tag =? 14); [repeat step; set_base_tac|].
  destruct (tag =? 15); [repeat step; set_base_tac|].
  apply sim_fail.
Qed.

Definition no_line_map (x : did_descriptor) : Prop := strict = false /\ didd_line_map x = [].

Lemma res_did_section tag s : no_line_map s -> res no_line_map (did_descriptor_ext i tag s).
Proof.
  intros Hs. unfold did_descriptor_ext.
  repeat (destruct (tag =? _); [repeat resb; apply res_ret; exact Hs|]). apply res_fail.
Qed.

Lemma sim_diddescriptor W :
  sim W no_line_map [] (fun x _ a => alike_p pl (did_descriptor_view x) a)
    ediddescriptor (rdid_descriptor_s strict i).
Proof.
  unfold ediddescriptor, rdid_descriptor_s.
  eapply sim_bind; [auto with loc|apply sim_ign, sim_mediafiledescriptor|intros ? []|].
  intros p [] a HP. repeat step.
  eapply sim_bind; [auto with loc|apply sim_line_map| |].
  { intros x [HS ->]. repeat resb. apply res_iter_ext; [|split; [exact HS|reflexivity]].
    intros tag s Hs. apply res_did_section. exact Hs. }
  intros lm lm' a' [<- ->].
  apply sim_weaken with (W := any) (Q := never) (R := fun x _ a => alike_p pl (did_descriptor_view x) a);
    [intros; exact I|intros ? []|trivial|].
  repeat step. unfold rfourcc at 1. step.
  apply sim_fread_more; [lia|intros; eexists; reflexivity|]. intros c _ _. repeat step.
  apply sim_sections; [intros; auto with loc|intros; apply sim_did_section; assumption|].
  unfold did_descriptor_view. rewrite <- ?app_assoc; cbn [app].
  apply alike_app; [exact HP|leaf_tac|reflexivity].
Qed.

Lemma sim_cdcidescriptor W :
  sim W (fun x => no_line_map (cdci_did x)) [] (fun x _ a => alike_p pl (cdci_descriptor_view x) a)
    ecdcidescriptor (bind (rcdci_descriptor_s strict pl i) (fun o => bind (rtag 3) (fun _ => ret o))).
Proof.
  unfold ecdcidescriptor, rcdci_descriptor_s. apply sim_rassoc.
  eapply sim_bind; [auto with loc|apply sim_ign, sim_diddescriptor| |].
  { intros x Hx. eapply res_bind.
    - repeat resb. apply res_iter_ext with (Q := fun y => no_line_map (cdci_did y)); [|exact Hx].
      intros tag s Hs. unfold cdci_descriptor_ext.
      destruct (tag =? 1); [|destruct (tag =? 2); [|apply res_fail]]; repeat resb; apply res_ret; exact Hs.
    - intros y Hy. resb. apply res_ret. exact Hy. }
  intros p [] a HP. repeat step. sections cdci_descriptor_view.
  - unfold cdci_descriptor_ext. cases; repeat step; set_base_tac.
  - unfold cdci_descriptor_view. rewrite <- ?app_assoc; cbn [app].
    apply alike_app; [exact HP|leaf_tac|reflexivity].
  - apply sim_close. exact HO.
Qed.

(** ** Effect parameters *)

Lemma sim_s32s W acc k : sim W never acc (val acc eq) (elist k es32) (rlist k (rs32 (ibo i))).
Proof.
  eapply sim_weaken; [intros t _; exact I|intros x Hx; exact Hx| |
    apply sim_list with (P := eq); [auto with loc|apply sim_s32]].
  intros x v a [Hf ->]. split; [apply Forall2_eq; exact Hf|reflexivity].
Qed.

Definition rel_param (x : effect_param) (v : child) : Prop := same_child (effect_param_view x) v.

Lemma sim_param W acc : sim W never acc (val acc rel_param) eparam (reffect_param i).
Proof.
  unfold eparam, reffect_param, rbox. repeat step.
  apply Z.leb_le in Ha.
  assert (E : v28 = x) by (apply signed_small with (w := 32); [split; assumption|exact Ha]).
  rewrite E. apply sim_step; [apply loc_rlist; auto with loc|apply sim_s32s|]. intros colors.
  repeat step. apply Z.leb_le in Ha0.
  assert (E0 : v29 = x0) by (apply signed_small with (w := 32); [split; assumption|exact Ha0]).
  rewrite E0. apply sim_fread_more; [exact Ha0|intros; eexists; reflexivity|].
  intros c _ _. repeat step. split; [|reflexivity].
  intros m. etransitivity; [apply pieces_look; reflexivity|]. reflexivity.
Qed.

Lemma sim_effectparamlist W :
  sim W (fun x => strict = false /\ fxps_parameters x = []) []
    (fun x _ a => alike_p pl (effect_param_list_view x) a)
    eeffectparamlist (reffect_param_list_s strict i).
Proof.
  unfold eeffectparamlist, reffect_param_list_s. repeat step.
  unfold as_signed in Hx.
  destruct (Z.leb_spec (2 ^ 31) v1) as [L|L].
  - destruct (Z.ltb_spec v1 (2 ^ (32 - 1))); [lia|]. apply sim_throw.
    replace (Z.to_nat x) with 0%nat by lia. cbn [rlist].
    eapply res_bind; [apply res_ret with (Q := fun l => l = []); reflexivity|].
    intros l ->. resb. apply res_ret. split; [|reflexivity].
    destruct strict; [|reflexivity]. cbn [negb orb] in Ha. apply Z.leb_le in Ha. lia.
  - destruct (Z.ltb_spec v1 (2 ^ (32 - 1))); [|lia]. subst x. step.
    apply sim_weaken with (W := any) (Q := never) (R := fun x _ a => alike_p pl (effect_param_list_view x) a);
      [intros; exact I|intros ? []|trivial|].
    eapply sim_bind; [apply loc_rlist; auto with loc|
      apply sim_list; [auto with loc|apply sim_param]|intros ? []|].
    intros l l' a [Hl ->]. step. apply sim_close.
    cbn [app]. leaf_tac. apply Forall2_map_l. exact Hl.
Qed.

(** ** Attributes *)

Definition rel_entry (x v : str * attr_value) : Prop := x = entry_p pl v.

Lemma sim_attr acc : sim more never acc (val acc rel_entry) eattr (rattr_s pl i).
Proof.
  unfold eattr, rattr_s. step.
  apply sim_weaken with (W := more) (Q := never) (R := val acc rel_entry); [trivial|trivial|trivial|].
  eapply sim_bind_gen with (W1 := more); [auto with loc| |apply sim_str_p|intros ? []|].
  - intros x b y t E ->.
    destruct (v =? 1); [discriminate E|]. destruct (v =? 2); [destruct pl; discriminate E|].
    destruct (v =? 3); [discriminate E|]. destruct (v =? 4); discriminate E.
  - intros x y a [-> ->]. cases.
    + apply sim_bind with (Q1 := never) (R1 := val acc (rel_signed 32));
        [auto with loc|apply sim_u32_s32|intros ? []|].
      intros x z a [[-> _] ->]. step. split; reflexivity.
    + eapply sim_bind_last; [auto with loc| |apply sim_str_p|intros ? []|].
      * intros x b z t E. injection E as _ <-. reflexivity.
      * intros x z a [-> ->]. step. split; reflexivity.
    + repeat step. split; reflexivity.
    + unfold edata32. repeat step.
      eapply sim_bind_last; [auto with loc| |apply sim_bytes|intros ? []|].
      * intros x b z t E. injection E as _ <-. reflexivity.
      * intros x z a [<- ->]. step. split; reflexivity.
    + apply sim_fail.
Qed.

Lemma sim_selector W :
  sim W never [] (fun x _ a => alike_p pl (selector_view x) a) eselector (rselector_s strict pl i).
Proof.
  unfold eselector, rselector_s.
  eapply sim_bind; [solve [auto with loc]|apply sim_ign, sim_trackgroup| |].
  - intros x [_ Hx]. do 3 resb.
    eapply res_bind with (P := fun v => 0 <= v); [|intros v Hv].
    + intros b v t Hb E.
      split; [|eapply loc_bytes; [|exact Hb|exact E]; auto with loc].
      clear - E Hb. unfold ru16, runsigned, bind, take in E.
      destruct (Nat.ltb_spec (length b) 2); [discriminate|]. unfold ret in E. injection E as <- _.
      cbn [dec]. apply le_dec_bound. rewrite <- (firstn_skipn 2 b) in Hb. apply Forall_app in Hb. apply Hb.
    + rewrite Hx. intros b y t Hb E. unfold bind in E.
      change (len (@nil track)) with 0 in E.
      destruct (Z.ltb_spec v 0); [lia|]. discriminate E.
  - intros p [] a HP. repeat step. apply sim_close.
    unfold selector_view. rewrite <- ?app_assoc; cbn [app].
    apply alike_app; [exact HP|leaf_tac|reflexivity].
Qed.

End Components.

(** ** Attributes *)

Open Scope reader_scope.
Definition rattributes_open (pl : bool) (i : ictx) : reader (list (str * attr_value)) :=
  rtag 2 ;;; rtag 1 ;;;
  count <- ru32 (ibo i) ;;
  if count =? 0 then ret []
  else l <- rlist (Z.to_nat count) (rattr_s pl i) ;; rtag 3 ;;; ret l.
Close Scope reader_scope.

Lemma sim_attributes n pl :
  sim any never [] (val [] (Forall2 (rel_entry pl))) eattributes
    (rattributes_open pl {| ibo := LE; inobj := n |}).
Proof.
  unfold eattributes, rattributes_open. repeat step. destruct (_ =? 0).
  - apply sim_ret. split; constructor.
  - eapply sim_bind_more with (Q1 := never); [apply loc_rlist; auto with loc| | |intros ? []|].
    + intros l. eexists. reflexivity.
    + apply sim_list_more; [auto with loc|apply sim_attr].
    + intros l l' a [E ->]. repeat step. split; [exact E|reflexivity].
Qed.

Lemma attributes_open pl i data x t : rattributes_s pl i data = Ok (x, t) ->
  exists l t', rattributes_open pl i data = Ok (l, t') /\ x = dict_of l.
Proof.
  unfold rattributes_s, rattributes_open, bind. intros E.
  destruct (rtag 2 data) as [[? b1]|]; [|discriminate].
  destruct (rtag 1 b1) as [[? b2]|]; [|discriminate].
  destruct (ru32 (ibo i) b2) as [[c b3]|]; [|discriminate].
  destruct (Z.eqb_spec c 0) as [->|].
  - cbn [Z.to_nat rlist] in E. unfold ret in E. destruct (rtag 3 b3) as [[? b4]|]; [|discriminate].
    injection E as <- _. exists [], b3. split; reflexivity.
  - destruct (rlist (Z.to_nat c) (rattr_s pl i) b3) as [[l b4]|]; [|discriminate].
    destruct (rtag 3 b4) as [[? b5]|]; [|discriminate].
    injection E as <- _. exists l, b5. split; reflexivity.
Qed.
