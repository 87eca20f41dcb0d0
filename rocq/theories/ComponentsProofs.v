(** Round trips of the classes of Attributes.v and Components.v. *)
From Coq Require Import ZArith List Bool Lia.
From Verif Require Import Base IoCtx Text Exp10 MobId ClassTac Attributes Components.
Import ListNotations.
Open Scope Z_scope.

#[export] Hint Unfold component_ext source_clip_ext param_clip_ext : cls.

(** ** Dictionaries *)

Lemma str_eqb_false : forall a b, a <> b -> str_eqb a b = false.
Proof. intros a b H. unfold str_eqb. now destruct (list_eq_dec Z.eq_dec a b). Qed.

Lemma str_eqb_refl : forall a, str_eqb a a = true.
Proof. intros a. unfold str_eqb. now destruct (list_eq_dec Z.eq_dec a a). Qed.

Lemma dict_set_new : forall V (d : list (str * V)) k v,
  ~ In k (map fst d) -> dict_set d k v = d ++ [(k, v)].
Proof.
  induction d as [|[k' v'] d IH]; intros k v H; cbn [dict_set app]; auto.
  cbn in H. rewrite str_eqb_false by (intros ->; apply H; now left).
  rewrite IH; auto.
Qed.

Lemma dict_build : forall V (l d : list (str * V)), NoDup (map fst (d ++ l)) ->
  fold_left (fun d p => dict_set d (fst p) (snd p)) l d = d ++ l.
Proof.
  induction l as [|[k v] l IH]; intros d H; cbn [fold_left fst snd].
  - now rewrite app_nil_r.
  - assert (~ In k (map fst d)) as Hk.
    { rewrite map_app in H. cbn [map fst] in H. apply NoDup_remove_2 in H.
      intros Hi. apply H. apply in_or_app. now left. }
    rewrite dict_set_new by exact Hk. rewrite IH.
    + now rewrite <- app_assoc.
    + now rewrite <- app_assoc.
Qed.

Section Classes.
Context (i : ictx) (c : octx) (Hc : compat i c).

Lemma rt_attr : forall p, str_ok (fst p) -> attr_value_ok (snd p) ->
  rt anyr (rattr i) (wattr c p) (fst p, attr_value_map (reff c) (snd p)).
Proof.
  pose proof (proj1 Hc) as Hbo.
  intros [k v] Hk Hv. cbn [fst snd] in *. unfold rattr, wattr. bo_norm.
  destruct v; cbn [attr_value_ok attr_value_map] in *; rt_go.
Qed.

Lemma rt_attributes : forall P o, attributes_ok o ->
  rt P (rattributes i) (wattributes c o) (attributes_map (reff c) o).
Proof.
  intros P o [Hn Hf]. pose proof (proj1 Hc) as Hbo. unfold rattributes, wattributes.
  bo_norm.
  do 3 (eapply rt_bind with (Q := anyr); [ rt_elem | cbv beta | intros; exact I ]).
  eapply rt_bind with (Q := anyr); [| | intros; exact I].
  { eapply rt_list; [apply len_nat|]. intros x Hx. use_ok. now apply rt_attr. }
  cbv beta. eapply rt_bind_last; [rt_elem|]. intros rest. cbv beta. unfold ret.
  rewrite dict_build; [reflexivity|].
  cbn [app]. rewrite map_map. cbn [fst]. exact Hn.
Qed.

Lemma rt_parameter_list : forall P o, parameter_list_ok o ->
  rt P (rparameter_list i) (wparameter_list c o) (parameter_list_map (reff c) o).
Proof. rt_start. unfold rparameter_list, wparameter_list. rt_class. Qed.

Lemma rt_time_crumb_list : forall P o, time_crumb_list_ok o ->
  rt P (rtime_crumb_list i) (wtime_crumb_list c o) (time_crumb_list_map (reff c) o).
Proof. rt_start. unfold rtime_crumb_list, wtime_crumb_list. rt_class. Qed.

Lemma rt_component : forall o, component_ok o ->
  rt endr (rcomponent i) (wcomponent c o) (component_map (reff c) o).
Proof. rt_start. unfold component_ok in *. use_ok. unfold rcomponent, wcomponent. rt_class. Qed.
Hint Resolve rt_component : rt.

Lemma rt_sequence : forall P o, sequence_ok o ->
  rt P (rsequence i) (wsequence c o) (sequence_map (reff c) o).
Proof. rt_start. unfold sequence_ok in *. use_ok. unfold rsequence, wsequence. rt_class. Qed.

Lemma rt_clip : forall P o, clip_ok o ->
  rt P (rclip i) (wclip c o) (clip_map (reff c) o).
Proof. rt_start. unfold clip_ok in *. use_ok. unfold rclip, wclip. rt_class. Qed.
Hint Resolve rt_clip : rt.

Lemma rt_source_clip : forall P o, source_clip_ok o ->
  rt P (rsource_clip i) (wsource_clip c o) (source_clip_map (reff c) o).
Proof.
  rt_start. unfold source_clip_ok in *. use_ok. unfold rsource_clip, wsource_clip.
  destruct o as [cl t st [m|]];
    cbn [sclp_clip sclp_track_id sclp_start_time sclp_mob_id opt_ok wopt] in *;
    [rt_class | rt_never].
Qed.

Lemma rt_timecode : forall P o, timecode_ok o ->
  rt P (rtimecode i) (wtimecode c o) (timecode_map (reff c) o).
Proof. rt_start. unfold timecode_ok in *. use_ok. unfold rtimecode, wtimecode. rt_class. Qed.

Lemma rt_edgecode : forall P o, edgecode_ok o ->
  rt P (redgecode i) (wedgecode c o) (edgecode_map (reff c) o).
Proof. rt_start. unfold edgecode_ok in *. use_ok. unfold redgecode, wedgecode. rt_class. Qed.

Lemma rt_track_ref : forall P o, track_ref_ok o ->
  rt P (rtrack_ref i) (wtrack_ref c o) (track_ref_map (reff c) o).
Proof. rt_start. unfold track_ref_ok in *. use_ok. unfold rtrack_ref, wtrack_ref. rt_class. Qed.

Lemma rt_control_point_property : forall P o,
  rt P (rcontrol_point_property i) (wcontrol_point_property c o)
    (control_point_property_map (reff c) o).
Proof. rt_start. unfold rcontrol_point_property, wcontrol_point_property. rt_class. Qed.
Hint Resolve rt_control_point_property : rt.

Lemma rt_control_point : forall P o,
  rt P (rcontrol_point i) (wcontrol_point c o) (control_point_map (reff c) o).
Proof. rt_start. unfold rcontrol_point, wcontrol_point. rt_class. Qed.
Hint Resolve rt_control_point : rt.

Lemma rt_param_point_property : forall P o,
  rt P (rparam_point_property i) (wparam_point_property c o)
    (param_point_property_map (reff c) o).
Proof.
  rt_start. unfold rparam_point_property, wparam_point_property. bo_norm.
  destruct o as [code type value]. cbn [ppp_code ppp_type ppp_value].
  destruct (Z.eqb_spec type 2) as [->|H2].
  { destruct value; [rt_never | rt_class | rt_never]. }
  destruct (Z.eqb_spec type 1) as [->|H1]; [|rt_never].
  destruct value; [rt_class | rt_never | rt_never].
Qed.
Hint Resolve rt_param_point_property : rt.

Lemma rt_cp_value : forall P t v,
  rt P (rcp_value i t) (wcp_value c t v) (cp_value_map (reff c) v).
Proof.
  rt_start. unfold rcp_value, wcp_value. bo_norm.
  destruct (t =? 1); [destruct v; try apply rt_err; rt_class|].
  destruct (t =? 2); [destruct v; try apply rt_err; rt_class|].
  destruct (t =? 4); [destruct v; try apply rt_err; rt_class|].
  apply rt_err.
Qed.
Hint Resolve rt_cp_value : rt.

Lemma rt_param_control_point : forall P t o,
  rt P (rparam_control_point i t) (wparam_control_point c t o)
    (param_control_point_map (reff c) o).
Proof. rt_start. unfold rparam_control_point, wparam_control_point. rt_class. Qed.
Hint Resolve rt_param_control_point : rt.

Lemma rt_param_clip : forall P o, param_clip_ok o ->
  rt P (rparam_clip i) (wparam_clip c o) (param_clip_map (reff c) o).
Proof.
  rt_start. unfold param_clip_ok in *. destruct H as (? & ? & Ht).
  unfold rparam_clip, wparam_clip.
  assert ((prcl_value_type o =? 1) || (prcl_value_type o =? 2) || (prcl_value_type o =? 4) = true)
    as Ht' by (destruct Ht as [->|[->| ->]]; reflexivity).
  rt_class.
Qed.

Lemma rt_control_clip : forall P o, control_clip_ok o ->
  rt P (rcontrol_clip i) (wcontrol_clip c o) (control_clip_map (reff c) o).
Proof.
  rt_start. unfold control_clip_ok in *. use_ok. unfold rcontrol_clip, wcontrol_clip.
  rt_class. Qed.

Lemma rt_filler : forall P o, filler_ok o ->
  rt P (rfiller i) (wfiller c o) (filler_map (reff c) o).
Proof. rt_start. unfold filler_ok in *. use_ok. unfold rfiller, wfiller. rt_class. Qed.
End Classes.
