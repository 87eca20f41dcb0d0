(** What the readers make of data that is cut short: every reader of a whole object uses
    up its closing tag, so a proper prefix of a stored object is never accepted. *)
From Coq Require Import ZArith List Bool Lia.
From Verif Require Import Base IoCtx Text Exp10 MobId Storable Attributes Components TrackGroups
  Misc Essence BinModel.
Import ListNotations.
Open Scope Z_scope.

(** [loc r]: the reader does not look beyond what it leaves over, unless it leaves nothing;
    and what it leaves is the end of what it got. *)
Definition loc {A} (r : reader A) : Prop :=
  forall b v rest, r b = Ok (v, rest) ->
    (exists pre, b = pre ++ rest) /\ forall s, rest = [] \/ r (b ++ s) = Ok (v, rest ++ s).

(** [closed r]: the reader never looks beyond what it consumes, and needs at least a byte. *)
Definition closed {A} (r : reader A) : Prop :=
  (forall b v rest, r b = Ok (v, rest) -> forall s, r (b ++ s) = Ok (v, rest ++ s)) /\
  (exists e, r [] = Err e).

Lemma loc_ret : forall A (v : A), loc (ret v).
Proof.
  intros A v b w rest H. injection H as <- <-. split; [now exists []|]. intros s. now right.
Qed.

Lemma loc_fail : forall A e, loc (@fail A e).
Proof. intros A e b w rest H. discriminate H. Qed.

Lemma loc_bind : forall A B (r : reader A) (k : A -> reader B),
  loc r -> (forall a, loc (k a)) -> loc (bind r k).
Proof.
  intros A B r k Hr Hk b v rest H. unfold bind in *.
  destruct (r b) as [[a b']|e] eqn:E; [|discriminate].
  destruct (Hr _ _ _ E) as [[p1 L1] S1]. destruct (Hk a _ _ _ H) as [[p2 L2] S2].
  split; [exists (p1 ++ p2); subst; now rewrite app_assoc|].
  intros s. destruct (S1 s) as [->|E1].
  - left. symmetry in L2. apply app_eq_nil in L2. apply L2.
  - rewrite E1. destruct (S2 s) as [->|E2]; [now left|now right].
Qed.

Lemma loc_take : forall n, loc (take n).
Proof.
  intros n b v rest H. unfold take in *.
  destruct (Nat.ltb_spec (length b) n) as [|L]; [discriminate|]. injection H as <- <-.
  split; [exists (firstn n b); now rewrite firstn_skipn|]. intros s. right.
  rewrite app_length. destruct (Nat.ltb_spec (length b + length s) n); [lia|].
  rewrite firstn_app, skipn_app. replace (n - length b)%nat with 0%nat by lia.
  now rewrite firstn_O, app_nil_r.
Qed.

Lemma loc_fread : forall n, loc (fread n).
Proof.
  intros n b v rest H. unfold fread in *. destruct (n <? 0) eqn:En.
  - injection H as <- <-. split; [exists b; now rewrite app_nil_r|]. now left.
  - injection H as <- <-. split; [eexists; symmetry; apply firstn_skipn|]. intros s.
    apply Z.ltb_ge in En. unfold len. rewrite app_length.
    destruct (Z.leb_spec n (Z.of_nat (length b))) as [L|L].
    + right. rewrite !Z.min_l by lia. rewrite firstn_app, skipn_app.
      replace (Z.to_nat n - length b)%nat with 0%nat by lia.
      now rewrite firstn_O, app_nil_r.
    + left. rewrite Z.min_r by lia. rewrite Nat2Z.id. apply skipn_all.
Qed.

Lemma loc_rlist : forall A n (r : reader A), loc r -> loc (rlist n r).
Proof.
  intros A n r H. induction n; cbn [rlist]; [apply loc_ret|].
  apply loc_bind; [exact H|]. intros a. apply loc_bind; [exact IHn|]. intros l. apply loc_ret.
Qed.

Lemma loc_rmapm : forall A B (r : A -> reader B) l, (forall a, loc (r a)) -> loc (rmapm r l).
Proof.
  intros A B r l H. induction l; cbn [rmapm]; [apply loc_ret|].
  apply loc_bind; [apply H|]. intros b. apply loc_bind; [exact IHl|]. intros l'. apply loc_ret.
Qed.

Lemma ext_loop_more : forall S (h : Z -> S -> reader S) n m s b v,
  ext_loop n h s b = Ok v -> (n <= m)%nat -> ext_loop m h s b = Ok v.
Proof.
  intros S h n. induction n; intros m s b v H L; [discriminate|].
  destruct m; [lia|]. cbn [ext_loop] in *.
  destruct b as [|x b1]; [discriminate|]. destruct (x =? 1); [|exact H].
  destruct b1 as [|tag b2]; [discriminate|].
  destruct (h tag s b2) as [[s' b3]|e]; [|discriminate]. apply IHn; [exact H|lia].
Qed.

Lemma ext_loop_loc : forall S (h : Z -> S -> reader S) n,
  (forall tag s, loc (h tag s)) -> forall s b v rest,
  ext_loop n h s b = Ok (v, rest) ->
  (exists pre, b = pre ++ rest) /\ rest <> [] /\
  forall t, ext_loop n h s (b ++ t) = Ok (v, rest ++ t).
Proof.
  intros S h n Hh. induction n; intros s b v rest H; [discriminate|].
  cbn [ext_loop] in *. destruct b as [|x b1]; [discriminate|]. cbn [app length].
  destruct (x =? 1).
  - destruct b1 as [|tag b2]; [discriminate|]. cbn [app length].
    destruct (h tag s b2) as [[s' b3]|e] eqn:E; [|discriminate].
    destruct (Hh tag s _ _ _ E) as [[p1 L1] S1]. destruct (IHn _ _ _ _ H) as ([p2 L2] & N2 & S2).
    split; [exists (x :: tag :: p1 ++ p2); subst; cbn [app]; now rewrite app_assoc|].
    split; [exact N2|]. intros t. destruct (S1 t) as [->|E1].
    + symmetry in L2. apply app_eq_nil in L2. tauto.
    + rewrite E1. apply S2.
  - injection H as <- <-. split; [now exists []|]. split; [discriminate|]. reflexivity.
Qed.

Lemma loc_iter_ext : forall S (h : Z -> S -> reader S) s,
  (forall tag s, loc (h tag s)) -> loc (iter_ext h s).
Proof.
  intros S h s Hh b v rest H. unfold iter_ext in *.
  destruct (ext_loop_loc _ _ _ Hh _ _ _ _ H) as (L & N & T).
  split; [exact L|]. intros t. right. eapply ext_loop_more; [apply T|].
  rewrite app_length. lia.
Qed.

Create HintDb loc.
#[export] Hint Resolve loc_ret loc_fail loc_take loc_fread : loc.

Ltac loc_step :=
  lazymatch goal with
  | |- forall _, _ => intro
  | |- loc (bind _ _) => apply loc_bind
  | |- loc (ret _) => apply loc_ret
  | |- loc (fail _) => apply loc_fail
  | |- loc (rlist _ _) => apply loc_rlist
  | |- loc (rmapm _ _) => apply loc_rmapm
  | |- loc (iter_ext _ _) => apply loc_iter_ext
  | |- loc (rflag _ _ _) => unfold rflag
  | |- loc (rassert _) => unfold rassert
  | |- loc (of_result _) => unfold of_result
  | |- loc (match ?x with _ => _ end) => destruct x
  | |- loc (let _ := _ in _) => cbv zeta
  | |- _ => solve [auto with loc]
  end.
Ltac loc := repeat loc_step.

Lemma loc_unsigned : forall bo n, loc (runsigned bo n).
Proof. unfold runsigned. loc. Qed.
Lemma loc_signed : forall bo n, loc (rsigned bo n).
Proof. unfold rsigned. loc. Qed.
#[export] Hint Resolve loc_unsigned loc_signed : loc.
Lemma loc_u8 : loc ru8. Proof. unfold ru8. loc. Qed.
Lemma loc_s8 : loc rs8. Proof. unfold rs8. loc. Qed.
Lemma loc_u16 : forall bo, loc (ru16 bo). Proof. unfold ru16. loc. Qed.
Lemma loc_s16 : forall bo, loc (rs16 bo). Proof. unfold rs16. loc. Qed.
Lemma loc_u32 : forall bo, loc (ru32 bo). Proof. unfold ru32. loc. Qed.
Lemma loc_s32 : forall bo, loc (rs32 bo). Proof. unfold rs32. loc. Qed.
Lemma loc_u64 : forall bo, loc (ru64 bo). Proof. unfold ru64. loc. Qed.
Lemma loc_s64 : forall bo, loc (rs64 bo). Proof. unfold rs64. loc. Qed.
Lemma loc_double : loc rdouble. Proof. unfold rdouble. loc. Qed.
Lemma loc_date : forall bo, loc (rdate bo). Proof. intros. apply loc_u32. Qed.
#[export] Hint Resolve loc_u8 loc_s8 loc_u16 loc_s16 loc_u32 loc_s32 loc_u64 loc_s64 loc_double
  loc_date : loc.
Lemma loc_tag : forall t, loc (rtag t). Proof. unfold rtag. loc. Qed.
Lemma loc_bool : loc rbool. Proof. unfold rbool. loc. Qed.
#[export] Hint Resolve loc_tag loc_bool : loc.
Lemma loc_rref : forall i, loc (rref i). Proof. unfold rref. loc. Qed.
Lemma loc_rect : forall bo, loc (rrect bo). Proof. unfold rrect. loc. Qed.
Lemma loc_rgb : forall bo, loc (rrgb bo). Proof. unfold rrgb. loc. Qed.
Lemma loc_fourcc : forall bo, loc (rfourcc bo). Proof. unfold rfourcc. loc. Qed.
Lemma loc_str_enc : forall bo e, loc (rstr_enc bo e). Proof. unfold rstr_enc. loc. Qed.
#[export] Hint Resolve loc_rref loc_rect loc_rgb loc_fourcc loc_str_enc : loc.
Lemma loc_str : forall bo, loc (rstr bo). Proof. unfold rstr. loc. Qed.
Lemma loc_uuid : forall bo, loc (ruuid bo). Proof. unfold ruuid. loc. Qed.
Lemma loc_rawuuid : forall bo, loc (rrawuuid bo). Proof. unfold rrawuuid. loc. Qed.
#[export] Hint Resolve loc_str loc_uuid loc_rawuuid : loc.
Lemma loc_mobid : forall bo, loc (rmobid bo). Proof. unfold rmobid. loc. Qed.
Lemma loc_exp10 : forall bo, loc (rexp10 bo). Proof. unfold rexp10. loc. Qed.
Lemma loc_magic : forall m, loc (rmagic m). Proof. unfold rmagic. loc. Qed.
#[export] Hint Resolve loc_mobid loc_exp10 loc_magic : loc.

(** ** Every reader keeps to its bytes *)

(** *** Attributes.v *)

Lemma loc_rattr : forall i, loc (rattr i).
Proof. unfold rattr. loc. Qed.
#[export] Hint Resolve loc_rattr : loc.

Lemma loc_rattributes : forall i, loc (rattributes i).
Proof. unfold rattributes. loc. Qed.
#[export] Hint Resolve loc_rattributes : loc.

Lemma loc_rparameter_list : forall i, loc (rparameter_list i).
Proof. unfold rparameter_list. loc. Qed.
#[export] Hint Resolve loc_rparameter_list : loc.

Lemma loc_rtime_crumb_list : forall i, loc (rtime_crumb_list i).
Proof. unfold rtime_crumb_list. loc. Qed.
#[export] Hint Resolve loc_rtime_crumb_list : loc.

(** *** Components.v *)

Lemma loc_component_ext : forall i tag o, loc (component_ext i tag o).
Proof. unfold component_ext. loc. Qed.
#[export] Hint Resolve loc_component_ext : loc.

Lemma loc_rcomponent : forall i, loc (rcomponent i).
Proof. unfold rcomponent. loc. Qed.
#[export] Hint Resolve loc_rcomponent : loc.

Lemma loc_rsequence : forall i, loc (rsequence i).
Proof. unfold rsequence. loc. Qed.
#[export] Hint Resolve loc_rsequence : loc.

Lemma loc_rclip : forall i, loc (rclip i).
Proof. unfold rclip. loc. Qed.
#[export] Hint Resolve loc_rclip : loc.

Lemma loc_source_clip_ext : forall i tag o, loc (source_clip_ext i tag o).
Proof. unfold source_clip_ext. loc. Qed.
#[export] Hint Resolve loc_source_clip_ext : loc.

Lemma loc_rsource_clip : forall i, loc (rsource_clip i).
Proof. unfold rsource_clip. loc. Qed.
#[export] Hint Resolve loc_rsource_clip : loc.

Lemma loc_rtimecode : forall i, loc (rtimecode i).
Proof. unfold rtimecode. loc. Qed.
#[export] Hint Resolve loc_rtimecode : loc.

Lemma loc_redgecode : forall i, loc (redgecode i).
Proof. unfold redgecode. loc. Qed.
#[export] Hint Resolve loc_redgecode : loc.

Lemma loc_rtrack_ref : forall i, loc (rtrack_ref i).
Proof. unfold rtrack_ref. loc. Qed.
#[export] Hint Resolve loc_rtrack_ref : loc.

Lemma loc_rparam_point_property : forall i, loc (rparam_point_property i).
Proof. unfold rparam_point_property. loc. Qed.
#[export] Hint Resolve loc_rparam_point_property : loc.

Lemma loc_rcp_value : forall i value_type, loc (rcp_value i value_type).
Proof. unfold rcp_value. loc. Qed.
#[export] Hint Resolve loc_rcp_value : loc.

Lemma loc_rparam_control_point : forall i value_type, loc (rparam_control_point i value_type).
Proof. unfold rparam_control_point. loc. Qed.
#[export] Hint Resolve loc_rparam_control_point : loc.

Lemma loc_param_clip_ext : forall i tag o, loc (param_clip_ext i tag o).
Proof. unfold param_clip_ext. loc. Qed.
#[export] Hint Resolve loc_param_clip_ext : loc.

Lemma loc_rparam_clip : forall i, loc (rparam_clip i).
Proof. unfold rparam_clip. loc. Qed.
#[export] Hint Resolve loc_rparam_clip : loc.

Lemma loc_rcontrol_point_property : forall i, loc (rcontrol_point_property i).
Proof. unfold rcontrol_point_property. loc. Qed.
#[export] Hint Resolve loc_rcontrol_point_property : loc.

Lemma loc_rcontrol_point : forall i, loc (rcontrol_point i).
Proof. unfold rcontrol_point. loc. Qed.
#[export] Hint Resolve loc_rcontrol_point : loc.

Lemma loc_rcontrol_clip : forall i, loc (rcontrol_clip i).
Proof. unfold rcontrol_clip. loc. Qed.
#[export] Hint Resolve loc_rcontrol_clip : loc.

Lemma loc_rfiller : forall i, loc (rfiller i).
Proof. unfold rfiller. loc. Qed.
#[export] Hint Resolve loc_rfiller : loc.

(** *** TrackGroups.v *)

Lemma loc_rtrack : forall i, loc (rtrack i).
Proof. unfold rtrack. loc. Qed.
#[export] Hint Resolve loc_rtrack : loc.

Lemma loc_rlock : forall i t, loc (rlock i t).
Proof. unfold rlock. loc. Qed.
#[export] Hint Resolve loc_rlock : loc.

Lemma loc_track_group_ext : forall i tag o, loc (track_group_ext i tag o).
Proof. unfold track_group_ext. loc. Qed.
#[export] Hint Resolve loc_track_group_ext : loc.

Lemma loc_rtrack_group : forall i, loc (rtrack_group i).
Proof. unfold rtrack_group. loc. Qed.
#[export] Hint Resolve loc_rtrack_group : loc.

Lemma loc_track_effect_ext : forall i tag o, loc (track_effect_ext i tag o).
Proof. unfold track_effect_ext. loc. Qed.
#[export] Hint Resolve loc_track_effect_ext : loc.

Lemma loc_rtrack_effect_base : forall i, loc (rtrack_effect_base i).
Proof. unfold rtrack_effect_base. loc. Qed.
#[export] Hint Resolve loc_rtrack_effect_base : loc.

Lemma loc_rtrack_effect : forall i, loc (rtrack_effect i).
Proof. unfold rtrack_effect. loc. Qed.
#[export] Hint Resolve loc_rtrack_effect : loc.

Lemma loc_pan_volume_effect_ext : forall i tag o, loc (pan_volume_effect_ext i tag o).
Proof. unfold pan_volume_effect_ext. loc. Qed.
#[export] Hint Resolve loc_pan_volume_effect_ext : loc.

Lemma loc_rpan_volume_effect : forall i, loc (rpan_volume_effect i).
Proof. unfold rpan_volume_effect. loc. Qed.
#[export] Hint Resolve loc_rpan_volume_effect : loc.

Lemma loc_raspi_chunk : forall i, loc (raspi_chunk i).
Proof. unfold raspi_chunk. loc. Qed.
#[export] Hint Resolve loc_raspi_chunk : loc.

Lemma loc_raspi_plugin : forall i, loc (raspi_plugin i).
Proof. unfold raspi_plugin. loc. Qed.
#[export] Hint Resolve loc_raspi_plugin : loc.

Lemma loc_rpreset_path : forall i, loc (rpreset_path i).
Proof. unfold rpreset_path. loc. Qed.
#[export] Hint Resolve loc_rpreset_path : loc.

Lemma loc_audio_suite_effect_ext : forall i tag o, loc (audio_suite_effect_ext i tag o).
Proof. unfold audio_suite_effect_ext. loc. Qed.
#[export] Hint Resolve loc_audio_suite_effect_ext : loc.

Lemma loc_raudio_suite_effect : forall i, loc (raudio_suite_effect i).
Proof. unfold raudio_suite_effect. loc. Qed.
#[export] Hint Resolve loc_raudio_suite_effect : loc.

Lemma loc_requalizer_band : forall i, loc (requalizer_band i).
Proof. unfold requalizer_band. loc. Qed.
#[export] Hint Resolve loc_requalizer_band : loc.

Lemma loc_requalizer_multi_band : forall i, loc (requalizer_multi_band i).
Proof. unfold requalizer_multi_band. loc. Qed.
#[export] Hint Resolve loc_requalizer_multi_band : loc.

Lemma loc_rtime_warp : forall i, loc (rtime_warp i).
Proof. unfold rtime_warp. loc. Qed.
#[export] Hint Resolve loc_rtime_warp : loc.

Lemma loc_rcapture_mask : forall i, loc (rcapture_mask i).
Proof. unfold rcapture_mask. loc. Qed.
#[export] Hint Resolve loc_rcapture_mask : loc.

Lemma loc_rstrobe_effect : forall i, loc (rstrobe_effect i).
Proof. unfold rstrobe_effect. loc. Qed.
#[export] Hint Resolve loc_rstrobe_effect : loc.

Lemma loc_motion_effect_ext : forall i tag o, loc (motion_effect_ext i tag o).
Proof. unfold motion_effect_ext. loc. Qed.
#[export] Hint Resolve loc_motion_effect_ext : loc.

Lemma loc_rmotion_effect : forall i, loc (rmotion_effect i).
Proof. unfold rmotion_effect. loc. Qed.
#[export] Hint Resolve loc_rmotion_effect : loc.

Lemma loc_rrepeat_effect : forall i, loc (rrepeat_effect i).
Proof. unfold rrepeat_effect. loc. Qed.
#[export] Hint Resolve loc_rrepeat_effect : loc.

Lemma loc_essence_group_ext : forall i tag o, loc (essence_group_ext i tag o).
Proof. unfold essence_group_ext. loc. Qed.
#[export] Hint Resolve loc_essence_group_ext : loc.

Lemma loc_ressence_group : forall i, loc (ressence_group i).
Proof. unfold ressence_group. loc. Qed.
#[export] Hint Resolve loc_ressence_group : loc.

Lemma loc_transition_effect_ext : forall i tag o, loc (transition_effect_ext i tag o).
Proof. unfold transition_effect_ext. loc. Qed.
#[export] Hint Resolve loc_transition_effect_ext : loc.

Lemma loc_rtransition_effect : forall i, loc (rtransition_effect i).
Proof. unfold rtransition_effect. loc. Qed.
#[export] Hint Resolve loc_rtransition_effect : loc.

Lemma loc_rselector : forall i, loc (rselector i).
Proof. unfold rselector. loc. Qed.
#[export] Hint Resolve loc_rselector : loc.

Lemma loc_composition_ext : forall i tag o, loc (composition_ext i tag o).
Proof. unfold composition_ext. loc. Qed.
#[export] Hint Resolve loc_composition_ext : loc.

Lemma loc_rcomposition : forall i, loc (rcomposition i).
Proof. unfold rcomposition. loc. Qed.
#[export] Hint Resolve loc_rcomposition : loc.

(** *** Misc.v *)

Lemma loc_file_locator_ext : forall i tag o, loc (file_locator_ext i tag o).
Proof. unfold file_locator_ext. loc. Qed.
#[export] Hint Resolve loc_file_locator_ext : loc.

Lemma loc_rfile_locator : forall i, loc (rfile_locator i).
Proof. unfold rfile_locator. loc. Qed.
#[export] Hint Resolve loc_rfile_locator : loc.

Lemma loc_rurl_locator : forall i, loc (rurl_locator i).
Proof. unfold rurl_locator. loc. Qed.
#[export] Hint Resolve loc_rurl_locator : loc.

Lemma loc_rgraphic_effect : forall i, loc (rgraphic_effect i).
Proof. unfold rgraphic_effect. loc. Qed.
#[export] Hint Resolve loc_rgraphic_effect : loc.

Lemma loc_rshape_list : forall i, loc (rshape_list i).
Proof. unfold rshape_list. loc. Qed.
#[export] Hint Resolve loc_rshape_list : loc.

Lemma loc_rcolor_correction_effect : forall i, loc (rcolor_correction_effect i).
Proof. unfold rcolor_correction_effect. loc. Qed.
#[export] Hint Resolve loc_rcolor_correction_effect : loc.

Lemma loc_rbox : forall i, loc (rbox i).
Proof. unfold rbox. loc. Qed.
#[export] Hint Resolve loc_rbox : loc.

Lemma loc_reffect_param : forall i, loc (reffect_param i).
Proof. unfold reffect_param. loc. Qed.
#[export] Hint Resolve loc_reffect_param : loc.

Lemma loc_reffect_param_list : forall i, loc (reffect_param_list i).
Proof. unfold reffect_param_list. loc. Qed.
#[export] Hint Resolve loc_reffect_param_list : loc.

Lemma loc_rcf_user_param : forall i, loc (rcf_user_param i).
Proof. unfold rcf_user_param. loc. Qed.
#[export] Hint Resolve loc_rcf_user_param : loc.

Lemma loc_rprit_value : forall i value_type, loc (rprit_value i value_type).
Proof. unfold rprit_value. loc. Qed.
#[export] Hint Resolve loc_rprit_value : loc.

Lemma loc_parameter_item_ext : forall i tag o, loc (parameter_item_ext i tag o).
Proof. unfold parameter_item_ext. loc. Qed.
#[export] Hint Resolve loc_parameter_item_ext : loc.

Lemma loc_rparameter_item : forall i, loc (rparameter_item i).
Proof. unfold rparameter_item. loc. Qed.
#[export] Hint Resolve loc_rparameter_item : loc.

Lemma loc_msm_locator_ext : forall i tag o, loc (msm_locator_ext i tag o).
Proof. unfold msm_locator_ext. loc. Qed.
#[export] Hint Resolve loc_msm_locator_ext : loc.

Lemma loc_rmsm_locator : forall i, loc (rmsm_locator i).
Proof. unfold rmsm_locator. loc. Qed.
#[export] Hint Resolve loc_rmsm_locator : loc.

Lemma loc_position_ext : forall i tag o, loc (position_ext i tag o).
Proof. unfold position_ext. loc. Qed.
#[export] Hint Resolve loc_position_ext : loc.

Lemma loc_rposition_base : forall i, loc (rposition_base i).
Proof. unfold rposition_base. loc. Qed.
#[export] Hint Resolve loc_rposition_base : loc.

Lemma loc_rposition : forall i, loc (rposition i).
Proof. unfold rposition. loc. Qed.
#[export] Hint Resolve loc_rposition : loc.

Lemma loc_rbob_position_base : forall i, loc (rbob_position_base i).
Proof. unfold rbob_position_base. loc. Qed.
#[export] Hint Resolve loc_rbob_position_base : loc.

Lemma loc_rbob_position : forall i, loc (rbob_position i).
Proof. unfold rbob_position. loc. Qed.
#[export] Hint Resolve loc_rbob_position : loc.

Lemma loc_rdid_position_base : forall i, loc (rdid_position_base i).
Proof. unfold rdid_position_base. loc. Qed.
#[export] Hint Resolve loc_rdid_position_base : loc.

Lemma loc_rdid_position : forall i, loc (rdid_position i).
Proof. unfold rdid_position. loc. Qed.
#[export] Hint Resolve loc_rdid_position : loc.

Lemma loc_rmpg_field : forall i, loc (rmpg_field i).
Proof. unfold rmpg_field. loc. Qed.
#[export] Hint Resolve loc_rmpg_field : loc.

Lemma loc_rmpg_fields : forall i, loc (rmpg_fields i).
Proof. unfold rmpg_fields. loc. Qed.
#[export] Hint Resolve loc_rmpg_fields : loc.

Lemma loc_rmpg_position : forall i, loc (rmpg_position i).
Proof. unfold rmpg_position. loc. Qed.
#[export] Hint Resolve loc_rmpg_position : loc.

Lemma loc_bin_ref_ext : forall i tag o, loc (bin_ref_ext i tag o).
Proof. unfold bin_ref_ext. loc. Qed.
#[export] Hint Resolve loc_bin_ref_ext : loc.

Lemma loc_rbin_ref : forall i, loc (rbin_ref i).
Proof. unfold rbin_ref. loc. Qed.
#[export] Hint Resolve loc_rbin_ref : loc.

Lemma loc_mob_ref_ext : forall i tag o, loc (mob_ref_ext i tag o).
Proof. unfold mob_ref_ext. loc. Qed.
#[export] Hint Resolve loc_mob_ref_ext : loc.

Lemma loc_rmob_ref_base : forall i, loc (rmob_ref_base i).
Proof. unfold rmob_ref_base. loc. Qed.
#[export] Hint Resolve loc_rmob_ref_base : loc.

Lemma loc_rmob_ref : forall i, loc (rmob_ref i).
Proof. unfold rmob_ref. loc. Qed.
#[export] Hint Resolve loc_rmob_ref : loc.

Lemma loc_marker_ext : forall i tag o, loc (marker_ext i tag o).
Proof. unfold marker_ext. loc. Qed.
#[export] Hint Resolve loc_marker_ext : loc.

Lemma loc_rmarker : forall i, loc (rmarker i).
Proof. unfold rmarker. loc. Qed.
#[export] Hint Resolve loc_rmarker : loc.

Lemma loc_rtracker_manager : forall i, loc (rtracker_manager i).
Proof. unfold rtracker_manager. loc. Qed.
#[export] Hint Resolve loc_rtracker_manager : loc.

Lemma loc_tracker_data_slot_ext : forall i tag o, loc (tracker_data_slot_ext i tag o).
Proof. unfold tracker_data_slot_ext. loc. Qed.
#[export] Hint Resolve loc_tracker_data_slot_ext : loc.

Lemma loc_rtracker_data_slot : forall i, loc (rtracker_data_slot i).
Proof. unfold rtracker_data_slot. loc. Qed.
#[export] Hint Resolve loc_rtracker_data_slot : loc.

Lemma loc_rtracker_parameter_slot : forall i, loc (rtracker_parameter_slot i).
Proof. unfold rtracker_parameter_slot. loc. Qed.
#[export] Hint Resolve loc_rtracker_parameter_slot : loc.

Lemma loc_tracker_data_ext : forall i tag o, loc (tracker_data_ext i tag o).
Proof. unfold tracker_data_ext. loc. Qed.
#[export] Hint Resolve loc_tracker_data_ext : loc.

Lemma loc_rtracker_data : forall i, loc (rtracker_data i).
Proof. unfold rtracker_data. loc. Qed.
#[export] Hint Resolve loc_rtracker_data : loc.

Lemma loc_rtracker_parameter : forall i, loc (rtracker_parameter i).
Proof. unfold rtracker_parameter. loc. Qed.
#[export] Hint Resolve loc_rtracker_parameter : loc.

(** *** Essence.v *)

Lemma loc_media_descriptor_ext : forall i tag o, loc (media_descriptor_ext i tag o).
Proof. unfold media_descriptor_ext. loc. Qed.
#[export] Hint Resolve loc_media_descriptor_ext : loc.

Lemma loc_rmedia_descriptor_base : forall i, loc (rmedia_descriptor_base i).
Proof. unfold rmedia_descriptor_base. loc. Qed.
#[export] Hint Resolve loc_rmedia_descriptor_base : loc.

Lemma loc_rmedia_descriptor : forall i, loc (rmedia_descriptor i).
Proof. unfold rmedia_descriptor. loc. Qed.
#[export] Hint Resolve loc_rmedia_descriptor : loc.

Lemma loc_rtape_descriptor : forall i, loc (rtape_descriptor i).
Proof. unfold rtape_descriptor. loc. Qed.
#[export] Hint Resolve loc_rtape_descriptor : loc.

Lemma loc_rfilm_descriptor : forall i, loc (rfilm_descriptor i).
Proof. unfold rfilm_descriptor. loc. Qed.
#[export] Hint Resolve loc_rfilm_descriptor : loc.

Lemma loc_rmedia_file_descriptor_base : forall i, loc (rmedia_file_descriptor_base i).
Proof. unfold rmedia_file_descriptor_base. loc. Qed.
#[export] Hint Resolve loc_rmedia_file_descriptor_base : loc.

Lemma loc_rmedia_file_descriptor : forall i, loc (rmedia_file_descriptor i).
Proof. unfold rmedia_file_descriptor. loc. Qed.
#[export] Hint Resolve loc_rmedia_file_descriptor : loc.

Lemma loc_rmulti_descriptor : forall i, loc (rmulti_descriptor i).
Proof. unfold rmulti_descriptor. loc. Qed.
#[export] Hint Resolve loc_rmulti_descriptor : loc.

Lemma loc_rwave_descriptor : forall i, loc (rwave_descriptor i).
Proof. unfold rwave_descriptor. loc. Qed.
#[export] Hint Resolve loc_rwave_descriptor : loc.

Lemma loc_aifc_descriptor_ext : forall i tag o, loc (aifc_descriptor_ext i tag o).
Proof. unfold aifc_descriptor_ext. loc. Qed.
#[export] Hint Resolve loc_aifc_descriptor_ext : loc.

Lemma loc_raifc_descriptor : forall i, loc (raifc_descriptor i).
Proof. unfold raifc_descriptor. loc. Qed.
#[export] Hint Resolve loc_raifc_descriptor : loc.

Lemma loc_pcma_descriptor_ext : forall i tag o, loc (pcma_descriptor_ext i tag o).
Proof. unfold pcma_descriptor_ext. loc. Qed.
#[export] Hint Resolve loc_pcma_descriptor_ext : loc.

Lemma loc_rpcma_descriptor : forall i, loc (rpcma_descriptor i).
Proof. unfold rpcma_descriptor. loc. Qed.
#[export] Hint Resolve loc_rpcma_descriptor : loc.

Lemma loc_mpga_descriptor_ext : forall i tag o, loc (mpga_descriptor_ext i tag o).
Proof. unfold mpga_descriptor_ext. loc. Qed.
#[export] Hint Resolve loc_mpga_descriptor_ext : loc.

Lemma loc_rmpga_descriptor : forall i, loc (rmpga_descriptor i).
Proof. unfold rmpga_descriptor. loc. Qed.
#[export] Hint Resolve loc_rmpga_descriptor : loc.

Lemma loc_rpoint : forall i, loc (rpoint i).
Proof. unfold rpoint. loc. Qed.
#[export] Hint Resolve loc_rpoint : loc.

Lemma loc_rbounds_box : forall i, loc (rbounds_box i).
Proof. unfold rbounds_box. loc. Qed.
#[export] Hint Resolve loc_rbounds_box : loc.

Lemma loc_did_descriptor_ext : forall i tag o, loc (did_descriptor_ext i tag o).
Proof. unfold did_descriptor_ext. loc. Qed.
#[export] Hint Resolve loc_did_descriptor_ext : loc.

Lemma loc_rline_map : forall i, loc (rline_map i).
Proof. unfold rline_map. loc. Qed.
#[export] Hint Resolve loc_rline_map : loc.

Lemma loc_rdid_descriptor_base : forall i, loc (rdid_descriptor_base i).
Proof. unfold rdid_descriptor_base. loc. Qed.
#[export] Hint Resolve loc_rdid_descriptor_base : loc.

Lemma loc_rdid_descriptor : forall i, loc (rdid_descriptor i).
Proof. unfold rdid_descriptor. loc. Qed.
#[export] Hint Resolve loc_rdid_descriptor : loc.

Lemma loc_cdci_descriptor_ext : forall i tag o, loc (cdci_descriptor_ext i tag o).
Proof. unfold cdci_descriptor_ext. loc. Qed.
#[export] Hint Resolve loc_cdci_descriptor_ext : loc.

Lemma loc_rcdci_descriptor_base : forall i, loc (rcdci_descriptor_base i).
Proof. unfold rcdci_descriptor_base. loc. Qed.
#[export] Hint Resolve loc_rcdci_descriptor_base : loc.

Lemma loc_rcdci_descriptor : forall i, loc (rcdci_descriptor i).
Proof. unfold rcdci_descriptor. loc. Qed.
#[export] Hint Resolve loc_rcdci_descriptor : loc.

Lemma loc_rmpgi_descriptor : forall i, loc (rmpgi_descriptor i).
Proof. unfold rmpgi_descriptor. loc. Qed.
#[export] Hint Resolve loc_rmpgi_descriptor : loc.

Lemma loc_jped_descriptor_ext : forall i tag o, loc (jped_descriptor_ext i tag o).
Proof. unfold jped_descriptor_ext. loc. Qed.
#[export] Hint Resolve loc_jped_descriptor_ext : loc.

Lemma loc_rjped_descriptor : forall i, loc (rjped_descriptor i).
Proof. unfold rjped_descriptor. loc. Qed.
#[export] Hint Resolve loc_rjped_descriptor : loc.

Lemma loc_rgba_descriptor_ext : forall i tag o, loc (rgba_descriptor_ext i tag o).
Proof. unfold rgba_descriptor_ext. loc. Qed.
#[export] Hint Resolve loc_rgba_descriptor_ext : loc.

Lemma loc_rpixel_layout : forall i, loc (rpixel_layout i).
Proof. unfold rpixel_layout. loc. Qed.
#[export] Hint Resolve loc_rpixel_layout : loc.

Lemma loc_rrgba_descriptor : forall i, loc (rrgba_descriptor i).
Proof. unfold rrgba_descriptor. loc. Qed.
#[export] Hint Resolve loc_rrgba_descriptor : loc.

Lemma loc_rdata_descriptor : forall i, loc (rdata_descriptor i).
Proof. unfold rdata_descriptor. loc. Qed.
#[export] Hint Resolve loc_rdata_descriptor : loc.

Lemma loc_ranc_data_descriptor : forall i, loc (ranc_data_descriptor i).
Proof. unfold ranc_data_descriptor. loc. Qed.
#[export] Hint Resolve loc_ranc_data_descriptor : loc.

(** *** BinModel.v *)

Lemma loc_rsetting : forall i, loc (rsetting i).
Proof. unfold rsetting. loc. Qed.
#[export] Hint Resolve loc_rsetting : loc.

Lemma loc_rbin_column : forall i, loc (rbin_column i).
Proof. unfold rbin_column. loc. Qed.
#[export] Hint Resolve loc_rbin_column : loc.

Lemma loc_rformat_desc : forall i, loc (rformat_desc i).
Proof. unfold rformat_desc. loc. Qed.
#[export] Hint Resolve loc_rformat_desc : loc.

Lemma loc_bin_view_setting_ext : forall i tag o, loc (bin_view_setting_ext i tag o).
Proof. unfold bin_view_setting_ext. loc. Qed.
#[export] Hint Resolve loc_bin_view_setting_ext : loc.

Lemma loc_rbin_view_setting : forall i, loc (rbin_view_setting i).
Proof. unfold rbin_view_setting. loc. Qed.
#[export] Hint Resolve loc_rbin_view_setting : loc.

Lemma loc_rbin_item : forall i, loc (rbin_item i).
Proof. unfold rbin_item. loc. Qed.
#[export] Hint Resolve loc_rbin_item : loc.

Lemma loc_rsift_item : forall i, loc (rsift_item i).
Proof. unfold rsift_item. loc. Qed.
#[export] Hint Resolve loc_rsift_item : loc.

Lemma loc_rsort_column : forall i, loc (rsort_column i).
Proof. unfold rsort_column. loc. Qed.
#[export] Hint Resolve loc_rsort_column : loc.

Lemma loc_robject_count : forall i version, loc (robject_count i version).
Proof. unfold robject_count. loc. Qed.
#[export] Hint Resolve loc_robject_count : loc.

Lemma loc_rbin_base : forall i, loc (rbin_base i).
Proof. unfold rbin_base. loc. Qed.
#[export] Hint Resolve loc_rbin_base : loc.

Lemma loc_rbin : forall i, loc (rbin i).
Proof. unfold rbin. loc. Qed.
#[export] Hint Resolve loc_rbin : loc.

Lemma loc_rbin_first : forall i, loc (rbin_first i).
Proof. unfold rbin_first. loc. Qed.
#[export] Hint Resolve loc_rbin_first : loc.

(** ** Readers that end with the closing tag *)

Lemma closed_tag : forall A t (v : A), closed (rtag t ;;; ret v).
Proof.
  intros A t v. split; [|eexists; reflexivity].
  intros b w rest H s. destruct b as [|x b]; [discriminate H|].
  unfold rtag, ru8, runsigned, bind, take in *. cbn [length Nat.ltb Nat.leb firstn skipn app] in *.
  unfold ret, fail in *. destruct (dec LE [x] =? t); [|discriminate H].
  injection H as <- <-. reflexivity.
Qed.

Lemma closed_s32 : forall A bo (k : Z -> A), closed (v <- rs32 bo ;; ret (k v)).
Proof.
  intros A bo k. split; [|eexists; reflexivity].
  intros b w rest H s. unfold rs32, rsigned, bind, take in *.
  destruct (Nat.ltb_spec (length b) 4) as [|L]; [discriminate|].
  rewrite app_length. destruct (Nat.ltb_spec (length b + length s) 4) as [|L2]; [lia|].
  rewrite firstn_app, skipn_app. replace (4 - length b)%nat with 0%nat by lia.
  rewrite firstn_O, app_nil_r. cbn [skipn]. unfold ret in *.
  injection H as <- <-. reflexivity.
Qed.

Lemma bind_ok : forall A B (r : reader A) (k : A -> reader B) b v rest,
  bind r k b = Ok (v, rest) -> exists a b', r b = Ok (a, b') /\ k a b' = Ok (v, rest).
Proof.
  intros A B r k b v rest H. unfold bind in H. destruct (r b) as [[a b']|e]; [eauto|discriminate].
Qed.

Lemma closed_bind : forall A B (r : reader A) (k : A -> reader B),
  loc r -> (forall a, closed (k a)) -> closed (bind r k).
Proof.
  intros A B r k Hr Hk. split.
  - intros b v rest H s. unfold bind in *.
    destruct (r b) as [[a b']|e] eqn:E; [|discriminate].
    destruct (Hr _ _ _ E) as [L1 S1]. destruct (Hk a) as [C1 [e1 C2]].
    destruct (S1 s) as [->|E1]; [congruence|]. rewrite E1. now apply C1.
  - unfold bind. destruct (r []) as [[a b']|e] eqn:E; [|eauto].
    destruct (Hr _ _ _ E) as [[p L1] _]. symmetry in L1. apply app_eq_nil in L1 as [_ ->]. apply Hk.
Qed.

Lemma closed_fail : forall A e, closed (@fail A e).
Proof. intros. split; [discriminate|eexists; reflexivity]. Qed.

(** A proper prefix of what a closed reader accepts entirely is refused. *)
Lemma closed_prefix : forall A (r : reader A) p q v, closed r ->
  r (p ++ q) = Ok (v, []) -> q <> [] -> exists e, r p = Err e.
Proof.
  intros A r p q v [H _] E N. destruct (r p) as [[w rest]|e] eqn:Ep; [|eauto].
  rewrite (H _ _ _ Ep) in E. injection E as _ E. apply app_eq_nil in E as [_ E]. congruence.
Qed.

Ltac closed_step :=
  lazymatch goal with
  | |- forall _, _ => intro
  | |- closed (bind (rtag _) (fun _ => ret _)) => apply closed_tag
  | |- closed (bind _ _) => apply closed_bind; [loc|]
  | |- closed (fail _) => apply closed_fail
  | |- closed (match ?x with _ => _ end) => destruct x
  | |- closed (let _ := _ in _) => cbv zeta
  end.
Ltac closed := repeat closed_step.

Lemma closed_attributes : forall i, closed (rattributes i).
Proof. unfold rattributes. closed. Qed.

Lemma closed_parameter_list : forall i, closed (rparameter_list i).
Proof. unfold rparameter_list. closed. Qed.

Lemma closed_time_crumb_list : forall i, closed (rtime_crumb_list i).
Proof. unfold rtime_crumb_list. closed. Qed.

Lemma closed_bin_view_setting : forall i, closed (rbin_view_setting i).
Proof. unfold rbin_view_setting. closed. Qed.

Lemma closed_bin : forall i, closed (rbin i).
Proof. unfold rbin. closed. Qed.

Lemma closed_bin_first : forall i, closed (rbin_first i).
Proof. unfold rbin_first. closed. Qed.

Lemma closed_sequence : forall i, closed (rsequence i).
Proof. unfold rsequence. closed. Qed.

Lemma closed_source_clip : forall i, closed (rsource_clip i).
Proof. unfold rsource_clip. closed. Qed.

Lemma closed_timecode : forall i, closed (rtimecode i).
Proof. unfold rtimecode. closed. Qed.

Lemma closed_edgecode : forall i, closed (redgecode i).
Proof. unfold redgecode. closed. Qed.

Lemma closed_track_ref : forall i, closed (rtrack_ref i).
Proof. unfold rtrack_ref. closed. Qed.

Lemma closed_param_clip : forall i, closed (rparam_clip i).
Proof. unfold rparam_clip. closed. Qed.

Lemma closed_control_clip : forall i, closed (rcontrol_clip i).
Proof. unfold rcontrol_clip. closed. Qed.

Lemma closed_filler : forall i, closed (rfiller i).
Proof. unfold rfiller. closed. Qed.

Lemma closed_media_descriptor : forall i, closed (rmedia_descriptor i).
Proof. unfold rmedia_descriptor. closed. Qed.

Lemma closed_tape_descriptor : forall i, closed (rtape_descriptor i).
Proof. unfold rtape_descriptor. closed. Qed.

Lemma closed_film_descriptor : forall i, closed (rfilm_descriptor i).
Proof. unfold rfilm_descriptor. closed. Qed.

Lemma closed_media_file_descriptor : forall i, closed (rmedia_file_descriptor i).
Proof. unfold rmedia_file_descriptor. closed. Qed.

Lemma closed_multi_descriptor : forall i, closed (rmulti_descriptor i).
Proof. unfold rmulti_descriptor. closed. Qed.

Lemma closed_wave_descriptor : forall i, closed (rwave_descriptor i).
Proof. unfold rwave_descriptor. closed. Qed.

Lemma closed_aifc_descriptor : forall i, closed (raifc_descriptor i).
Proof. unfold raifc_descriptor. closed. Qed.

Lemma closed_pcma_descriptor : forall i, closed (rpcma_descriptor i).
Proof. unfold rpcma_descriptor. closed. Qed.

Lemma closed_mpga_descriptor : forall i, closed (rmpga_descriptor i).
Proof. unfold rmpga_descriptor. closed. Qed.

Lemma closed_did_descriptor : forall i, closed (rdid_descriptor i).
Proof. unfold rdid_descriptor. closed. Qed.

Lemma closed_cdci_descriptor : forall i, closed (rcdci_descriptor i).
Proof. unfold rcdci_descriptor. closed. Qed.

Lemma closed_mpgi_descriptor : forall i, closed (rmpgi_descriptor i).
Proof. unfold rmpgi_descriptor. closed. Qed.

Lemma closed_jped_descriptor : forall i, closed (rjped_descriptor i).
Proof. unfold rjped_descriptor. closed. Qed.

Lemma closed_rgba_descriptor : forall i, closed (rrgba_descriptor i).
Proof. unfold rrgba_descriptor. closed. Qed.

Lemma closed_anc_data_descriptor : forall i, closed (ranc_data_descriptor i).
Proof. unfold ranc_data_descriptor. closed. Qed.

Lemma closed_file_locator : forall i, closed (rfile_locator i).
Proof. unfold rfile_locator. closed. Qed.

Lemma closed_url_locator : forall i, closed (rurl_locator i).
Proof. unfold rurl_locator. closed. Qed.

Lemma closed_graphic_effect : forall i, closed (rgraphic_effect i).
Proof. unfold rgraphic_effect. closed. Qed.

Lemma closed_shape_list : forall i, closed (rshape_list i).
Proof. unfold rshape_list. closed. Qed.

Lemma closed_color_correction_effect : forall i, closed (rcolor_correction_effect i).
Proof. unfold rcolor_correction_effect. closed. Qed.

Lemma closed_effect_param_list : forall i, closed (reffect_param_list i).
Proof. unfold reffect_param_list. closed. Qed.

Lemma closed_cf_user_param : forall i, closed (rcf_user_param i).
Proof. unfold rcf_user_param. closed. Qed.

Lemma closed_parameter_item : forall i, closed (rparameter_item i).
Proof. unfold rparameter_item. closed. Qed.

Lemma closed_msm_locator : forall i, closed (rmsm_locator i).
Proof. unfold rmsm_locator. closed. Qed.

Lemma closed_position : forall i, closed (rposition i).
Proof. unfold rposition. closed. Qed.

Lemma closed_bob_position : forall i, closed (rbob_position i).
Proof. unfold rbob_position. closed. Qed.

Lemma closed_did_position : forall i, closed (rdid_position i).
Proof. unfold rdid_position. closed. Qed.

Lemma closed_mpg_position : forall i, closed (rmpg_position i).
Proof. unfold rmpg_position. closed. Qed.

Lemma closed_bin_ref : forall i, closed (rbin_ref i).
Proof. unfold rbin_ref. closed. Qed.

Lemma closed_mob_ref : forall i, closed (rmob_ref i).
Proof. unfold rmob_ref. closed. Qed.

Lemma closed_marker : forall i, closed (rmarker i).
Proof. unfold rmarker. closed. Qed.

Lemma closed_tracker_manager : forall i, closed (rtracker_manager i).
Proof. unfold rtracker_manager. closed. Qed.

Lemma closed_tracker_data_slot : forall i, closed (rtracker_data_slot i).
Proof. unfold rtracker_data_slot. closed. Qed.

Lemma closed_tracker_parameter_slot : forall i, closed (rtracker_parameter_slot i).
Proof. unfold rtracker_parameter_slot. closed. Qed.

Lemma closed_tracker_data : forall i, closed (rtracker_data i).
Proof. unfold rtracker_data. closed. Qed.

Lemma closed_tracker_parameter : forall i, closed (rtracker_parameter i).
Proof. unfold rtracker_parameter. closed. Qed.

Lemma closed_track_effect : forall i, closed (rtrack_effect i).
Proof. unfold rtrack_effect. closed. Qed.

Lemma closed_pan_volume_effect : forall i, closed (rpan_volume_effect i).
Proof. unfold rpan_volume_effect. closed. Qed.

Lemma closed_audio_suite_effect : forall i, closed (raudio_suite_effect i).
Proof. unfold raudio_suite_effect. closed. Qed.

Lemma closed_equalizer_multi_band : forall i, closed (requalizer_multi_band i).
Proof. unfold requalizer_multi_band. closed. Qed.

Lemma closed_capture_mask : forall i, closed (rcapture_mask i).
Proof. unfold rcapture_mask. closed. Qed.

Lemma closed_strobe_effect : forall i, closed (rstrobe_effect i).
Proof. unfold rstrobe_effect. closed. Qed.

Lemma closed_motion_effect : forall i, closed (rmotion_effect i).
Proof. unfold rmotion_effect. closed. Qed.

Lemma closed_repeat_effect : forall i, closed (rrepeat_effect i).
Proof. unfold rrepeat_effect. closed. Qed.

Lemma closed_essence_group : forall i, closed (ressence_group i).
Proof. unfold ressence_group. closed. Qed.

Lemma closed_transition_effect : forall i, closed (rtransition_effect i).
Proof. unfold rtransition_effect. closed. Qed.

Lemma closed_selector : forall i, closed (rselector i).
Proof. unfold rselector. closed. Qed.

Lemma closed_composition : forall i, closed (rcomposition i).
Proof. unfold rcomposition. closed. Qed.

