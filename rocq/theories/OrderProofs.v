(** Both byte orders: the writers succeed or fail alike and produce equally many bytes. *)
From Coq Require Import ZArith List Bool Lia.
From Verif Require Import Base IoCtx Text Exp10 MobId Storable Attributes Components TrackGroups
  Misc Essence BinModel RoundTrip.
Import ListNotations.
Open Scope Z_scope.

(** The number of bytes written, or the exception. *)
Definition wlen (w : writer) : result nat :=
  match w with Ok b => Ok (length b) | Err e => Err e end.

(** The two writers end alike. *)
Definition weq (a b : writer) : Prop := wlen a = wlen b.

Lemma weq_refl : forall a, weq a a.
Proof. reflexivity. Qed.

Lemma weq_cat : forall a a' b b', weq a a' -> weq b b' -> weq (a +++ b) (a' +++ b').
Proof.
  unfold weq. intros [x|e] [x'|e'] b b' H Hb; cbn in *; try discriminate; [|congruence].
  destruct b as [y|f], b' as [y'|f']; cbn in *; try discriminate; [|congruence].
  rewrite !app_length. congruence.
Qed.

Lemma weq_list : forall A (w w' : A -> writer) l, (forall x, weq (w x) (w' x)) ->
  weq (wlist w l) (wlist w' l).
Proof. intros A w w' l H. induction l; cbn [wlist]; [reflexivity|now apply weq_cat]. Qed.

Lemma weq_first : forall A (w w' : A -> writer) n l, (forall x, weq (w x) (w' x)) ->
  weq (wfirst n w l) (wfirst n w' l).
Proof.
  intros A w w' n. induction n; intros l H; cbn [wfirst]; [reflexivity|].
  destruct l; [reflexivity|apply weq_cat; auto].
Qed.

Lemma weq_opt : forall A (o : option A) w w', (forall x, weq (w x) (w' x)) ->
  weq (wopt o w) (wopt o w').
Proof. intros A [x|] w w' H; [apply H|reflexivity]. Qed.

Lemma weq_flag : forall A (o : option A) fl b w w', (forall x, weq (w x) (w' x)) ->
  weq (wflag fl b o w) (wflag fl b o w').
Proof.
  intros A o fl b w w' H. unfold wflag. destruct (Z.testbit fl b); [|reflexivity].
  destruct o; [apply H|reflexivity].
Qed.

Lemma weq_attr_of : forall A (o : option A) w w', (forall x, weq (w x) (w' x)) ->
  weq (wattr_of o w) (wattr_of o w').
Proof. intros A [x|] w w' H; [apply H|reflexivity]. Qed.

Lemma weq_unsigned : forall bo bo' n v, weq (wunsigned bo n v) (wunsigned bo' n v).
Proof.
  intros. unfold weq, wunsigned. destruct (_ && _); [|reflexivity].
  cbn [wlen]. now rewrite !enc_length.
Qed.

Lemma weq_signed : forall bo bo' n v, weq (wsigned bo n v) (wsigned bo' n v).
Proof.
  intros. unfold weq, wsigned. destruct (_ && _); [|reflexivity].
  cbn [wlen]. now rewrite !enc_length.
Qed.

Lemma weq_u16 : forall bo bo' v, weq (wu16 bo v) (wu16 bo' v).
Proof. intros. apply weq_unsigned. Qed.
Lemma weq_u32 : forall bo bo' v, weq (wu32 bo v) (wu32 bo' v).
Proof. intros. apply weq_unsigned. Qed.
Lemma weq_u64 : forall bo bo' v, weq (wu64 bo v) (wu64 bo' v).
Proof. intros. apply weq_unsigned. Qed.
Lemma weq_date : forall bo bo' v, weq (wdate bo v) (wdate bo' v).
Proof. intros. apply weq_unsigned. Qed.
Lemma weq_s16 : forall bo bo' v, weq (ws16 bo v) (ws16 bo' v).
Proof. intros. apply weq_signed. Qed.
Lemma weq_s32 : forall bo bo' v, weq (ws32 bo v) (ws32 bo' v).
Proof. intros. apply weq_signed. Qed.
Lemma weq_s64 : forall bo bo' v, weq (ws64 bo v) (ws64 bo' v).
Proof. intros. apply weq_signed. Qed.

Lemma weq_bytes : forall a b, length a = length b -> weq (wbytes a) (wbytes b).
Proof. intros a b H. unfold weq, wbytes. cbn [wlen]. now rewrite H. Qed.

Create HintDb weq.
#[export] Hint Resolve weq_u16 weq_u32 weq_u64 weq_date weq_s16 weq_s32 weq_s64 : weq.

Ltac weq_step :=
  lazymatch goal with
  | |- forall _, _ => intro
  | |- weq ?a ?a => apply weq_refl
  | |- weq (_ +++ _) (_ +++ _) => apply weq_cat
  | |- weq (wlist _ _) (wlist _ _) => apply weq_list
  | |- weq (wfirst _ _ _) (wfirst _ _ _) => apply weq_first
  | |- weq (wopt _ _) (wopt _ _) => apply weq_opt
  | |- weq (wattr_of _ _) (wattr_of _ _) => apply weq_attr_of
  | |- weq (wflag _ _ _ _) (wflag _ _ _ _) => apply weq_flag
  | |- weq (wext _ _) (wext _ _) => unfold wext
  | |- weq (match ?x with _ => _ end) _ => destruct x
  | |- _ => solve [auto with weq]
  end.
Ltac weq := repeat weq_step.

Lemma weq_str_enc : forall bo bo' e s, weq (wstr_enc bo e s) (wstr_enc bo' e s).
Proof. unfold wstr_enc. weq. Qed.
#[export] Hint Resolve weq_str_enc : weq.
Lemma weq_str : forall bo bo' s, weq (wstr bo s) (wstr bo' s).
Proof. unfold wstr. weq. Qed.
#[export] Hint Resolve weq_str : weq.
Lemma weq_name : forall bo bo' s, weq (wname bo s) (wname bo' s).
Proof. unfold wname. weq. Qed.
Lemma weq_rect : forall bo bo' s, weq (wrect bo s) (wrect bo' s).
Proof. unfold wrect. weq. Qed.
Lemma weq_rgb : forall bo bo' s, weq (wrgb bo s) (wrgb bo' s).
Proof. unfold wrgb. weq. Qed.
Lemma weq_exp10 : forall bo bo' s, weq (wexp10 bo s) (wexp10 bo' s).
Proof. unfold wexp10. weq. Qed.

Lemma uuid_swap_length : forall u, length (uuid_swap u) = length u.
Proof.
  intros u. unfold uuid_swap, slice.
  rewrite !app_length, !rev_length, !firstn_length, !skipn_length. lia.
Qed.

Lemma weq_uuid : forall bo bo' u, weq (wuuid bo u) (wuuid bo' u).
Proof.
  intros bo bo' u. unfold wuuid. weq. apply weq_bytes.
  destruct bo, bo'; rewrite ?skipn_length; unfold uuid_bytes_le; rewrite ?uuid_swap_length; reflexivity.
Qed.

Lemma weq_rawuuid : forall bo bo' u, weq (wrawuuid bo u) (wrawuuid bo' u).
Proof.
  intros bo bo' u. unfold wrawuuid. apply weq_bytes.
  destruct bo, bo'; unfold uuid_bytes_le; rewrite ?uuid_swap_length; reflexivity.
Qed.

Lemma weq_fourcc : forall bo bo' v, weq (wfourcc bo v) (wfourcc bo' v).
Proof.
  intros bo bo' v. unfold wfourcc. weq. apply weq_bytes.
  destruct bo, bo'; rewrite ?rev_length; reflexivity.
Qed.
#[export] Hint Resolve weq_name weq_rect weq_rgb weq_exp10 weq_uuid weq_rawuuid weq_fourcc : weq.
Lemma weq_mobid : forall bo bo' u, weq (wmobid bo u) (wmobid bo' u).
Proof. unfold wmobid. weq. Qed.
#[export] Hint Resolve weq_mobid : weq.

Section Classes.
Variables c c' : octx.
Hypothesis Hrefs : forall r, orefs c r = orefs c' r.

Lemma weq_ref : forall r, weq (wref c r) (wref c' r).
Proof.
  intros r. unfold wref. rewrite <- Hrefs. weq.
Qed.
Hint Resolve weq_ref : weq.

(** ** Attributes.v *)

Lemma weq_wattr : forall p, weq (wattr c p) (wattr c' p).
Proof. unfold wattr. weq. Qed.
Hint Resolve weq_wattr : weq.

Lemma weq_wattributes : forall o, weq (wattributes c o) (wattributes c' o).
Proof. unfold wattributes. weq. Qed.
Hint Resolve weq_wattributes : weq.

Lemma weq_wparameter_list : forall o, weq (wparameter_list c o) (wparameter_list c' o).
Proof. unfold wparameter_list. weq. Qed.
Hint Resolve weq_wparameter_list : weq.

Lemma weq_wtime_crumb_list : forall o, weq (wtime_crumb_list c o) (wtime_crumb_list c' o).
Proof. unfold wtime_crumb_list. weq. Qed.
Hint Resolve weq_wtime_crumb_list : weq.

(** ** Components.v *)

Lemma weq_wcomponent : forall o, weq (wcomponent c o) (wcomponent c' o).
Proof. unfold wcomponent. weq. Qed.
Hint Resolve weq_wcomponent : weq.

Lemma weq_wsequence : forall o, weq (wsequence c o) (wsequence c' o).
Proof. unfold wsequence. weq. Qed.
Hint Resolve weq_wsequence : weq.

Lemma weq_wclip : forall o, weq (wclip c o) (wclip c' o).
Proof. unfold wclip. weq. Qed.
Hint Resolve weq_wclip : weq.

Lemma weq_wsource_clip : forall o, weq (wsource_clip c o) (wsource_clip c' o).
Proof. unfold wsource_clip. weq. Qed.
Hint Resolve weq_wsource_clip : weq.

Lemma weq_wtimecode : forall o, weq (wtimecode c o) (wtimecode c' o).
Proof. unfold wtimecode. weq. Qed.
Hint Resolve weq_wtimecode : weq.

Lemma weq_wedgecode : forall o, weq (wedgecode c o) (wedgecode c' o).
Proof. unfold wedgecode. weq. Qed.
Hint Resolve weq_wedgecode : weq.

Lemma weq_wtrack_ref : forall o, weq (wtrack_ref c o) (wtrack_ref c' o).
Proof. unfold wtrack_ref. weq. Qed.
Hint Resolve weq_wtrack_ref : weq.

Lemma weq_wparam_point_property : forall o, weq (wparam_point_property c o) (wparam_point_property c' o).
Proof. unfold wparam_point_property. weq. Qed.
Hint Resolve weq_wparam_point_property : weq.

Lemma weq_wcp_value : forall value_type v, weq (wcp_value c value_type v) (wcp_value c' value_type v).
Proof. unfold wcp_value. weq. Qed.
Hint Resolve weq_wcp_value : weq.

Lemma weq_wparam_control_point : forall value_type o, weq (wparam_control_point c value_type o) (wparam_control_point c' value_type o).
Proof. unfold wparam_control_point. weq. Qed.
Hint Resolve weq_wparam_control_point : weq.

Lemma weq_wparam_clip : forall o, weq (wparam_clip c o) (wparam_clip c' o).
Proof. unfold wparam_clip. weq. Qed.
Hint Resolve weq_wparam_clip : weq.

Lemma weq_wcontrol_point_property : forall o, weq (wcontrol_point_property c o) (wcontrol_point_property c' o).
Proof. unfold wcontrol_point_property. weq. Qed.
Hint Resolve weq_wcontrol_point_property : weq.

Lemma weq_wcontrol_point : forall o, weq (wcontrol_point c o) (wcontrol_point c' o).
Proof. unfold wcontrol_point. weq. Qed.
Hint Resolve weq_wcontrol_point : weq.

Lemma weq_wcontrol_clip : forall o, weq (wcontrol_clip c o) (wcontrol_clip c' o).
Proof. unfold wcontrol_clip. weq. Qed.
Hint Resolve weq_wcontrol_clip : weq.

Lemma weq_wfiller : forall o, weq (wfiller c o) (wfiller c' o).
Proof. unfold wfiller. weq. Qed.
Hint Resolve weq_wfiller : weq.

(** ** TrackGroups.v *)

Lemma weq_wtrack : forall t, weq (wtrack c t) (wtrack c' t).
Proof. unfold wtrack. weq. Qed.
Hint Resolve weq_wtrack : weq.

Lemma weq_wlock : forall t, weq (wlock c t) (wlock c' t).
Proof. unfold wlock. weq. Qed.
Hint Resolve weq_wlock : weq.

Lemma weq_wtrack_group : forall o, weq (wtrack_group c o) (wtrack_group c' o).
Proof. unfold wtrack_group. weq. Qed.
Hint Resolve weq_wtrack_group : weq.

Lemma weq_wtrack_effect_base : forall o, weq (wtrack_effect_base c o) (wtrack_effect_base c' o).
Proof. unfold wtrack_effect_base. weq. Qed.
Hint Resolve weq_wtrack_effect_base : weq.

Lemma weq_wtrack_effect : forall o, weq (wtrack_effect c o) (wtrack_effect c' o).
Proof. unfold wtrack_effect. weq. Qed.
Hint Resolve weq_wtrack_effect : weq.

Lemma weq_wpan_volume_effect : forall o, weq (wpan_volume_effect c o) (wpan_volume_effect c' o).
Proof. unfold wpan_volume_effect. weq. Qed.
Hint Resolve weq_wpan_volume_effect : weq.

Lemma weq_waspi_chunk : forall o, weq (waspi_chunk c o) (waspi_chunk c' o).
Proof. unfold waspi_chunk. weq. Qed.
Hint Resolve weq_waspi_chunk : weq.

Lemma weq_waspi_plugin : forall o, weq (waspi_plugin c o) (waspi_plugin c' o).
Proof. unfold waspi_plugin. weq. Qed.
Hint Resolve weq_waspi_plugin : weq.

Lemma weq_wpreset_path : forall v, weq (wpreset_path c v) (wpreset_path c' v).
Proof. unfold wpreset_path. weq. Qed.
Hint Resolve weq_wpreset_path : weq.

Lemma weq_waudio_suite_effect : forall o, weq (waudio_suite_effect c o) (waudio_suite_effect c' o).
Proof. unfold waudio_suite_effect. weq. Qed.
Hint Resolve weq_waudio_suite_effect : weq.

Lemma weq_wequalizer_band : forall o, weq (wequalizer_band c o) (wequalizer_band c' o).
Proof. unfold wequalizer_band. weq. Qed.
Hint Resolve weq_wequalizer_band : weq.

Lemma weq_wequalizer_multi_band : forall o, weq (wequalizer_multi_band c o) (wequalizer_multi_band c' o).
Proof. unfold wequalizer_multi_band. weq. Qed.
Hint Resolve weq_wequalizer_multi_band : weq.

Lemma weq_wtime_warp : forall o, weq (wtime_warp c o) (wtime_warp c' o).
Proof. unfold wtime_warp. weq. Qed.
Hint Resolve weq_wtime_warp : weq.

Lemma weq_wcapture_mask : forall o, weq (wcapture_mask c o) (wcapture_mask c' o).
Proof. unfold wcapture_mask. weq. Qed.
Hint Resolve weq_wcapture_mask : weq.

Lemma weq_wstrobe_effect : forall o, weq (wstrobe_effect c o) (wstrobe_effect c' o).
Proof. unfold wstrobe_effect. weq. Qed.
Hint Resolve weq_wstrobe_effect : weq.

Lemma weq_wmotion_effect : forall o, weq (wmotion_effect c o) (wmotion_effect c' o).
Proof. unfold wmotion_effect. weq. Qed.
Hint Resolve weq_wmotion_effect : weq.

Lemma weq_wrepeat_effect : forall o, weq (wrepeat_effect c o) (wrepeat_effect c' o).
Proof. unfold wrepeat_effect. weq. Qed.
Hint Resolve weq_wrepeat_effect : weq.

Lemma weq_wessence_group : forall o, weq (wessence_group c o) (wessence_group c' o).
Proof. unfold wessence_group. weq. Qed.
Hint Resolve weq_wessence_group : weq.

Lemma weq_wtransition_effect : forall o, weq (wtransition_effect c o) (wtransition_effect c' o).
Proof. unfold wtransition_effect. weq. Qed.
Hint Resolve weq_wtransition_effect : weq.

Lemma weq_wselector : forall o, weq (wselector c o) (wselector c' o).
Proof. unfold wselector. weq. Qed.
Hint Resolve weq_wselector : weq.

Lemma weq_wcomposition : forall o, weq (wcomposition c o) (wcomposition c' o).
Proof. unfold wcomposition. weq. Qed.
Hint Resolve weq_wcomposition : weq.

(** ** Misc.v *)

Lemma weq_wfile_locator : forall o, weq (wfile_locator c o) (wfile_locator c' o).
Proof. unfold wfile_locator. weq. Qed.
Hint Resolve weq_wfile_locator : weq.

Lemma weq_wurl_locator : forall o, weq (wurl_locator c o) (wurl_locator c' o).
Proof. unfold wurl_locator. weq. Qed.
Hint Resolve weq_wurl_locator : weq.

Lemma weq_wgraphic_effect : forall o, weq (wgraphic_effect c o) (wgraphic_effect c' o).
Proof. unfold wgraphic_effect. weq. Qed.
Hint Resolve weq_wgraphic_effect : weq.

Lemma weq_wshape_list : forall o, weq (wshape_list c o) (wshape_list c' o).
Proof. unfold wshape_list. weq. Qed.
Hint Resolve weq_wshape_list : weq.

Lemma weq_wcolor_correction_effect : forall o, weq (wcolor_correction_effect c o) (wcolor_correction_effect c' o).
Proof. unfold wcolor_correction_effect. weq. Qed.
Hint Resolve weq_wcolor_correction_effect : weq.

Lemma weq_wbox : forall v, weq (wbox c v) (wbox c' v).
Proof. unfold wbox. weq. Qed.
Hint Resolve weq_wbox : weq.

Lemma weq_weffect_param : forall o, weq (weffect_param c o) (weffect_param c' o).
Proof. unfold weffect_param. weq. Qed.
Hint Resolve weq_weffect_param : weq.

Lemma weq_weffect_param_list : forall o, weq (weffect_param_list c o) (weffect_param_list c' o).
Proof. unfold weffect_param_list. weq. Qed.
Hint Resolve weq_weffect_param_list : weq.

Lemma weq_wcf_user_param : forall o, weq (wcf_user_param c o) (wcf_user_param c' o).
Proof. unfold wcf_user_param. weq. Qed.
Hint Resolve weq_wcf_user_param : weq.

Lemma weq_wprit_value : forall value_type v, weq (wprit_value c value_type v) (wprit_value c' value_type v).
Proof. unfold wprit_value. weq. Qed.
Hint Resolve weq_wprit_value : weq.

Lemma weq_wparameter_item : forall o, weq (wparameter_item c o) (wparameter_item c' o).
Proof. unfold wparameter_item. weq. Qed.
Hint Resolve weq_wparameter_item : weq.

Lemma weq_wmob_words : forall m, weq (wmob_words c m) (wmob_words c' m).
Proof. unfold wmob_words. weq. Qed.
Hint Resolve weq_wmob_words : weq.

Lemma weq_wmsm_locator : forall o, weq (wmsm_locator c o) (wmsm_locator c' o).
Proof. unfold wmsm_locator. weq. Qed.
Hint Resolve weq_wmsm_locator : weq.

Lemma weq_wposition_base : forall o, weq (wposition_base c o) (wposition_base c' o).
Proof. unfold wposition_base. weq. Qed.
Hint Resolve weq_wposition_base : weq.

Lemma weq_wposition : forall o, weq (wposition c o) (wposition c' o).
Proof. unfold wposition. weq. Qed.
Hint Resolve weq_wposition : weq.

Lemma weq_wbob_position_base : forall o, weq (wbob_position_base c o) (wbob_position_base c' o).
Proof. unfold wbob_position_base. weq. Qed.
Hint Resolve weq_wbob_position_base : weq.

Lemma weq_wbob_position : forall o, weq (wbob_position c o) (wbob_position c' o).
Proof. unfold wbob_position. weq. Qed.
Hint Resolve weq_wbob_position : weq.

Lemma weq_wdid_position_base : forall o, weq (wdid_position_base c o) (wdid_position_base c' o).
Proof. unfold wdid_position_base. weq. Qed.
Hint Resolve weq_wdid_position_base : weq.

Lemma weq_wdid_position : forall o, weq (wdid_position c o) (wdid_position c' o).
Proof. unfold wdid_position. weq. Qed.
Hint Resolve weq_wdid_position : weq.

Lemma weq_wmpg_field : forall p, weq (wmpg_field c p) (wmpg_field c' p).
Proof. unfold wmpg_field. weq. Qed.
Hint Resolve weq_wmpg_field : weq.

Lemma weq_wmpg_fields : forall l, weq (wmpg_fields c l) (wmpg_fields c' l).
Proof. unfold wmpg_fields. weq. Qed.
Hint Resolve weq_wmpg_fields : weq.

Lemma weq_wmpg_position : forall o, weq (wmpg_position c o) (wmpg_position c' o).
Proof. unfold wmpg_position. weq. Qed.
Hint Resolve weq_wmpg_position : weq.

Lemma weq_wbin_ref : forall o, weq (wbin_ref c o) (wbin_ref c' o).
Proof. unfold wbin_ref. weq. Qed.
Hint Resolve weq_wbin_ref : weq.

Lemma weq_wmob_ref_base : forall o, weq (wmob_ref_base c o) (wmob_ref_base c' o).
Proof. unfold wmob_ref_base. weq. Qed.
Hint Resolve weq_wmob_ref_base : weq.

Lemma weq_wmob_ref : forall o, weq (wmob_ref c o) (wmob_ref c' o).
Proof. unfold wmob_ref. weq. Qed.
Hint Resolve weq_wmob_ref : weq.

Lemma weq_wmarker : forall o, weq (wmarker c o) (wmarker c' o).
Proof. unfold wmarker. weq. Qed.
Hint Resolve weq_wmarker : weq.

Lemma weq_wtracker_manager : forall o, weq (wtracker_manager c o) (wtracker_manager c' o).
Proof. unfold wtracker_manager. weq. Qed.
Hint Resolve weq_wtracker_manager : weq.

Lemma weq_wtracker_data_slot : forall o, weq (wtracker_data_slot c o) (wtracker_data_slot c' o).
Proof. unfold wtracker_data_slot. weq. Qed.
Hint Resolve weq_wtracker_data_slot : weq.

Lemma weq_wtracker_parameter_slot : forall o, weq (wtracker_parameter_slot c o) (wtracker_parameter_slot c' o).
Proof. unfold wtracker_parameter_slot. weq. Qed.
Hint Resolve weq_wtracker_parameter_slot : weq.

Lemma weq_wtracker_data : forall o, weq (wtracker_data c o) (wtracker_data c' o).
Proof. unfold wtracker_data. weq. Qed.
Hint Resolve weq_wtracker_data : weq.

Lemma weq_wtracker_parameter : forall o, weq (wtracker_parameter c o) (wtracker_parameter c' o).
Proof. unfold wtracker_parameter. weq. Qed.
Hint Resolve weq_wtracker_parameter : weq.

(** ** Essence.v *)

Lemma weq_wmedia_descriptor_base : forall o, weq (wmedia_descriptor_base c o) (wmedia_descriptor_base c' o).
Proof. unfold wmedia_descriptor_base. weq. Qed.
Hint Resolve weq_wmedia_descriptor_base : weq.

Lemma weq_wmedia_descriptor : forall o, weq (wmedia_descriptor c o) (wmedia_descriptor c' o).
Proof. unfold wmedia_descriptor. weq. Qed.
Hint Resolve weq_wmedia_descriptor : weq.

Lemma weq_wtape_descriptor : forall o, weq (wtape_descriptor c o) (wtape_descriptor c' o).
Proof. unfold wtape_descriptor. weq. Qed.
Hint Resolve weq_wtape_descriptor : weq.

Lemma weq_wfilm_descriptor : forall o, weq (wfilm_descriptor c o) (wfilm_descriptor c' o).
Proof. unfold wfilm_descriptor. weq. Qed.
Hint Resolve weq_wfilm_descriptor : weq.

Lemma weq_wmedia_file_descriptor_base : forall o, weq (wmedia_file_descriptor_base c o) (wmedia_file_descriptor_base c' o).
Proof. unfold wmedia_file_descriptor_base. weq. Qed.
Hint Resolve weq_wmedia_file_descriptor_base : weq.

Lemma weq_wmedia_file_descriptor : forall o, weq (wmedia_file_descriptor c o) (wmedia_file_descriptor c' o).
Proof. unfold wmedia_file_descriptor. weq. Qed.
Hint Resolve weq_wmedia_file_descriptor : weq.

Lemma weq_wmulti_descriptor : forall o, weq (wmulti_descriptor c o) (wmulti_descriptor c' o).
Proof. unfold wmulti_descriptor. weq. Qed.
Hint Resolve weq_wmulti_descriptor : weq.

Lemma weq_wwave_descriptor : forall o, weq (wwave_descriptor c o) (wwave_descriptor c' o).
Proof. unfold wwave_descriptor. weq. Qed.
Hint Resolve weq_wwave_descriptor : weq.

Lemma weq_waifc_descriptor : forall o, weq (waifc_descriptor c o) (waifc_descriptor c' o).
Proof. unfold waifc_descriptor. weq. Qed.
Hint Resolve weq_waifc_descriptor : weq.

Lemma weq_wpcma_descriptor : forall o, weq (wpcma_descriptor c o) (wpcma_descriptor c' o).
Proof. unfold wpcma_descriptor. weq. Qed.
Hint Resolve weq_wpcma_descriptor : weq.

Lemma weq_wmpga_descriptor : forall o, weq (wmpga_descriptor c o) (wmpga_descriptor c' o).
Proof. unfold wmpga_descriptor. weq. Qed.
Hint Resolve weq_wmpga_descriptor : weq.

Lemma weq_wpoint : forall x y, weq (wpoint c x y) (wpoint c' x y).
Proof. unfold wpoint. weq. Qed.
Hint Resolve weq_wpoint : weq.

Lemma weq_wbounds_box : forall b, weq (wbounds_box c b) (wbounds_box c' b).
Proof. unfold wbounds_box. weq. Qed.
Hint Resolve weq_wbounds_box : weq.

Lemma weq_wclient_fill : forall s e, weq (wclient_fill c s e) (wclient_fill c' s e).
Proof. unfold wclient_fill. weq. Qed.
Hint Resolve weq_wclient_fill : weq.

Lemma weq_wboxes : forall va es so, weq (wboxes c va es so) (wboxes c' va es so).
Proof. unfold wboxes. weq. Qed.
Hint Resolve weq_wboxes : weq.

Lemma weq_wframing : forall fb ro, weq (wframing c fb ro) (wframing c' fb ro).
Proof. unfold wframing. weq. Qed.
Hint Resolve weq_wframing : weq.

Lemma weq_wcolor : forall cp ce, weq (wcolor c cp ce) (wcolor c' cp ce).
Proof. unfold wcolor. weq. Qed.
Hint Resolve weq_wcolor : weq.

Lemma weq_wline_map : forall l, weq (wline_map c l) (wline_map c' l).
Proof. unfold wline_map. weq. Qed.
Hint Resolve weq_wline_map : weq.

Lemma weq_wdid_descriptor_base : forall o, weq (wdid_descriptor_base c o) (wdid_descriptor_base c' o).
Proof. unfold wdid_descriptor_base. weq. Qed.
Hint Resolve weq_wdid_descriptor_base : weq.

Lemma weq_wdid_descriptor : forall o, weq (wdid_descriptor c o) (wdid_descriptor c' o).
Proof. unfold wdid_descriptor. weq. Qed.
Hint Resolve weq_wdid_descriptor : weq.

Lemma weq_wcdci_descriptor_base : forall o, weq (wcdci_descriptor_base c o) (wcdci_descriptor_base c' o).
Proof. unfold wcdci_descriptor_base. weq. Qed.
Hint Resolve weq_wcdci_descriptor_base : weq.

Lemma weq_wcdci_descriptor : forall o, weq (wcdci_descriptor c o) (wcdci_descriptor c' o).
Proof. unfold wcdci_descriptor. weq. Qed.
Hint Resolve weq_wcdci_descriptor : weq.

Lemma weq_wmpgi_descriptor : forall o, weq (wmpgi_descriptor c o) (wmpgi_descriptor c' o).
Proof. unfold wmpgi_descriptor. weq. Qed.
Hint Resolve weq_wmpgi_descriptor : weq.

Lemma weq_wjped_descriptor : forall o, weq (wjped_descriptor c o) (wjped_descriptor c' o).
Proof. unfold wjped_descriptor. weq. Qed.
Hint Resolve weq_wjped_descriptor : weq.

Lemma weq_wpixel_layout : forall l, weq (wpixel_layout c l) (wpixel_layout c' l).
Proof. unfold wpixel_layout. weq. Qed.
Hint Resolve weq_wpixel_layout : weq.

Lemma weq_wcomp_refs : forall o, weq (wcomp_refs c o) (wcomp_refs c' o).
Proof. unfold wcomp_refs. weq. Qed.
Hint Resolve weq_wcomp_refs : weq.

Lemma weq_walpha_refs : forall o, weq (walpha_refs c o) (walpha_refs c' o).
Proof. unfold walpha_refs. weq. Qed.
Hint Resolve weq_walpha_refs : weq.

Lemma weq_wrgba_descriptor : forall o, weq (wrgba_descriptor c o) (wrgba_descriptor c' o).
Proof. unfold wrgba_descriptor. weq. Qed.
Hint Resolve weq_wrgba_descriptor : weq.

Lemma weq_wdata_descriptor : forall o, weq (wdata_descriptor c o) (wdata_descriptor c' o).
Proof. unfold wdata_descriptor. weq. Qed.
Hint Resolve weq_wdata_descriptor : weq.

Lemma weq_wanc_data_descriptor : forall o, weq (wanc_data_descriptor c o) (wanc_data_descriptor c' o).
Proof. unfold wanc_data_descriptor. weq. Qed.
Hint Resolve weq_wanc_data_descriptor : weq.

(** ** BinModel.v *)

Lemma weq_wsetting : forall o, weq (wsetting c o) (wsetting c' o).
Proof. unfold wsetting. weq. Qed.
Hint Resolve weq_wsetting : weq.

Lemma weq_wbin_column : forall o, weq (wbin_column c o) (wbin_column c' o).
Proof. unfold wbin_column. weq. Qed.
Hint Resolve weq_wbin_column : weq.

Lemma weq_wformat_desc : forall o, weq (wformat_desc c o) (wformat_desc c' o).
Proof. unfold wformat_desc. weq. Qed.
Hint Resolve weq_wformat_desc : weq.

Lemma weq_wformat_descs : forall l, weq (wformat_descs c l) (wformat_descs c' l).
Proof. unfold wformat_descs. weq. Qed.
Hint Resolve weq_wformat_descs : weq.

Lemma weq_wbin_view_setting : forall o, weq (wbin_view_setting c o) (wbin_view_setting c' o).
Proof. unfold wbin_view_setting. weq. Qed.
Hint Resolve weq_wbin_view_setting : weq.

Lemma weq_wbin_item : forall o, weq (wbin_item c o) (wbin_item c' o).
Proof. unfold wbin_item. weq. Qed.
Hint Resolve weq_wbin_item : weq.

Lemma weq_wsift_item : forall o, weq (wsift_item c o) (wsift_item c' o).
Proof. unfold wsift_item. weq. Qed.
Hint Resolve weq_wsift_item : weq.

Lemma weq_wsort_column : forall o, weq (wsort_column c o) (wsort_column c' o).
Proof. unfold wsort_column. weq. Qed.
Hint Resolve weq_wsort_column : weq.

Lemma weq_wobject_count : forall o, weq (wobject_count c o) (wobject_count c' o).
Proof. unfold wobject_count. weq. Qed.
Hint Resolve weq_wobject_count : weq.

Lemma weq_wbin_base : forall o, weq (wbin_base c o) (wbin_base c' o).
Proof. unfold wbin_base. weq. Qed.
Hint Resolve weq_wbin_base : weq.

Lemma weq_wbin : forall o, weq (wbin c o) (wbin c' o).
Proof. unfold wbin. weq. Qed.
Hint Resolve weq_wbin : weq.

Lemma weq_wbin_first : forall o, weq (wbin_first c o) (wbin_first c' o).
Proof. unfold wbin_first. weq. Qed.
Hint Resolve weq_wbin_first : weq.

End Classes.
