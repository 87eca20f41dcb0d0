(** How many bytes are written does not depend on the numbers of the objects referred to, nor on
    the byte order. *)
From Coq Require Import ZArith List Bool Lia.
From Verif Require Import Base IoCtx Text Exp10 MobId Storable Attributes Components TrackGroups
  Misc Essence BinModel RoundTrip OrderProofs Objects.
Import ListNotations.
Open Scope Z_scope.

(** If both writers succeed they write equally many bytes. *)
Definition wsz (a b : writer) : Prop := forall x y, a = Ok x -> b = Ok y -> length x = length y.

Lemma wsz_refl : forall a, wsz a a.
Proof. intros a x y -> H. injection H as ->. reflexivity. Qed.

Lemma wsz_cat : forall a a' b b', wsz a a' -> wsz b b' -> wsz (a +++ b) (a' +++ b').
Proof.
  unfold wsz. intros a a' b b' H Hb x y Hx Hy.
  apply wcat_ok in Hx as (x1 & x2 & Hx1 & Hx2 & ->). apply wcat_ok in Hy as (y1 & y2 & Hy1 & Hy2 & ->).
  rewrite !app_length. rewrite (H x1 y1 Hx1 Hy1), (Hb x2 y2 Hx2 Hy2). reflexivity.
Qed.

Lemma wsz_list : forall A (w w' : A -> writer) l, (forall x, wsz (w x) (w' x)) ->
  wsz (wlist w l) (wlist w' l).
Proof. intros A w w' l H. induction l; cbn [wlist]; [apply wsz_refl|now apply wsz_cat]. Qed.

Lemma wsz_first : forall A (w w' : A -> writer) n l, (forall x, wsz (w x) (w' x)) ->
  wsz (wfirst n w l) (wfirst n w' l).
Proof.
  intros A w w' n. induction n; intros l H; cbn [wfirst]; [apply wsz_refl|].
  destruct l; [apply wsz_refl|apply wsz_cat; auto].
Qed.

Lemma wsz_opt : forall A (o : option A) w w', (forall x, wsz (w x) (w' x)) ->
  wsz (wopt o w) (wopt o w').
Proof. intros A [x|] w w' H; [apply H|apply wsz_refl]. Qed.

Lemma wsz_flag : forall A (o : option A) fl b w w', (forall x, wsz (w x) (w' x)) ->
  wsz (wflag fl b o w) (wflag fl b o w').
Proof.
  intros A o fl b w w' H. unfold wflag. destruct (Z.testbit fl b); [|apply wsz_refl].
  destruct o; [apply H|apply wsz_refl].
Qed.

Lemma wsz_attr_of : forall A (o : option A) w w', (forall x, wsz (w x) (w' x)) ->
  wsz (wattr_of o w) (wattr_of o w').
Proof. intros A [x|] w w' H; [apply H|apply wsz_refl]. Qed.

Lemma wsz_unsigned2 : forall bo bo' n v v', wsz (wunsigned bo n v) (wunsigned bo' n v').
Proof.
  intros bo bo' n v v' x y. unfold wunsigned.
  destruct (_ && _); [|discriminate]. destruct (_ && _); [|discriminate].
  intros H1 H2. injection H1 as <-. injection H2 as <-. now rewrite !enc_length.
Qed.
Lemma wsz_unsigned : forall bo bo' n v, wsz (wunsigned bo n v) (wunsigned bo' n v).
Proof. intros. apply wsz_unsigned2. Qed.

Lemma wsz_signed : forall bo bo' n v, wsz (wsigned bo n v) (wsigned bo' n v).
Proof.
  intros bo bo' n v x y. unfold wsigned. destruct (_ && _); [|discriminate].
  intros H1 H2. injection H1 as <-. injection H2 as <-. now rewrite !enc_length.
Qed.

Lemma wsz_u16 : forall bo bo' v, wsz (wu16 bo v) (wu16 bo' v).
Proof. intros. apply wsz_unsigned. Qed.
Lemma wsz_u32 : forall bo bo' v, wsz (wu32 bo v) (wu32 bo' v).
Proof. intros. apply wsz_unsigned. Qed.
Lemma wsz_u64 : forall bo bo' v, wsz (wu64 bo v) (wu64 bo' v).
Proof. intros. apply wsz_unsigned. Qed.
Lemma wsz_date : forall bo bo' v, wsz (wdate bo v) (wdate bo' v).
Proof. intros. apply wsz_unsigned. Qed.
Lemma wsz_s16 : forall bo bo' v, wsz (ws16 bo v) (ws16 bo' v).
Proof. intros. apply wsz_signed. Qed.
Lemma wsz_s32 : forall bo bo' v, wsz (ws32 bo v) (ws32 bo' v).
Proof. intros. apply wsz_signed. Qed.
Lemma wsz_s64 : forall bo bo' v, wsz (ws64 bo v) (ws64 bo' v).
Proof. intros. apply wsz_signed. Qed.

Lemma wsz_bytes : forall a b, length a = length b -> wsz (wbytes a) (wbytes b).
Proof. intros a b H x y Hx Hy. unfold wbytes in *. congruence. Qed.

Create HintDb wsz.
#[export] Hint Resolve wsz_u16 wsz_u32 wsz_u64 wsz_date wsz_s16 wsz_s32 wsz_s64 : wsz.

Ltac wsz_step :=
  lazymatch goal with
  | |- forall _, _ => intro
  | |- wsz ?a ?a => apply wsz_refl
  | |- wsz (_ +++ _) (_ +++ _) => apply wsz_cat
  | |- wsz (wlist _ _) (wlist _ _) => apply wsz_list
  | |- wsz (wfirst _ _ _) (wfirst _ _ _) => apply wsz_first
  | |- wsz (wopt _ _) (wopt _ _) => apply wsz_opt
  | |- wsz (wattr_of _ _) (wattr_of _ _) => apply wsz_attr_of
  | |- wsz (wflag _ _ _ _) (wflag _ _ _ _) => apply wsz_flag
  | |- wsz (wext _ _) (wext _ _) => unfold wext
  | |- wsz (match ?x with _ => _ end) _ => destruct x
  | |- _ => solve [auto with wsz]
  end.
Ltac wsz := repeat wsz_step.

Lemma wsz_str_enc : forall bo bo' e s, wsz (wstr_enc bo e s) (wstr_enc bo' e s).
Proof. unfold wstr_enc. wsz. Qed.
#[export] Hint Resolve wsz_str_enc : wsz.
Lemma wsz_str : forall bo bo' s, wsz (wstr bo s) (wstr bo' s).
Proof. unfold wstr. wsz. Qed.
#[export] Hint Resolve wsz_str : wsz.
Lemma wsz_name : forall bo bo' s, wsz (wname bo s) (wname bo' s).
Proof. unfold wname. wsz. Qed.
Lemma wsz_rect : forall bo bo' s, wsz (wrect bo s) (wrect bo' s).
Proof. unfold wrect. wsz. Qed.
Lemma wsz_rgb : forall bo bo' s, wsz (wrgb bo s) (wrgb bo' s).
Proof. unfold wrgb. wsz. Qed.
Lemma wsz_exp10 : forall bo bo' s, wsz (wexp10 bo s) (wexp10 bo' s).
Proof. unfold wexp10. wsz. Qed.

Lemma wsz_uuid : forall bo bo' u, wsz (wuuid bo u) (wuuid bo' u).
Proof.
  intros bo bo' u. unfold wuuid. wsz. apply wsz_bytes.
  destruct bo, bo'; rewrite ?skipn_length; unfold uuid_bytes_le; rewrite ?uuid_swap_length; reflexivity.
Qed.

Lemma wsz_rawuuid : forall bo bo' u, wsz (wrawuuid bo u) (wrawuuid bo' u).
Proof.
  intros bo bo' u. unfold wrawuuid. apply wsz_bytes.
  destruct bo, bo'; unfold uuid_bytes_le; rewrite ?uuid_swap_length; reflexivity.
Qed.

Lemma wsz_fourcc : forall bo bo' v, wsz (wfourcc bo v) (wfourcc bo' v).
Proof.
  intros bo bo' v. unfold wfourcc. wsz. apply wsz_bytes.
  destruct bo, bo'; rewrite ?rev_length; reflexivity.
Qed.
#[export] Hint Resolve wsz_name wsz_rect wsz_rgb wsz_exp10 wsz_uuid wsz_rawuuid wsz_fourcc : wsz.
Lemma wsz_mobid : forall bo bo' u, wsz (wmobid bo u) (wmobid bo' u).
Proof. unfold wmobid. wsz. Qed.
#[export] Hint Resolve wsz_mobid : wsz.

Section Classes.
Variables c c' : octx.

Lemma wsz_ref : forall r, wsz (wref c r) (wref c' r).
Proof.
  intros r. unfold wref. destruct (r =? 0); [apply wsz_unsigned2|].
  destruct (orefs c r); [|discriminate]. destruct (orefs c' r); [apply wsz_unsigned2|discriminate].
Qed.
Hint Resolve wsz_ref : wsz.

(** ** Attributes.v *)

Lemma wsz_wattr : forall p, wsz (wattr c p) (wattr c' p).
Proof. unfold wattr. wsz. Qed.
Hint Resolve wsz_wattr : wsz.

Lemma wsz_wattributes : forall o, wsz (wattributes c o) (wattributes c' o).
Proof. unfold wattributes. wsz. Qed.
Hint Resolve wsz_wattributes : wsz.

Lemma wsz_wparameter_list : forall o, wsz (wparameter_list c o) (wparameter_list c' o).
Proof. unfold wparameter_list. wsz. Qed.
Hint Resolve wsz_wparameter_list : wsz.

Lemma wsz_wtime_crumb_list : forall o, wsz (wtime_crumb_list c o) (wtime_crumb_list c' o).
Proof. unfold wtime_crumb_list. wsz. Qed.
Hint Resolve wsz_wtime_crumb_list : wsz.

(** ** Components.v *)

Lemma wsz_wcomponent : forall o, wsz (wcomponent c o) (wcomponent c' o).
Proof. unfold wcomponent. wsz. Qed.
Hint Resolve wsz_wcomponent : wsz.

Lemma wsz_wsequence : forall o, wsz (wsequence c o) (wsequence c' o).
Proof. unfold wsequence. wsz. Qed.
Hint Resolve wsz_wsequence : wsz.

Lemma wsz_wclip : forall o, wsz (wclip c o) (wclip c' o).
Proof. unfold wclip. wsz. Qed.
Hint Resolve wsz_wclip : wsz.

Lemma wsz_wsource_clip : forall o, wsz (wsource_clip c o) (wsource_clip c' o).
Proof. unfold wsource_clip. wsz. Qed.
Hint Resolve wsz_wsource_clip : wsz.

Lemma wsz_wtimecode : forall o, wsz (wtimecode c o) (wtimecode c' o).
Proof. unfold wtimecode. wsz. Qed.
Hint Resolve wsz_wtimecode : wsz.

Lemma wsz_wedgecode : forall o, wsz (wedgecode c o) (wedgecode c' o).
Proof. unfold wedgecode. wsz. Qed.
Hint Resolve wsz_wedgecode : wsz.

Lemma wsz_wtrack_ref : forall o, wsz (wtrack_ref c o) (wtrack_ref c' o).
Proof. unfold wtrack_ref. wsz. Qed.
Hint Resolve wsz_wtrack_ref : wsz.

Lemma wsz_wparam_point_property : forall o, wsz (wparam_point_property c o) (wparam_point_property c' o).
Proof. unfold wparam_point_property. wsz. Qed.
Hint Resolve wsz_wparam_point_property : wsz.

Lemma wsz_wcp_value : forall value_type v, wsz (wcp_value c value_type v) (wcp_value c' value_type v).
Proof. unfold wcp_value. wsz. Qed.
Hint Resolve wsz_wcp_value : wsz.

Lemma wsz_wparam_control_point : forall value_type o, wsz (wparam_control_point c value_type o) (wparam_control_point c' value_type o).
Proof. unfold wparam_control_point. wsz. Qed.
Hint Resolve wsz_wparam_control_point : wsz.

Lemma wsz_wparam_clip : forall o, wsz (wparam_clip c o) (wparam_clip c' o).
Proof. unfold wparam_clip. wsz. Qed.
Hint Resolve wsz_wparam_clip : wsz.

Lemma wsz_wcontrol_point_property : forall o, wsz (wcontrol_point_property c o) (wcontrol_point_property c' o).
Proof. unfold wcontrol_point_property. wsz. Qed.
Hint Resolve wsz_wcontrol_point_property : wsz.

Lemma wsz_wcontrol_point : forall o, wsz (wcontrol_point c o) (wcontrol_point c' o).
Proof. unfold wcontrol_point. wsz. Qed.
Hint Resolve wsz_wcontrol_point : wsz.

Lemma wsz_wcontrol_clip : forall o, wsz (wcontrol_clip c o) (wcontrol_clip c' o).
Proof. unfold wcontrol_clip. wsz. Qed.
Hint Resolve wsz_wcontrol_clip : wsz.

Lemma wsz_wfiller : forall o, wsz (wfiller c o) (wfiller c' o).
Proof. unfold wfiller. wsz. Qed.
Hint Resolve wsz_wfiller : wsz.

(** ** TrackGroups.v *)

Lemma wsz_wtrack : forall t, wsz (wtrack c t) (wtrack c' t).
Proof. unfold wtrack. wsz. Qed.
Hint Resolve wsz_wtrack : wsz.

Lemma wsz_wlock : forall t, wsz (wlock c t) (wlock c' t).
Proof. unfold wlock. wsz. Qed.
Hint Resolve wsz_wlock : wsz.

Lemma wsz_wtrack_group : forall o, wsz (wtrack_group c o) (wtrack_group c' o).
Proof. unfold wtrack_group. wsz. Qed.
Hint Resolve wsz_wtrack_group : wsz.

Lemma wsz_wtrack_effect_base : forall o, wsz (wtrack_effect_base c o) (wtrack_effect_base c' o).
Proof. unfold wtrack_effect_base. wsz. Qed.
Hint Resolve wsz_wtrack_effect_base : wsz.

Lemma wsz_wtrack_effect : forall o, wsz (wtrack_effect c o) (wtrack_effect c' o).
Proof. unfold wtrack_effect. wsz. Qed.
Hint Resolve wsz_wtrack_effect : wsz.

Lemma wsz_wpan_volume_effect : forall o, wsz (wpan_volume_effect c o) (wpan_volume_effect c' o).
Proof. unfold wpan_volume_effect. wsz. Qed.
Hint Resolve wsz_wpan_volume_effect : wsz.

Lemma wsz_waspi_chunk : forall o, wsz (waspi_chunk c o) (waspi_chunk c' o).
Proof. unfold waspi_chunk. wsz. Qed.
Hint Resolve wsz_waspi_chunk : wsz.

Lemma wsz_waspi_plugin : forall o, wsz (waspi_plugin c o) (waspi_plugin c' o).
Proof. unfold waspi_plugin. wsz. Qed.
Hint Resolve wsz_waspi_plugin : wsz.

Lemma wsz_wpreset_path : forall v, wsz (wpreset_path c v) (wpreset_path c' v).
Proof. unfold wpreset_path. wsz. Qed.
Hint Resolve wsz_wpreset_path : wsz.

Lemma wsz_waudio_suite_effect : forall o, wsz (waudio_suite_effect c o) (waudio_suite_effect c' o).
Proof. unfold waudio_suite_effect. wsz. Qed.
Hint Resolve wsz_waudio_suite_effect : wsz.

Lemma wsz_wequalizer_band : forall o, wsz (wequalizer_band c o) (wequalizer_band c' o).
Proof. unfold wequalizer_band. wsz. Qed.
Hint Resolve wsz_wequalizer_band : wsz.

Lemma wsz_wequalizer_multi_band : forall o, wsz (wequalizer_multi_band c o) (wequalizer_multi_band c' o).
Proof. unfold wequalizer_multi_band. wsz. Qed.
Hint Resolve wsz_wequalizer_multi_band : wsz.

Lemma wsz_wtime_warp : forall o, wsz (wtime_warp c o) (wtime_warp c' o).
Proof. unfold wtime_warp. wsz. Qed.
Hint Resolve wsz_wtime_warp : wsz.

Lemma wsz_wcapture_mask : forall o, wsz (wcapture_mask c o) (wcapture_mask c' o).
Proof. unfold wcapture_mask. wsz. Qed.
Hint Resolve wsz_wcapture_mask : wsz.

Lemma wsz_wstrobe_effect : forall o, wsz (wstrobe_effect c o) (wstrobe_effect c' o).
Proof. unfold wstrobe_effect. wsz. Qed.
Hint Resolve wsz_wstrobe_effect : wsz.

Lemma wsz_wmotion_effect : forall o, wsz (wmotion_effect c o) (wmotion_effect c' o).
Proof. unfold wmotion_effect. wsz. Qed.
Hint Resolve wsz_wmotion_effect : wsz.

Lemma wsz_wrepeat_effect : forall o, wsz (wrepeat_effect c o) (wrepeat_effect c' o).
Proof. unfold wrepeat_effect. wsz. Qed.
Hint Resolve wsz_wrepeat_effect : wsz.

Lemma wsz_wessence_group : forall o, wsz (wessence_group c o) (wessence_group c' o).
Proof. unfold wessence_group. wsz. Qed.
Hint Resolve wsz_wessence_group : wsz.

Lemma wsz_wtransition_effect : forall o, wsz (wtransition_effect c o) (wtransition_effect c' o).
Proof. unfold wtransition_effect. wsz. Qed.
Hint Resolve wsz_wtransition_effect : wsz.

Lemma wsz_wselector : forall o, wsz (wselector c o) (wselector c' o).
Proof. unfold wselector. wsz. Qed.
Hint Resolve wsz_wselector : wsz.

Lemma wsz_wcomposition : forall o, wsz (wcomposition c o) (wcomposition c' o).
Proof. unfold wcomposition. wsz. Qed.
Hint Resolve wsz_wcomposition : wsz.

(** ** Misc.v *)

Lemma wsz_wfile_locator : forall o, wsz (wfile_locator c o) (wfile_locator c' o).
Proof. unfold wfile_locator. wsz. Qed.
Hint Resolve wsz_wfile_locator : wsz.

Lemma wsz_wurl_locator : forall o, wsz (wurl_locator c o) (wurl_locator c' o).
Proof. unfold wurl_locator. wsz. Qed.
Hint Resolve wsz_wurl_locator : wsz.

Lemma wsz_wgraphic_effect : forall o, wsz (wgraphic_effect c o) (wgraphic_effect c' o).
Proof. unfold wgraphic_effect. wsz. Qed.
Hint Resolve wsz_wgraphic_effect : wsz.

Lemma wsz_wshape_list : forall o, wsz (wshape_list c o) (wshape_list c' o).
Proof. unfold wshape_list. wsz. Qed.
Hint Resolve wsz_wshape_list : wsz.

Lemma wsz_wcolor_correction_effect : forall o, wsz (wcolor_correction_effect c o) (wcolor_correction_effect c' o).
Proof. unfold wcolor_correction_effect. wsz. Qed.
Hint Resolve wsz_wcolor_correction_effect : wsz.

Lemma wsz_wbox : forall v, wsz (wbox c v) (wbox c' v).
Proof. unfold wbox. wsz. Qed.
Hint Resolve wsz_wbox : wsz.

Lemma wsz_weffect_param : forall o, wsz (weffect_param c o) (weffect_param c' o).
Proof. unfold weffect_param. wsz. Qed.
Hint Resolve wsz_weffect_param : wsz.

Lemma wsz_weffect_param_list : forall o, wsz (weffect_param_list c o) (weffect_param_list c' o).
Proof. unfold weffect_param_list. wsz. Qed.
Hint Resolve wsz_weffect_param_list : wsz.

Lemma wsz_wcf_user_param : forall o, wsz (wcf_user_param c o) (wcf_user_param c' o).
Proof. unfold wcf_user_param. wsz. Qed.
Hint Resolve wsz_wcf_user_param : wsz.

Lemma wsz_wprit_value : forall value_type v, wsz (wprit_value c value_type v) (wprit_value c' value_type v).
Proof. unfold wprit_value. wsz. Qed.
Hint Resolve wsz_wprit_value : wsz.

Lemma wsz_wparameter_item : forall o, wsz (wparameter_item c o) (wparameter_item c' o).
Proof. unfold wparameter_item. wsz. Qed.
Hint Resolve wsz_wparameter_item : wsz.

Lemma wsz_wmob_words : forall m, wsz (wmob_words c m) (wmob_words c' m).
Proof. unfold wmob_words. wsz. Qed.
Hint Resolve wsz_wmob_words : wsz.

Lemma wsz_wmsm_locator : forall o, wsz (wmsm_locator c o) (wmsm_locator c' o).
Proof. unfold wmsm_locator. wsz. Qed.
Hint Resolve wsz_wmsm_locator : wsz.

Lemma wsz_wposition_base : forall o, wsz (wposition_base c o) (wposition_base c' o).
Proof. unfold wposition_base. wsz. Qed.
Hint Resolve wsz_wposition_base : wsz.

Lemma wsz_wposition : forall o, wsz (wposition c o) (wposition c' o).
Proof. unfold wposition. wsz. Qed.
Hint Resolve wsz_wposition : wsz.

Lemma wsz_wbob_position_base : forall o, wsz (wbob_position_base c o) (wbob_position_base c' o).
Proof. unfold wbob_position_base. wsz. Qed.
Hint Resolve wsz_wbob_position_base : wsz.

Lemma wsz_wbob_position : forall o, wsz (wbob_position c o) (wbob_position c' o).
Proof. unfold wbob_position. wsz. Qed.
Hint Resolve wsz_wbob_position : wsz.

Lemma wsz_wdid_position_base : forall o, wsz (wdid_position_base c o) (wdid_position_base c' o).
Proof. unfold wdid_position_base. wsz. Qed.
Hint Resolve wsz_wdid_position_base : wsz.

Lemma wsz_wdid_position : forall o, wsz (wdid_position c o) (wdid_position c' o).
Proof. unfold wdid_position. wsz. Qed.
Hint Resolve wsz_wdid_position : wsz.

Lemma wsz_wmpg_field : forall p, wsz (wmpg_field c p) (wmpg_field c' p).
Proof. unfold wmpg_field. wsz. Qed.
Hint Resolve wsz_wmpg_field : wsz.

Lemma wsz_wmpg_fields : forall l, wsz (wmpg_fields c l) (wmpg_fields c' l).
Proof. unfold wmpg_fields. wsz. Qed.
Hint Resolve wsz_wmpg_fields : wsz.

Lemma wsz_wmpg_position : forall o, wsz (wmpg_position c o) (wmpg_position c' o).
Proof. unfold wmpg_position. wsz. Qed.
Hint Resolve wsz_wmpg_position : wsz.

Lemma wsz_wbin_ref : forall o, wsz (wbin_ref c o) (wbin_ref c' o).
Proof. unfold wbin_ref. wsz. Qed.
Hint Resolve wsz_wbin_ref : wsz.

Lemma wsz_wmob_ref_base : forall o, wsz (wmob_ref_base c o) (wmob_ref_base c' o).
Proof. unfold wmob_ref_base. wsz. Qed.
Hint Resolve wsz_wmob_ref_base : wsz.

Lemma wsz_wmob_ref : forall o, wsz (wmob_ref c o) (wmob_ref c' o).
Proof. unfold wmob_ref. wsz. Qed.
Hint Resolve wsz_wmob_ref : wsz.

Lemma wsz_wmarker : forall o, wsz (wmarker c o) (wmarker c' o).
Proof. unfold wmarker. wsz. Qed.
Hint Resolve wsz_wmarker : wsz.

Lemma wsz_wtracker_manager : forall o, wsz (wtracker_manager c o) (wtracker_manager c' o).
Proof. unfold wtracker_manager. wsz. Qed.
Hint Resolve wsz_wtracker_manager : wsz.

Lemma wsz_wtracker_data_slot : forall o, wsz (wtracker_data_slot c o) (wtracker_data_slot c' o).
Proof. unfold wtracker_data_slot. wsz. Qed.
Hint Resolve wsz_wtracker_data_slot : wsz.

Lemma wsz_wtracker_parameter_slot : forall o, wsz (wtracker_parameter_slot c o) (wtracker_parameter_slot c' o).
Proof. unfold wtracker_parameter_slot. wsz. Qed.
Hint Resolve wsz_wtracker_parameter_slot : wsz.

Lemma wsz_wtracker_data : forall o, wsz (wtracker_data c o) (wtracker_data c' o).
Proof. unfold wtracker_data. wsz. Qed.
Hint Resolve wsz_wtracker_data : wsz.

Lemma wsz_wtracker_parameter : forall o, wsz (wtracker_parameter c o) (wtracker_parameter c' o).
Proof. unfold wtracker_parameter. wsz. Qed.
Hint Resolve wsz_wtracker_parameter : wsz.

(** ** Essence.v *)

Lemma wsz_wmedia_descriptor_base : forall o, wsz (wmedia_descriptor_base c o) (wmedia_descriptor_base c' o).
Proof. unfold wmedia_descriptor_base. wsz. Qed.
Hint Resolve wsz_wmedia_descriptor_base : wsz.

Lemma wsz_wmedia_descriptor : forall o, wsz (wmedia_descriptor c o) (wmedia_descriptor c' o).
Proof. unfold wmedia_descriptor. wsz. Qed.
Hint Resolve wsz_wmedia_descriptor : wsz.

Lemma wsz_wtape_descriptor : forall o, wsz (wtape_descriptor c o) (wtape_descriptor c' o).
Proof. unfold wtape_descriptor. wsz. Qed.
Hint Resolve wsz_wtape_descriptor : wsz.

Lemma wsz_wfilm_descriptor : forall o, wsz (wfilm_descriptor c o) (wfilm_descriptor c' o).
Proof. unfold wfilm_descriptor. wsz. Qed.
Hint Resolve wsz_wfilm_descriptor : wsz.

Lemma wsz_wmedia_file_descriptor_base : forall o, wsz (wmedia_file_descriptor_base c o) (wmedia_file_descriptor_base c' o).
Proof. unfold wmedia_file_descriptor_base. wsz. Qed.
Hint Resolve wsz_wmedia_file_descriptor_base : wsz.

Lemma wsz_wmedia_file_descriptor : forall o, wsz (wmedia_file_descriptor c o) (wmedia_file_descriptor c' o).
Proof. unfold wmedia_file_descriptor. wsz. Qed.
Hint Resolve wsz_wmedia_file_descriptor : wsz.

Lemma wsz_wmulti_descriptor : forall o, wsz (wmulti_descriptor c o) (wmulti_descriptor c' o).
Proof. unfold wmulti_descriptor. wsz. Qed.
Hint Resolve wsz_wmulti_descriptor : wsz.

Lemma wsz_wwave_descriptor : forall o, wsz (wwave_descriptor c o) (wwave_descriptor c' o).
Proof. unfold wwave_descriptor. wsz. Qed.
Hint Resolve wsz_wwave_descriptor : wsz.

Lemma wsz_waifc_descriptor : forall o, wsz (waifc_descriptor c o) (waifc_descriptor c' o).
Proof. unfold waifc_descriptor. wsz. Qed.
Hint Resolve wsz_waifc_descriptor : wsz.

Lemma wsz_wpcma_descriptor : forall o, wsz (wpcma_descriptor c o) (wpcma_descriptor c' o).
Proof. unfold wpcma_descriptor. wsz. Qed.
Hint Resolve wsz_wpcma_descriptor : wsz.

Lemma wsz_wmpga_descriptor : forall o, wsz (wmpga_descriptor c o) (wmpga_descriptor c' o).
Proof. unfold wmpga_descriptor. wsz. Qed.
Hint Resolve wsz_wmpga_descriptor : wsz.

Lemma wsz_wpoint : forall x y, wsz (wpoint c x y) (wpoint c' x y).
Proof. unfold wpoint. wsz. Qed.
Hint Resolve wsz_wpoint : wsz.

Lemma wsz_wbounds_box : forall b, wsz (wbounds_box c b) (wbounds_box c' b).
Proof. unfold wbounds_box. wsz. Qed.
Hint Resolve wsz_wbounds_box : wsz.

Lemma wsz_wclient_fill : forall s e, wsz (wclient_fill c s e) (wclient_fill c' s e).
Proof. unfold wclient_fill. wsz. Qed.
Hint Resolve wsz_wclient_fill : wsz.

Lemma wsz_wboxes : forall va es so, wsz (wboxes c va es so) (wboxes c' va es so).
Proof. unfold wboxes. wsz. Qed.
Hint Resolve wsz_wboxes : wsz.

Lemma wsz_wframing : forall fb ro, wsz (wframing c fb ro) (wframing c' fb ro).
Proof. unfold wframing. wsz. Qed.
Hint Resolve wsz_wframing : wsz.

Lemma wsz_wcolor : forall cp ce, wsz (wcolor c cp ce) (wcolor c' cp ce).
Proof. unfold wcolor. wsz. Qed.
Hint Resolve wsz_wcolor : wsz.

Lemma wsz_wline_map : forall l, wsz (wline_map c l) (wline_map c' l).
Proof. unfold wline_map. wsz. Qed.
Hint Resolve wsz_wline_map : wsz.

Lemma wsz_wdid_descriptor_base : forall o, wsz (wdid_descriptor_base c o) (wdid_descriptor_base c' o).
Proof. unfold wdid_descriptor_base. wsz. Qed.
Hint Resolve wsz_wdid_descriptor_base : wsz.

Lemma wsz_wdid_descriptor : forall o, wsz (wdid_descriptor c o) (wdid_descriptor c' o).
Proof. unfold wdid_descriptor. wsz. Qed.
Hint Resolve wsz_wdid_descriptor : wsz.

Lemma wsz_wcdci_descriptor_base : forall o, wsz (wcdci_descriptor_base c o) (wcdci_descriptor_base c' o).
Proof. unfold wcdci_descriptor_base. wsz. Qed.
Hint Resolve wsz_wcdci_descriptor_base : wsz.

Lemma wsz_wcdci_descriptor : forall o, wsz (wcdci_descriptor c o) (wcdci_descriptor c' o).
Proof. unfold wcdci_descriptor. wsz. Qed.
Hint Resolve wsz_wcdci_descriptor : wsz.

Lemma wsz_wmpgi_descriptor : forall o, wsz (wmpgi_descriptor c o) (wmpgi_descriptor c' o).
Proof. unfold wmpgi_descriptor. wsz. Qed.
Hint Resolve wsz_wmpgi_descriptor : wsz.

Lemma wsz_wjped_descriptor : forall o, wsz (wjped_descriptor c o) (wjped_descriptor c' o).
Proof. unfold wjped_descriptor. wsz. Qed.
Hint Resolve wsz_wjped_descriptor : wsz.

Lemma wsz_wpixel_layout : forall l, wsz (wpixel_layout c l) (wpixel_layout c' l).
Proof. unfold wpixel_layout. wsz. Qed.
Hint Resolve wsz_wpixel_layout : wsz.

Lemma wsz_wcomp_refs : forall o, wsz (wcomp_refs c o) (wcomp_refs c' o).
Proof. unfold wcomp_refs. wsz. Qed.
Hint Resolve wsz_wcomp_refs : wsz.

Lemma wsz_walpha_refs : forall o, wsz (walpha_refs c o) (walpha_refs c' o).
Proof. unfold walpha_refs. wsz. Qed.
Hint Resolve wsz_walpha_refs : wsz.

Lemma wsz_wrgba_descriptor : forall o, wsz (wrgba_descriptor c o) (wrgba_descriptor c' o).
Proof. unfold wrgba_descriptor. wsz. Qed.
Hint Resolve wsz_wrgba_descriptor : wsz.

Lemma wsz_wdata_descriptor : forall o, wsz (wdata_descriptor c o) (wdata_descriptor c' o).
Proof. unfold wdata_descriptor. wsz. Qed.
Hint Resolve wsz_wdata_descriptor : wsz.

Lemma wsz_wanc_data_descriptor : forall o, wsz (wanc_data_descriptor c o) (wanc_data_descriptor c' o).
Proof. unfold wanc_data_descriptor. wsz. Qed.
Hint Resolve wsz_wanc_data_descriptor : wsz.

(** ** BinModel.v *)

Lemma wsz_wsetting : forall o, wsz (wsetting c o) (wsetting c' o).
Proof. unfold wsetting. wsz. Qed.
Hint Resolve wsz_wsetting : wsz.

Lemma wsz_wbin_column : forall o, wsz (wbin_column c o) (wbin_column c' o).
Proof. unfold wbin_column. wsz. Qed.
Hint Resolve wsz_wbin_column : wsz.

Lemma wsz_wformat_desc : forall o, wsz (wformat_desc c o) (wformat_desc c' o).
Proof. unfold wformat_desc. wsz. Qed.
Hint Resolve wsz_wformat_desc : wsz.

Lemma wsz_wformat_descs : forall l, wsz (wformat_descs c l) (wformat_descs c' l).
Proof. unfold wformat_descs. wsz. Qed.
Hint Resolve wsz_wformat_descs : wsz.

Lemma wsz_wbin_view_setting : forall o, wsz (wbin_view_setting c o) (wbin_view_setting c' o).
Proof. unfold wbin_view_setting. wsz. Qed.
Hint Resolve wsz_wbin_view_setting : wsz.

Lemma wsz_wbin_item : forall o, wsz (wbin_item c o) (wbin_item c' o).
Proof. unfold wbin_item. wsz. Qed.
Hint Resolve wsz_wbin_item : wsz.

Lemma wsz_wsift_item : forall o, wsz (wsift_item c o) (wsift_item c' o).
Proof. unfold wsift_item. wsz. Qed.
Hint Resolve wsz_wsift_item : wsz.

Lemma wsz_wsort_column : forall o, wsz (wsort_column c o) (wsort_column c' o).
Proof. unfold wsort_column. wsz. Qed.
Hint Resolve wsz_wsort_column : wsz.

Lemma wsz_wobject_count : forall o, wsz (wobject_count c o) (wobject_count c' o).
Proof. unfold wobject_count. wsz. Qed.
Hint Resolve wsz_wobject_count : wsz.

Lemma wsz_wbin_base : forall o, wsz (wbin_base c o) (wbin_base c' o).
Proof. unfold wbin_base. wsz. Qed.
Hint Resolve wsz_wbin_base : wsz.

Lemma wsz_wbin : forall o, wsz (wbin c o) (wbin c' o).
Proof. unfold wbin. wsz. Qed.
Hint Resolve wsz_wbin : wsz.

Lemma wsz_wbin_first : forall o, wsz (wbin_first c o) (wbin_first c' o).
Proof. unfold wbin_first. wsz. Qed.
Hint Resolve wsz_wbin_first : wsz.

End Classes.

Lemma wsz_body : forall c c' o, wsz (wbody c o) (wbody c' o).
Proof.
  intros c c' [k v]. unfold wbody. cbn [okind oval]. destruct k; cbn [class_of C_write].
  - now apply wsz_wattributes.
  - now apply wsz_wparameter_list.
  - now apply wsz_wtime_crumb_list.
  - now apply wsz_wbin_view_setting.
  - now apply wsz_wbin.
  - now apply wsz_wbin_first.
  - now apply wsz_wsequence.
  - now apply wsz_wsource_clip.
  - now apply wsz_wtimecode.
  - now apply wsz_wedgecode.
  - now apply wsz_wtrack_ref.
  - now apply wsz_wparam_clip.
  - now apply wsz_wcontrol_clip.
  - now apply wsz_wfiller.
  - now apply wsz_wmedia_descriptor.
  - now apply wsz_wtape_descriptor.
  - now apply wsz_wfilm_descriptor.
  - now apply wsz_wfilm_descriptor.
  - now apply wsz_wmedia_file_descriptor.
  - now apply wsz_wmulti_descriptor.
  - now apply wsz_wwave_descriptor.
  - now apply wsz_waifc_descriptor.
  - now apply wsz_wpcma_descriptor.
  - now apply wsz_wmpga_descriptor.
  - now apply wsz_wdid_descriptor.
  - now apply wsz_wcdci_descriptor.
  - now apply wsz_wmpgi_descriptor.
  - now apply wsz_wjped_descriptor.
  - now apply wsz_wrgba_descriptor.
  - now apply wsz_wdata_descriptor.
  - now apply wsz_wanc_data_descriptor.
  - now apply wsz_wfile_locator.
  - now apply wsz_wfile_locator.
  - now apply wsz_wurl_locator.
  - now apply wsz_wgraphic_effect.
  - now apply wsz_wshape_list.
  - now apply wsz_wcolor_correction_effect.
  - now apply wsz_weffect_param_list.
  - now apply wsz_wcf_user_param.
  - now apply wsz_wparameter_item.
  - now apply wsz_wmsm_locator.
  - now apply wsz_wposition.
  - now apply wsz_wbob_position.
  - now apply wsz_wdid_position.
  - now apply wsz_wmpg_position.
  - now apply wsz_wbin_ref.
  - now apply wsz_wmob_ref.
  - now apply wsz_wmarker.
  - now apply wsz_wtracker_manager.
  - now apply wsz_wtracker_data_slot.
  - now apply wsz_wtracker_parameter_slot.
  - now apply wsz_wtracker_data.
  - now apply wsz_wtracker_parameter.
  - now apply wsz_wtrack_group.
  - now apply wsz_wtrack_effect.
  - now apply wsz_wpan_volume_effect.
  - now apply wsz_waudio_suite_effect.
  - now apply wsz_wequalizer_multi_band.
  - now apply wsz_wcapture_mask.
  - now apply wsz_wstrobe_effect.
  - now apply wsz_wmotion_effect.
  - now apply wsz_wrepeat_effect.
  - now apply wsz_wessence_group.
  - now apply wsz_wtransition_effect.
  - now apply wsz_wselector.
  - now apply wsz_wcomposition.
Qed.
