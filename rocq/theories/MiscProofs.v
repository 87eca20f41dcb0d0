(** Round trips of the classes of Misc.v. *)
From Coq Require Import ZArith List Bool Lia.
From Verif Require Import Base IoCtx Text Exp10 MobId ClassTac Components ComponentsProofs Misc.
Import ListNotations.
Open Scope Z_scope.

#[export] Hint Unfold file_locator_ext parameter_item_ext msm_locator_ext position_ext
  bin_ref_ext mob_ref_ext marker_ext tracker_data_slot_ext tracker_data_ext : cls.

Section Classes.
Context (i : ictx) (c : octx) (Hc : compat i c).

Lemma rt_file_locator : forall P o, file_locator_ok o ->
  rt P (rfile_locator i) (wfile_locator c o) (file_locator_map (reff c) o).
Proof.
  rt_start. unfold file_locator_ok in *. use_ok. unfold rfile_locator, wfile_locator.
  rt_class.
Qed.

Lemma rt_url_locator : forall P o, url_locator_ok o ->
  rt P (rurl_locator i) (wurl_locator c o) (url_locator_map (reff c) o).
Proof. rt_start. unfold rurl_locator, wurl_locator. destruct o. rt_class. Qed.

Lemma rt_graphic_effect : forall P o, graphic_effect_ok o ->
  rt P (rgraphic_effect i) (wgraphic_effect c o) (graphic_effect_map (reff c) o).
Proof.
  rt_start. unfold graphic_effect_ok in *. use_ok. unfold rgraphic_effect, wgraphic_effect.
  rt_class.
Qed.

Lemma rt_shape_list : forall P o, shape_list_ok o ->
  rt P (rshape_list i) (wshape_list c o) (shape_list_map (reff c) o).
Proof.
  rt_start. unfold shape_list_ok in *. use_ok. unfold rshape_list, wshape_list.
  rt_class.
Qed.

Lemma rt_color_correction_effect : forall P o, color_correction_effect_ok o ->
  rt P (rcolor_correction_effect i) (wcolor_correction_effect c o) (color_correction_effect_map (reff c) o).
Proof.
  rt_start. unfold color_correction_effect_ok in *. use_ok. unfold rcolor_correction_effect, wcolor_correction_effect.
  rt_class.
Qed.

Lemma rt_box : forall P v, rt P (rbox i) (wbox c v) v.
Proof. rt_start. unfold rbox, wbox. destruct v. rt_class. Qed.
Hint Resolve rt_box : rt.

Lemma rt_effect_param : forall P o, effect_param_ok o ->
  rt P (reffect_param i) (weffect_param c o) (effect_param_map (reff c) o).
Proof.
  rt_start. unfold effect_param_ok in *. use_ok. unfold reffect_param, weffect_param.
  rt_class.
Qed.
Hint Resolve rt_effect_param : rt.

Lemma rt_effect_param_list : forall P o, effect_param_list_ok o ->
  rt P (reffect_param_list i) (weffect_param_list c o) (effect_param_list_map (reff c) o).
Proof.
  rt_start. unfold effect_param_list_ok in *. use_ok. unfold reffect_param_list, weffect_param_list.
  rt_class.
Qed.

Lemma rt_cf_user_param : forall P o, cf_user_param_ok o ->
  rt P (rcf_user_param i) (wcf_user_param c o) (cf_user_param_map (reff c) o).
Proof.
  rt_start. unfold cf_user_param_ok in *. use_ok. unfold rcf_user_param, wcf_user_param.
  eapply rt_eqv; [rt_go|]. unfold cf_user_param_map. congruence.
Qed.

Lemma rt_prit_value : forall P t v,
  rt P (rprit_value i t) (wprit_value c t v) (cp_value_map (reff c) v).
Proof.
  rt_start. unfold rprit_value, wprit_value. bo_norm.
  destruct (t =? 1); [destruct v; try apply rt_err; rt_class|].
  destruct (t =? 2); [destruct v; try apply rt_err; rt_class|].
  destruct (t =? 4); [destruct v; try apply rt_err; rt_class|].
  apply rt_err.
Qed.
Hint Resolve rt_prit_value : rt.

Lemma rt_parameter_item : forall P o, parameter_item_ok o ->
  rt P (rparameter_item i) (wparameter_item c o) (parameter_item_map (reff c) o).
Proof.
  rt_start. unfold parameter_item_ok in *. use_ok. unfold rparameter_item, wparameter_item.
  rt_class.
Qed.

Lemma rt_msm_locator : forall P o, msm_locator_ok o ->
  rt P (rmsm_locator i) (wmsm_locator c o) (msm_locator_map (reff c) o).
Proof.
  rt_start. unfold msm_locator_ok in *. use_ok. unfold rmsm_locator, wmsm_locator, wmob_words.
  destruct o as [v d [m|] u]; cbn [msml_last_known_volume msml_domain_type msml_mob_id msml_last_known_volume_utf8 opt_ok wopt] in *;
    [rt_class | rt_never].
Qed.

Lemma rt_position_base : forall o, position_ok o ->
  rt endr (rposition_base i) (wposition_base c o) (position_map (reff c) o).
Proof.
  rt_start. unfold position_ok in *. use_ok. unfold rposition_base, wposition_base, wmob_words.
  destruct o as [[m|]]; cbn [apos_mob_id opt_ok wopt] in *;
    [rt_class | rt_never].
Qed.
Hint Resolve rt_position_base : rt.

Lemma rt_position : forall P o, position_ok o ->
  rt P (rposition i) (wposition c o) (position_map (reff c) o).
Proof. rt_start. unfold rposition, wposition. rt_class. Qed.

Lemma rt_bob_position_base : forall P o, bob_position_ok o ->
  rt P (rbob_position_base i) (wbob_position_base c o) (bob_position_map (reff c) o).
Proof.
  rt_start. unfold bob_position_ok in *. use_ok. unfold rbob_position_base, wbob_position_base.
  rt_class.
Qed.
Hint Resolve rt_bob_position_base : rt.

Lemma rt_bob_position : forall P o, bob_position_ok o ->
  rt P (rbob_position i) (wbob_position c o) (bob_position_map (reff c) o).
Proof. rt_start. unfold rbob_position, wbob_position. rt_class. Qed.

Lemma rt_did_position_base : forall P o, did_position_ok o ->
  rt P (rdid_position_base i) (wdid_position_base c o) (did_position_map (reff c) o).
Proof.
  rt_start. unfold did_position_ok in *. use_ok. unfold rdid_position_base, wdid_position_base.
  rt_class.
Qed.
Hint Resolve rt_did_position_base : rt.

Lemma rt_did_position : forall P o, did_position_ok o ->
  rt P (rdid_position i) (wdid_position c o) (did_position_map (reff c) o).
Proof. rt_start. unfold rdid_position, wdid_position. rt_class. Qed.

Lemma rt_mpg_field : forall P p, rt P (rmpg_field i) (wmpg_field c p) p.
Proof. rt_start. unfold rmpg_field, wmpg_field. destruct p. rt_class. Qed.

Lemma rt_mpg_fields : forall P l, rt P (rmpg_fields i) (wmpg_fields c l) l.
Proof.
  rt_start. unfold rmpg_fields, wmpg_fields. bo_norm.
  eapply rt_bind with (Q := anyr); [ rt_elem | cbv beta | intros; exact I ].
  destruct l as [|x l].
  - apply rt_ret.
  - assert (0 <? len (x :: l) = true) as ->
      by (apply Z.ltb_lt; unfold len; cbn [length]; lia).
    eapply rt_bind with (Q := anyr); [ rt_elem | cbv beta | intros; exact I ].
    apply rt_any. eapply rt_list_id; [apply len_nat|]. intros. apply rt_mpg_field.
Qed.
Hint Resolve rt_mpg_fields : rt.

Lemma rt_mpg_position : forall P o, mpg_position_ok o ->
  rt P (rmpg_position i) (wmpg_position c o) (mpg_position_map (reff c) o).
Proof.
  rt_start. unfold mpg_position_ok in *. use_ok. unfold rmpg_position, wmpg_position.
  rt_class.
Qed.

Lemma rt_bin_ref : forall P o, bin_ref_ok o ->
  rt P (rbin_ref i) (wbin_ref c o) (bin_ref_map (reff c) o).
Proof.
  rt_start. unfold bin_ref_ok in *. use_ok. unfold rbin_ref, wbin_ref.
  destruct o as [h l n [u|]];
    cbn [mcbr_uid_high mcbr_uid_low mcbr_name mcbr_name_utf8 opt_ok] in *;
    [rt_class | rt_never].
Qed.

Lemma rt_mob_ref_base : forall o, mob_ref_ok o ->
  rt endr (rmob_ref_base i) (wmob_ref_base c o) (mob_ref_map (reff c) o).
Proof.
  rt_start. unfold mob_ref_ok in *. use_ok. unfold rmob_ref_base, wmob_ref_base, wmob_words.
  destruct o as [p [m|]]; cbn [mcmr_position mcmr_mob_id opt_ok wopt] in *;
    [rt_class | rt_never].
Qed.
Hint Resolve rt_mob_ref_base : rt.

Lemma rt_mob_ref : forall P o, mob_ref_ok o ->
  rt P (rmob_ref i) (wmob_ref c o) (mob_ref_map (reff c) o).
Proof. rt_start. unfold rmob_ref, wmob_ref. rt_class. Qed.

Lemma rt_marker : forall P o, marker_ok o ->
  rt P (rmarker i) (wmarker c o) (marker_map (reff c) o).
Proof.
  rt_start. unfold marker_ok in *. use_ok. unfold rmarker, wmarker.
  destruct o as [m co a col h]; cbn [tmbc_mob_ref tmbc_color] in *.
  destruct col as [|r [|g [|b [|? ?]]]]; try discriminate.
  cbn [tmbc_mob_ref tmbc_comp_offset tmbc_attributes tmbc_color tmbc_handled_codes wlist].
  rt_class.
Qed.

Lemma rt_tracker_manager : forall P o, tracker_manager_ok o ->
  rt P (rtracker_manager i) (wtracker_manager c o) (tracker_manager_map (reff c) o).
Proof.
  rt_start. unfold tracker_manager_ok in *. use_ok. unfold rtracker_manager, wtracker_manager.
  rt_class.
Qed.

Lemma rt_tracker_data_slot : forall P o, tracker_data_slot_ok o ->
  rt P (rtracker_data_slot i) (wtracker_data_slot c o) (tracker_data_slot_map (reff c) o).
Proof.
  rt_start. unfold tracker_data_slot_ok in *. use_ok. unfold rtracker_data_slot, wtracker_data_slot.
  rt_class.
Qed.

Lemma rt_tracker_parameter_slot : forall P o, tracker_parameter_slot_ok o ->
  rt P (rtracker_parameter_slot i) (wtracker_parameter_slot c o) (tracker_parameter_slot_map (reff c) o).
Proof.
  rt_start. unfold tracker_parameter_slot_ok in *. use_ok. unfold rtracker_parameter_slot, wtracker_parameter_slot.
  rt_class.
Qed.

Lemma rt_tracker_data : forall P o, tracker_data_ok o ->
  rt P (rtracker_data i) (wtracker_data c o) (tracker_data_map (reff c) o).
Proof.
  rt_start. unfold tracker_data_ok in *. use_ok. unfold rtracker_data, wtracker_data.
  rt_class.
Qed.

Lemma rt_tracker_parameter : forall P o, tracker_parameter_ok o ->
  rt P (rtracker_parameter i) (wtracker_parameter c o) (tracker_parameter_map (reff c) o).
Proof.
  rt_start. unfold tracker_parameter_ok in *. use_ok. unfold rtracker_parameter, wtracker_parameter.
  rt_class.
Qed.

End Classes.
