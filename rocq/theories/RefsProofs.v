(** References that come out of the readers always lie in the object table. *)
From Coq Require Import ZArith List Bool Lia.
From Verif Require Import Base IoCtx Text Exp10 MobId Storable Attributes Components TrackGroups
  Misc Essence BinModel RoundTrip LocProofs.
Import ListNotations.
Open Scope Z_scope.

(** None, or an entry of the object table if the table is checked. *)
Definition ref_ok (i : ictx) (x : Z) : Prop :=
  0 <= x /\ match inobj i with Some n => x < n | None => True end.

(** Whatever bytes are offered: what the reader returns satisfies [Q]. *)
Definition res {A} (Q : A -> Prop) (r : reader A) : Prop :=
  forall b v rest, Forall is_byte b -> r b = Ok (v, rest) -> Q v /\ Forall is_byte rest.

Lemma res_any : forall A (r : reader A), loc r -> res (fun _ => True) r.
Proof.
  intros A r H b v rest Hb E. split; [exact I|]. destruct (H _ _ _ E) as [[p ->] _].
  apply Forall_app in Hb. apply Hb.
Qed.

Lemma res_ret : forall A (Q : A -> Prop) v, Q v -> res Q (ret v).
Proof. intros A Q v H b w rest Hb E. injection E as <- <-. now split. Qed.

Lemma res_fail : forall A (Q : A -> Prop) e, res Q (fail e).
Proof. intros A Q e b w rest Hb E. discriminate E. Qed.

Lemma res_bind : forall A B (P : A -> Prop) (Q : B -> Prop) r k,
  res P r -> (forall a, P a -> res Q (k a)) -> res Q (bind r k).
Proof.
  intros A B P Q r k Hr Hk b v rest Hb E. unfold bind in E.
  destruct (r b) as [[a b']|e] eqn:Er; [|discriminate].
  destruct (Hr _ _ _ Hb Er) as [Pa Hb']. exact (Hk a Pa _ _ _ Hb' E).
Qed.

Lemma res_rlist : forall A (Q : A -> Prop) n r, res Q r -> res (Forall Q) (rlist n r).
Proof.
  intros A Q n r H. induction n; cbn [rlist]; [apply res_ret; constructor|].
  eapply res_bind; [exact H|]. intros a Ha. eapply res_bind; [exact IHn|].
  intros l Hl. apply res_ret. now constructor.
Qed.

Lemma res_rmapm : forall A B (P : A -> Prop) (Q : B -> Prop) r l,
  (forall a, P a -> res Q (r a)) -> Forall P l -> res (Forall Q) (rmapm r l).
Proof.
  intros A B P Q r l H Hl. induction Hl; cbn [rmapm]; [apply res_ret; constructor|].
  eapply res_bind; [now apply H|]. intros a Ha. eapply res_bind; [exact IHHl|].
  intros l' Hl'. apply res_ret. now constructor.
Qed.

Lemma res_rflag : forall A (Q : A -> Prop) fl b r, res Q r ->
  res (fun o => match o with Some v => Q v | None => True end) (rflag fl b r).
Proof.
  intros A Q fl b r H. unfold rflag. destruct (Z.testbit fl b); [|now apply res_ret].
  eapply res_bind; [exact H|]. intros a Ha. now apply res_ret.
Qed.

Lemma res_iter_ext : forall S (Q : S -> Prop) h s,
  (forall tag s, Q s -> res Q (h tag s)) -> Q s -> res Q (iter_ext h s).
Proof.
  intros S Q h s Hh Hs b v rest Hb E. unfold iter_ext in E.
  remember (Datatypes.S (length b)) as n eqn:En. clear En. revert s b Hs Hb E.
  induction n; intros s b Hs Hb E; [discriminate|]. cbn [ext_loop] in E.
  destruct b as [|x b1]; [discriminate|]. destruct (x =? 1).
  - destruct b1 as [|tag b2]; [discriminate|].
    destruct (h tag s b2) as [[s' b3]|e] eqn:Eh; [|discriminate].
    inversion Hb; subst. inversion H2; subst.
    destruct (Hh tag s Hs _ _ _ H4 Eh) as [Hs' Hb3]. eapply IHn; eauto.
  - injection E as <- <-. now split.
Qed.

Lemma res_u32 : forall bo, res (fun x => 0 <= x) (ru32 bo).
Proof.
  intros bo. intros b v rest Hb E.
  assert (Forall is_byte rest) as Hr by (now apply (res_any _ _ (loc_u32 bo) b v rest)).
  split; [|exact Hr]. unfold ru32, runsigned, bind, take in E.
  destruct (Nat.ltb_spec (length b) 4); [discriminate|]. injection E as <- _.
  apply dec_range. rewrite <- (firstn_skipn 4 b) in Hb. apply Forall_app in Hb. apply Hb.
Qed.

Lemma res_rref : forall i, res (ref_ok i) (rref i).
Proof.
  intros i. unfold rref. eapply res_bind; [apply res_u32|]. intros x Hx.
  unfold ref_valid, ref_ok. destruct (inobj i) as [n|].
  - destruct (Z.ltb_spec x n); [apply res_ret; auto|apply res_fail].
  - apply res_ret; auto.
Qed.

(** Nothing but references to entries of the table. *)
Definition refs_ok (i : ictx) (l : list Z) : Prop := Forall (ref_ok i) l.

Lemma refs_ok_app : forall i a b, refs_ok i (a ++ b) <-> refs_ok i a /\ refs_ok i b.
Proof. intros. apply Forall_app. Qed.

Lemma refs_ok_flat_map : forall A i (f : A -> list Z) l,
  refs_ok i (flat_map f l) <-> Forall (fun x => refs_ok i (f x)) l.
Proof. intros. apply Forall_flat_map. Qed.

Lemma refs_ok_one : forall i x, refs_ok i [x] <-> ref_ok i x.
Proof. intros. unfold refs_ok. split; [now inversion 1|]. intros H. constructor; [exact H|constructor]. Qed.

Lemma refs_ok_opt : forall i (o : option Z),
  refs_ok i (match o with Some v => [v] | None => [] end) <->
  match o with Some v => ref_ok i v | None => True end.
Proof.
  intros i [v|]; [apply refs_ok_one|]. split; constructor.
Qed.

Lemma refs_ok_nil : forall i, refs_ok i [] <-> True.
Proof. intros. split; constructor. Qed.

Create HintDb res.
#[export] Hint Resolve res_rref : res.

Ltac res_first :=
  lazymatch goal with
  | |- res _ (rlist _ _) => first [solve [eapply res_rlist; eauto 2 with res] | apply res_any; loc]
  | |- res _ (rflag _ _ _) => first [solve [eapply res_rflag; eauto 2 with res] | apply res_any; loc]
  | |- _ => first [solve [eauto 2 with res] | apply res_any; loc]
  end.

Ltac split_refs :=
  repeat first [ rewrite refs_ok_app in * | rewrite refs_ok_flat_map in * | rewrite refs_ok_one in *
        | rewrite refs_ok_opt in * | rewrite refs_ok_nil in * ];
  repeat match goal with H : _ /\ _ |- _ => destruct H end;
  repeat match goal with |- _ /\ _ => split | |- True => exact I end.

Ltac res_step fin :=
  lazymatch goal with
  | |- forall _, _ => intro
  | |- res _ (bind (iter_ext _ _) _) => eapply res_bind; [apply res_iter_ext; [solve [eauto 2 with res]|fin]|]
  | |- res _ (bind _ _) => eapply res_bind; [res_first|]
  | |- res _ (ret _) => apply res_ret; fin
  | |- res _ (fail _) => apply res_fail
  | |- res _ (iter_ext _ _) => apply res_iter_ext; [solve [eauto 2 with res]|fin]
  | |- res _ (match ?x with _ => _ end) => destruct x
  | |- res _ (let _ := _ in _) => cbv zeta
  | |- _ => solve [eauto 2 with res]
  end.

Section Readers.
Variable i : ictx.
Notation "'refsin'" := (refs_ok i).

(** ** Attributes.v *)

Lemma res_rattr : res (fun p => refsin (match snd p with ARef r => [r] | _ => [] end)) (rattr i).
Proof. unfold rattr. repeat res_step ltac:(cbn [snd]; split_refs; auto). Qed.
Hint Resolve res_rattr : res.

Lemma refs_ok_dict_set : forall d k v, refsin (match v with ARef r => [r] | _ => [] end) ->
  refsin (attributes_refs d) -> refsin (attributes_refs (dict_set d k v)).
Proof.
  intros d k v Hv. unfold attributes_refs. rewrite !refs_ok_flat_map.
  induction 1 as [|[k' v'] d Hx Hd IH]; cbn [dict_set]; [repeat constructor; exact Hv|].
  destruct (str_eqb k' k); constructor; auto.
Qed.

Lemma res_rattributes : res (fun o => refsin (attributes_refs o)) (rattributes i).
Proof.
  unfold rattributes. repeat res_step idtac.
  assert (forall l d, Forall (fun p => refsin (match snd p with ARef r => [r] | _ => [] end)) l ->
    refsin (attributes_refs d) ->
    refsin (attributes_refs (fold_left (fun d p => dict_set d (fst p) (snd p)) l d))) as Hall.
  { intros l. induction l as [|p l IH]; intros d Hl Hd; cbn [fold_left]; [exact Hd|].
    inversion Hl; subst. apply IH; [assumption|]. now apply refs_ok_dict_set. }
  apply Hall; [assumption|constructor].
Qed.
Hint Resolve res_rattributes : res.

Lemma res_rparameter_list : res (fun o => refsin (parameter_list_refs o)) (rparameter_list i ).
Proof. unfold rparameter_list. repeat res_step ltac:(unfold parameter_list_refs in *; split_refs; auto). Qed.
Hint Resolve res_rparameter_list : res.

Lemma res_rtime_crumb_list : res (fun o => refsin (time_crumb_list_refs o)) (rtime_crumb_list i ).
Proof. unfold rtime_crumb_list. repeat res_step ltac:(unfold time_crumb_list_refs in *; split_refs; auto). Qed.
Hint Resolve res_rtime_crumb_list : res.

(** ** Components.v *)

Lemma res_component_ext : forall tag o, refsin (component_refs o) -> res (fun o => refsin (component_refs o)) (component_ext i tag o).
Proof. unfold component_ext. repeat res_step ltac:(unfold component_refs in *; cbn [set_cpnt_param_list cpnt_left_bob cpnt_right_bob cpnt_media_kind_id cpnt_edit_rate cpnt_name cpnt_effect_id cpnt_attributes cpnt_session_attrs cpnt_precomputed cpnt_param_list] in *; split_refs; auto). Qed.
Hint Resolve res_component_ext : res.

Lemma res_rcomponent : res (fun o => refsin (component_refs o)) (rcomponent i ).
Proof. unfold rcomponent. repeat res_step ltac:(unfold component_refs in *; cbn [set_cpnt_param_list cpnt_left_bob cpnt_right_bob cpnt_media_kind_id cpnt_edit_rate cpnt_name cpnt_effect_id cpnt_attributes cpnt_session_attrs cpnt_precomputed cpnt_param_list] in *; split_refs; auto). Qed.
Hint Resolve res_rcomponent : res.

Lemma res_rsequence : res (fun o => refsin (sequence_refs o)) (rsequence i ).
Proof. unfold rsequence. repeat res_step ltac:(unfold sequence_refs in *; cbn [sequ_component sequ_components] in *; split_refs; auto). Qed.
Hint Resolve res_rsequence : res.

Lemma res_rclip : res (fun o => refsin (clip_refs o)) (rclip i ).
Proof. unfold rclip. repeat res_step ltac:(unfold clip_refs in *; cbn [clip_component clip_length] in *; split_refs; auto). Qed.
Hint Resolve res_rclip : res.

Lemma res_source_clip_ext : forall tag o, refsin (source_clip_refs o) -> res (fun o => refsin (source_clip_refs o)) (source_clip_ext i tag o).
Proof. unfold source_clip_ext. repeat res_step ltac:(unfold source_clip_refs in *; cbn [set_sclp_mob_id sclp_clip sclp_track_id sclp_start_time sclp_mob_id] in *; split_refs; auto). Qed.
Hint Resolve res_source_clip_ext : res.

Lemma res_rsource_clip : res (fun o => refsin (source_clip_refs o)) (rsource_clip i ).
Proof. unfold rsource_clip. repeat res_step ltac:(unfold source_clip_refs in *; cbn [set_sclp_mob_id sclp_clip sclp_track_id sclp_start_time sclp_mob_id] in *; split_refs; auto). Qed.
Hint Resolve res_rsource_clip : res.

Lemma res_rtimecode : res (fun o => refsin (timecode_refs o)) (rtimecode i ).
Proof. unfold rtimecode. repeat res_step ltac:(unfold timecode_refs in *; cbn [tccp_clip tccp_flags tccp_fps tccp_start] in *; split_refs; auto). Qed.
Hint Resolve res_rtimecode : res.

Lemma res_redgecode : res (fun o => refsin (edgecode_refs o)) (redgecode i ).
Proof. unfold redgecode. repeat res_step ltac:(unfold edgecode_refs in *; cbn [eccp_clip eccp_header eccp_film_kind eccp_code_format eccp_base_perf eccp_start_ec] in *; split_refs; auto). Qed.
Hint Resolve res_redgecode : res.

Lemma res_rtrack_ref : res (fun o => refsin (track_ref_refs o)) (rtrack_ref i ).
Proof. unfold rtrack_ref. repeat res_step ltac:(unfold track_ref_refs in *; cbn [trkr_clip trkr_relative_scope trkr_relative_track] in *; split_refs; auto). Qed.
Hint Resolve res_rtrack_ref : res.

Lemma res_rparam_point_property :
  res (fun o => refsin (param_point_property_refs o)) (rparam_point_property i).
Proof.
  unfold rparam_point_property. do 2 (eapply res_bind; [res_first|]; intros).
  eapply (res_bind _ _ (fun v => refsin (cp_value_refs v))).
  - repeat res_step ltac:(constructor).
  - intros v Hv. apply res_ret. exact Hv.
Qed.
Hint Resolve res_rparam_point_property : res.

Lemma res_rcp_value : forall value_type, res (fun o => refsin (cp_value_refs o)) (rcp_value i value_type).
Proof. unfold rcp_value. repeat res_step ltac:(unfold cp_value_refs in *; split_refs; auto). Qed.
Hint Resolve res_rcp_value : res.

Lemma res_rparam_control_point : forall value_type, res (fun o => refsin (param_control_point_refs o)) (rparam_control_point i value_type).
Proof. unfold rparam_control_point. repeat res_step ltac:(unfold param_control_point_refs in *; cbn [pcp_offset_num pcp_offset_den pcp_timescale pcp_value pcp_pp] in *; split_refs; auto). Qed.
Hint Resolve res_rparam_control_point : res.

Lemma res_param_clip_ext : forall tag o, refsin (param_clip_refs o) -> res (fun o => refsin (param_clip_refs o)) (param_clip_ext i tag o).
Proof. unfold param_clip_ext. repeat res_step ltac:(unfold param_clip_refs in *; cbn [set_prcl_extrap_kind set_prcl_fields prcl_clip prcl_interp_kind prcl_value_type prcl_control_points prcl_extrap_kind prcl_fields] in *; split_refs; auto). Qed.
Hint Resolve res_param_clip_ext : res.

Lemma res_rparam_clip : res (fun o => refsin (param_clip_refs o)) (rparam_clip i ).
Proof. unfold rparam_clip. repeat res_step ltac:(unfold param_clip_refs in *; cbn [set_prcl_extrap_kind set_prcl_fields prcl_clip prcl_interp_kind prcl_value_type prcl_control_points prcl_extrap_kind prcl_fields] in *; split_refs; auto). Qed.
Hint Resolve res_rparam_clip : res.

Lemma res_rcontrol_point_property : res (fun o => refsin (control_point_property_refs o)) (rcontrol_point_property i ).
Proof. unfold rcontrol_point_property. repeat res_step ltac:(unfold control_point_property_refs in *; cbn [cpp_code cpp_value_num cpp_value_den] in *; split_refs; auto). Qed.
Hint Resolve res_rcontrol_point_property : res.

Lemma res_rcontrol_point : res (fun o => refsin (control_point_refs o)) (rcontrol_point i ).
Proof. unfold rcontrol_point. repeat res_step ltac:(unfold control_point_refs in *; cbn [cp_offset_num cp_offset_den cp_time_scale cp_value_num cp_value_den cp_pp] in *; split_refs; auto). Qed.
Hint Resolve res_rcontrol_point : res.

Lemma res_rcontrol_clip : res (fun o => refsin (control_clip_refs o)) (rcontrol_clip i ).
Proof. unfold rcontrol_clip. repeat res_step ltac:(unfold control_clip_refs in *; cbn [ctrl_clip ctrl_interp_kind ctrl_control_points] in *; split_refs; auto). Qed.
Hint Resolve res_rcontrol_clip : res.

Lemma res_rfiller : res (fun o => refsin (filler_refs o)) (rfiller i ).
Proof. unfold rfiller. repeat res_step ltac:(unfold filler_refs in *; cbn [fill_clip] in *; split_refs; auto). Qed.
Hint Resolve res_rfiller : res.

(** ** TrackGroups.v *)

Lemma res_rtrack : res (fun o => refsin (track_refs o)) (rtrack i ).
Proof. unfold rtrack. repeat res_step ltac:(unfold track_refs in *; cbn [set_trak_index set_trak_attributes set_trak_session_attr set_trak_component set_trak_filler_proxy set_trak_bob_data set_trak_control_code set_trak_control_sub_code set_trak_start_pos set_trak_read_only set_trak_lock_number trak_index trak_attributes trak_session_attr trak_component trak_filler_proxy trak_bob_data trak_control_code trak_control_sub_code trak_start_pos trak_read_only trak_lock_number] in *; split_refs; auto). Qed.
Hint Resolve res_rtrack : res.

Lemma res_rlock : forall t, refsin (track_refs t) -> res (fun o => refsin (track_refs o)) (rlock i t).
Proof. unfold rlock. repeat res_step ltac:(assumption). Qed.
Hint Resolve res_rlock : res.

Lemma res_track_group_ext : forall tag o, refsin (track_group_refs o) ->
  res (fun o => refsin (track_group_refs o)) (track_group_ext i tag o).
Proof.
  intros tag o H. unfold track_group_ext. destruct (tag =? 1); [|apply res_fail].
  unfold track_group_refs in *. rewrite refs_ok_app, refs_ok_flat_map in H. destruct H as [H1 H2].
  eapply res_bind; [eapply res_rmapm; [|exact H2]; exact res_rlock|].
  intros l Hl. apply res_ret. cbn [set_trkg_tracks trkg_component trkg_tracks].
  split_refs; assumption.
Qed.
Hint Resolve res_track_group_ext : res.

Lemma res_rtrack_group : res (fun o => refsin (track_group_refs o)) (rtrack_group i ).
Proof. unfold rtrack_group. repeat res_step ltac:(unfold track_group_refs in *; cbn [set_trkg_tracks trkg_component trkg_mc_mode trkg_length trkg_num_scalars trkg_tracks] in *; split_refs; auto). Qed.
Hint Resolve res_rtrack_group : res.

Lemma res_track_effect_ext : forall tag o, refsin (track_effect_refs o) -> res (fun o => refsin (track_effect_refs o)) (track_effect_ext i tag o).
Proof. unfold track_effect_ext. repeat res_step ltac:(unfold track_effect_refs in *; cbn [set_tkfx_trackman tkfx_group tkfx_left_length tkfx_right_length tkfx_info_version tkfx_info_current tkfx_info_smooth tkfx_info_color_item tkfx_info_quality tkfx_info_is_reversed tkfx_info_aspect_on tkfx_keyframes tkfx_info_force_software tkfx_info_never_hardware tkfx_trackman] in *; split_refs; auto). Qed.
Hint Resolve res_track_effect_ext : res.

Lemma res_rtrack_effect_base : res (fun o => refsin (track_effect_refs o)) (rtrack_effect_base i ).
Proof. unfold rtrack_effect_base. repeat res_step ltac:(unfold track_effect_refs in *; cbn [set_tkfx_trackman tkfx_group tkfx_left_length tkfx_right_length tkfx_info_version tkfx_info_current tkfx_info_smooth tkfx_info_color_item tkfx_info_quality tkfx_info_is_reversed tkfx_info_aspect_on tkfx_keyframes tkfx_info_force_software tkfx_info_never_hardware tkfx_trackman] in *; split_refs; auto). Qed.
Hint Resolve res_rtrack_effect_base : res.

Lemma res_rtrack_effect : res (fun o => refsin (track_effect_refs o)) (rtrack_effect i ).
Proof. unfold rtrack_effect. repeat res_step ltac:(unfold track_effect_refs in *; cbn [set_tkfx_trackman tkfx_group tkfx_left_length tkfx_right_length tkfx_info_version tkfx_info_current tkfx_info_smooth tkfx_info_color_item tkfx_info_quality tkfx_info_is_reversed tkfx_info_aspect_on tkfx_keyframes tkfx_info_force_software tkfx_info_never_hardware tkfx_trackman] in *; split_refs; auto). Qed.
Hint Resolve res_rtrack_effect : res.

Lemma res_pan_volume_effect_ext : forall tag o, refsin (pan_volume_effect_refs o) -> res (fun o => refsin (pan_volume_effect_refs o)) (pan_volume_effect_ext i tag o).
Proof. unfold pan_volume_effect_ext. repeat res_step ltac:(unfold pan_volume_effect_refs in *; cbn [set_pvol_supports_seperate_gain set_pvol_is_trim_gain_effect pvol_effect pvol_level pvol_pan pvol_suppress_validation pvol_level_set pvol_pan_set pvol_supports_seperate_gain pvol_is_trim_gain_effect] in *; split_refs; auto). Qed.
Hint Resolve res_pan_volume_effect_ext : res.

Lemma res_rpan_volume_effect : res (fun o => refsin (pan_volume_effect_refs o)) (rpan_volume_effect i ).
Proof. unfold rpan_volume_effect. repeat res_step ltac:(unfold pan_volume_effect_refs in *; cbn [set_pvol_supports_seperate_gain set_pvol_is_trim_gain_effect pvol_effect pvol_level pvol_pan pvol_suppress_validation pvol_level_set pvol_pan_set pvol_supports_seperate_gain pvol_is_trim_gain_effect] in *; split_refs; auto). Qed.
Hint Resolve res_rpan_volume_effect : res.

Lemma res_raspi_chunk : res (fun o => refsin (aspi_chunk_refs o)) (raspi_chunk i ).
Proof. unfold raspi_chunk. repeat res_step ltac:(unfold aspi_chunk_refs in *; cbn [aspc_version aspc_manufacturer_id aspc_product_id aspc_plugin_id aspc_chunk_id aspc_name aspc_data] in *; split_refs; auto). Qed.
Hint Resolve res_raspi_chunk : res.

Lemma res_raspi_plugin : res (fun o => refsin (aspi_plugin_refs o)) (raspi_plugin i ).
Proof. unfold raspi_plugin. repeat res_step ltac:(unfold aspi_plugin_refs in *; cbn [aspp_name aspp_manufacturer_id aspp_product_id aspp_plugin_id aspp_chunks] in *; split_refs; auto). Qed.
Hint Resolve res_raspi_plugin : res.

Lemma res_audio_suite_effect_ext : forall tag o, refsin (audio_suite_effect_refs o) -> res (fun o => refsin (audio_suite_effect_refs o)) (audio_suite_effect_ext i tag o).
Proof. unfold audio_suite_effect_ext. repeat res_step ltac:(unfold audio_suite_effect_refs in *; cbn [set_aspi_mob_id set_aspi_mark_in set_aspi_mark_out set_aspi_tracks_to_affect set_aspi_rendering_mode set_aspi_padding_secs set_aspi_preset_path aspi_effect aspi_plugins aspi_mob_id aspi_mark_in aspi_mark_out aspi_tracks_to_affect aspi_rendering_mode aspi_padding_secs aspi_preset_path] in *; split_refs; auto). Qed.
Hint Resolve res_audio_suite_effect_ext : res.

Lemma res_raudio_suite_effect : res (fun o => refsin (audio_suite_effect_refs o)) (raudio_suite_effect i ).
Proof. unfold raudio_suite_effect. repeat res_step ltac:(unfold audio_suite_effect_refs in *; cbn [set_aspi_mob_id set_aspi_mark_in set_aspi_mark_out set_aspi_tracks_to_affect set_aspi_rendering_mode set_aspi_padding_secs set_aspi_preset_path aspi_effect aspi_plugins aspi_mob_id aspi_mark_in aspi_mark_out aspi_tracks_to_affect aspi_rendering_mode aspi_padding_secs aspi_preset_path] in *; split_refs; auto). Qed.
Hint Resolve res_raudio_suite_effect : res.

Lemma res_requalizer_band : res (fun o => refsin (equalizer_band_refs o)) (requalizer_band i ).
Proof. unfold requalizer_band. repeat res_step ltac:(unfold equalizer_band_refs in *; cbn [eqbd_type eqbd_freq eqbd_gain eqbd_q eqbd_enable] in *; split_refs; auto). Qed.
Hint Resolve res_requalizer_band : res.

Lemma res_requalizer_multi_band : res (fun o => refsin (equalizer_multi_band_refs o)) (requalizer_multi_band i ).
Proof. unfold requalizer_multi_band. repeat res_step ltac:(unfold equalizer_multi_band_refs in *; cbn [eqmb_effect eqmb_bands eqmb_effect_enable eqmb_filter_name] in *; split_refs; auto). Qed.
Hint Resolve res_requalizer_multi_band : res.

Lemma res_rtime_warp : res (fun o => refsin (time_warp_refs o)) (rtime_warp i ).
Proof. unfold rtime_warp. repeat res_step ltac:(unfold time_warp_refs in *; cbn [warp_group warp_phase_offset] in *; split_refs; auto). Qed.
Hint Resolve res_rtime_warp : res.

Lemma res_rcapture_mask : res (fun o => refsin (capture_mask_refs o)) (rcapture_mask i ).
Proof. unfold rcapture_mask. repeat res_step ltac:(unfold capture_mask_refs in *; cbn [mask_warp mask_is_double mask_mask_bits] in *; split_refs; auto). Qed.
Hint Resolve res_rcapture_mask : res.

Lemma res_rstrobe_effect : res (fun o => refsin (strobe_effect_refs o)) (rstrobe_effect i ).
Proof. unfold rstrobe_effect. repeat res_step ltac:(unfold strobe_effect_refs in *; cbn [strb_warp strb_strobe_value] in *; split_refs; auto). Qed.
Hint Resolve res_rstrobe_effect : res.

Lemma res_motion_effect_ext : forall tag o, refsin (motion_effect_refs o) -> res (fun o => refsin (motion_effect_refs o)) (motion_effect_ext i tag o).
Proof. unfold motion_effect_ext. repeat res_step ltac:(unfold motion_effect_refs in *; cbn [set_sped_offset_adjust set_sped_source_param_list set_sped_new_source_calculation sped_warp sped_speed_num sped_speed_den sped_offset_adjust sped_source_param_list sped_new_source_calculation] in *; split_refs; auto). Qed.
Hint Resolve res_motion_effect_ext : res.

Lemma res_rmotion_effect : res (fun o => refsin (motion_effect_refs o)) (rmotion_effect i ).
Proof. unfold rmotion_effect. repeat res_step ltac:(unfold motion_effect_refs in *; cbn [set_sped_offset_adjust set_sped_source_param_list set_sped_new_source_calculation sped_warp sped_speed_num sped_speed_den sped_offset_adjust sped_source_param_list sped_new_source_calculation] in *; split_refs; auto). Qed.
Hint Resolve res_rmotion_effect : res.

Lemma res_rrepeat_effect : res (fun o => refsin (repeat_effect_refs o)) (rrepeat_effect i ).
Proof. unfold rrepeat_effect. repeat res_step ltac:(unfold repeat_effect_refs in *; cbn [rept_warp] in *; split_refs; auto). Qed.
Hint Resolve res_rrepeat_effect : res.

Lemma res_essence_group_ext : forall tag o, refsin (essence_group_refs o) -> res (fun o => refsin (essence_group_refs o)) (essence_group_ext i tag o).
Proof. unfold essence_group_ext. repeat res_step ltac:(unfold essence_group_refs in *; cbn [set_rset_rep_set_type rset_group rset_rep_set_type] in *; split_refs; auto). Qed.
Hint Resolve res_essence_group_ext : res.

Lemma res_ressence_group : res (fun o => refsin (essence_group_refs o)) (ressence_group i ).
Proof. unfold ressence_group. repeat res_step ltac:(unfold essence_group_refs in *; cbn [set_rset_rep_set_type rset_group rset_rep_set_type] in *; split_refs; auto). Qed.
Hint Resolve res_ressence_group : res.

Lemma res_transition_effect_ext : forall tag o, refsin (transition_effect_refs o) -> res (fun o => refsin (transition_effect_refs o)) (transition_effect_ext i tag o).
Proof. unfold transition_effect_ext. repeat res_step ltac:(unfold transition_effect_refs in *; cbn [set_tnfx_trackman tnfx_group tnfx_cutpoint tnfx_left_length tnfx_right_length tnfx_info_version tnfx_info_current tnfx_info_smooth tnfx_info_color_item tnfx_info_quality tnfx_info_is_reversed tnfx_info_aspect_on tnfx_keyframes tnfx_info_force_software tnfx_info_never_hardware tnfx_trackman] in *; split_refs; auto). Qed.
Hint Resolve res_transition_effect_ext : res.

Lemma res_rtransition_effect : res (fun o => refsin (transition_effect_refs o)) (rtransition_effect i ).
Proof. unfold rtransition_effect. repeat res_step ltac:(unfold transition_effect_refs in *; cbn [set_tnfx_trackman tnfx_group tnfx_cutpoint tnfx_left_length tnfx_right_length tnfx_info_version tnfx_info_current tnfx_info_smooth tnfx_info_color_item tnfx_info_quality tnfx_info_is_reversed tnfx_info_aspect_on tnfx_keyframes tnfx_info_force_software tnfx_info_never_hardware tnfx_trackman] in *; split_refs; auto). Qed.
Hint Resolve res_rtransition_effect : res.

Lemma res_rselector : res (fun o => refsin (selector_refs o)) (rselector i ).
Proof. unfold rselector. repeat res_step ltac:(unfold selector_refs in *; cbn [slct_group slct_is_ganged slct_selected] in *; split_refs; auto). Qed.
Hint Resolve res_rselector : res.

Lemma res_composition_ext : forall tag o, refsin (composition_refs o) -> res (fun o => refsin (composition_refs o)) (composition_ext i tag o).
Proof. unfold composition_ext. repeat res_step ltac:(unfold composition_refs in *; cbn [set_cmpo_creation_time set_cmpo_mob_id cmpo_group cmpo_last_modified cmpo_mob_type_id cmpo_usage_code cmpo_descriptor cmpo_creation_time cmpo_mob_id] in *; split_refs; auto). Qed.
Hint Resolve res_composition_ext : res.

Lemma res_rcomposition : res (fun o => refsin (composition_refs o)) (rcomposition i ).
Proof. unfold rcomposition. repeat res_step ltac:(unfold composition_refs in *; cbn [set_cmpo_creation_time set_cmpo_mob_id cmpo_group cmpo_last_modified cmpo_mob_type_id cmpo_usage_code cmpo_descriptor cmpo_creation_time cmpo_mob_id] in *; split_refs; auto). Qed.
Hint Resolve res_rcomposition : res.

(** ** Misc.v *)

Lemma res_file_locator_ext : forall tag o, refsin (file_locator_refs o) -> res (fun o => refsin (file_locator_refs o)) (file_locator_ext i tag o).
Proof. unfold file_locator_ext. repeat res_step ltac:(unfold file_locator_refs in *; cbn [set_file_path_posix set_file_path_utf8 set_file_path2_utf8 file_path file_path_posix file_path_utf8 file_path2_utf8] in *; split_refs; auto). Qed.
Hint Resolve res_file_locator_ext : res.

Lemma res_rfile_locator : res (fun o => refsin (file_locator_refs o)) (rfile_locator i ).
Proof. unfold rfile_locator. repeat res_step ltac:(unfold file_locator_refs in *; cbn [set_file_path_posix set_file_path_utf8 set_file_path2_utf8 file_path file_path_posix file_path_utf8 file_path2_utf8] in *; split_refs; auto). Qed.
Hint Resolve res_rfile_locator : res.

Lemma res_rurl_locator : res (fun o => refsin (url_locator_refs o)) (rurl_locator i ).
Proof. unfold rurl_locator. repeat res_step ltac:(unfold url_locator_refs in *; split_refs; auto). Qed.
Hint Resolve res_rurl_locator : res.

Lemma res_rgraphic_effect : res (fun o => refsin (graphic_effect_refs o)) (rgraphic_effect i ).
Proof. unfold rgraphic_effect. repeat res_step ltac:(unfold graphic_effect_refs in *; cbn [grfx_pict_data] in *; split_refs; auto). Qed.
Hint Resolve res_rgraphic_effect : res.

Lemma res_rshape_list : res (fun o => refsin (shape_list_refs o)) (rshape_list i ).
Proof. unfold rshape_list. repeat res_step ltac:(unfold shape_list_refs in *; cbn [shlp_shape_data] in *; split_refs; auto). Qed.
Hint Resolve res_rshape_list : res.

Lemma res_rcolor_correction_effect : res (fun o => refsin (color_correction_effect_refs o)) (rcolor_correction_effect i ).
Proof. unfold rcolor_correction_effect. repeat res_step ltac:(unfold color_correction_effect_refs in *; cbn [ccfx_color_correction] in *; split_refs; auto). Qed.
Hint Resolve res_rcolor_correction_effect : res.

Lemma res_reffect_param : res (fun o => refsin (effect_param_refs o)) (reffect_param i ).
Proof. unfold reffect_param. repeat res_step ltac:(unfold effect_param_refs in *; cbn [fxp_percent_time fxp_level fxp_pos_x fxp_floor_x fxp_ceil_x fxp_pos_y fxp_floor_y fxp_ceil_y fxp_scale_x fxp_scale_y fxp_crop_left fxp_crop_right fxp_crop_top fxp_crop_bottom fxp_box fxp_box_xscale fxp_box_yscale fxp_box_xpos fxp_box_ypos fxp_border_width fxp_border_soft fxp_splill_gain2 fxp_splill_gain fxp_splill_soft2 fxp_splill_soft fxp_enable_key_flags fxp_colors fxp_user_param fxp_selected] in *; split_refs; auto). Qed.
Hint Resolve res_reffect_param : res.

Lemma res_reffect_param_list : res (fun o => refsin (effect_param_list_refs o)) (reffect_param_list i ).
Proof. unfold reffect_param_list. repeat res_step ltac:(unfold effect_param_list_refs in *; cbn [fxps_orig_length fxps_window_offset fxps_keyframe_size fxps_parameters] in *; split_refs; auto). Qed.
Hint Resolve res_reffect_param_list : res.

Lemma res_rcf_user_param : res (fun o => refsin (cf_user_param_refs o)) (rcf_user_param i ).
Proof. unfold rcf_user_param. repeat res_step ltac:(unfold cf_user_param_refs in *; cbn [avup_byte_order avup_uuid avup_data] in *; split_refs; auto). Qed.
Hint Resolve res_rcf_user_param : res.

Lemma res_rprit_value : forall value_type, res (fun o => refsin (cp_value_refs o)) (rprit_value i value_type).
Proof. unfold rprit_value. repeat res_step ltac:(unfold cp_value_refs in *; split_refs; auto). Qed.
Hint Resolve res_rprit_value : res.

Lemma res_parameter_item_ext : forall tag o, refsin (parameter_item_refs o) -> res (fun o => refsin (parameter_item_refs o)) (parameter_item_ext i tag o).
Proof. unfold parameter_item_ext. repeat res_step ltac:(unfold parameter_item_refs in *; cbn [set_prit_contribs_to_sig prit_uuid prit_value_type prit_value prit_name prit_enable prit_control_track prit_contribs_to_sig] in *; split_refs; auto). Qed.
Hint Resolve res_parameter_item_ext : res.

Lemma res_rparameter_item : res (fun o => refsin (parameter_item_refs o)) (rparameter_item i ).
Proof. unfold rparameter_item. repeat res_step ltac:(unfold parameter_item_refs in *; cbn [set_prit_contribs_to_sig prit_uuid prit_value_type prit_value prit_name prit_enable prit_control_track prit_contribs_to_sig] in *; split_refs; auto). Qed.
Hint Resolve res_rparameter_item : res.

Lemma res_msm_locator_ext : forall tag o, refsin (msm_locator_refs o) -> res (fun o => refsin (msm_locator_refs o)) (msm_locator_ext i tag o).
Proof. unfold msm_locator_ext. repeat res_step ltac:(unfold msm_locator_refs in *; cbn [set_msml_domain_type set_msml_mob_id set_msml_last_known_volume_utf8 msml_last_known_volume msml_domain_type msml_mob_id msml_last_known_volume_utf8] in *; split_refs; auto). Qed.
Hint Resolve res_msm_locator_ext : res.

Lemma res_rmsm_locator : res (fun o => refsin (msm_locator_refs o)) (rmsm_locator i ).
Proof. unfold rmsm_locator. repeat res_step ltac:(unfold msm_locator_refs in *; cbn [set_msml_domain_type set_msml_mob_id set_msml_last_known_volume_utf8 msml_last_known_volume msml_domain_type msml_mob_id msml_last_known_volume_utf8] in *; split_refs; auto). Qed.
Hint Resolve res_rmsm_locator : res.

Lemma res_position_ext : forall tag o, refsin (position_refs o) -> res (fun o => refsin (position_refs o)) (position_ext i tag o).
Proof. unfold position_ext. repeat res_step ltac:(unfold position_refs in *; cbn [set_apos_mob_id apos_mob_id] in *; split_refs; auto). Qed.
Hint Resolve res_position_ext : res.

Lemma res_rposition_base : res (fun o => refsin (position_refs o)) (rposition_base i ).
Proof. unfold rposition_base. repeat res_step ltac:(unfold position_refs in *; cbn [set_apos_mob_id apos_mob_id] in *; split_refs; auto). Qed.
Hint Resolve res_rposition_base : res.

Lemma res_rposition : res (fun o => refsin (position_refs o)) (rposition i ).
Proof. unfold rposition. repeat res_step ltac:(unfold position_refs in *; cbn [set_apos_mob_id apos_mob_id] in *; split_refs; auto). Qed.
Hint Resolve res_rposition : res.

Lemma res_rbob_position_base : res (fun o => refsin (bob_position_refs o)) (rbob_position_base i ).
Proof. unfold rbob_position_base. repeat res_step ltac:(unfold bob_position_refs in *; cbn [abob_position abob_sample_num abob_length abob_track_type abob_track_index] in *; split_refs; auto). Qed.
Hint Resolve res_rbob_position_base : res.

Lemma res_rbob_position : res (fun o => refsin (bob_position_refs o)) (rbob_position i ).
Proof. unfold rbob_position. repeat res_step ltac:(unfold bob_position_refs in *; cbn [abob_position abob_sample_num abob_length abob_track_type abob_track_index] in *; split_refs; auto). Qed.
Hint Resolve res_rbob_position : res.

Lemma res_rdid_position_base : res (fun o => refsin (did_position_refs o)) (rdid_position_base i ).
Proof. unfold rdid_position_base. repeat res_step ltac:(unfold did_position_refs in *; cbn [didp_bob didp_strip didp_offset didp_byte_length didp_spos_invalid] in *; split_refs; auto). Qed.
Hint Resolve res_rdid_position_base : res.

Lemma res_rdid_position : res (fun o => refsin (did_position_refs o)) (rdid_position i ).
Proof. unfold rdid_position. repeat res_step ltac:(unfold did_position_refs in *; cbn [didp_bob didp_strip didp_offset didp_byte_length didp_spos_invalid] in *; split_refs; auto). Qed.
Hint Resolve res_rdid_position : res.

Lemma res_rmpg_position : res (fun o => refsin (mpg_position_refs o)) (rmpg_position i ).
Proof. unfold rmpg_position. repeat res_step ltac:(unfold mpg_position_refs in *; cbn [mpgp_did mpgp_trailing_discards mpgp_need_seq_hdr mpgp_fields] in *; split_refs; auto). Qed.
Hint Resolve res_rmpg_position : res.

Lemma res_bin_ref_ext : forall tag o, refsin (bin_ref_refs o) -> res (fun o => refsin (bin_ref_refs o)) (bin_ref_ext i tag o).
Proof. unfold bin_ref_ext. repeat res_step ltac:(unfold bin_ref_refs in *; cbn [set_mcbr_name_utf8 mcbr_uid_high mcbr_uid_low mcbr_name mcbr_name_utf8] in *; split_refs; auto). Qed.
Hint Resolve res_bin_ref_ext : res.

Lemma res_rbin_ref : res (fun o => refsin (bin_ref_refs o)) (rbin_ref i ).
Proof. unfold rbin_ref. repeat res_step ltac:(unfold bin_ref_refs in *; cbn [set_mcbr_name_utf8 mcbr_uid_high mcbr_uid_low mcbr_name mcbr_name_utf8] in *; split_refs; auto). Qed.
Hint Resolve res_rbin_ref : res.

Lemma res_mob_ref_ext : forall tag o, refsin (mob_ref_refs o) -> res (fun o => refsin (mob_ref_refs o)) (mob_ref_ext i tag o).
Proof. unfold mob_ref_ext. repeat res_step ltac:(unfold mob_ref_refs in *; cbn [set_mcmr_mob_id mcmr_position mcmr_mob_id] in *; split_refs; auto). Qed.
Hint Resolve res_mob_ref_ext : res.

Lemma res_rmob_ref_base : res (fun o => refsin (mob_ref_refs o)) (rmob_ref_base i ).
Proof. unfold rmob_ref_base. repeat res_step ltac:(unfold mob_ref_refs in *; cbn [set_mcmr_mob_id mcmr_position mcmr_mob_id] in *; split_refs; auto). Qed.
Hint Resolve res_rmob_ref_base : res.

Lemma res_rmob_ref : res (fun o => refsin (mob_ref_refs o)) (rmob_ref i ).
Proof. unfold rmob_ref. repeat res_step ltac:(unfold mob_ref_refs in *; cbn [set_mcmr_mob_id mcmr_position mcmr_mob_id] in *; split_refs; auto). Qed.
Hint Resolve res_rmob_ref : res.

Lemma res_marker_ext : forall tag o, refsin (marker_refs o) -> res (fun o => refsin (marker_refs o)) (marker_ext i tag o).
Proof. unfold marker_ext. repeat res_step ltac:(unfold marker_refs in *; cbn [set_tmbc_handled_codes tmbc_mob_ref tmbc_comp_offset tmbc_attributes tmbc_color tmbc_handled_codes] in *; split_refs; auto). Qed.
Hint Resolve res_marker_ext : res.

Lemma res_rmarker : res (fun o => refsin (marker_refs o)) (rmarker i ).
Proof. unfold rmarker. repeat res_step ltac:(unfold marker_refs in *; cbn [set_tmbc_handled_codes tmbc_mob_ref tmbc_comp_offset tmbc_attributes tmbc_color tmbc_handled_codes] in *; split_refs; auto). Qed.
Hint Resolve res_rmarker : res.

Lemma res_rtracker_manager : res (fun o => refsin (tracker_manager_refs o)) (rtracker_manager i ).
Proof. unfold rtracker_manager. repeat res_step ltac:(unfold tracker_manager_refs in *; cbn [tkmn_data_slots tkmn_param_slots] in *; split_refs; auto). Qed.
Hint Resolve res_rtracker_manager : res.

Lemma res_tracker_data_slot_ext : forall tag o, refsin (tracker_data_slot_refs o) -> res (fun o => refsin (tracker_data_slot_refs o)) (tracker_data_slot_ext i tag o).
Proof. unfold tracker_data_slot_ext. repeat res_step ltac:(unfold tracker_data_slot_refs in *; cbn [set_tkds_track_fg tkds_tracker_data tkds_track_fg] in *; split_refs; auto). Qed.
Hint Resolve res_tracker_data_slot_ext : res.

Lemma res_rtracker_data_slot : res (fun o => refsin (tracker_data_slot_refs o)) (rtracker_data_slot i ).
Proof. unfold rtracker_data_slot. repeat res_step ltac:(unfold tracker_data_slot_refs in *; cbn [set_tkds_track_fg tkds_tracker_data tkds_track_fg] in *; split_refs; auto). Qed.
Hint Resolve res_rtracker_data_slot : res.

Lemma res_rtracker_parameter_slot : res (fun o => refsin (tracker_parameter_slot_refs o)) (rtracker_parameter_slot i ).
Proof. unfold rtracker_parameter_slot. repeat res_step ltac:(unfold tracker_parameter_slot_refs in *; cbn [tkps_settings tkps_params] in *; split_refs; auto). Qed.
Hint Resolve res_rtracker_parameter_slot : res.

Lemma res_tracker_data_ext : forall tag o, refsin (tracker_data_refs o) -> res (fun o => refsin (tracker_data_refs o)) (tracker_data_ext i tag o).
Proof. unfold tracker_data_ext. repeat res_step ltac:(unfold tracker_data_refs in *; cbn [set_tkda_offset_tracking set_tkda_smoothing set_tkda_jitter_removal set_tkda_filter_amount set_tkda_clip5 set_tkda_clip6 tkda_settings tkda_clip_version tkda_clips tkda_offset_tracking tkda_smoothing tkda_jitter_removal tkda_filter_amount tkda_clip5 tkda_clip6] in *; split_refs; auto). Qed.
Hint Resolve res_tracker_data_ext : res.

Lemma res_rtracker_data : res (fun o => refsin (tracker_data_refs o)) (rtracker_data i ).
Proof. unfold rtracker_data. repeat res_step ltac:(unfold tracker_data_refs in *; cbn [set_tkda_offset_tracking set_tkda_smoothing set_tkda_jitter_removal set_tkda_filter_amount set_tkda_clip5 set_tkda_clip6 tkda_settings tkda_clip_version tkda_clips tkda_offset_tracking tkda_smoothing tkda_jitter_removal tkda_filter_amount tkda_clip5 tkda_clip6] in *; split_refs; auto). Qed.
Hint Resolve res_rtracker_data : res.

Lemma res_rtracker_parameter : res (fun o => refsin (tracker_parameter_refs o)) (rtracker_parameter i ).
Proof. unfold rtracker_parameter. repeat res_step ltac:(unfold tracker_parameter_refs in *; cbn [tkpa_settings] in *; split_refs; auto). Qed.
Hint Resolve res_rtracker_parameter : res.

(** ** Essence.v *)

Lemma res_media_descriptor_ext : forall tag o, refsin (media_descriptor_refs o) -> res (fun o => refsin (media_descriptor_refs o)) (media_descriptor_ext i tag o).
Proof. unfold media_descriptor_ext. repeat res_step ltac:(unfold media_descriptor_refs in *; cbn [set_mdes_uuid set_mdes_wchar set_mdes_attributes mdes_mob_kind mdes_locator mdes_intermediate mdes_physical_media mdes_uuid mdes_wchar mdes_attributes] in *; split_refs; auto). Qed.
Hint Resolve res_media_descriptor_ext : res.

Lemma res_rmedia_descriptor_base : res (fun o => refsin (media_descriptor_refs o)) (rmedia_descriptor_base i ).
Proof. unfold rmedia_descriptor_base. repeat res_step ltac:(unfold media_descriptor_refs in *; cbn [set_mdes_uuid set_mdes_wchar set_mdes_attributes mdes_mob_kind mdes_locator mdes_intermediate mdes_physical_media mdes_uuid mdes_wchar mdes_attributes] in *; split_refs; auto). Qed.
Hint Resolve res_rmedia_descriptor_base : res.

Lemma res_rmedia_descriptor : res (fun o => refsin (media_descriptor_refs o)) (rmedia_descriptor i ).
Proof. unfold rmedia_descriptor. repeat res_step ltac:(unfold media_descriptor_refs in *; cbn [set_mdes_uuid set_mdes_wchar set_mdes_attributes mdes_mob_kind mdes_locator mdes_intermediate mdes_physical_media mdes_uuid mdes_wchar mdes_attributes] in *; split_refs; auto). Qed.
Hint Resolve res_rmedia_descriptor : res.

Lemma res_rtape_descriptor : res (fun o => refsin (tape_descriptor_refs o)) (rtape_descriptor i ).
Proof. unfold rtape_descriptor. repeat res_step ltac:(unfold tape_descriptor_refs in *; cbn [mdtp_media mdtp_cframe] in *; split_refs; auto). Qed.
Hint Resolve res_rtape_descriptor : res.

Lemma res_rfilm_descriptor : res (fun o => refsin (media_descriptor_refs o)) (rfilm_descriptor i ).
Proof. unfold rfilm_descriptor. repeat res_step ltac:(unfold media_descriptor_refs in *; cbn [mdes_mob_kind mdes_locator mdes_intermediate mdes_physical_media mdes_uuid mdes_wchar mdes_attributes] in *; split_refs; auto). Qed.
Hint Resolve res_rfilm_descriptor : res.

Lemma res_rmedia_file_descriptor_base : res (fun o => refsin (media_file_descriptor_refs o)) (rmedia_file_descriptor_base i ).
Proof. unfold rmedia_file_descriptor_base. repeat res_step ltac:(unfold media_file_descriptor_refs in *; cbn [mdfl_media mdfl_edit_rate mdfl_length mdfl_is_omfi mdfl_data_offset] in *; split_refs; auto). Qed.
Hint Resolve res_rmedia_file_descriptor_base : res.

Lemma res_rmedia_file_descriptor : res (fun o => refsin (media_file_descriptor_refs o)) (rmedia_file_descriptor i ).
Proof. unfold rmedia_file_descriptor. repeat res_step ltac:(unfold media_file_descriptor_refs in *; cbn [mdfl_media mdfl_edit_rate mdfl_length mdfl_is_omfi mdfl_data_offset] in *; split_refs; auto). Qed.
Hint Resolve res_rmedia_file_descriptor : res.

Lemma res_rmulti_descriptor : res (fun o => refsin (multi_descriptor_refs o)) (rmulti_descriptor i ).
Proof. unfold rmulti_descriptor. repeat res_step ltac:(unfold multi_descriptor_refs in *; cbn [muld_file muld_descriptors] in *; split_refs; auto). Qed.
Hint Resolve res_rmulti_descriptor : res.

Lemma res_rwave_descriptor : res (fun o => refsin (wave_descriptor_refs o)) (rwave_descriptor i ).
Proof. unfold rwave_descriptor. repeat res_step ltac:(unfold wave_descriptor_refs in *; cbn [wave_file wave_summary] in *; split_refs; auto). Qed.
Hint Resolve res_rwave_descriptor : res.

Lemma res_aifc_descriptor_ext : forall tag o, refsin (aifc_descriptor_refs o) -> res (fun o => refsin (aifc_descriptor_refs o)) (aifc_descriptor_ext i tag o).
Proof. unfold aifc_descriptor_ext. repeat res_step ltac:(unfold aifc_descriptor_refs in *; cbn [set_aifc_data_pos aifc_file aifc_summary aifc_data_pos] in *; split_refs; auto). Qed.
Hint Resolve res_aifc_descriptor_ext : res.

Lemma res_raifc_descriptor : res (fun o => refsin (aifc_descriptor_refs o)) (raifc_descriptor i ).
Proof. unfold raifc_descriptor. repeat res_step ltac:(unfold aifc_descriptor_refs in *; cbn [set_aifc_data_pos aifc_file aifc_summary aifc_data_pos] in *; split_refs; auto). Qed.
Hint Resolve res_raifc_descriptor : res.

Lemma res_pcma_descriptor_ext : forall tag o, refsin (pcma_descriptor_refs o) -> res (fun o => refsin (pcma_descriptor_refs o)) (pcma_descriptor_ext i tag o).
Proof. unfold pcma_descriptor_ext. repeat res_step ltac:(unfold pcma_descriptor_refs in *; cbn [set_pcma_ebu_timestamp set_pcma_timecode_framerate pcma_file pcma_channels pcma_quantization_bits pcma_sample_rate pcma_locked pcma_audio_ref_level pcma_electro_spatial_formulation pcma_dial_norm pcma_coding_format pcma_block_align pcma_sequence_offset pcma_average_bps pcma_has_peak_envelope_data pcma_peak_envelope_version pcma_peak_envelope_format pcma_points_per_peak_value pcma_peak_envelope_block_size pcma_peak_channel_count pcma_peak_frame_count pcma_peak_of_peaks_offset pcma_peak_envelope_timestamp pcma_ebu_timestamp pcma_timecode_framerate] in *; split_refs; auto). Qed.
Hint Resolve res_pcma_descriptor_ext : res.

Lemma res_rpcma_descriptor : res (fun o => refsin (pcma_descriptor_refs o)) (rpcma_descriptor i ).
Proof. unfold rpcma_descriptor. repeat res_step ltac:(unfold pcma_descriptor_refs in *; cbn [set_pcma_ebu_timestamp set_pcma_timecode_framerate pcma_file pcma_channels pcma_quantization_bits pcma_sample_rate pcma_locked pcma_audio_ref_level pcma_electro_spatial_formulation pcma_dial_norm pcma_coding_format pcma_block_align pcma_sequence_offset pcma_average_bps pcma_has_peak_envelope_data pcma_peak_envelope_version pcma_peak_envelope_format pcma_points_per_peak_value pcma_peak_envelope_block_size pcma_peak_channel_count pcma_peak_frame_count pcma_peak_of_peaks_offset pcma_peak_envelope_timestamp pcma_ebu_timestamp pcma_timecode_framerate] in *; split_refs; auto). Qed.
Hint Resolve res_rpcma_descriptor : res.

Lemma res_mpga_descriptor_ext : forall tag o, refsin (mpga_descriptor_refs o) -> res (fun o => refsin (mpga_descriptor_refs o)) (mpga_descriptor_ext i tag o).
Proof. unfold mpga_descriptor_ext. repeat res_step ltac:(unfold mpga_descriptor_refs in *; cbn [set_mpga_sub_frame_alignment set_mpga_origin mpga_file mpga_channels mpga_quantization_bits mpga_sample_rate mpga_locked mpga_audio_ref_level mpga_electro_spatial_formulation mpga_dial_norm mpga_coding_format mpga_bit_rate mpga_sub_frame_alignment mpga_origin] in *; split_refs; auto). Qed.
Hint Resolve res_mpga_descriptor_ext : res.

Lemma res_rmpga_descriptor : res (fun o => refsin (mpga_descriptor_refs o)) (rmpga_descriptor i ).
Proof. unfold rmpga_descriptor. repeat res_step ltac:(unfold mpga_descriptor_refs in *; cbn [set_mpga_sub_frame_alignment set_mpga_origin mpga_file mpga_channels mpga_quantization_bits mpga_sample_rate mpga_locked mpga_audio_ref_level mpga_electro_spatial_formulation mpga_dial_norm mpga_coding_format mpga_bit_rate mpga_sub_frame_alignment mpga_origin] in *; split_refs; auto). Qed.
Hint Resolve res_rmpga_descriptor : res.

Lemma res_did_descriptor_ext : forall tag o, refsin (did_descriptor_refs o) -> res (fun o => refsin (did_descriptor_refs o)) (did_descriptor_ext i tag o).
Proof. unfold did_descriptor_ext. repeat res_step ltac:(unfold did_descriptor_refs in *; cbn [set_didd_frame_index_byte_order set_didd_frame_sample_size set_didd_first_frame_offset set_didd_client_fill_start set_didd_client_fill_end set_didd_offset_to_rle_frame_index set_didd_frame_start_offset set_didd_valid_box set_didd_essence_box set_didd_source_box set_didd_framing_box set_didd_reformatting_option set_didd_transfer_characteristic set_didd_color_primaries set_didd_coding_equations set_didd_essence_compression set_didd_essence_element_size_kind set_didd_frame_checked_with_mapper didd_file didd_stored_height didd_stored_width didd_sampled_height didd_sampled_width didd_sampled_x_offset didd_sampled_y_offset didd_display_height didd_display_width didd_display_x_offset didd_display_y_offset didd_frame_layout didd_aspect_num didd_aspect_den didd_line_map didd_alpha_transparency didd_uniformness didd_did_image_size didd_next_did_desc didd_compress_method didd_resolution_id didd_image_alignment_factor didd_frame_index_byte_order didd_frame_sample_size didd_first_frame_offset didd_client_fill_start didd_client_fill_end didd_offset_to_rle_frame_index didd_frame_start_offset didd_valid_box didd_essence_box didd_source_box didd_framing_box didd_reformatting_option didd_transfer_characteristic didd_color_primaries didd_coding_equations didd_essence_compression didd_essence_element_size_kind didd_frame_checked_with_mapper] in *; split_refs; auto). Qed.
Hint Resolve res_did_descriptor_ext : res.

Lemma res_rdid_descriptor_base : res (fun o => refsin (did_descriptor_refs o)) (rdid_descriptor_base i ).
Proof. unfold rdid_descriptor_base. repeat res_step ltac:(unfold did_descriptor_refs in *; cbn [set_didd_frame_index_byte_order set_didd_frame_sample_size set_didd_first_frame_offset set_didd_client_fill_start set_didd_client_fill_end set_didd_offset_to_rle_frame_index set_didd_frame_start_offset set_didd_valid_box set_didd_essence_box set_didd_source_box set_didd_framing_box set_didd_reformatting_option set_didd_transfer_characteristic set_didd_color_primaries set_didd_coding_equations set_didd_essence_compression set_didd_essence_element_size_kind set_didd_frame_checked_with_mapper didd_file didd_stored_height didd_stored_width didd_sampled_height didd_sampled_width didd_sampled_x_offset didd_sampled_y_offset didd_display_height didd_display_width didd_display_x_offset didd_display_y_offset didd_frame_layout didd_aspect_num didd_aspect_den didd_line_map didd_alpha_transparency didd_uniformness didd_did_image_size didd_next_did_desc didd_compress_method didd_resolution_id didd_image_alignment_factor didd_frame_index_byte_order didd_frame_sample_size didd_first_frame_offset didd_client_fill_start didd_client_fill_end didd_offset_to_rle_frame_index didd_frame_start_offset didd_valid_box didd_essence_box didd_source_box didd_framing_box didd_reformatting_option didd_transfer_characteristic didd_color_primaries didd_coding_equations didd_essence_compression didd_essence_element_size_kind didd_frame_checked_with_mapper] in *; split_refs; auto). Qed.
Hint Resolve res_rdid_descriptor_base : res.

Lemma res_rdid_descriptor : res (fun o => refsin (did_descriptor_refs o)) (rdid_descriptor i ).
Proof. unfold rdid_descriptor. repeat res_step ltac:(unfold did_descriptor_refs in *; cbn [set_didd_frame_index_byte_order set_didd_frame_sample_size set_didd_first_frame_offset set_didd_client_fill_start set_didd_client_fill_end set_didd_offset_to_rle_frame_index set_didd_frame_start_offset set_didd_valid_box set_didd_essence_box set_didd_source_box set_didd_framing_box set_didd_reformatting_option set_didd_transfer_characteristic set_didd_color_primaries set_didd_coding_equations set_didd_essence_compression set_didd_essence_element_size_kind set_didd_frame_checked_with_mapper didd_file didd_stored_height didd_stored_width didd_sampled_height didd_sampled_width didd_sampled_x_offset didd_sampled_y_offset didd_display_height didd_display_width didd_display_x_offset didd_display_y_offset didd_frame_layout didd_aspect_num didd_aspect_den didd_line_map didd_alpha_transparency didd_uniformness didd_did_image_size didd_next_did_desc didd_compress_method didd_resolution_id didd_image_alignment_factor didd_frame_index_byte_order didd_frame_sample_size didd_first_frame_offset didd_client_fill_start didd_client_fill_end didd_offset_to_rle_frame_index didd_frame_start_offset didd_valid_box didd_essence_box didd_source_box didd_framing_box didd_reformatting_option didd_transfer_characteristic didd_color_primaries didd_coding_equations didd_essence_compression didd_essence_element_size_kind didd_frame_checked_with_mapper] in *; split_refs; auto). Qed.
Hint Resolve res_rdid_descriptor : res.

Lemma res_cdci_descriptor_ext : forall tag o, refsin (cdci_descriptor_refs o) -> res (fun o => refsin (cdci_descriptor_refs o)) (cdci_descriptor_ext i tag o).
Proof. unfold cdci_descriptor_ext. repeat res_step ltac:(unfold cdci_descriptor_refs in *; cbn [set_cdci_alpha_sampled_width set_cdci_ignore_bw cdci_did cdci_horizontal_subsampling cdci_vertical_subsampling cdci_component_width cdci_color_sitting cdci_black_ref_level cdci_white_ref_level cdci_color_range cdci_frame_index_offset cdci_alpha_sampled_width cdci_ignore_bw] in *; split_refs; auto). Qed.
Hint Resolve res_cdci_descriptor_ext : res.

Lemma res_rcdci_descriptor_base : res (fun o => refsin (cdci_descriptor_refs o)) (rcdci_descriptor_base i ).
Proof. unfold rcdci_descriptor_base. repeat res_step ltac:(unfold cdci_descriptor_refs in *; cbn [set_cdci_alpha_sampled_width set_cdci_ignore_bw cdci_did cdci_horizontal_subsampling cdci_vertical_subsampling cdci_component_width cdci_color_sitting cdci_black_ref_level cdci_white_ref_level cdci_color_range cdci_frame_index_offset cdci_alpha_sampled_width cdci_ignore_bw] in *; split_refs; auto). Qed.
Hint Resolve res_rcdci_descriptor_base : res.

Lemma res_rcdci_descriptor : res (fun o => refsin (cdci_descriptor_refs o)) (rcdci_descriptor i ).
Proof. unfold rcdci_descriptor. repeat res_step ltac:(unfold cdci_descriptor_refs in *; cbn [set_cdci_alpha_sampled_width set_cdci_ignore_bw cdci_did cdci_horizontal_subsampling cdci_vertical_subsampling cdci_component_width cdci_color_sitting cdci_black_ref_level cdci_white_ref_level cdci_color_range cdci_frame_index_offset cdci_alpha_sampled_width cdci_ignore_bw] in *; split_refs; auto). Qed.
Hint Resolve res_rcdci_descriptor : res.

Lemma res_rmpgi_descriptor : res (fun o => refsin (mpgi_descriptor_refs o)) (rmpgi_descriptor i ).
Proof. unfold rmpgi_descriptor. repeat res_step ltac:(unfold mpgi_descriptor_refs in *; cbn [mpgi_cdci mpgi_mpeg_version mpgi_profile mpgi_gop_structure mpgi_stream_type mpgi_random_access mpgi_leading_discard mpgi_trailing_discard mpgi_min_gop_length mpgi_max_gop_length mpgi_sequence_hdr] in *; split_refs; auto). Qed.
Hint Resolve res_rmpgi_descriptor : res.

Lemma res_jped_descriptor_ext : forall tag o, refsin (jped_descriptor_refs o) -> res (fun o => refsin (jped_descriptor_refs o)) (jped_descriptor_ext i tag o).
Proof. unfold jped_descriptor_ext. repeat res_step ltac:(unfold jped_descriptor_refs in *; cbn [set_jped_image_start_align jped_cdci jped_jpeg_table_id jped_jpeg_frame_index_offset jped_quantization_tables jped_image_start_align] in *; split_refs; auto). Qed.
Hint Resolve res_jped_descriptor_ext : res.

Lemma res_rjped_descriptor : res (fun o => refsin (jped_descriptor_refs o)) (rjped_descriptor i ).
Proof. unfold rjped_descriptor. repeat res_step ltac:(unfold jped_descriptor_refs in *; cbn [set_jped_image_start_align jped_cdci jped_jpeg_table_id jped_jpeg_frame_index_offset jped_quantization_tables jped_image_start_align] in *; split_refs; auto). Qed.
Hint Resolve res_rjped_descriptor : res.

Lemma res_rgba_descriptor_ext : forall tag o, refsin (rgba_descriptor_refs o) -> res (fun o => refsin (rgba_descriptor_refs o)) (rgba_descriptor_ext i tag o).
Proof. unfold rgba_descriptor_ext. repeat res_step ltac:(unfold rgba_descriptor_refs in *; cbn [set_rgba_frame_index_offset set_rgba_has_comp_min_ref set_rgba_comp_min_ref set_rgba_has_comp_max_ref set_rgba_comp_max_ref set_rgba_alpha_min_ref set_rgba_alpha_max_ref rgba_did rgba_pixel_layout rgba_frame_index_offset rgba_has_comp_min_ref rgba_comp_min_ref rgba_has_comp_max_ref rgba_comp_max_ref rgba_alpha_min_ref rgba_alpha_max_ref] in *; split_refs; auto). Qed.
Hint Resolve res_rgba_descriptor_ext : res.

Lemma res_rrgba_descriptor : res (fun o => refsin (rgba_descriptor_refs o)) (rrgba_descriptor i ).
Proof. unfold rrgba_descriptor. repeat res_step ltac:(unfold rgba_descriptor_refs in *; cbn [set_rgba_frame_index_offset set_rgba_has_comp_min_ref set_rgba_comp_min_ref set_rgba_has_comp_max_ref set_rgba_comp_max_ref set_rgba_alpha_min_ref set_rgba_alpha_max_ref rgba_did rgba_pixel_layout rgba_frame_index_offset rgba_has_comp_min_ref rgba_comp_min_ref rgba_has_comp_max_ref rgba_comp_max_ref rgba_alpha_min_ref rgba_alpha_max_ref] in *; split_refs; auto). Qed.
Hint Resolve res_rrgba_descriptor : res.

Lemma res_rdata_descriptor : res (fun o => refsin (data_descriptor_refs o)) (rdata_descriptor i ).
Proof. unfold rdata_descriptor. repeat res_step ltac:(unfold data_descriptor_refs in *; cbn [datd_file datd_is_offset_to_frame_indexes_valid datd_offset_to_frame_indexes datd_first_frame_offset datd_min_sample_size datd_max_sample_size] in *; split_refs; auto). Qed.
Hint Resolve res_rdata_descriptor : res.

Lemma res_ranc_data_descriptor : res (fun o => refsin (anc_data_descriptor_refs o)) (ranc_data_descriptor i ).
Proof. unfold ranc_data_descriptor. repeat res_step ltac:(unfold anc_data_descriptor_refs in *; cbn [ancd_data ancd_manifest_element_count] in *; split_refs; auto). Qed.
Hint Resolve res_ranc_data_descriptor : res.

(** ** BinModel.v *)

Lemma res_rsetting : res (fun o => refsin (setting_refs o)) (rsetting i ).
Proof. unfold rsetting. repeat res_step ltac:(unfold setting_refs in *; cbn [aset_name aset_kind aset_attr_count aset_attr_type aset_attributes] in *; split_refs; auto). Qed.
Hint Resolve res_rsetting : res.

Lemma res_rbin_column : res (fun o => refsin (bin_column_refs o)) (rbin_column i ).
Proof. unfold rbin_column. repeat res_step ltac:(unfold bin_column_refs in *; cbn [bcol_title bcol_format bcol_type bcol_hidden] in *; split_refs; auto). Qed.
Hint Resolve res_rbin_column : res.

Lemma res_rformat_desc : res (fun o => refsin (format_desc_refs o)) (rformat_desc i ).
Proof. unfold rformat_desc. repeat res_step ltac:(unfold format_desc_refs in *; cbn [fdsc_vcid_free_column_id fdsc_format_descriptor] in *; split_refs; auto). Qed.
Hint Resolve res_rformat_desc : res.

Lemma res_bin_view_setting_ext : forall tag o, refsin (bin_view_setting_refs o) -> res (fun o => refsin (bin_view_setting_refs o)) (bin_view_setting_ext i tag o).
Proof. unfold bin_view_setting_ext. repeat res_step ltac:(unfold bin_view_setting_refs in *; cbn [set_bvst_format_descriptors bvst_setting bvst_columns bvst_format_descriptors] in *; split_refs; auto). Qed.
Hint Resolve res_bin_view_setting_ext : res.

Lemma res_rbin_view_setting : res (fun o => refsin (bin_view_setting_refs o)) (rbin_view_setting i ).
Proof. unfold rbin_view_setting. repeat res_step ltac:(unfold bin_view_setting_refs in *; cbn [set_bvst_format_descriptors bvst_setting bvst_columns bvst_format_descriptors] in *; split_refs; auto). Qed.
Hint Resolve res_rbin_view_setting : res.

Lemma res_rbin_item : res (fun o => refsin (bin_item_refs o)) (rbin_item i ).
Proof. unfold rbin_item. repeat res_step ltac:(unfold bin_item_refs in *; cbn [item_mob item_x item_y item_keyframe item_user_placed] in *; split_refs; auto). Qed.
Hint Resolve res_rbin_item : res.

Lemma res_rsift_item : res (fun o => refsin (sift_item_refs o)) (rsift_item i ).
Proof. unfold rsift_item. repeat res_step ltac:(unfold sift_item_refs in *; cbn [sift_method sift_string sift_column] in *; split_refs; auto). Qed.
Hint Resolve res_rsift_item : res.

Lemma res_rsort_column : res (fun o => refsin (sort_column_refs o)) (rsort_column i ).
Proof. unfold rsort_column. repeat res_step ltac:(unfold sort_column_refs in *; cbn [scol_direction scol_name] in *; split_refs; auto). Qed.
Hint Resolve res_rsort_column : res.

Lemma res_rbin_base : res (fun o => refsin (bin_refs o)) (rbin_base i ).
Proof. unfold rbin_base. repeat res_step ltac:(unfold bin_refs in *; cbn [abin_large_bin abin_view_setting abin_uid abin_items abin_display_mask abin_display_mode abin_sifted abin_sifted_settings abin_sort_columns abin_mac_font abin_mac_font_size abin_mac_image_scale abin_home_rect abin_background_color abin_forground_color abin_ql_image_scale abin_attributes abin_was_iconic] in *; split_refs; auto). Qed.
Hint Resolve res_rbin_base : res.

Lemma res_rbin : res (fun o => refsin (bin_refs o)) (rbin i ).
Proof. unfold rbin. repeat res_step ltac:(unfold bin_refs in *; cbn [abin_large_bin abin_view_setting abin_uid abin_items abin_display_mask abin_display_mode abin_sifted abin_sifted_settings abin_sort_columns abin_mac_font abin_mac_font_size abin_mac_image_scale abin_home_rect abin_background_color abin_forground_color abin_ql_image_scale abin_attributes abin_was_iconic] in *; split_refs; auto). Qed.
Hint Resolve res_rbin : res.

Lemma res_rbin_first : res (fun o => refsin (bin_first_refs o)) (rbin_first i ).
Proof. unfold rbin_first. repeat res_step ltac:(unfold bin_first_refs in *; cbn [binf_bin binf_unknown_s32] in *; split_refs; auto). Qed.
Hint Resolve res_rbin_first : res.

End Readers.
