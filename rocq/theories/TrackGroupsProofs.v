(** Round trips of the classes of TrackGroups.v. *)
From Coq Require Import ZArith List Bool Lia.
From Verif Require Import Base IoCtx Text Exp10 MobId ClassTac Components ComponentsProofs
  TrackGroups.
Import ListNotations.
Open Scope Z_scope.

#[export] Hint Unfold track_group_ext track_effect_ext pan_volume_effect_ext
  audio_suite_effect_ext motion_effect_ext essence_group_ext transition_effect_ext
  composition_ext : cls.

(** ** Track flags *)

Lemma flag_if_bit : forall b j k, 0 <= j -> 0 <= k ->
  Z.testbit (flag_if b j) k = b && (j =? k).
Proof.
  intros b j k Hj Hk. unfold flag_if. destruct b; cbn [andb]; [|apply Z.bits_0].
  rewrite Z.shiftl_1_l. destruct (Z.eqb_spec j k) as [->|H].
  - now apply Z.pow2_bits_true.
  - apply Z.pow2_bits_false; lia.
Qed.

Ltac flag_bit :=
  unfold track_flags, label_bit, attributes_bit, component_bit, filler_proxy_bit, bob_data_bit,
    control_code_bit, control_sub_code_bit, start_pos_bit, read_only_bit, session_attr_bit;
  rewrite !Z.lor_spec, !flag_if_bit by lia;
  cbn [Z.eqb Pos.eqb]; rewrite ?andb_false_r, ?andb_true_r, ?orb_false_r, ?orb_false_l;
  reflexivity.

Lemma flags_index : forall t, Z.testbit (track_flags t) label_bit = is_some (trak_index t).
Proof. intros. flag_bit. Qed.
Lemma flags_attributes : forall t,
  Z.testbit (track_flags t) attributes_bit = is_some (trak_attributes t).
Proof. intros. flag_bit. Qed.
Lemma flags_session_attr : forall t,
  Z.testbit (track_flags t) session_attr_bit = is_some (trak_session_attr t).
Proof. intros. flag_bit. Qed.
Lemma flags_component : forall t,
  Z.testbit (track_flags t) component_bit = is_some (trak_component t).
Proof. intros. flag_bit. Qed.
Lemma flags_filler_proxy : forall t,
  Z.testbit (track_flags t) filler_proxy_bit = is_some (trak_filler_proxy t).
Proof. intros. flag_bit. Qed.
Lemma flags_bob_data : forall t,
  Z.testbit (track_flags t) bob_data_bit = is_some (trak_bob_data t).
Proof. intros. flag_bit. Qed.
Lemma flags_control_code : forall t,
  Z.testbit (track_flags t) control_code_bit = is_some (trak_control_code t).
Proof. intros. flag_bit. Qed.
Lemma flags_control_sub_code : forall t,
  Z.testbit (track_flags t) control_sub_code_bit = is_some (trak_control_sub_code t).
Proof. intros. flag_bit. Qed.
Lemma flags_start_pos : forall t,
  Z.testbit (track_flags t) start_pos_bit = is_some (trak_start_pos t).
Proof. intros. flag_bit. Qed.
Lemma flags_read_only : forall t,
  Z.testbit (track_flags t) read_only_bit = is_some (trak_read_only t).
Proof. intros. flag_bit. Qed.

Lemma flags_known : forall t, Z.land (track_flags t) unknown_flags = 0.
Proof.
  intros t. apply Z.bits_inj'. intros n Hn. rewrite Z.land_spec, Z.bits_0.
  unfold track_flags, label_bit, attributes_bit, component_bit, filler_proxy_bit, bob_data_bit,
    control_code_bit, control_sub_code_bit, start_pos_bit, read_only_bit, session_attr_bit.
  rewrite !Z.lor_spec, !flag_if_bit by lia.
  destruct (Z_lt_le_dec n 10) as [Hl|Hl].
  - assert (Z.testbit unknown_flags n = false) as ->.
    { assert (n = 0 \/ n = 1 \/ n = 2 \/ n = 3 \/ n = 4 \/ n = 5 \/ n = 6 \/ n = 7 \/ n = 8
              \/ n = 9) as H by lia.
      repeat (destruct H as [->|H]; [reflexivity|]). now subst. }
    apply andb_false_r.
  - repeat match goal with
    | |- context [?a =? n] => destruct (Z.eqb_spec a n); [lia|]
    end.
    now rewrite !andb_false_r.
Qed.

Lemma track_flags_map : forall f t, track_flags (track_map f t) = track_flags t.
Proof.
  intros f t. unfold track_flags, track_map. cbn [trak_index trak_attributes trak_session_attr
    trak_component trak_filler_proxy trak_bob_data trak_control_code trak_control_sub_code
    trak_start_pos trak_read_only].
  assert (forall A B (g : A -> B) o, is_some (option_map g o) = is_some o) as E
    by (intros A B g []; reflexivity).
  now rewrite !E.
Qed.

Lemma track_flags_lock : forall t v, track_flags (set_trak_lock_number t v) = track_flags t.
Proof. reflexivity. Qed.

Lemma rt_flag_id : forall A P flags bit (r : reader A) (w : A -> writer) o,
  Z.testbit flags bit = is_some o ->
  (forall v, rt P r (w v) v) ->
  rt P (rflag flags bit r) (wflag flags bit o w) o.
Proof.
  intros A P flags bit r w o Hb H. unfold rflag, wflag. rewrite Hb.
  destruct o as [v|]; cbn [is_some].
  - eapply rt_bind_last; [apply H|reflexivity].
  - apply rt_ret.
Qed.

Lemma rt_flag_map : forall A B P flags bit (r : reader B) (w : A -> writer) (g : A -> B) o,
  Z.testbit flags bit = is_some o ->
  (forall v, rt P r (w v) (g v)) ->
  rt P (rflag flags bit r) (wflag flags bit o w) (option_map g o).
Proof.
  intros A B P flags bit r w g o Hb H. unfold rflag, wflag. rewrite Hb.
  destruct o as [v|]; cbn [is_some].
  - eapply rt_bind_last; [apply H|reflexivity].
  - apply rt_ret.
Qed.

Section Classes.
Context (i : ictx) (c : octx) (Hc : compat i c).

(** A track as it is before its lock number is read. *)
Definition unlocked (t : track) : track := set_trak_lock_number t None.

Ltac flag_step H :=
  eapply rt_bind with (Q := anyr);
    [ first [ eapply rt_flag_id; [apply H | intros; rt_prim]
            | eapply rt_flag_map; [apply H | intros; rt_prim] ]
    | cbv beta | intros; exact I ].

Lemma rt_track : forall P t,
  rt P (rtrack i) (wtrack c t) (unlocked (track_map (reff c) t)).
Proof.
  intros P t. apply rt_any. pose proof (proj1 Hc) as Hbo. unfold rtrack, wtrack. bo_norm. cbv zeta.
  rewrite flags_known. cbn [Z.eqb negb].
  eapply rt_bind with (Q := anyr); [rt_elem| |intros; exact I].
  flag_step flags_index. flag_step flags_attributes. flag_step flags_session_attr.
  flag_step flags_component. flag_step flags_filler_proxy. flag_step flags_bob_data.
  flag_step flags_control_code. flag_step flags_control_sub_code. flag_step flags_start_pos.
  eapply rt_bind_last.
  { eapply rt_flag_id; [apply flags_read_only|intros; rt_prim]. }
  intros rest. cbv beta. rewrite flags_known. cbn [Z.eqb negb].
  match goal with |- context [track_flags ?x] =>
    replace (track_flags x) with (track_flags t)
      by (rewrite <- (track_flags_map (reff c) t); reflexivity)
  end.
  rewrite Z.eqb_refl. reflexivity.
Qed.

Lemma rt_lock : forall t,
  rt anyr (rlock i (unlocked (track_map (reff c) t))) (wlock c t) (track_map (reff c) t).
Proof.
  rt_start. unfold rlock, wlock. destruct (trak_lock_number t) as [v|] eqn:E;
    (eapply rt_eqv; [rt_go|]); destruct t; cbn in E; subst; reflexivity.
Qed.

Lemma rt_locks : forall P l,
  rt P (rmapm (rlock i) (map (fun t => unlocked (track_map (reff c) t)) l))
     (wlist (wlock c) l) (map (track_map (reff c)) l).
Proof.
  intros P l. apply rt_any. induction l as [|t l IH]; cbn [map rmapm wlist].
  - apply rt_ret.
  - eapply rt_bind with (Q := anyr); [apply rt_lock| |intros; exact I].
    eapply rt_bind_last; [exact IH|reflexivity].
Qed.

Lemma rt_track_group : forall o, track_group_ok o ->
  rt endr (rtrack_group i) (wtrack_group c o) (track_group_map (reff c) o).
Proof.
  rt_start. unfold track_group_ok in *. destruct H as [Hp Ht].
  unfold rtrack_group, wtrack_group. bo_norm.
  eapply rt_bind with (Q := endr); [now apply rt_component | cbv beta | rt_end].
  do 6 (eapply rt_bind with (Q := anyr); [ rt_elem | cbv beta | intros; exact I ]).
  eapply rt_bind with (Q := anyr); [| cbv beta | intros; exact I].
  { eapply rt_list; [apply len_nat|]. intros t _. apply rt_track. }
  eapply rt_ext. destruct (trkg_tracks o) as [|t l] eqn:E.
  - eapply eq_rect; [apply rtx_nil|]. unfold track_group_map. now rewrite E.
  - apply rtx_last. autounfold with cls. change (1 =? 1) with true. cbv iota.
    cbn [trkg_tracks]. eapply rt_bind_last.
    + apply rt_locks.
    + intros rest. unfold track_group_map. rewrite E. reflexivity.
Qed.
Hint Resolve rt_track_group : rt.

Lemma rt_track_effect_base : forall o, track_effect_ok o ->
  rt endr (rtrack_effect_base i) (wtrack_effect_base c o) (track_effect_map (reff c) o).
Proof.
  rt_start. unfold track_effect_ok in *. use_ok. unfold rtrack_effect_base, wtrack_effect_base.
  rt_class.
Qed.
Hint Resolve rt_track_effect_base : rt.

Lemma rt_track_effect : forall P o, track_effect_ok o ->
  rt P (rtrack_effect i) (wtrack_effect c o) (track_effect_map (reff c) o).
Proof. rt_start. unfold rtrack_effect, wtrack_effect. rt_class. Qed.

Lemma rt_pan_volume_effect : forall P o, pan_volume_effect_ok o ->
  rt P (rpan_volume_effect i) (wpan_volume_effect c o) (pan_volume_effect_map (reff c) o).
Proof.
  rt_start. unfold pan_volume_effect_ok in *. use_ok.
  unfold rpan_volume_effect, wpan_volume_effect. rt_class.
Qed.

Lemma rt_aspi_chunk : forall P o, aspi_chunk_ok o ->
  rt P (raspi_chunk i) (waspi_chunk c o) (aspi_chunk_map (reff c) o).
Proof. rt_start. unfold aspi_chunk_ok in *. use_ok. unfold raspi_chunk, waspi_chunk. rt_class. Qed.
Hint Resolve rt_aspi_chunk : rt.

Lemma rt_aspi_plugin : forall P o, aspi_plugin_ok o ->
  rt P (raspi_plugin i) (waspi_plugin c o) (aspi_plugin_map (reff c) o).
Proof.
  rt_start. unfold aspi_plugin_ok in *. use_ok. unfold raspi_plugin, waspi_plugin. rt_class.
Qed.
Hint Resolve rt_aspi_plugin : rt.

Lemma rt_preset_path : forall P v, rt P (rpreset_path i) (wpreset_path c v) v.
Proof.
  rt_start. unfold rpreset_path, wpreset_path. bo_norm.
  do 2 (eapply rt_bind with (Q := anyr); [ rt_elem | cbv beta | intros; exact I ]).
  destruct v as [|x v].
  - apply rt_ret.
  - assert (0 <? len (x :: v) = true) as ->
      by (apply Z.ltb_lt; unfold len; cbn [length]; lia).
    do 2 (eapply rt_bind with (Q := anyr); [ rt_elem | cbv beta | intros; exact I ]).
    apply rt_rassert; [apply Z.eqb_refl|]. now apply rt_bytes.
Qed.
Hint Resolve rt_preset_path : rt.

Lemma rt_audio_suite_effect : forall P o, audio_suite_effect_ok o ->
  rt P (raudio_suite_effect i) (waudio_suite_effect c o) (audio_suite_effect_map (reff c) o).
Proof.
  rt_start. unfold audio_suite_effect_ok in *. use_ok.
  destruct o as [e pl mi m1 m2 ta rm ps pp].
  cbn [aspi_effect aspi_plugins aspi_mob_id] in *.
  destruct pl as [|p [|p2 pl]]; try discriminate.
  apply Forall_inv in H0.
  unfold raudio_suite_effect, waudio_suite_effect.
  cbn [aspi_effect aspi_plugins aspi_mob_id aspi_mark_in aspi_mark_out aspi_tracks_to_affect
    aspi_rendering_mode aspi_padding_secs aspi_preset_path wlist].
  rt_class.
Qed.

Lemma rt_equalizer_band : forall P o,
  rt P (requalizer_band i) (wequalizer_band c o) (equalizer_band_map (reff c) o).
Proof. rt_start. unfold requalizer_band, wequalizer_band. rt_class. Qed.
Hint Resolve rt_equalizer_band : rt.

Lemma rt_equalizer_multi_band : forall P o, equalizer_multi_band_ok o ->
  rt P (requalizer_multi_band i) (wequalizer_multi_band c o)
    (equalizer_multi_band_map (reff c) o).
Proof.
  rt_start. unfold equalizer_multi_band_ok in *. use_ok.
  unfold requalizer_multi_band, wequalizer_multi_band. rt_class.
Qed.

Lemma rt_time_warp : forall P o, time_warp_ok o ->
  rt P (rtime_warp i) (wtime_warp c o) (time_warp_map (reff c) o).
Proof. rt_start. unfold time_warp_ok in *. use_ok. unfold rtime_warp, wtime_warp. rt_class. Qed.
Hint Resolve rt_time_warp : rt.

Lemma rt_capture_mask : forall P o, capture_mask_ok o ->
  rt P (rcapture_mask i) (wcapture_mask c o) (capture_mask_map (reff c) o).
Proof.
  rt_start. unfold capture_mask_ok in *. use_ok. unfold rcapture_mask, wcapture_mask. rt_class.
Qed.

Lemma rt_strobe_effect : forall P o, strobe_effect_ok o ->
  rt P (rstrobe_effect i) (wstrobe_effect c o) (strobe_effect_map (reff c) o).
Proof.
  rt_start. unfold strobe_effect_ok in *. use_ok. unfold rstrobe_effect, wstrobe_effect. rt_class.
Qed.

Lemma rt_motion_effect : forall P o, motion_effect_ok o ->
  rt P (rmotion_effect i) (wmotion_effect c o) (motion_effect_map (reff c) o).
Proof.
  rt_start. unfold motion_effect_ok in *. use_ok. unfold rmotion_effect, wmotion_effect. rt_class.
Qed.

Lemma rt_repeat_effect : forall P o, repeat_effect_ok o ->
  rt P (rrepeat_effect i) (wrepeat_effect c o) (repeat_effect_map (reff c) o).
Proof.
  rt_start. unfold repeat_effect_ok in *. use_ok. unfold rrepeat_effect, wrepeat_effect. rt_class.
Qed.

Lemma rt_essence_group : forall P o, essence_group_ok o ->
  rt P (ressence_group i) (wessence_group c o) (essence_group_map (reff c) o).
Proof.
  rt_start. unfold essence_group_ok in *. use_ok. unfold ressence_group, wessence_group. rt_class.
Qed.

Lemma rt_transition_effect : forall P o, transition_effect_ok o ->
  rt P (rtransition_effect i) (wtransition_effect c o) (transition_effect_map (reff c) o).
Proof.
  rt_start. unfold transition_effect_ok in *. use_ok.
  unfold rtransition_effect, wtransition_effect. rt_class.
Qed.

Lemma rt_selector : forall P o, selector_ok o ->
  rt P (rselector i) (wselector c o) (selector_map (reff c) o).
Proof.
  rt_start. unfold selector_ok in *. use_ok. unfold rselector, wselector.
  assert (slct_selected o <? len (trkg_tracks (track_group_map (reff c) (slct_group o))) = true).
  { cbn [trkg_tracks track_group_map]. unfold len in *. rewrite map_length. now apply Z.ltb_lt. }
  rt_class.
Qed.

Lemma rt_composition : forall P o, composition_ok o ->
  rt P (rcomposition i) (wcomposition c o) (composition_map (reff c) o).
Proof.
  rt_start. unfold composition_ok in *. use_ok. unfold rcomposition, wcomposition.
  destruct o as [g lm mt uc d ct [m|]];
    cbn [cmpo_group cmpo_last_modified cmpo_mob_type_id cmpo_usage_code cmpo_descriptor
      cmpo_creation_time cmpo_mob_id opt_ok wopt] in *;
    [rt_class | rt_never].
Qed.
End Classes.
