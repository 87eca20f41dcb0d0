(** What was read can be written: [X_got] (GotClasses.v) and the conditions of ResaveSpec.v give the
    conditions of Fits.v and of the class. References are treated as if every one were stored
    already; FitRefsProofs.v carries the result over to any other state of the save. *)
From Coq Require Import ZArith List Bool Lia.
From Verif Require Import Base IoCtx Text Exp10 MobId Storable Attributes Components TrackGroups
  Misc Essence BinModel RoundTrip MobIdProofs Fits FitsProofs Saved Objects ObjSpec RefsProofs GotProofs GotClasses
  ResaveSpec FitRefsProofs.
Import ListNotations.
Open Scope Z_scope.

(** Every object stored under its own number. *)
Definition own : octx := {| obo := LE; orefs := fun r => Some r |}.

Lemma ref_own : forall r, ref_in r -> fits_ref own r.
Proof. intros r H. right. exists r. split; [reflexivity|]. unfold ref_in, fits_u32 in *. lia. Qed.

Lemma steady_fits : forall x, steady x -> fits_exp10 x.
Proof. intros x (m & e & H & A & B & _). exists m, e. auto. Qed.

Lemma steady_stable : forall x, steady x -> exp10_stable x.
Proof. intros x (m & e & H & _ & _ & E). unfold exp10_stable. now rewrite H. Qed.

Lemma str_got_fits : forall s, str_got s -> fits_str s. Proof. intros s H. apply H. Qed.
Lemma str_got_ok : forall s, str_got s -> str_ok s. Proof. intros s H. apply H. Qed.

Lemma utf8_got_fits : forall n s, utf8_got n s -> roomy s -> fits_utf8 s.
Proof. intros n s (A & _) R. split; [exact A|]. unfold roomy in R. lia. Qed.

Lemma utf8_got_ok : forall n s, utf8_got n s -> roomy s -> utf8_ok s.
Proof. intros n s (_ & B & _) R. split; assumption. Qed.

Lemma opt_map : forall A (P Q : A -> Prop) o, (forall x, P x -> Q x) -> opt_ok P o -> opt_ok Q o.
Proof. intros A P Q [x|] H; [apply H|auto]. Qed.

Lemma opt_map2 : forall A (P R Q : A -> Prop) o, (forall x, P x -> R x -> Q x) ->
  opt_ok P o -> opt_ok R o -> opt_ok Q o.
Proof. intros A P R Q [x|] H; [apply H|auto]. Qed.

Lemma Forall_map2 : forall A (P R Q : A -> Prop) l, (forall x, P x -> R x -> Q x) ->
  Forall P l -> Forall R l -> Forall Q l.
Proof. intros A P R Q l H HP HR. induction HP; inversion HR; subst; constructor; auto. Qed.

Create HintDb fine.
#[export] Hint Resolve ref_own steady_fits steady_stable str_got_fits str_got_ok utf8_got_fits utf8_got_ok : fine.

Ltac fine_num := change (2 ^ 15) with 32768 in *; change (2 ^ 31) with 2147483648 in *;
  change (2 ^ 63) with 9223372036854775808 in *; unfold fits_s16, fits_s32, fits_s64, fits_u64 in *; lia.

Ltac fine_lift := cbv beta; intros; solve [eauto 3 with fine | intuition (eauto 3 with fine) | fine_num].

Ltac fine_atom :=
  first [ assumption | exact I | solve [eauto 3 with fine]
        | match goal with H : Forall _ ?l |- Forall _ ?l => solve [refine (Forall_impl _ _ H); fine_lift] end
        | match goal with H : opt_ok _ ?l |- opt_ok _ ?l => solve [refine (opt_map _ _ _ _ _ H); fine_lift] end
        | match goal with H : Forall _ ?l, H' : Forall _ ?l |- Forall _ ?l =>
            solve [refine (Forall_map2 _ _ _ _ _ _ H H'); fine_lift] end
        | match goal with H : opt_ok _ ?l, H' : opt_ok _ ?l |- opt_ok _ ?l =>
            solve [refine (opt_map2 _ _ _ _ _ _ H H'); fine_lift] end
        | tauto | fine_num ].

Ltac fine_split :=
  repeat match goal with H : _ /\ _ |- _ => destruct H end;
  repeat match goal with |- _ /\ _ => split end.

Ltac fine := fine_split; try fine_atom.

Lemma fine_attr : forall (p : str * attr_value), attr_got p -> attr_fits own p.
Proof.
  intros. unfold attr_got, attr_fits in *. fine. destruct (snd p); fine.
Qed.
#[export] Hint Resolve fine_attr : fine.

Lemma fine_attributes : forall (o : attributes), attributes_got o -> attributes_fits own o.
Proof.
  intros. unfold attributes_got, attributes_fits in *. fine.
Qed.
#[export] Hint Resolve fine_attributes : fine.

Lemma okay_attributes : forall (o : attributes), attributes_got o -> attributes_ok o.
Proof.
  intros. unfold attributes_got, attributes_ok in *. fine.
  match goal with H : Forall attr_got _ |- _ => refine (Forall_impl _ _ H) end.
  intros [k v] [A B]. cbn [fst snd] in *. split; [now apply str_got_ok|]. destruct v; cbn [attr_value_ok]; fine.
Qed.
#[export] Hint Resolve okay_attributes : fine.

Lemma fine_parameter_list : forall (o : parameter_list), parameter_list_got o -> parameter_list_fits own o.
Proof.
  intros. unfold parameter_list_got, parameter_list_fits in *. fine.
Qed.
#[export] Hint Resolve fine_parameter_list : fine.

Lemma okay_parameter_list : forall (o : parameter_list), parameter_list_got o -> parameter_list_ok o.
Proof.
  intros. unfold parameter_list_got, parameter_list_ok in *. fine.
Qed.
#[export] Hint Resolve okay_parameter_list : fine.

Lemma fine_time_crumb_list : forall (o : time_crumb_list), time_crumb_list_got o -> time_crumb_list_fits own o.
Proof.
  intros. unfold time_crumb_list_got, time_crumb_list_fits in *. fine.
Qed.
#[export] Hint Resolve fine_time_crumb_list : fine.

Lemma okay_time_crumb_list : forall (o : time_crumb_list), time_crumb_list_got o -> time_crumb_list_ok o.
Proof.
  intros. unfold time_crumb_list_got, time_crumb_list_ok in *. fine.
Qed.
#[export] Hint Resolve okay_time_crumb_list : fine.

Lemma fine_component : forall (o : component), component_got o -> steady (cpnt_edit_rate o) -> component_fits own o.
Proof.
  intros. unfold component_got, component_fits in *. fine.
Qed.
#[export] Hint Resolve fine_component : fine.

Lemma okay_component : forall (o : component), component_got o -> steady (cpnt_edit_rate o) -> component_ok o.
Proof.
  intros. unfold component_got, component_ok in *. fine.
Qed.
#[export] Hint Resolve okay_component : fine.

Lemma fine_sequence : forall (o : sequence), sequence_got o -> steady (cpnt_edit_rate (sequ_component o)) -> sequence_fits own o.
Proof.
  intros. unfold sequence_got, sequence_fits in *. fine.
Qed.
#[export] Hint Resolve fine_sequence : fine.

Lemma okay_sequence : forall (o : sequence), sequence_got o -> steady (cpnt_edit_rate (sequ_component o)) -> sequence_ok o.
Proof.
  intros. unfold sequence_got, sequence_ok in *. fine.
Qed.
#[export] Hint Resolve okay_sequence : fine.

Lemma fine_clip : forall (o : clip), clip_got o -> steady (cpnt_edit_rate (clip_component o)) -> clip_fits own o.
Proof.
  intros. unfold clip_got, clip_fits in *. fine.
Qed.
#[export] Hint Resolve fine_clip : fine.

Lemma okay_clip : forall (o : clip), clip_got o -> steady (cpnt_edit_rate (clip_component o)) -> clip_ok o.
Proof.
  intros. unfold clip_got, clip_ok in *. fine.
Qed.
#[export] Hint Resolve okay_clip : fine.

Lemma fine_source_clip : forall (o : source_clip), source_clip_got o -> steady (cpnt_edit_rate (clip_component (sclp_clip o))) -> sclp_mob_id o <> None -> source_clip_fits own o.
Proof.
  intros. unfold source_clip_got, source_clip_fits in *. fine.
Qed.
#[export] Hint Resolve fine_source_clip : fine.

Lemma okay_source_clip : forall (o : source_clip), source_clip_got o -> steady (cpnt_edit_rate (clip_component (sclp_clip o))) -> sclp_mob_id o <> None -> source_clip_ok o.
Proof.
  intros. unfold source_clip_got, source_clip_ok in *. fine.
Qed.
#[export] Hint Resolve okay_source_clip : fine.

Lemma fine_timecode : forall (o : timecode), timecode_got o -> steady (cpnt_edit_rate (clip_component (tccp_clip o))) -> timecode_fits own o.
Proof.
  intros. unfold timecode_got, timecode_fits in *. fine.
Qed.
#[export] Hint Resolve fine_timecode : fine.

Lemma okay_timecode : forall (o : timecode), timecode_got o -> steady (cpnt_edit_rate (clip_component (tccp_clip o))) -> timecode_ok o.
Proof.
  intros. unfold timecode_got, timecode_ok in *. fine.
Qed.
#[export] Hint Resolve okay_timecode : fine.

Lemma fine_edgecode : forall (o : edgecode), edgecode_got o -> steady (cpnt_edit_rate (clip_component (eccp_clip o))) -> edgecode_fits own o.
Proof.
  intros. unfold edgecode_got, edgecode_fits in *. fine.
Qed.
#[export] Hint Resolve fine_edgecode : fine.

Lemma okay_edgecode : forall (o : edgecode), edgecode_got o -> steady (cpnt_edit_rate (clip_component (eccp_clip o))) -> edgecode_ok o.
Proof.
  intros. unfold edgecode_got, edgecode_ok in *. fine.
Qed.
#[export] Hint Resolve okay_edgecode : fine.

Lemma fine_track_ref : forall (o : track_ref), track_ref_got o -> steady (cpnt_edit_rate (clip_component (trkr_clip o))) -> track_ref_fits own o.
Proof.
  intros. unfold track_ref_got, track_ref_fits in *. fine.
Qed.
#[export] Hint Resolve fine_track_ref : fine.

Lemma okay_track_ref : forall (o : track_ref), track_ref_got o -> steady (cpnt_edit_rate (clip_component (trkr_clip o))) -> track_ref_ok o.
Proof.
  intros. unfold track_ref_got, track_ref_ok in *. fine.
Qed.
#[export] Hint Resolve okay_track_ref : fine.

Lemma fine_param_point_property : forall (o : param_point_property), param_point_property_got o -> param_point_property_fits own o.
Proof.
  intros. unfold param_point_property_got, param_point_property_fits in *. fine.
Qed.
#[export] Hint Resolve fine_param_point_property : fine.

Lemma okay_param_point_property : forall (o : param_point_property), param_point_property_got o -> param_point_property_ok o.
Proof.
  intros. unfold param_point_property_got, param_point_property_ok in *. fine.
Qed.
#[export] Hint Resolve okay_param_point_property : fine.

Lemma fine_cp_value : forall (value_type : Z) (v : cp_value), cp_value_got value_type v -> cp_value_fits own value_type v.
Proof.
  intros. unfold cp_value_got, cp_value_fits in *. destruct v; fine.
Qed.
#[export] Hint Resolve fine_cp_value : fine.

Lemma okay_cp_value : forall (value_type : Z) (v : cp_value), cp_value_got value_type v -> cp_value_ok v.
Proof.
  intros. unfold cp_value_got, cp_value_ok in *. fine.
Qed.
#[export] Hint Resolve okay_cp_value : fine.

Lemma fine_param_control_point : forall (value_type : Z) (o : param_control_point), param_control_point_got value_type o -> param_control_point_fits own value_type o.
Proof.
  intros. unfold param_control_point_got, param_control_point_fits in *. fine.
Qed.
#[export] Hint Resolve fine_param_control_point : fine.

Lemma okay_param_control_point : forall (value_type : Z) (o : param_control_point), param_control_point_got value_type o -> param_control_point_ok o.
Proof.
  intros. unfold param_control_point_got, param_control_point_ok in *. fine.
Qed.
#[export] Hint Resolve okay_param_control_point : fine.

Lemma fine_param_clip : forall (o : param_clip), param_clip_got o -> steady (cpnt_edit_rate (clip_component (prcl_clip o))) -> param_clip_fits own o.
Proof.
  intros. unfold param_clip_got, param_clip_fits in *. fine.
Qed.
#[export] Hint Resolve fine_param_clip : fine.

Lemma okay_param_clip : forall (o : param_clip), param_clip_got o -> steady (cpnt_edit_rate (clip_component (prcl_clip o))) -> param_clip_ok o.
Proof.
  intros. unfold param_clip_got, param_clip_ok in *. fine.
Qed.
#[export] Hint Resolve okay_param_clip : fine.

Lemma fine_control_point_property : forall (o : control_point_property), control_point_property_got o -> control_point_property_fits own o.
Proof.
  intros. unfold control_point_property_got, control_point_property_fits in *. fine.
Qed.
#[export] Hint Resolve fine_control_point_property : fine.

Lemma okay_control_point_property : forall (o : control_point_property), control_point_property_got o -> control_point_property_ok o.
Proof.
  intros. unfold control_point_property_got, control_point_property_ok in *. fine.
Qed.
#[export] Hint Resolve okay_control_point_property : fine.

Lemma fine_control_point : forall (o : control_point), control_point_got o -> control_point_fits own o.
Proof.
  intros. unfold control_point_got, control_point_fits in *. fine.
Qed.
#[export] Hint Resolve fine_control_point : fine.

Lemma okay_control_point : forall (o : control_point), control_point_got o -> control_point_ok o.
Proof.
  intros. unfold control_point_got, control_point_ok in *. fine.
Qed.
#[export] Hint Resolve okay_control_point : fine.

Lemma fine_control_clip : forall (o : control_clip), control_clip_got o -> steady (cpnt_edit_rate (clip_component (ctrl_clip o))) -> control_clip_fits own o.
Proof.
  intros. unfold control_clip_got, control_clip_fits in *. fine.
Qed.
#[export] Hint Resolve fine_control_clip : fine.

Lemma okay_control_clip : forall (o : control_clip), control_clip_got o -> steady (cpnt_edit_rate (clip_component (ctrl_clip o))) -> control_clip_ok o.
Proof.
  intros. unfold control_clip_got, control_clip_ok in *. fine.
Qed.
#[export] Hint Resolve okay_control_clip : fine.

Lemma fine_filler : forall (o : filler), filler_got o -> steady (cpnt_edit_rate (clip_component (fill_clip o))) -> filler_fits own o.
Proof.
  intros. unfold filler_got, filler_fits in *. fine.
Qed.
#[export] Hint Resolve fine_filler : fine.

Lemma okay_filler : forall (o : filler), filler_got o -> steady (cpnt_edit_rate (clip_component (fill_clip o))) -> filler_ok o.
Proof.
  intros. unfold filler_got, filler_ok in *. fine.
Qed.
#[export] Hint Resolve okay_filler : fine.

Lemma fine_track : forall (t : track), track_got t -> track_fits own t.
Proof.
  intros. unfold track_got, track_fits in *. fine.
Qed.
#[export] Hint Resolve fine_track : fine.

Lemma okay_track : forall (t : track), track_got t -> track_ok t.
Proof.
  intros. unfold track_got, track_ok in *. fine.
Qed.
#[export] Hint Resolve okay_track : fine.

Lemma fine_lock : forall (t : track), lock_got t -> lock_fits own t.
Proof.
  intros. unfold lock_got, lock_fits in *. fine.
Qed.
#[export] Hint Resolve fine_lock : fine.

Lemma fine_track_group : forall (o : track_group), track_group_got o -> steady (cpnt_edit_rate (trkg_component o)) -> track_group_fits own o.
Proof.
  intros. unfold track_group_got, track_group_fits in *. fine.
Qed.
#[export] Hint Resolve fine_track_group : fine.

Lemma okay_track_group : forall (o : track_group), track_group_got o -> steady (cpnt_edit_rate (trkg_component o)) -> track_group_ok o.
Proof.
  intros. unfold track_group_got, track_group_ok in *. fine.
Qed.
#[export] Hint Resolve okay_track_group : fine.

Lemma fine_track_effect_base : forall (o : track_effect), track_effect_base_got o -> steady (cpnt_edit_rate (trkg_component (tkfx_group o))) -> track_effect_base_fits own o.
Proof.
  intros. unfold track_effect_base_got, track_effect_base_fits in *. fine.
Qed.
#[export] Hint Resolve fine_track_effect_base : fine.

Lemma okay_track_effect : forall (o : track_effect), track_effect_base_got o -> steady (cpnt_edit_rate (trkg_component (tkfx_group o))) -> track_effect_ok o.
Proof.
  intros. unfold track_effect_base_got, track_effect_ok in *. fine.
Qed.
#[export] Hint Resolve okay_track_effect : fine.

Lemma fine_track_effect : forall (o : track_effect), track_effect_got o -> steady (cpnt_edit_rate (trkg_component (tkfx_group o))) -> track_effect_fits own o.
Proof.
  intros. unfold track_effect_got, track_effect_fits in *. fine.
Qed.
#[export] Hint Resolve fine_track_effect : fine.

Lemma fine_pan_volume_effect : forall (o : pan_volume_effect), pan_volume_effect_got o -> steady (cpnt_edit_rate (trkg_component (tkfx_group (pvol_effect o)))) -> pan_volume_effect_fits own o.
Proof.
  intros. unfold pan_volume_effect_got, pan_volume_effect_fits in *. fine.
Qed.
#[export] Hint Resolve fine_pan_volume_effect : fine.

Lemma okay_pan_volume_effect : forall (o : pan_volume_effect), pan_volume_effect_got o -> steady (cpnt_edit_rate (trkg_component (tkfx_group (pvol_effect o)))) -> pan_volume_effect_ok o.
Proof.
  intros. unfold pan_volume_effect_got, pan_volume_effect_ok in *. fine.
Qed.
#[export] Hint Resolve okay_pan_volume_effect : fine.

Lemma fine_aspi_chunk : forall (o : aspi_chunk), aspi_chunk_got o -> aspi_chunk_fits own o.
Proof.
  intros. unfold aspi_chunk_got, aspi_chunk_fits in *. fine.
Qed.
#[export] Hint Resolve fine_aspi_chunk : fine.

Lemma okay_aspi_chunk : forall (o : aspi_chunk), aspi_chunk_got o -> aspi_chunk_ok o.
Proof.
  intros. unfold aspi_chunk_got, aspi_chunk_ok in *. fine.
Qed.
#[export] Hint Resolve okay_aspi_chunk : fine.

Lemma fine_aspi_plugin : forall (o : aspi_plugin), aspi_plugin_got o -> aspi_plugin_fits own o.
Proof.
  intros. unfold aspi_plugin_got, aspi_plugin_fits in *. fine.
Qed.
#[export] Hint Resolve fine_aspi_plugin : fine.

Lemma okay_aspi_plugin : forall (o : aspi_plugin), aspi_plugin_got o -> aspi_plugin_ok o.
Proof.
  intros. unfold aspi_plugin_got, aspi_plugin_ok in *. fine.
Qed.
#[export] Hint Resolve okay_aspi_plugin : fine.

Lemma fine_preset_path : forall (v : bytes), preset_path_got v -> preset_path_fits own v.
Proof.
  intros. unfold preset_path_got, preset_path_fits in *. fine.
Qed.
#[export] Hint Resolve fine_preset_path : fine.

Lemma mob_words_range : forall m, mobid_wf m -> 0 <= mob_lo m /\ 0 <= mob_hi m.
Proof.
  intros m Hm. apply material_wf in Hm as [Hl Hb]. unfold mob_lo, mob_hi, time_low, time_mid, time_hi_version.
  pose proof (dec_range_le BE 4 0 4 _ Hb ltac:(lia) ltac:(lia) eq_refl).
  pose proof (dec_range_le BE 2 4 6 _ Hb ltac:(lia) ltac:(lia) eq_refl).
  pose proof (dec_range_le BE 2 6 8 _ Hb ltac:(lia) ltac:(lia) eq_refl).
  rewrite Z.shiftl_mul_pow2 by lia. lia.
Qed.

Lemma fine_audio_suite_effect : forall (o : audio_suite_effect), audio_suite_effect_got o -> steady (cpnt_edit_rate (trkg_component (tkfx_group (aspi_effect o)))) -> opt_ok (fun m => mob_lo m < 2 ^ 31 /\ mob_hi m < 2 ^ 31) (aspi_mob_id o) -> audio_suite_effect_fits own o.
Proof.
  intros. unfold audio_suite_effect_got, audio_suite_effect_fits in *. fine.
  match goal with H : opt_ok mobid_wf _, H' : opt_ok _ (aspi_mob_id o) |- _ => refine (opt_map2 _ _ _ _ _ _ H H') end.
  intros m Hm [A B]. destruct (mob_words_range m Hm). split; fine_num.
Qed.
#[export] Hint Resolve fine_audio_suite_effect : fine.

Lemma okay_audio_suite_effect : forall (o : audio_suite_effect), audio_suite_effect_got o -> steady (cpnt_edit_rate (trkg_component (tkfx_group (aspi_effect o)))) -> opt_ok (fun m => mob_lo m < 2 ^ 31 /\ mob_hi m < 2 ^ 31) (aspi_mob_id o) -> audio_suite_effect_ok o.
Proof.
  intros. unfold audio_suite_effect_got, audio_suite_effect_ok in *. fine.
Qed.
#[export] Hint Resolve okay_audio_suite_effect : fine.

Lemma fine_equalizer_band : forall (o : equalizer_band), equalizer_band_got o -> equalizer_band_fits own o.
Proof.
  intros. unfold equalizer_band_got, equalizer_band_fits in *. fine.
Qed.
#[export] Hint Resolve fine_equalizer_band : fine.

Lemma okay_equalizer_band : forall (o : equalizer_band), equalizer_band_got o -> equalizer_band_ok o.
Proof.
  intros. unfold equalizer_band_got, equalizer_band_ok in *. fine.
Qed.
#[export] Hint Resolve okay_equalizer_band : fine.

Lemma fine_equalizer_multi_band : forall (o : equalizer_multi_band), equalizer_multi_band_got o -> steady (cpnt_edit_rate (trkg_component (tkfx_group (eqmb_effect o)))) -> equalizer_multi_band_fits own o.
Proof.
  intros. unfold equalizer_multi_band_got, equalizer_multi_band_fits in *. fine.
Qed.
#[export] Hint Resolve fine_equalizer_multi_band : fine.

Lemma okay_equalizer_multi_band : forall (o : equalizer_multi_band), equalizer_multi_band_got o -> steady (cpnt_edit_rate (trkg_component (tkfx_group (eqmb_effect o)))) -> equalizer_multi_band_ok o.
Proof.
  intros. unfold equalizer_multi_band_got, equalizer_multi_band_ok in *. fine.
Qed.
#[export] Hint Resolve okay_equalizer_multi_band : fine.

Lemma fine_time_warp : forall (o : time_warp), time_warp_got o -> steady (cpnt_edit_rate (trkg_component (warp_group o))) -> time_warp_fits own o.
Proof.
  intros. unfold time_warp_got, time_warp_fits in *. fine.
Qed.
#[export] Hint Resolve fine_time_warp : fine.

Lemma okay_time_warp : forall (o : time_warp), time_warp_got o -> steady (cpnt_edit_rate (trkg_component (warp_group o))) -> time_warp_ok o.
Proof.
  intros. unfold time_warp_got, time_warp_ok in *. fine.
Qed.
#[export] Hint Resolve okay_time_warp : fine.

Lemma fine_capture_mask : forall (o : capture_mask), capture_mask_got o -> steady (cpnt_edit_rate (trkg_component (warp_group (mask_warp o)))) -> capture_mask_fits own o.
Proof.
  intros. unfold capture_mask_got, capture_mask_fits in *. fine.
Qed.
#[export] Hint Resolve fine_capture_mask : fine.

Lemma okay_capture_mask : forall (o : capture_mask), capture_mask_got o -> steady (cpnt_edit_rate (trkg_component (warp_group (mask_warp o)))) -> capture_mask_ok o.
Proof.
  intros. unfold capture_mask_got, capture_mask_ok in *. fine.
Qed.
#[export] Hint Resolve okay_capture_mask : fine.

Lemma fine_strobe_effect : forall (o : strobe_effect), strobe_effect_got o -> steady (cpnt_edit_rate (trkg_component (warp_group (strb_warp o)))) -> strobe_effect_fits own o.
Proof.
  intros. unfold strobe_effect_got, strobe_effect_fits in *. fine.
Qed.
#[export] Hint Resolve fine_strobe_effect : fine.

Lemma okay_strobe_effect : forall (o : strobe_effect), strobe_effect_got o -> steady (cpnt_edit_rate (trkg_component (warp_group (strb_warp o)))) -> strobe_effect_ok o.
Proof.
  intros. unfold strobe_effect_got, strobe_effect_ok in *. fine.
Qed.
#[export] Hint Resolve okay_strobe_effect : fine.

Lemma fine_motion_effect : forall (o : motion_effect), motion_effect_got o -> steady (cpnt_edit_rate (trkg_component (warp_group (sped_warp o)))) -> motion_effect_fits own o.
Proof.
  intros. unfold motion_effect_got, motion_effect_fits in *. fine.
Qed.
#[export] Hint Resolve fine_motion_effect : fine.

Lemma okay_motion_effect : forall (o : motion_effect), motion_effect_got o -> steady (cpnt_edit_rate (trkg_component (warp_group (sped_warp o)))) -> motion_effect_ok o.
Proof.
  intros. unfold motion_effect_got, motion_effect_ok in *. fine.
Qed.
#[export] Hint Resolve okay_motion_effect : fine.

Lemma fine_repeat_effect : forall (o : repeat_effect), repeat_effect_got o -> steady (cpnt_edit_rate (trkg_component (warp_group (rept_warp o)))) -> repeat_effect_fits own o.
Proof.
  intros. unfold repeat_effect_got, repeat_effect_fits in *. fine.
Qed.
#[export] Hint Resolve fine_repeat_effect : fine.

Lemma okay_repeat_effect : forall (o : repeat_effect), repeat_effect_got o -> steady (cpnt_edit_rate (trkg_component (warp_group (rept_warp o)))) -> repeat_effect_ok o.
Proof.
  intros. unfold repeat_effect_got, repeat_effect_ok in *. fine.
Qed.
#[export] Hint Resolve okay_repeat_effect : fine.

Lemma fine_essence_group : forall (o : essence_group), essence_group_got o -> steady (cpnt_edit_rate (trkg_component (rset_group o))) -> essence_group_fits own o.
Proof.
  intros. unfold essence_group_got, essence_group_fits in *. fine.
Qed.
#[export] Hint Resolve fine_essence_group : fine.

Lemma okay_essence_group : forall (o : essence_group), essence_group_got o -> steady (cpnt_edit_rate (trkg_component (rset_group o))) -> essence_group_ok o.
Proof.
  intros. unfold essence_group_got, essence_group_ok in *. fine.
Qed.
#[export] Hint Resolve okay_essence_group : fine.

Lemma fine_transition_effect : forall (o : transition_effect), transition_effect_got o -> steady (cpnt_edit_rate (trkg_component (tnfx_group o))) -> transition_effect_fits own o.
Proof.
  intros. unfold transition_effect_got, transition_effect_fits in *. fine.
Qed.
#[export] Hint Resolve fine_transition_effect : fine.

Lemma okay_transition_effect : forall (o : transition_effect), transition_effect_got o -> steady (cpnt_edit_rate (trkg_component (tnfx_group o))) -> transition_effect_ok o.
Proof.
  intros. unfold transition_effect_got, transition_effect_ok in *. fine.
Qed.
#[export] Hint Resolve okay_transition_effect : fine.

Lemma fine_selector : forall (o : selector), selector_got o -> steady (cpnt_edit_rate (trkg_component (slct_group o))) -> selector_fits own o.
Proof.
  intros. unfold selector_got, selector_fits in *. fine.
Qed.
#[export] Hint Resolve fine_selector : fine.

Lemma okay_selector : forall (o : selector), selector_got o -> steady (cpnt_edit_rate (trkg_component (slct_group o))) -> selector_ok o.
Proof.
  intros. unfold selector_got, selector_ok in *. fine.
Qed.
#[export] Hint Resolve okay_selector : fine.

Lemma fine_composition : forall (o : composition), composition_got o -> steady (cpnt_edit_rate (trkg_component (cmpo_group o))) -> cmpo_mob_id o <> None -> composition_fits own o.
Proof.
  intros. unfold composition_got, composition_fits in *. fine.
Qed.
#[export] Hint Resolve fine_composition : fine.

Lemma okay_composition : forall (o : composition), composition_got o -> steady (cpnt_edit_rate (trkg_component (cmpo_group o))) -> cmpo_mob_id o <> None -> composition_ok o.
Proof.
  intros. unfold composition_got, composition_ok in *. fine.
Qed.
#[export] Hint Resolve okay_composition : fine.

Lemma fine_file_locator : forall (o : file_locator), file_locator_got o -> opt_ok roomy (file_path_utf8 o) -> opt_ok roomy (file_path2_utf8 o) -> file_locator_fits own o.
Proof.
  intros. unfold file_locator_got, file_locator_fits in *. fine.
Qed.
#[export] Hint Resolve fine_file_locator : fine.

Lemma okay_file_locator : forall (o : file_locator), file_locator_got o -> opt_ok roomy (file_path_utf8 o) -> opt_ok roomy (file_path2_utf8 o) -> file_locator_ok o.
Proof.
  intros. unfold file_locator_got, file_locator_ok in *. fine.
Qed.
#[export] Hint Resolve okay_file_locator : fine.

Lemma fine_url_locator : forall (o : url_locator), url_locator_got o -> url_locator_fits own o.
Proof.
  intros. unfold url_locator_got, url_locator_fits in *. fine.
Qed.
#[export] Hint Resolve fine_url_locator : fine.

Lemma okay_url_locator : forall (o : url_locator), url_locator_got o -> url_locator_ok o.
Proof.
  intros. unfold url_locator_got, url_locator_ok in *. fine.
Qed.
#[export] Hint Resolve okay_url_locator : fine.

Lemma fine_graphic_effect : forall (o : graphic_effect), graphic_effect_got o -> graphic_effect_fits own o.
Proof.
  intros. unfold graphic_effect_got, graphic_effect_fits in *. fine.
Qed.
#[export] Hint Resolve fine_graphic_effect : fine.

Lemma okay_graphic_effect : forall (o : graphic_effect), graphic_effect_got o -> graphic_effect_ok o.
Proof.
  intros. unfold graphic_effect_got, graphic_effect_ok in *. fine.
Qed.
#[export] Hint Resolve okay_graphic_effect : fine.

Lemma fine_shape_list : forall (o : shape_list), shape_list_got o -> shape_list_fits own o.
Proof.
  intros. unfold shape_list_got, shape_list_fits in *. fine.
Qed.
#[export] Hint Resolve fine_shape_list : fine.

Lemma okay_shape_list : forall (o : shape_list), shape_list_got o -> shape_list_ok o.
Proof.
  intros. unfold shape_list_got, shape_list_ok in *. fine.
Qed.
#[export] Hint Resolve okay_shape_list : fine.

Lemma fine_color_correction_effect : forall (o : color_correction_effect), color_correction_effect_got o -> color_correction_effect_fits own o.
Proof.
  intros. unfold color_correction_effect_got, color_correction_effect_fits in *. fine.
Qed.
#[export] Hint Resolve fine_color_correction_effect : fine.

Lemma okay_color_correction_effect : forall (o : color_correction_effect), color_correction_effect_got o -> color_correction_effect_ok o.
Proof.
  intros. unfold color_correction_effect_got, color_correction_effect_ok in *. fine.
Qed.
#[export] Hint Resolve okay_color_correction_effect : fine.

Lemma fine_box : forall (v : rect), box_got v -> box_fits own v.
Proof.
  intros. unfold box_got, box_fits in *. fine.
Qed.
#[export] Hint Resolve fine_box : fine.

Lemma fine_effect_param : forall (o : effect_param), effect_param_got o -> effect_param_fits own o.
Proof.
  intros. unfold effect_param_got, effect_param_fits in *. fine.
Qed.
#[export] Hint Resolve fine_effect_param : fine.

Lemma okay_effect_param : forall (o : effect_param), effect_param_got o -> effect_param_ok o.
Proof.
  intros. unfold effect_param_got, effect_param_ok in *. fine.
Qed.
#[export] Hint Resolve okay_effect_param : fine.

Lemma fine_effect_param_list : forall (o : effect_param_list), effect_param_list_got o -> effect_param_list_fits own o.
Proof.
  intros. unfold effect_param_list_got, effect_param_list_fits in *. fine.
Qed.
#[export] Hint Resolve fine_effect_param_list : fine.

Lemma okay_effect_param_list : forall (o : effect_param_list), effect_param_list_got o -> effect_param_list_ok o.
Proof.
  intros. unfold effect_param_list_got, effect_param_list_ok in *. fine.
Qed.
#[export] Hint Resolve okay_effect_param_list : fine.

Lemma fine_cf_user_param : forall (o : cf_user_param), cf_user_param_got o -> cf_user_param_fits own o.
Proof.
  intros. unfold cf_user_param_got, cf_user_param_fits in *. fine.
Qed.
#[export] Hint Resolve fine_cf_user_param : fine.

Lemma okay_cf_user_param : forall (o : cf_user_param), cf_user_param_got o -> cf_user_param_ok o.
Proof.
  intros. unfold cf_user_param_got, cf_user_param_ok in *. fine.
Qed.
#[export] Hint Resolve okay_cf_user_param : fine.

Lemma fine_parameter_item : forall (o : parameter_item), parameter_item_got o -> parameter_item_fits own o.
Proof.
  intros. unfold parameter_item_got, parameter_item_fits in *. fine.
Qed.
#[export] Hint Resolve fine_parameter_item : fine.

Lemma okay_parameter_item : forall (o : parameter_item), parameter_item_got o -> parameter_item_ok o.
Proof.
  intros. unfold parameter_item_got, parameter_item_ok in *. fine.
Qed.
#[export] Hint Resolve okay_parameter_item : fine.

Lemma fine_msm_locator : forall (o : msm_locator), msm_locator_got o -> msml_mob_id o <> None -> opt_ok roomy (msml_last_known_volume_utf8 o) -> msm_locator_fits own o.
Proof.
  intros. unfold msm_locator_got, msm_locator_fits in *. fine.
Qed.
#[export] Hint Resolve fine_msm_locator : fine.

Lemma okay_msm_locator : forall (o : msm_locator), msm_locator_got o -> msml_mob_id o <> None -> opt_ok roomy (msml_last_known_volume_utf8 o) -> msm_locator_ok o.
Proof.
  intros. unfold msm_locator_got, msm_locator_ok in *. fine.
Qed.
#[export] Hint Resolve okay_msm_locator : fine.

Lemma fine_position_base : forall (o : position), position_base_got o -> apos_mob_id o <> None -> position_base_fits own o.
Proof.
  intros. unfold position_base_got, position_base_fits in *. fine.
Qed.
#[export] Hint Resolve fine_position_base : fine.

Lemma okay_position : forall (o : position), position_base_got o -> apos_mob_id o <> None -> position_ok o.
Proof.
  intros. unfold position_base_got, position_ok in *. fine.
Qed.
#[export] Hint Resolve okay_position : fine.

Lemma fine_position : forall (o : position), position_got o -> apos_mob_id o <> None -> position_fits own o.
Proof.
  intros. unfold position_got, position_fits in *. fine.
Qed.
#[export] Hint Resolve fine_position : fine.

Lemma fine_bob_position_base : forall (o : bob_position), bob_position_base_got o -> apos_mob_id (abob_position o) <> None -> bob_position_base_fits own o.
Proof.
  intros. unfold bob_position_base_got, bob_position_base_fits in *. fine.
Qed.
#[export] Hint Resolve fine_bob_position_base : fine.

Lemma okay_bob_position : forall (o : bob_position), bob_position_base_got o -> apos_mob_id (abob_position o) <> None -> bob_position_ok o.
Proof.
  intros. unfold bob_position_base_got, bob_position_ok in *. fine.
Qed.
#[export] Hint Resolve okay_bob_position : fine.

Lemma fine_bob_position : forall (o : bob_position), bob_position_got o -> apos_mob_id (abob_position o) <> None -> bob_position_fits own o.
Proof.
  intros. unfold bob_position_got, bob_position_fits in *. fine.
Qed.
#[export] Hint Resolve fine_bob_position : fine.

Lemma fine_did_position_base : forall (o : did_position), did_position_base_got o -> apos_mob_id (abob_position (didp_bob o)) <> None -> did_position_base_fits own o.
Proof.
  intros. unfold did_position_base_got, did_position_base_fits in *. fine.
Qed.
#[export] Hint Resolve fine_did_position_base : fine.

Lemma okay_did_position : forall (o : did_position), did_position_base_got o -> apos_mob_id (abob_position (didp_bob o)) <> None -> did_position_ok o.
Proof.
  intros. unfold did_position_base_got, did_position_ok in *. fine.
Qed.
#[export] Hint Resolve okay_did_position : fine.

Lemma fine_did_position : forall (o : did_position), did_position_got o -> apos_mob_id (abob_position (didp_bob o)) <> None -> did_position_fits own o.
Proof.
  intros. unfold did_position_got, did_position_fits in *. fine.
Qed.
#[export] Hint Resolve fine_did_position : fine.

Lemma fine_mpg_field : forall (p : Z * Z), mpg_field_got p -> mpg_field_fits own p.
Proof.
  intros. unfold mpg_field_got, mpg_field_fits in *. fine.
Qed.
#[export] Hint Resolve fine_mpg_field : fine.

Lemma fine_mpg_fields : forall (l : list (Z * Z)), mpg_fields_got l -> 2 * len l < 2 ^ 15 -> mpg_fields_fits own l.
Proof.
  intros. unfold mpg_fields_got, mpg_fields_fits in *. fine. pose proof (Zle_0_nat (length l)). unfold len in *. fine_num.
Qed.
#[export] Hint Resolve fine_mpg_fields : fine.

Lemma fine_mpg_position : forall (o : mpg_position), mpg_position_got o -> apos_mob_id (abob_position (didp_bob (mpgp_did o))) <> None -> 2 * len (mpgp_fields o) < 2 ^ 15 -> mpg_position_fits own o.
Proof.
  intros. unfold mpg_position_got, mpg_position_fits in *. fine.
Qed.
#[export] Hint Resolve fine_mpg_position : fine.

Lemma okay_mpg_position : forall (o : mpg_position), mpg_position_got o -> apos_mob_id (abob_position (didp_bob (mpgp_did o))) <> None -> 2 * len (mpgp_fields o) < 2 ^ 15 -> mpg_position_ok o.
Proof.
  intros. unfold mpg_position_got, mpg_position_ok in *. fine.
Qed.
#[export] Hint Resolve okay_mpg_position : fine.

Lemma fine_bin_ref : forall (o : bin_ref), bin_ref_got o -> mcbr_name_utf8 o <> None -> opt_ok roomy (mcbr_name_utf8 o) -> bin_ref_fits own o.
Proof.
  intros. unfold bin_ref_got, bin_ref_fits in *. fine. destruct (mcbr_name_utf8 o); [|congruence].
  cbn [opt_ok] in *. eauto with fine.
Qed.
#[export] Hint Resolve fine_bin_ref : fine.

Lemma okay_bin_ref : forall (o : bin_ref), bin_ref_got o -> mcbr_name_utf8 o <> None -> opt_ok roomy (mcbr_name_utf8 o) -> bin_ref_ok o.
Proof.
  intros. unfold bin_ref_got, bin_ref_ok in *. fine.
Qed.
#[export] Hint Resolve okay_bin_ref : fine.

Lemma fine_mob_ref_base : forall (o : mob_ref), mob_ref_base_got o -> mcmr_mob_id o <> None -> mob_ref_base_fits own o.
Proof.
  intros. unfold mob_ref_base_got, mob_ref_base_fits in *. fine.
Qed.
#[export] Hint Resolve fine_mob_ref_base : fine.

Lemma okay_mob_ref : forall (o : mob_ref), mob_ref_base_got o -> mcmr_mob_id o <> None -> mob_ref_ok o.
Proof.
  intros. unfold mob_ref_base_got, mob_ref_ok in *. fine.
Qed.
#[export] Hint Resolve okay_mob_ref : fine.

Lemma fine_mob_ref : forall (o : mob_ref), mob_ref_got o -> mcmr_mob_id o <> None -> mob_ref_fits own o.
Proof.
  intros. unfold mob_ref_got, mob_ref_fits in *. fine.
Qed.
#[export] Hint Resolve fine_mob_ref : fine.

Lemma fine_marker : forall (o : marker), marker_got o -> mcmr_mob_id (tmbc_mob_ref o) <> None -> marker_fits own o.
Proof.
  intros. unfold marker_got, marker_fits in *. fine.
Qed.
#[export] Hint Resolve fine_marker : fine.

Lemma okay_marker : forall (o : marker), marker_got o -> mcmr_mob_id (tmbc_mob_ref o) <> None -> marker_ok o.
Proof.
  intros. unfold marker_got, marker_ok in *. fine.
Qed.
#[export] Hint Resolve okay_marker : fine.

Lemma fine_tracker_manager : forall (o : tracker_manager), tracker_manager_got o -> tracker_manager_fits own o.
Proof.
  intros. unfold tracker_manager_got, tracker_manager_fits in *. fine.
Qed.
#[export] Hint Resolve fine_tracker_manager : fine.

Lemma okay_tracker_manager : forall (o : tracker_manager), tracker_manager_got o -> tracker_manager_ok o.
Proof.
  intros. unfold tracker_manager_got, tracker_manager_ok in *. fine.
Qed.
#[export] Hint Resolve okay_tracker_manager : fine.

Lemma fine_tracker_data_slot : forall (o : tracker_data_slot), tracker_data_slot_got o -> tracker_data_slot_fits own o.
Proof.
  intros. unfold tracker_data_slot_got, tracker_data_slot_fits in *. fine.
Qed.
#[export] Hint Resolve fine_tracker_data_slot : fine.

Lemma okay_tracker_data_slot : forall (o : tracker_data_slot), tracker_data_slot_got o -> tracker_data_slot_ok o.
Proof.
  intros. unfold tracker_data_slot_got, tracker_data_slot_ok in *. fine.
Qed.
#[export] Hint Resolve okay_tracker_data_slot : fine.

Lemma fine_tracker_parameter_slot : forall (o : tracker_parameter_slot), tracker_parameter_slot_got o -> tracker_parameter_slot_fits own o.
Proof.
  intros. unfold tracker_parameter_slot_got, tracker_parameter_slot_fits in *. fine.
Qed.
#[export] Hint Resolve fine_tracker_parameter_slot : fine.

Lemma okay_tracker_parameter_slot : forall (o : tracker_parameter_slot), tracker_parameter_slot_got o -> tracker_parameter_slot_ok o.
Proof.
  intros. unfold tracker_parameter_slot_got, tracker_parameter_slot_ok in *. fine.
Qed.
#[export] Hint Resolve okay_tracker_parameter_slot : fine.

Lemma fine_tracker_data : forall (o : tracker_data), tracker_data_got o -> tracker_data_fits own o.
Proof.
  intros. unfold tracker_data_got, tracker_data_fits in *. fine.
Qed.
#[export] Hint Resolve fine_tracker_data : fine.

Lemma okay_tracker_data : forall (o : tracker_data), tracker_data_got o -> tracker_data_ok o.
Proof.
  intros. unfold tracker_data_got, tracker_data_ok in *. fine.
Qed.
#[export] Hint Resolve okay_tracker_data : fine.

Lemma fine_tracker_parameter : forall (o : tracker_parameter), tracker_parameter_got o -> tracker_parameter_fits own o.
Proof.
  intros. unfold tracker_parameter_got, tracker_parameter_fits in *. fine.
Qed.
#[export] Hint Resolve fine_tracker_parameter : fine.

Lemma okay_tracker_parameter : forall (o : tracker_parameter), tracker_parameter_got o -> tracker_parameter_ok o.
Proof.
  intros. unfold tracker_parameter_got, tracker_parameter_ok in *. fine.
Qed.
#[export] Hint Resolve okay_tracker_parameter : fine.

Lemma fine_media_descriptor_base : forall (o : media_descriptor), media_descriptor_base_got o -> media_descriptor_base_fits own o.
Proof.
  intros. unfold media_descriptor_base_got, media_descriptor_base_fits in *. fine.
Qed.
#[export] Hint Resolve fine_media_descriptor_base : fine.

Lemma okay_media_descriptor : forall (o : media_descriptor), media_descriptor_base_got o -> media_descriptor_ok o.
Proof.
  intros. unfold media_descriptor_base_got, media_descriptor_ok in *. fine.
Qed.
#[export] Hint Resolve okay_media_descriptor : fine.

Lemma fine_media_descriptor : forall (o : media_descriptor), media_descriptor_got o -> media_descriptor_fits own o.
Proof.
  intros. unfold media_descriptor_got, media_descriptor_fits in *. fine.
Qed.
#[export] Hint Resolve fine_media_descriptor : fine.

Lemma fine_tape_descriptor : forall (o : tape_descriptor), tape_descriptor_got o -> tape_descriptor_fits own o.
Proof.
  intros. unfold tape_descriptor_got, tape_descriptor_fits in *. fine.
Qed.
#[export] Hint Resolve fine_tape_descriptor : fine.

Lemma okay_tape_descriptor : forall (o : tape_descriptor), tape_descriptor_got o -> tape_descriptor_ok o.
Proof.
  intros. unfold tape_descriptor_got, tape_descriptor_ok in *. fine.
Qed.
#[export] Hint Resolve okay_tape_descriptor : fine.

Lemma fine_film_descriptor : forall (o : film_descriptor), film_descriptor_got o -> film_descriptor_fits own o.
Proof.
  intros. unfold film_descriptor_got, film_descriptor_fits in *. fine.
Qed.
#[export] Hint Resolve fine_film_descriptor : fine.

Lemma fine_media_file_descriptor_base : forall (o : media_file_descriptor), media_file_descriptor_base_got o -> steady (mdfl_edit_rate o) -> media_file_descriptor_base_fits own o.
Proof.
  intros. unfold media_file_descriptor_base_got, media_file_descriptor_base_fits in *. fine.
Qed.
#[export] Hint Resolve fine_media_file_descriptor_base : fine.

Lemma okay_media_file_descriptor : forall (o : media_file_descriptor), media_file_descriptor_base_got o -> steady (mdfl_edit_rate o) -> media_file_descriptor_ok o.
Proof.
  intros. unfold media_file_descriptor_base_got, media_file_descriptor_ok in *. fine.
Qed.
#[export] Hint Resolve okay_media_file_descriptor : fine.

Lemma fine_media_file_descriptor : forall (o : media_file_descriptor), media_file_descriptor_got o -> steady (mdfl_edit_rate o) -> media_file_descriptor_fits own o.
Proof.
  intros. unfold media_file_descriptor_got, media_file_descriptor_fits in *. fine.
Qed.
#[export] Hint Resolve fine_media_file_descriptor : fine.

Lemma fine_multi_descriptor : forall (o : multi_descriptor), multi_descriptor_got o -> steady (mdfl_edit_rate (muld_file o)) -> multi_descriptor_fits own o.
Proof.
  intros. unfold multi_descriptor_got, multi_descriptor_fits in *. fine.
Qed.
#[export] Hint Resolve fine_multi_descriptor : fine.

Lemma okay_multi_descriptor : forall (o : multi_descriptor), multi_descriptor_got o -> steady (mdfl_edit_rate (muld_file o)) -> multi_descriptor_ok o.
Proof.
  intros. unfold multi_descriptor_got, multi_descriptor_ok in *. fine.
Qed.
#[export] Hint Resolve okay_multi_descriptor : fine.

Lemma fine_wave_descriptor : forall (o : wave_descriptor), wave_descriptor_got o -> steady (mdfl_edit_rate (wave_file o)) -> wave_descriptor_fits own o.
Proof.
  intros. unfold wave_descriptor_got, wave_descriptor_fits in *. fine.
Qed.
#[export] Hint Resolve fine_wave_descriptor : fine.

Lemma okay_wave_descriptor : forall (o : wave_descriptor), wave_descriptor_got o -> steady (mdfl_edit_rate (wave_file o)) -> wave_descriptor_ok o.
Proof.
  intros. unfold wave_descriptor_got, wave_descriptor_ok in *. fine.
Qed.
#[export] Hint Resolve okay_wave_descriptor : fine.

Lemma fine_aifc_descriptor : forall (o : aifc_descriptor), aifc_descriptor_got o -> steady (mdfl_edit_rate (aifc_file o)) -> aifc_descriptor_fits own o.
Proof.
  intros. unfold aifc_descriptor_got, aifc_descriptor_fits in *. fine.
Qed.
#[export] Hint Resolve fine_aifc_descriptor : fine.

Lemma okay_aifc_descriptor : forall (o : aifc_descriptor), aifc_descriptor_got o -> steady (mdfl_edit_rate (aifc_file o)) -> aifc_descriptor_ok o.
Proof.
  intros. unfold aifc_descriptor_got, aifc_descriptor_ok in *. fine.
Qed.
#[export] Hint Resolve okay_aifc_descriptor : fine.

Lemma fine_pcma_descriptor : forall (o : pcma_descriptor), pcma_descriptor_got o -> steady (mdfl_edit_rate (pcma_file o)) -> steady (pcma_sample_rate o) -> pcma_descriptor_fits own o.
Proof.
  intros. unfold pcma_descriptor_got, pcma_descriptor_fits in *. fine.
Qed.
#[export] Hint Resolve fine_pcma_descriptor : fine.

Lemma okay_pcma_descriptor : forall (o : pcma_descriptor), pcma_descriptor_got o -> steady (mdfl_edit_rate (pcma_file o)) -> steady (pcma_sample_rate o) -> pcma_descriptor_ok o.
Proof.
  intros. unfold pcma_descriptor_got, pcma_descriptor_ok in *. fine.
Qed.
#[export] Hint Resolve okay_pcma_descriptor : fine.

Lemma fine_mpga_descriptor : forall (o : mpga_descriptor), mpga_descriptor_got o -> steady (mdfl_edit_rate (mpga_file o)) -> steady (mpga_sample_rate o) -> opt_ok (fun n => n < 2 ^ 63) (mpga_sub_frame_alignment o) -> mpga_descriptor_fits own o.
Proof.
  intros. unfold mpga_descriptor_got, mpga_descriptor_fits in *. fine.
Qed.
#[export] Hint Resolve fine_mpga_descriptor : fine.

Lemma okay_mpga_descriptor : forall (o : mpga_descriptor), mpga_descriptor_got o -> steady (mdfl_edit_rate (mpga_file o)) -> steady (mpga_sample_rate o) -> opt_ok (fun n => n < 2 ^ 63) (mpga_sub_frame_alignment o) -> mpga_descriptor_ok o.
Proof.
  intros. unfold mpga_descriptor_got, mpga_descriptor_ok in *. fine.
Qed.
#[export] Hint Resolve okay_mpga_descriptor : fine.

Lemma fine_point : forall (x y : Z), point_got x y -> point_fits own x y.
Proof.
  intros. unfold point_got, point_fits in *. fine.
Qed.
#[export] Hint Resolve fine_point : fine.

Lemma fine_bounds_box : forall (b : bounds_box), bounds_box_got b -> bounds_box_fits own b.
Proof.
  intros. unfold bounds_box_got, bounds_box_fits in *. fine.
Qed.
#[export] Hint Resolve fine_bounds_box : fine.

Lemma fine_client_fill : forall (s e : option Z), client_fill_got s e -> client_fill_fits own s e.
Proof.
  intros. unfold client_fill_got, client_fill_fits in *. fine.
Qed.
#[export] Hint Resolve fine_client_fill : fine.

Lemma fine_boxes : forall (va es so : option bounds_box), boxes_got va es so -> boxes_fits own va es so.
Proof.
  intros. unfold boxes_got, boxes_fits in *. fine.
Qed.
#[export] Hint Resolve fine_boxes : fine.

Lemma fine_framing : forall (fb : option bounds_box) (ro : option Z), framing_got fb ro -> framing_fits own fb ro.
Proof.
  intros. unfold framing_got, framing_fits in *. fine.
Qed.
#[export] Hint Resolve fine_framing : fine.

Lemma fine_color : forall (cp ce : option uuid), color_got cp ce -> color_fits own cp ce.
Proof.
  intros. unfold color_got, color_fits in *. fine.
Qed.
#[export] Hint Resolve fine_color : fine.

Lemma fine_line_map : forall (l : list Z), line_map_got l -> line_map_fits own l.
Proof.
  intros. unfold line_map_got, line_map_fits in *. fine.
Qed.
#[export] Hint Resolve fine_line_map : fine.

Lemma fine_did_descriptor_base : forall (o : did_descriptor), did_descriptor_base_got o -> steady (mdfl_edit_rate (didd_file o)) -> did_descriptor_base_fits own o.
Proof.
  intros. unfold did_descriptor_base_got, did_descriptor_base_fits in *. fine.
Qed.
#[export] Hint Resolve fine_did_descriptor_base : fine.

Lemma okay_did_descriptor : forall (o : did_descriptor), did_descriptor_base_got o -> steady (mdfl_edit_rate (didd_file o)) -> did_descriptor_ok o.
Proof.
  intros. unfold did_descriptor_base_got, did_descriptor_ok in *. fine.
Qed.
#[export] Hint Resolve okay_did_descriptor : fine.

Lemma fine_did_descriptor : forall (o : did_descriptor), did_descriptor_got o -> steady (mdfl_edit_rate (didd_file o)) -> did_descriptor_fits own o.
Proof.
  intros. unfold did_descriptor_got, did_descriptor_fits in *. fine.
Qed.
#[export] Hint Resolve fine_did_descriptor : fine.

Lemma fine_cdci_descriptor_base : forall (o : cdci_descriptor), cdci_descriptor_base_got o -> steady (mdfl_edit_rate (didd_file (cdci_did o))) -> cdci_descriptor_base_fits own o.
Proof.
  intros. unfold cdci_descriptor_base_got, cdci_descriptor_base_fits in *. fine.
Qed.
#[export] Hint Resolve fine_cdci_descriptor_base : fine.

Lemma okay_cdci_descriptor : forall (o : cdci_descriptor), cdci_descriptor_base_got o -> steady (mdfl_edit_rate (didd_file (cdci_did o))) -> cdci_descriptor_ok o.
Proof.
  intros. unfold cdci_descriptor_base_got, cdci_descriptor_ok in *. fine.
Qed.
#[export] Hint Resolve okay_cdci_descriptor : fine.

Lemma fine_cdci_descriptor : forall (o : cdci_descriptor), cdci_descriptor_got o -> steady (mdfl_edit_rate (didd_file (cdci_did o))) -> cdci_descriptor_fits own o.
Proof.
  intros. unfold cdci_descriptor_got, cdci_descriptor_fits in *. fine.
Qed.
#[export] Hint Resolve fine_cdci_descriptor : fine.

Lemma fine_mpgi_descriptor : forall (o : mpgi_descriptor), mpgi_descriptor_got o -> steady (mdfl_edit_rate (didd_file (cdci_did (mpgi_cdci o)))) -> mpgi_descriptor_fits own o.
Proof.
  intros. unfold mpgi_descriptor_got, mpgi_descriptor_fits in *. fine.
Qed.
#[export] Hint Resolve fine_mpgi_descriptor : fine.

Lemma okay_mpgi_descriptor : forall (o : mpgi_descriptor), mpgi_descriptor_got o -> steady (mdfl_edit_rate (didd_file (cdci_did (mpgi_cdci o)))) -> mpgi_descriptor_ok o.
Proof.
  intros. unfold mpgi_descriptor_got, mpgi_descriptor_ok in *. fine.
Qed.
#[export] Hint Resolve okay_mpgi_descriptor : fine.

Lemma fine_jped_descriptor : forall (o : jped_descriptor), jped_descriptor_got o -> steady (mdfl_edit_rate (didd_file (cdci_did (jped_cdci o)))) -> jped_descriptor_fits own o.
Proof.
  intros. unfold jped_descriptor_got, jped_descriptor_fits in *. fine.
Qed.
#[export] Hint Resolve fine_jped_descriptor : fine.

Lemma okay_jped_descriptor : forall (o : jped_descriptor), jped_descriptor_got o -> steady (mdfl_edit_rate (didd_file (cdci_did (jped_cdci o)))) -> jped_descriptor_ok o.
Proof.
  intros. unfold jped_descriptor_got, jped_descriptor_ok in *. fine.
Qed.
#[export] Hint Resolve okay_jped_descriptor : fine.

Lemma fine_pixel_layout : forall (l : list (Z * Z)), pixel_layout_got l -> pixel_layout_fits own l.
Proof.
  intros. unfold pixel_layout_got, pixel_layout_fits in *. fine.
Qed.
#[export] Hint Resolve fine_pixel_layout : fine.

Lemma fine_comp_refs : forall (o : rgba_descriptor), comp_refs_got o -> comp_refs_fits own o.
Proof.
  intros. unfold comp_refs_got, comp_refs_fits in *. fine.
Qed.
#[export] Hint Resolve fine_comp_refs : fine.

Lemma fine_alpha_refs : forall (o : rgba_descriptor), alpha_refs_got o -> alpha_refs_fits own o.
Proof.
  intros. unfold alpha_refs_got, alpha_refs_fits in *. fine.
Qed.
#[export] Hint Resolve fine_alpha_refs : fine.

Lemma fine_rgba_descriptor : forall (o : rgba_descriptor), rgba_descriptor_got o -> steady (mdfl_edit_rate (didd_file (rgba_did o))) -> rgba_descriptor_fits own o.
Proof.
  intros. unfold rgba_descriptor_got, rgba_descriptor_fits in *. fine.
Qed.
#[export] Hint Resolve fine_rgba_descriptor : fine.

Lemma okay_rgba_descriptor : forall (o : rgba_descriptor), rgba_descriptor_got o -> steady (mdfl_edit_rate (didd_file (rgba_did o))) -> rgba_descriptor_ok o.
Proof.
  intros. unfold rgba_descriptor_got, rgba_descriptor_ok in *. fine.
Qed.
#[export] Hint Resolve okay_rgba_descriptor : fine.

Lemma fine_data_descriptor : forall (o : data_descriptor), data_descriptor_got o -> steady (mdfl_edit_rate (datd_file o)) -> data_descriptor_fits own o.
Proof.
  intros. unfold data_descriptor_got, data_descriptor_fits in *. fine.
Qed.
#[export] Hint Resolve fine_data_descriptor : fine.

Lemma okay_data_descriptor : forall (o : data_descriptor), data_descriptor_got o -> steady (mdfl_edit_rate (datd_file o)) -> data_descriptor_ok o.
Proof.
  intros. unfold data_descriptor_got, data_descriptor_ok in *. fine.
Qed.
#[export] Hint Resolve okay_data_descriptor : fine.

Lemma fine_anc_data_descriptor : forall (o : anc_data_descriptor), anc_data_descriptor_got o -> steady (mdfl_edit_rate (datd_file (ancd_data o))) -> anc_data_descriptor_fits own o.
Proof.
  intros. unfold anc_data_descriptor_got, anc_data_descriptor_fits in *. fine.
Qed.
#[export] Hint Resolve fine_anc_data_descriptor : fine.

Lemma okay_anc_data_descriptor : forall (o : anc_data_descriptor), anc_data_descriptor_got o -> steady (mdfl_edit_rate (datd_file (ancd_data o))) -> anc_data_descriptor_ok o.
Proof.
  intros. unfold anc_data_descriptor_got, anc_data_descriptor_ok in *. fine.
Qed.
#[export] Hint Resolve okay_anc_data_descriptor : fine.

Lemma fine_setting : forall (o : setting), setting_got o -> setting_fits own o.
Proof.
  intros. unfold setting_got, setting_fits in *. fine.
Qed.
#[export] Hint Resolve fine_setting : fine.

Lemma okay_setting : forall (o : setting), setting_got o -> setting_ok o.
Proof.
  intros. unfold setting_got, setting_ok in *. fine.
Qed.
#[export] Hint Resolve okay_setting : fine.

Lemma fine_bin_column : forall (o : bin_column), bin_column_got o -> bin_column_fits own o.
Proof.
  intros. unfold bin_column_got, bin_column_fits in *. fine.
Qed.
#[export] Hint Resolve fine_bin_column : fine.

Lemma okay_bin_column : forall (o : bin_column), bin_column_got o -> bin_column_ok o.
Proof.
  intros. unfold bin_column_got, bin_column_ok in *. fine.
Qed.
#[export] Hint Resolve okay_bin_column : fine.

Lemma fine_format_desc : forall (o : format_desc), format_desc_got o -> utf8_size (fdsc_format_descriptor o) <= 32765 -> format_desc_fits own o.
Proof.
  intros. unfold format_desc_got, format_desc_fits in *. fine.
Qed.
#[export] Hint Resolve fine_format_desc : fine.

Lemma okay_format_desc : forall (o : format_desc), format_desc_got o -> utf8_size (fdsc_format_descriptor o) <= 32765 -> format_desc_ok o.
Proof.
  intros. unfold format_desc_got, format_desc_ok in *. fine.
Qed.
#[export] Hint Resolve okay_format_desc : fine.

Lemma fine_format_descs : forall (l : list format_desc), format_descs_got l -> Forall (fun d => utf8_size (fdsc_format_descriptor d) <= 32765) l -> format_descs_fits own l.
Proof.
  intros. unfold format_descs_got, format_descs_fits in *. fine.
Qed.
#[export] Hint Resolve fine_format_descs : fine.

Lemma fine_bin_view_setting : forall (o : bin_view_setting), bin_view_setting_got o -> opt_ok (Forall (fun d => utf8_size (fdsc_format_descriptor d) <= 32765)) (bvst_format_descriptors o) -> bin_view_setting_fits own o.
Proof.
  intros. unfold bin_view_setting_got, bin_view_setting_fits in *. fine.
Qed.
#[export] Hint Resolve fine_bin_view_setting : fine.

Lemma okay_bin_view_setting : forall (o : bin_view_setting), bin_view_setting_got o -> opt_ok (Forall (fun d => utf8_size (fdsc_format_descriptor d) <= 32765)) (bvst_format_descriptors o) -> bin_view_setting_ok o.
Proof.
  intros. unfold bin_view_setting_got, bin_view_setting_ok in *. fine.
  match goal with H : opt_ok format_descs_got _ |- _ => refine (opt_map _ _ _ _ _ H) end.
  intros l [_ A]. refine (Forall_impl _ _ A). intros; exact I.
Qed.
#[export] Hint Resolve okay_bin_view_setting : fine.

Lemma fine_bin_item : forall (o : bin_item), bin_item_got o -> bin_item_fits own o.
Proof.
  intros. unfold bin_item_got, bin_item_fits in *. fine.
Qed.
#[export] Hint Resolve fine_bin_item : fine.

Lemma okay_bin_item : forall (o : bin_item), bin_item_got o -> bin_item_ok o.
Proof.
  intros. unfold bin_item_got, bin_item_ok in *. fine.
Qed.
#[export] Hint Resolve okay_bin_item : fine.

Lemma fine_sift_item : forall (o : sift_item), sift_item_got o -> sift_item_fits own o.
Proof.
  intros. unfold sift_item_got, sift_item_fits in *. fine.
Qed.
#[export] Hint Resolve fine_sift_item : fine.

Lemma okay_sift_item : forall (o : sift_item), sift_item_got o -> sift_item_ok o.
Proof.
  intros. unfold sift_item_got, sift_item_ok in *. fine.
Qed.
#[export] Hint Resolve okay_sift_item : fine.

Lemma fine_sort_column : forall (o : sort_column), sort_column_got o -> sort_column_fits own o.
Proof.
  intros. unfold sort_column_got, sort_column_fits in *. fine.
Qed.
#[export] Hint Resolve fine_sort_column : fine.

Lemma okay_sort_column : forall (o : sort_column), sort_column_got o -> sort_column_ok o.
Proof.
  intros. unfold sort_column_got, sort_column_ok in *. fine.
Qed.
#[export] Hint Resolve okay_sort_column : fine.

Lemma fine_object_count : forall (o : bin), object_count_got o -> object_count_fits own o.
Proof.
  intros. unfold object_count_got, object_count_fits in *. fine.
Qed.
#[export] Hint Resolve fine_object_count : fine.

Lemma fine_bin_base : forall (o : bin), bin_base_got o -> bin_base_fits own o.
Proof.
  intros. unfold bin_base_got, bin_base_fits in *. fine.
Qed.
#[export] Hint Resolve fine_bin_base : fine.

Lemma okay_bin : forall (o : bin), bin_base_got o -> bin_ok o.
Proof.
  intros. unfold bin_base_got, bin_ok in *. fine.
Qed.
#[export] Hint Resolve okay_bin : fine.

Lemma fine_bin : forall (o : bin), bin_got o -> bin_fits own o.
Proof.
  intros. unfold bin_got, bin_fits in *. fine.
Qed.
#[export] Hint Resolve fine_bin : fine.

Lemma fine_bin_first : forall (o : bin_first), bin_first_got o -> bin_first_fits own o.
Proof.
  intros. unfold bin_first_got, bin_first_fits in *. fine.
Qed.
#[export] Hint Resolve fine_bin_first : fine.

Lemma okay_bin_first : forall (o : bin_first), bin_first_got o -> bin_first_ok o.
Proof.
  intros. unfold bin_first_got, bin_first_ok in *. fine.
Qed.
#[export] Hint Resolve okay_bin_first : fine.

(** ** All classes *)

Lemma read_keeps : forall i k,
  res (fun v => keeps_of k v -> closes k = true /\ ok_of k v /\ fits_of k own v) (C_read (class_of k) i).
Proof.
  intros i k. destruct k; cbn [class_of C_read C_type keeps_of ok_of fits_of closes];
    first [ solve [eapply res_weaken; [first [apply got_rtrack_group | apply res_rdata_descriptor]|]; cbv beta; intros; contradiction]
          | eapply res_weaken; [solve [eauto 2 with got]|]; cbv beta; intros v G H;
            split; [reflexivity|]; split; decompose [and] H; eauto 3 with fine ].
  all: exact (okay_media_descriptor v G).
Qed.
