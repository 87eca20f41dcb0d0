(** What the library writes is read by the accelerated readers without an error. *)
From Coq Require Import ZArith String List Bool Lia.
From Verif Require Import Base IoCtx Text Exp10 MobId Attributes Components TrackGroups Essence Misc.
From Verif Require Import RoundTrip ClassTac ComponentsProofs TrackGroupsProofs EssenceProofs MiscProofs.
From Verif Require Import Saved Objects ObjSpec ObjProofs ObjTheory Ext ExtSpec ExtSim ExtStrict ExtProofs.
From Verif Require Import ExtRead.
Import ListNotations.
Open Scope Z_scope.

(** ** Texts and numbers *)

Definition text_bytes (s : str) : bytes := match mac_encode s with Ok b => b | Err _ => [] end.

Lemma rt_raw : forall P bo s, str_ok s -> rt P (rraw bo) (wstr bo s) (text_bytes s).
Proof.
  intros P bo s [Hn Hl]. unfold rraw, wstr, wstr_enc, text_bytes. destruct s as [|c s].
  - eapply rt_bind_last; [apply rt_u16|]. intros rest. cbn. unfold fread, len.
    destruct rest; cbn; reflexivity.
  - remember (c :: s) as s0 eqn:E0. unfold encode.
    destruct (mac_encode s0) as [bs|e] eqn:Ee; [|apply rt_err].
    destruct (mac_encode_dec _ _ Ee) as (Hd & Hlen & _).
    unfold len in *. cbv zeta.
    eapply rt_bind; [apply (rt_u16 anyr)| |intros; exact I].
    rewrite Hlen. destruct (Z.leb_spec 65535 (Z.of_nat (length s0))); [lia|].
    apply rt_bytes; unfold len; now rewrite Hlen.
Qed.

Lemma rt_raw_name : forall P bo s, str_ok s -> rt P (rraw bo) (wname bo s) (text_bytes s).
Proof.
  intros P bo s H. destruct s as [|c s]; [|now apply rt_raw].
  unfold wname, rraw. eapply rt_bind_last; [apply rt_u16|reflexivity].
Qed.

Lemma text_plain : forall s w e, str_ok s -> (w = wstr e s \/ w = wname e s) -> forall bs, w = Ok bs ->
  no_outer_zeros (text_bytes s) = true /\ map mac_dec1 (text_bytes s) = s.
Proof.
  intros s w e [Hn _] Hw bs E. unfold text_bytes, no_outer_zeros. destruct s as [|c s].
  - split; reflexivity.
  - assert (E' : wstr e (c :: s) = Ok bs) by (rewrite <- E; destruct Hw as [->| ->]; reflexivity).
    unfold wstr, wstr_enc, encode in E'.
    destruct (mac_encode (c :: s)) as [b|] eqn:Ee; [|discriminate].
    destruct (mac_encode_dec _ _ Ee) as (Hd & _ & _).
    rewrite strip0_id by (eapply mac_encode_outer; eauto).
    destruct (list_eq_dec Z.eq_dec b b) as [_|N]; [|destruct (N eq_refl)].
    split; [reflexivity|exact Hd].
Qed.

Lemma rt_text_p : forall (P : bytes -> Prop) bo s w, str_ok s -> (w = wstr bo s \/ w = wname bo s) ->
  rt P (rraw bo) w (text_bytes s) -> rt P (rstr_p true bo) w s.
Proof.
  intros P bo s w Hs Hw H bs rest E HP. unfold rstr_p, bind. rewrite (H bs rest E HP).
  destruct (text_plain s w bo Hs Hw bs E) as [-> ->]. reflexivity.
Qed.

Lemma rt_str_p : forall P p bo s, str_ok s -> rt P (rstr_p p bo) (wstr bo s) s.
Proof.
  intros P [] bo s H; [|now apply rt_str]. apply rt_text_p; [exact H|left; reflexivity|now apply rt_raw].
Qed.

Lemma rt_name_p : forall P p bo s, str_ok s -> rt P (rstr_p p bo) (wname bo s) s.
Proof.
  intros P [] bo s H; [|now apply rt_name].
  apply rt_text_p; [exact H|right; reflexivity|now apply rt_raw_name].
Qed.

Lemma rt_s16_p : forall P (p : bool) bo v, (p = true -> 0 <= v) -> rt P (rs16_p p bo) (ws16 bo v) v.
Proof.
  intros P [] bo v H; [|apply rt_s16]. intros bs rest E HP. unfold rs16_p, bind.
  rewrite (rt_s16 P bo v bs rest E HP). apply Z.leb_le in H; [|reflexivity]. rewrite H. reflexivity.
Qed.

Lemma rt_s32_p : forall P (p : bool) bo v, (p = true -> 0 <= v) -> rt P (rs32_p p bo) (ws32 bo v) v.
Proof.
  intros P [] bo v H; [|apply rt_s32]. intros bs rest E HP. unfold rs32_p, bind.
  rewrite (rt_s32 P bo v bs rest E HP). apply Z.leb_le in H; [|reflexivity]. rewrite H. reflexivity.
Qed.

Lemma Forall_when {A} (p : Prop) (Q : A -> Prop) l :
  (p -> Forall Q l) -> Forall (fun x => p -> Q x) l.
Proof.
  intros H. apply Forall_forall. intros x Hx Hp. specialize (H Hp). rewrite Forall_forall in H.
  apply H. exact Hx.
Qed.

#[local] Hint Resolve rt_str_p rt_name_p rt_s16_p rt_s32_p : rt.

(** Readers that refuse negative numbers of elements read what is written as well. With [p] they
    refuse other negative numbers too. *)
Section Strict.
Context (i : ictx) (c : octx) (Hc : compat i c) (p : bool).

Lemma rt_component_s : forall o, component_ok o -> (p = true -> plain_component o) ->
  rt endr (rcomponent_s p i) (wcomponent c o) (component_map (reff c) o).
Proof.
  rt_start. unfold component_ok, plain_component in *. use_ok. unfold rcomponent_s, wcomponent. rt_class.
Qed.
Hint Resolve rt_component_s : rt.

Lemma rt_sequence_s : forall P o, sequence_ok o -> (p = true -> plain_component (sequ_component o)) ->
  rt P (rsequence_s p i) (wsequence c o) (sequence_map (reff c) o).
Proof. rt_start. unfold sequence_ok in *. use_ok. unfold rsequence_s, wsequence. rt_class. Qed.

Lemma rt_clip_s : forall P o, clip_ok o -> (p = true -> plain_component (clip_component o)) ->
  rt P (rclip_s p i) (wclip c o) (clip_map (reff c) o).
Proof. rt_start. unfold clip_ok in *. use_ok. unfold rclip_s, wclip. rt_class. Qed.
Hint Resolve rt_clip_s : rt.

Lemma rt_filler_s : forall P o, filler_ok o ->
  (p = true -> plain_component (clip_component (fill_clip o))) ->
  rt P (rfiller_s p i) (wfiller c o) (filler_map (reff c) o).
Proof. rt_start. unfold filler_ok in *. use_ok. unfold rfiller_s, wfiller. rt_class. Qed.

Lemma rt_source_clip_s : forall P o, source_clip_ok o ->
  (p = true -> plain_component (clip_component (sclp_clip o))) ->
  rt P (rsource_clip_s p i) (wsource_clip c o) (source_clip_map (reff c) o).
Proof.
  rt_start. unfold source_clip_ok in *. use_ok. unfold rsource_clip_s, wsource_clip.
  destruct o as [cl t st [m|]];
    cbn [sclp_clip sclp_track_id sclp_start_time sclp_mob_id opt_ok wopt] in *;
    [rt_class | rt_never].
Qed.

Lemma rt_track_ref_s : forall P o, track_ref_ok o ->
  (p = true -> plain_component (clip_component (trkr_clip o))) ->
  rt P (rtrack_ref_s p i) (wtrack_ref c o) (track_ref_map (reff c) o).
Proof. rt_start. unfold track_ref_ok in *. use_ok. unfold rtrack_ref_s, wtrack_ref. rt_class. Qed.

Lemma rt_param_point_property_s : forall P o, (p = true -> plain_value (ppp_value o)) ->
  rt P (rparam_point_property_s p i) (wparam_point_property c o)
    (param_point_property_map (reff c) o).
Proof.
  rt_start. unfold rparam_point_property_s, wparam_point_property. bo_norm.
  destruct o as [code type value]. cbn [ppp_code ppp_type ppp_value] in *.
  destruct (Z.eqb_spec type 2) as [->|H2].
  { destruct value; [rt_never | rt_class | rt_never]. }
  destruct (Z.eqb_spec type 1) as [->|H1]; [|rt_never].
  destruct value; cbn [plain_value] in *; [rt_class | rt_never | rt_never].
Qed.
Hint Resolve rt_param_point_property_s : rt.

Lemma rt_cp_value_s : forall P t v, (p = true -> plain_value v) ->
  rt P (rcp_value_s p i t) (wcp_value c t v) (cp_value_map (reff c) v).
Proof.
  rt_start. unfold rcp_value_s, wcp_value. bo_norm.
  destruct (t =? 1); [destruct v; cbn [plain_value] in *; try apply rt_err; rt_class|].
  destruct (t =? 2); [destruct v; try apply rt_err; rt_class|].
  destruct (t =? 4); [destruct v; try apply rt_err; rt_class|].
  apply rt_err.
Qed.
Hint Resolve rt_cp_value_s : rt.

Lemma rt_param_control_point_s : forall P t o, (p = true -> plain_point o) ->
  rt P (rparam_control_point_s p i t) (wparam_control_point c t o)
    (param_control_point_map (reff c) o).
Proof.
  rt_start. unfold rparam_control_point_s, wparam_control_point.
  assert (p = true -> plain_value (pcp_value o)) by (intros E; apply (H E)).
  assert (Forall (fun q => p = true -> plain_value (ppp_value q)) (pcp_pp o))
    by (apply Forall_when; intros E; apply (H E)).
  rt_class.
Qed.
Hint Resolve rt_param_control_point_s : rt.

Lemma rt_param_clip_s : forall P o, param_clip_ok o ->
  (p = true -> plain_component (clip_component (prcl_clip o)) /\
    Forall plain_point (prcl_control_points o)) ->
  rt P (rparam_clip_s p i) (wparam_clip c o) (param_clip_map (reff c) o).
Proof.
  rt_start. unfold param_clip_ok in *. destruct H as (? & ? & Ht).
  assert (p = true -> plain_component (clip_component (prcl_clip o))) by (intros E; apply (H0 E)).
  assert (Forall (fun q => p = true -> plain_point q) (prcl_control_points o))
    by (apply Forall_when; intros E; apply (H0 E)).
  unfold rparam_clip_s, wparam_clip.
  assert ((prcl_value_type o =? 1) || (prcl_value_type o =? 2) || (prcl_value_type o =? 4) = true)
    as Ht' by (destruct Ht as [->|[->| ->]]; reflexivity).
  clear H1. rt_class.
Qed.

Hint Resolve rt_prit_value : rt.
Lemma rt_parameter_item_s : forall P o, parameter_item_ok o ->
  rt P (rparameter_item_s p i) (wparameter_item c o) (parameter_item_map (reff c) o).
Proof.
  rt_start. unfold parameter_item_ok in *. use_ok. unfold rparameter_item_s, wparameter_item.
  rt_class.
Qed.

Lemma rt_attr_s : forall e, str_ok (fst e) -> attr_value_ok (snd e) ->
  rt anyr (rattr_s p i) (wattr c e) (fst e, attr_value_map (reff c) (snd e)).
Proof.
  pose proof (proj1 Hc) as Hbo.
  intros [k v] Hk Hv. cbn [fst snd] in *. unfold rattr_s, wattr. bo_norm.
  destruct v; cbn [attr_value_ok attr_value_map] in *; rt_go.
Qed.

Lemma rt_attributes_s : forall P o, attributes_ok o ->
  rt P (rattributes_s p i) (wattributes c o) (attributes_map (reff c) o).
Proof.
  intros P o [Hn Hf]. pose proof (proj1 Hc) as Hbo. unfold rattributes_s, wattributes.
  bo_norm.
  do 3 (eapply rt_bind with (Q := anyr); [ rt_elem | cbv beta | intros; exact I ]).
  eapply rt_bind with (Q := anyr); [| | intros; exact I].
  { eapply rt_list; [apply len_nat|]. intros x Hx. use_ok. now apply rt_attr_s. }
  cbv beta. eapply rt_bind_last; [rt_elem|]. intros rest. cbv beta. unfold ret.
  rewrite dict_build; [reflexivity|].
  cbn [app]. rewrite map_map. cbn [fst]. exact Hn.
Qed.

Lemma rt_track_group_s : forall o, track_group_ok o -> (p = true -> plain_component (trkg_component o)) ->
  rt endr (rtrack_group_s true p i) (wtrack_group c o) (track_group_map (reff c) o).
Proof.
  rt_start. unfold track_group_ok in *. destruct H as [Hp Ht].
  unfold rtrack_group_s, wtrack_group. bo_norm.
  eapply rt_bind with (Q := endr); [now apply rt_component_s | cbv beta | rt_end].
  do 6 (eapply rt_bind with (Q := anyr); [ rt_elem | cbv beta | intros; exact I ]).
  apply rt_rassert; [apply Z.leb_le; unfold len; lia|].
  eapply rt_bind with (Q := anyr); [| cbv beta | intros; exact I].
  { eapply rt_list; [apply len_nat|]. intros t _. now apply rt_track. }
  eapply rt_ext. destruct (trkg_tracks o) as [|t l] eqn:E.
  - eapply eq_rect; [apply rtx_nil|]. unfold track_group_map. now rewrite E.
  - apply rtx_last. autounfold with cls. change (1 =? 1) with true. cbv iota.
    cbn [trkg_tracks]. eapply rt_bind_last.
    + now apply rt_locks.
    + intros rest. unfold track_group_map. rewrite E. reflexivity.
Qed.
Hint Resolve rt_track_group_s : rt.

Lemma rt_track_effect_s : forall o, track_effect_ok o ->
  (p = true -> plain_component (trkg_component (tkfx_group o))) ->
  rt endr (rtrack_effect_s true p i) (wtrack_effect_base c o) (track_effect_map (reff c) o).
Proof.
  rt_start. unfold track_effect_ok in *. use_ok. unfold rtrack_effect_s, wtrack_effect_base.
  rt_class.
Qed.

Lemma rt_selector_s : forall P o, selector_ok o ->
  (p = true -> plain_component (trkg_component (slct_group o))) ->
  rt P (rselector_s true p i) (wselector c o) (selector_map (reff c) o).
Proof.
  rt_start. unfold selector_ok in *. use_ok. unfold rselector_s, wselector.
  assert (slct_selected o <? len (trkg_tracks (track_group_map (reff c) (slct_group o))) = true).
  { cbn [trkg_tracks track_group_map]. unfold len in *. rewrite map_length. now apply Z.ltb_lt. }
  rt_class.
Qed.

Lemma rt_composition_s : forall P o, composition_ok o ->
  (p = true -> plain_component (trkg_component (cmpo_group o))) -> (p = true -> 0 <= cmpo_usage_code o) ->
  rt P (rcomposition_s true p i) (wcomposition c o) (composition_map (reff c) o).
Proof.
  rt_start. unfold composition_ok in *. use_ok. unfold rcomposition_s, wcomposition.
  destruct o as [g lm mt uc d ct [m|]];
    cbn [cmpo_group cmpo_last_modified cmpo_mob_type_id cmpo_usage_code cmpo_descriptor
      cmpo_creation_time cmpo_mob_id opt_ok wopt] in *;
    [rt_class | rt_never].
Qed.

Lemma rt_line_map_s : forall P l, rt P (rline_map_s true i) (wline_map c l) l.
Proof.
  rt_start. unfold rline_map_s, wline_map.
  eapply rt_bind with (Q := anyr); [rt_elem| |intros; exact I]. cbv beta.
  apply rt_rassert; [apply Z.leb_le; unfold len; lia|].
  destruct (Z.eqb_spec (len l * 4) 0) as [E|E].
  - destruct l; [apply rt_ret|unfold len in E; cbn [length] in E; lia].
  - rewrite Z.div_mul by lia. rt_elem.
Qed.
Hint Resolve rt_line_map_s rt_media_file_descriptor_base : rt.
Hint Resolve sect_client_fill sect_boxes sect_framing sect_color : sect.
Hint Extern 1 (_ = _) => reflexivity : sect.

Ltac sec_norm ::=
  cbv beta delta [
    set_didd_frame_index_byte_order set_didd_frame_sample_size set_didd_first_frame_offset
    set_didd_client_fill_start set_didd_client_fill_end set_didd_offset_to_rle_frame_index
    set_didd_frame_start_offset set_didd_valid_box set_didd_essence_box
    set_didd_source_box set_didd_framing_box set_didd_reformatting_option
    set_didd_transfer_characteristic set_didd_color_primaries set_didd_coding_equations
    set_didd_essence_compression set_didd_essence_element_size_kind
    set_didd_frame_checked_with_mapper ];
  cbn [
    didd_file didd_stored_height didd_stored_width didd_sampled_height didd_sampled_width
    didd_sampled_x_offset didd_sampled_y_offset didd_display_height didd_display_width
    didd_display_x_offset didd_display_y_offset didd_frame_layout didd_aspect_num
    didd_aspect_den didd_line_map didd_alpha_transparency didd_uniformness
    didd_did_image_size didd_next_did_desc didd_compress_method didd_resolution_id
    didd_image_alignment_factor didd_frame_index_byte_order didd_frame_sample_size
    didd_first_frame_offset didd_client_fill_start didd_client_fill_end
    didd_offset_to_rle_frame_index didd_frame_start_offset didd_valid_box didd_essence_box
    didd_source_box didd_framing_box didd_reformatting_option didd_transfer_characteristic
    didd_color_primaries didd_coding_equations didd_essence_compression
    didd_essence_element_size_kind didd_frame_checked_with_mapper ].

Lemma rt_did_descriptor_s : forall o, did_descriptor_ok o ->
  rt endr (rdid_descriptor_s true i) (wdid_descriptor_base c o) (did_descriptor_map (reff c) o).
Proof.
  rt_start. unfold did_descriptor_ok in *. use_ok.
  unfold rdid_descriptor_s, wdid_descriptor_base. rt_class.
Qed.
Hint Resolve rt_did_descriptor_s : rt.
Ltac sec_norm ::= idtac.

Lemma rt_cdci_descriptor_s : forall o, cdci_descriptor_ok o -> (p = true -> 0 <= cdci_component_width o) ->
  rt endr (rcdci_descriptor_s true p i) (wcdci_descriptor_base c o)
    (cdci_descriptor_map (reff c) o).
Proof.
  rt_start. unfold cdci_descriptor_ok in *. use_ok.
  unfold rcdci_descriptor_s, wcdci_descriptor_base. rt_class.
Qed.

Hint Resolve rt_effect_param : rt.
Lemma rt_effect_param_list_s : forall P o, effect_param_list_ok o ->
  rt P (reffect_param_list_s true i) (weffect_param_list c o) (effect_param_list_map (reff c) o).
Proof.
  rt_start. unfold effect_param_list_ok in *. use_ok.
  unfold reffect_param_list_s, weffect_param_list. rt_class.
Qed.

End Strict.

Lemma strict_rt : forall p k i c v f, ext_read k = Some f -> compat i c -> ok_of k v ->
  (p = true -> plain k v) ->
  rt anyr (strict_read true p k i) (C_write (class_of k) c v) (C_map (class_of k) (reff c) v).
Proof.
  intros p k i c v f Hk Hc Hok Hp.
  destruct k; try discriminate Hk;
    cbn [strict_read class_of C_read C_write C_map C_type ok_of plain] in *.
  - now apply rt_attributes_s.
  - now apply rt_sequence_s.
  - now apply rt_source_clip_s.
  - now apply rt_track_ref_s.
  - now apply rt_param_clip_s.
  - now apply rt_filler_s.
  - refine (class_rt K_MDES i c v _ Hc Hok); reflexivity.
  - unfold wdid_descriptor. eapply rt_bind with (Q := endr); [now apply rt_did_descriptor_s| |rt_end].
    cbv beta. rt_class.
  - unfold wcdci_descriptor. eapply rt_bind with (Q := endr); [now apply rt_cdci_descriptor_s| |rt_end].
    cbv beta. rt_class.
  - now apply rt_effect_param_list_s.
  - now apply rt_parameter_item_s.
  - unfold wtrack_effect. eapply rt_bind with (Q := endr); [now apply rt_track_effect_s| |rt_end].
    cbv beta. rt_class.
  - now apply rt_selector_s.
  - apply rt_composition_s; [exact Hc|exact Hok|intros E; apply (Hp E)|intros E; apply (Hp E)].
Qed.

Lemma ext_written_p : forall p k f n c v data,
  ext_read k = Some f -> ok_of k v -> (p = true -> plain k v) ->
  compat {| ibo := LE; inobj := n |} c ->
  C_write (class_of k) c v = Ok data -> Forall is_byte data ->
  exists d, f data = ExtOk d /\ agree_p p k (C_map (class_of k) (reff c) v) d.
Proof.
  intros p k f n c v data Hf Hok Hp Hc Hw Hb.
  pose proof (strict_rt p k _ c v f Hf Hc Hok Hp data [] Hw I) as E. rewrite app_nil_r in E.
  destruct (ext_strict true p k n f data _ [] Hf Hb E) as [H|(_ & ? & _)]; [exact H|discriminate].
Qed.

Lemma ext_written : forall k f n c v data,
  ext_read k = Some f -> ok_of k v -> compat {| ibo := LE; inobj := n |} c ->
  C_write (class_of k) c v = Ok data -> Forall is_byte data ->
  exists d, f data = ExtOk d /\ agrees k (C_map (class_of k) (reff c) v) d.
Proof.
  intros k f n c v data Hf Hok Hc Hw Hb.
  destruct (ext_written_p false k f n c v data Hf Hok) as (d & Hd & H); try assumption; [discriminate|].
  exists d. split; [exact Hd|]. apply agree_p_false. exact H.
Qed.

(** Without negative numbers among those taken differently, the very values. *)
Lemma ext_exact : forall k f n c v data,
  ext_read k = Some f -> ok_of k v -> plain k v -> compat {| ibo := LE; inobj := n |} c ->
  C_write (class_of k) c v = Ok data -> Forall is_byte data ->
  exists d, f data = ExtOk d /\ exactly k (C_map (class_of k) (reff c) v) d.
Proof.
  intros k f n c v data Hf Hok Hp Hc Hw Hb.
  destruct (ext_written_p true k f n c v data Hf Hok (fun _ => Hp)) as (d & Hd & H); try assumption.
  exists d. split; [exact Hd|]. apply agree_p_true. exact H.
Qed.
