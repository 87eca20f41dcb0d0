(** Renaming the references of an object: it depends only on the references the object has,
    changes nothing else, and the references of the result are the renamed ones. *)
From Coq Require Import ZArith List Bool Lia.
From Verif Require Import Base IoCtx Text Exp10 MobId Storable Attributes Components TrackGroups
  Misc Essence BinModel Saved.
Import ListNotations.
Open Scope Z_scope.

Lemma map_id_in : forall A (f : A -> A) l, (forall a, In a l -> f a = a) -> map f l = l.
Proof. induction l; cbn; intros H; f_equal; auto. Qed.

Lemma flat_map_map : forall A B C (g : B -> list C) (f : A -> B) l,
  flat_map g (map f l) = flat_map (fun a => g (f a)) l.
Proof. induction l; cbn; intros; f_equal; auto. Qed.

Lemma map_flat_map : forall A B C (g : B -> C) (f : A -> list B) l,
  map g (flat_map f l) = flat_map (fun a => map g (f a)) l.
Proof. induction l; cbn; intros; rewrite ?map_app; f_equal; auto. Qed.

Lemma flat_map_ext' : forall A B (f g : A -> list B) l,
  (forall a, In a l -> f a = g a) -> flat_map f l = flat_map g l.
Proof. induction l; cbn; intros; f_equal; auto. Qed.

Create HintDb rename.

Ltac inr := first
  [ assumption
  | apply in_eq
  | apply in_flat_map; eexists; split; [eassumption | inr]
  | apply in_or_app; left; inr
  | apply in_or_app; right; inr
  | apply in_cons; inr ].

(** Extended below with the lemma of each class. *)
Ltac ext_sub := fail.

Ltac ext_field H :=
  first
  [ reflexivity
  | apply H; inr
  | match goal with |- option_map _ ?x = option_map _ ?x =>
      destruct x; cbn [option_map]; [f_equal; ext_field H | reflexivity] end
  | apply map_ext_in; let a := fresh "a" in let Ha := fresh "Ha" in intros a Ha; ext_field H
  | ext_sub; let r := fresh "r" in let Hr := fresh "Hr" in intros r Hr; apply H; inr ].

Ltac id_field :=
  first
  [ reflexivity
  | match goal with |- option_map _ ?x = ?x =>
      destruct x; cbn [option_map]; [f_equal; id_field | reflexivity] end
  | apply map_id_in; intros ? ?; id_field
  | solve [eauto with rename nocore] ].

Ltac mm_field :=
  first
  [ reflexivity
  | match goal with |- option_map _ (option_map _ ?x) = option_map _ ?x =>
      destruct x; cbn [option_map]; [f_equal; mm_field | reflexivity] end
  | rewrite map_map; apply map_ext_in; intros ? ?; mm_field
  | solve [eauto with rename nocore] ].

Ltac refs_go :=
  rewrite ?map_app; cbn [map app];
  repeat match goal with |- ?a ++ ?b = ?c ++ ?d => f_equal | |- ?a :: ?b = ?a :: ?d => f_equal end;
  first
  [ reflexivity
  | match goal with |- match option_map _ ?x with _ => _ end = _ =>
      destruct x; cbn [option_map map]; [refs_go | reflexivity] end
  | rewrite flat_map_map, map_flat_map; apply flat_map_ext'; intros ? ?; refs_go
  | solve [eauto with rename nocore] ].


Lemma map_ext_attributes : forall f g (o : attributes), (forall r, In r (attributes_refs o) -> f r = g r) -> attributes_map f o = attributes_map g o.
Proof.
  intros f g o H. apply map_ext_in. intros [k v] Hp. cbn. f_equal.
  destruct v; cbn; auto. f_equal. apply H. apply in_flat_map. eexists. split; [eassumption|]. cbn. auto.
Qed.
Lemma map_id_attributes : forall o : attributes, attributes_map (fun r => r) o = o.
Proof. intros o. apply map_id_in. intros [k []] _; reflexivity. Qed.
Lemma map_map_attributes : forall f g (o : attributes), attributes_map g (attributes_map f o) = attributes_map (fun r => g (f r)) o.
Proof.
  intros f g o. unfold attributes_map. rewrite map_map. apply map_ext_in. intros [k []] _; reflexivity.
Qed.
Lemma refs_map_attributes : forall f (o : attributes), attributes_refs (attributes_map f o) = map f (attributes_refs o).
Proof.
  intros f o. unfold attributes_refs, attributes_map. rewrite flat_map_map, map_flat_map.
  apply flat_map_ext'. intros [k []] _; reflexivity.
Qed.
#[export] Hint Resolve map_ext_attributes map_id_attributes map_map_attributes refs_map_attributes : rename.

Lemma map_ext_parameter_list : forall f g (o : parameter_list), (forall r, In r (parameter_list_refs o) -> f r = g r) -> parameter_list_map f o = parameter_list_map g o.
Proof. intros f g o H. apply map_ext_in. exact H. Qed.
Lemma map_id_parameter_list : forall o : parameter_list, parameter_list_map (fun r => r) o = o.
Proof. intros o. apply map_id_in. reflexivity. Qed.
Lemma map_map_parameter_list : forall f g (o : parameter_list), parameter_list_map g (parameter_list_map f o) = parameter_list_map (fun r => g (f r)) o.
Proof. intros f g o. apply map_map. Qed.
Lemma refs_map_parameter_list : forall f (o : parameter_list), parameter_list_refs (parameter_list_map f o) = map f (parameter_list_refs o).
Proof. reflexivity. Qed.
#[export] Hint Resolve map_ext_parameter_list map_id_parameter_list map_map_parameter_list refs_map_parameter_list : rename.

Lemma map_ext_time_crumb_list : forall f g (o : time_crumb_list), (forall r, In r (time_crumb_list_refs o) -> f r = g r) -> time_crumb_list_map f o = time_crumb_list_map g o.
Proof. intros f g o H. apply map_ext_in. exact H. Qed.
Lemma map_id_time_crumb_list : forall o : time_crumb_list, time_crumb_list_map (fun r => r) o = o.
Proof. intros o. apply map_id_in. reflexivity. Qed.
Lemma map_map_time_crumb_list : forall f g (o : time_crumb_list), time_crumb_list_map g (time_crumb_list_map f o) = time_crumb_list_map (fun r => g (f r)) o.
Proof. intros f g o. apply map_map. Qed.
Lemma refs_map_time_crumb_list : forall f (o : time_crumb_list), time_crumb_list_refs (time_crumb_list_map f o) = map f (time_crumb_list_refs o).
Proof. reflexivity. Qed.
#[export] Hint Resolve map_ext_time_crumb_list map_id_time_crumb_list map_map_time_crumb_list refs_map_time_crumb_list : rename.

Lemma map_ext_component : forall f g (o : component), (forall r, In r (component_refs o) -> f r = g r) -> component_map f o = component_map g o.
Proof. intros f g o H. unfold component_map. unfold component_refs in H. replace (f (cpnt_left_bob o)) with (g (cpnt_left_bob o)) by (symmetry; ext_field H). replace (f (cpnt_right_bob o)) with (g (cpnt_right_bob o)) by (symmetry; ext_field H). replace (f (cpnt_attributes o)) with (g (cpnt_attributes o)) by (symmetry; ext_field H). replace (f (cpnt_session_attrs o)) with (g (cpnt_session_attrs o)) by (symmetry; ext_field H). replace (f (cpnt_precomputed o)) with (g (cpnt_precomputed o)) by (symmetry; ext_field H). replace (option_map f (cpnt_param_list o)) with (option_map g (cpnt_param_list o)) by (symmetry; ext_field H). reflexivity. Qed.
Lemma map_id_component : forall o : component, component_map (fun r => r) o = o.
Proof. intros o; intros; destruct o as [x0 x1 x2 x3 x4 x5 x6 x7 x8 x9]; unfold component_map; cbn [cpnt_left_bob cpnt_right_bob cpnt_media_kind_id cpnt_edit_rate cpnt_name cpnt_effect_id cpnt_attributes cpnt_session_attrs cpnt_precomputed cpnt_param_list] in *; replace ((fun r => r) (x0)) with x0 by (symmetry; id_field); replace ((fun r => r) (x1)) with x1 by (symmetry; id_field); replace ((fun r => r) (x6)) with x6 by (symmetry; id_field); replace ((fun r => r) (x7)) with x7 by (symmetry; id_field); replace ((fun r => r) (x8)) with x8 by (symmetry; id_field); replace (option_map (fun r => r) (x9)) with x9 by (symmetry; id_field); reflexivity. Qed.
Lemma map_map_component : forall f g (o : component), component_map g (component_map f o) = component_map (fun r => g (f r)) o.
Proof. intros f g o. unfold component_map. cbn [cpnt_left_bob cpnt_right_bob cpnt_media_kind_id cpnt_edit_rate cpnt_name cpnt_effect_id cpnt_attributes cpnt_session_attrs cpnt_precomputed cpnt_param_list]. replace (g ((f (cpnt_left_bob o)))) with ((fun r => g (f r)) (cpnt_left_bob o)) by (symmetry; mm_field). replace (g ((f (cpnt_right_bob o)))) with ((fun r => g (f r)) (cpnt_right_bob o)) by (symmetry; mm_field). replace (g ((f (cpnt_attributes o)))) with ((fun r => g (f r)) (cpnt_attributes o)) by (symmetry; mm_field). replace (g ((f (cpnt_session_attrs o)))) with ((fun r => g (f r)) (cpnt_session_attrs o)) by (symmetry; mm_field). replace (g ((f (cpnt_precomputed o)))) with ((fun r => g (f r)) (cpnt_precomputed o)) by (symmetry; mm_field). replace (option_map g ((option_map f (cpnt_param_list o)))) with (option_map (fun r => g (f r)) (cpnt_param_list o)) by (symmetry; mm_field). reflexivity. Qed.
Lemma refs_map_component : forall f (o : component), component_refs (component_map f o) = map f (component_refs o).
Proof. intros f o. unfold component_refs, component_map. cbn [cpnt_left_bob cpnt_right_bob cpnt_media_kind_id cpnt_edit_rate cpnt_name cpnt_effect_id cpnt_attributes cpnt_session_attrs cpnt_precomputed cpnt_param_list]. refs_go. Qed.
#[export] Hint Resolve map_ext_component map_id_component map_map_component refs_map_component : rename.

Ltac ext_sub ::= first [ apply map_ext_component ].
Lemma map_ext_sequence : forall f g (o : sequence), (forall r, In r (sequence_refs o) -> f r = g r) -> sequence_map f o = sequence_map g o.
Proof. intros f g o H. unfold sequence_map. unfold sequence_refs in H. replace (component_map f (sequ_component o)) with (component_map g (sequ_component o)) by (symmetry; ext_field H). replace (map f (sequ_components o)) with (map g (sequ_components o)) by (symmetry; ext_field H). reflexivity. Qed.
Lemma map_id_sequence : forall o : sequence, sequence_map (fun r => r) o = o.
Proof. intros o; intros; destruct o as [x0 x1]; unfold sequence_map; cbn [sequ_component sequ_components] in *; replace (component_map (fun r => r) (x0)) with x0 by (symmetry; id_field); replace (map (fun r => r) (x1)) with x1 by (symmetry; id_field); reflexivity. Qed.
Lemma map_map_sequence : forall f g (o : sequence), sequence_map g (sequence_map f o) = sequence_map (fun r => g (f r)) o.
Proof. intros f g o. unfold sequence_map. cbn [sequ_component sequ_components]. replace (component_map g ((component_map f (sequ_component o)))) with (component_map (fun r => g (f r)) (sequ_component o)) by (symmetry; mm_field). replace (map g ((map f (sequ_components o)))) with (map (fun r => g (f r)) (sequ_components o)) by (symmetry; mm_field). reflexivity. Qed.
Lemma refs_map_sequence : forall f (o : sequence), sequence_refs (sequence_map f o) = map f (sequence_refs o).
Proof. intros f o. unfold sequence_refs, sequence_map. cbn [sequ_component sequ_components]. refs_go. Qed.
#[export] Hint Resolve map_ext_sequence map_id_sequence map_map_sequence refs_map_sequence : rename.

Ltac ext_sub ::= first [ apply map_ext_component ].
Lemma map_ext_clip : forall f g (o : clip), (forall r, In r (clip_refs o) -> f r = g r) -> clip_map f o = clip_map g o.
Proof. intros f g o H. unfold clip_map. unfold clip_refs in H. replace (component_map f (clip_component o)) with (component_map g (clip_component o)) by (symmetry; ext_field H). reflexivity. Qed.
Lemma map_id_clip : forall o : clip, clip_map (fun r => r) o = o.
Proof. intros o; intros; destruct o as [x0 x1]; unfold clip_map; cbn [clip_component clip_length] in *; replace (component_map (fun r => r) (x0)) with x0 by (symmetry; id_field); reflexivity. Qed.
Lemma map_map_clip : forall f g (o : clip), clip_map g (clip_map f o) = clip_map (fun r => g (f r)) o.
Proof. intros f g o. unfold clip_map. cbn [clip_component clip_length]. replace (component_map g ((component_map f (clip_component o)))) with (component_map (fun r => g (f r)) (clip_component o)) by (symmetry; mm_field). reflexivity. Qed.
Lemma refs_map_clip : forall f (o : clip), clip_refs (clip_map f o) = map f (clip_refs o).
Proof. intros f o. unfold clip_refs, clip_map. cbn [clip_component clip_length]. refs_go. Qed.
#[export] Hint Resolve map_ext_clip map_id_clip map_map_clip refs_map_clip : rename.

Ltac ext_sub ::= first [ apply map_ext_clip ].
Lemma map_ext_source_clip : forall f g (o : source_clip), (forall r, In r (source_clip_refs o) -> f r = g r) -> source_clip_map f o = source_clip_map g o.
Proof. intros f g o H. unfold source_clip_map. unfold source_clip_refs in H. replace (clip_map f (sclp_clip o)) with (clip_map g (sclp_clip o)) by (symmetry; ext_field H). reflexivity. Qed.
Lemma map_id_source_clip : forall o : source_clip, source_clip_map (fun r => r) o = o.
Proof. intros o; intros; destruct o as [x0 x1 x2 x3]; unfold source_clip_map; cbn [sclp_clip sclp_track_id sclp_start_time sclp_mob_id] in *; replace (clip_map (fun r => r) (x0)) with x0 by (symmetry; id_field); reflexivity. Qed.
Lemma map_map_source_clip : forall f g (o : source_clip), source_clip_map g (source_clip_map f o) = source_clip_map (fun r => g (f r)) o.
Proof. intros f g o. unfold source_clip_map. cbn [sclp_clip sclp_track_id sclp_start_time sclp_mob_id]. replace (clip_map g ((clip_map f (sclp_clip o)))) with (clip_map (fun r => g (f r)) (sclp_clip o)) by (symmetry; mm_field). reflexivity. Qed.
Lemma refs_map_source_clip : forall f (o : source_clip), source_clip_refs (source_clip_map f o) = map f (source_clip_refs o).
Proof. intros f o. unfold source_clip_refs, source_clip_map. cbn [sclp_clip sclp_track_id sclp_start_time sclp_mob_id]. refs_go. Qed.
#[export] Hint Resolve map_ext_source_clip map_id_source_clip map_map_source_clip refs_map_source_clip : rename.

Ltac ext_sub ::= first [ apply map_ext_clip ].
Lemma map_ext_timecode : forall f g (o : timecode), (forall r, In r (timecode_refs o) -> f r = g r) -> timecode_map f o = timecode_map g o.
Proof. intros f g o H. unfold timecode_map. unfold timecode_refs in H. replace (clip_map f (tccp_clip o)) with (clip_map g (tccp_clip o)) by (symmetry; ext_field H). reflexivity. Qed.
Lemma map_id_timecode : forall o : timecode, timecode_map (fun r => r) o = o.
Proof. intros o; intros; destruct o as [x0 x1 x2 x3]; unfold timecode_map; cbn [tccp_clip tccp_flags tccp_fps tccp_start] in *; replace (clip_map (fun r => r) (x0)) with x0 by (symmetry; id_field); reflexivity. Qed.
Lemma map_map_timecode : forall f g (o : timecode), timecode_map g (timecode_map f o) = timecode_map (fun r => g (f r)) o.
Proof. intros f g o. unfold timecode_map. cbn [tccp_clip tccp_flags tccp_fps tccp_start]. replace (clip_map g ((clip_map f (tccp_clip o)))) with (clip_map (fun r => g (f r)) (tccp_clip o)) by (symmetry; mm_field). reflexivity. Qed.
Lemma refs_map_timecode : forall f (o : timecode), timecode_refs (timecode_map f o) = map f (timecode_refs o).
Proof. intros f o. unfold timecode_refs, timecode_map. cbn [tccp_clip tccp_flags tccp_fps tccp_start]. refs_go. Qed.
#[export] Hint Resolve map_ext_timecode map_id_timecode map_map_timecode refs_map_timecode : rename.

Ltac ext_sub ::= first [ apply map_ext_clip ].
Lemma map_ext_edgecode : forall f g (o : edgecode), (forall r, In r (edgecode_refs o) -> f r = g r) -> edgecode_map f o = edgecode_map g o.
Proof. intros f g o H. unfold edgecode_map. unfold edgecode_refs in H. replace (clip_map f (eccp_clip o)) with (clip_map g (eccp_clip o)) by (symmetry; ext_field H). reflexivity. Qed.
Lemma map_id_edgecode : forall o : edgecode, edgecode_map (fun r => r) o = o.
Proof. intros o; intros; destruct o as [x0 x1 x2 x3 x4 x5]; unfold edgecode_map; cbn [eccp_clip eccp_header eccp_film_kind eccp_code_format eccp_base_perf eccp_start_ec] in *; replace (clip_map (fun r => r) (x0)) with x0 by (symmetry; id_field); reflexivity. Qed.
Lemma map_map_edgecode : forall f g (o : edgecode), edgecode_map g (edgecode_map f o) = edgecode_map (fun r => g (f r)) o.
Proof. intros f g o. unfold edgecode_map. cbn [eccp_clip eccp_header eccp_film_kind eccp_code_format eccp_base_perf eccp_start_ec]. replace (clip_map g ((clip_map f (eccp_clip o)))) with (clip_map (fun r => g (f r)) (eccp_clip o)) by (symmetry; mm_field). reflexivity. Qed.
Lemma refs_map_edgecode : forall f (o : edgecode), edgecode_refs (edgecode_map f o) = map f (edgecode_refs o).
Proof. intros f o. unfold edgecode_refs, edgecode_map. cbn [eccp_clip eccp_header eccp_film_kind eccp_code_format eccp_base_perf eccp_start_ec]. refs_go. Qed.
#[export] Hint Resolve map_ext_edgecode map_id_edgecode map_map_edgecode refs_map_edgecode : rename.

Ltac ext_sub ::= first [ apply map_ext_clip ].
Lemma map_ext_track_ref : forall f g (o : track_ref), (forall r, In r (track_ref_refs o) -> f r = g r) -> track_ref_map f o = track_ref_map g o.
Proof. intros f g o H. unfold track_ref_map. unfold track_ref_refs in H. replace (clip_map f (trkr_clip o)) with (clip_map g (trkr_clip o)) by (symmetry; ext_field H). reflexivity. Qed.
Lemma map_id_track_ref : forall o : track_ref, track_ref_map (fun r => r) o = o.
Proof. intros o; intros; destruct o as [x0 x1 x2]; unfold track_ref_map; cbn [trkr_clip trkr_relative_scope trkr_relative_track] in *; replace (clip_map (fun r => r) (x0)) with x0 by (symmetry; id_field); reflexivity. Qed.
Lemma map_map_track_ref : forall f g (o : track_ref), track_ref_map g (track_ref_map f o) = track_ref_map (fun r => g (f r)) o.
Proof. intros f g o. unfold track_ref_map. cbn [trkr_clip trkr_relative_scope trkr_relative_track]. replace (clip_map g ((clip_map f (trkr_clip o)))) with (clip_map (fun r => g (f r)) (trkr_clip o)) by (symmetry; mm_field). reflexivity. Qed.
Lemma refs_map_track_ref : forall f (o : track_ref), track_ref_refs (track_ref_map f o) = map f (track_ref_refs o).
Proof. intros f o. unfold track_ref_refs, track_ref_map. cbn [trkr_clip trkr_relative_scope trkr_relative_track]. refs_go. Qed.
#[export] Hint Resolve map_ext_track_ref map_id_track_ref map_map_track_ref refs_map_track_ref : rename.

Lemma map_ext_cp_value : forall f g (o : cp_value), (forall r, In r (cp_value_refs o) -> f r = g r) -> cp_value_map f o = cp_value_map g o.
Proof. intros f g [] H; cbn in *; auto. f_equal. auto. Qed.
Lemma map_id_cp_value : forall o : cp_value, cp_value_map (fun r => r) o = o.
Proof. intros []; reflexivity. Qed.
Lemma map_map_cp_value : forall f g (o : cp_value), cp_value_map g (cp_value_map f o) = cp_value_map (fun r => g (f r)) o.
Proof. intros f g []; reflexivity. Qed.
Lemma refs_map_cp_value : forall f (o : cp_value), cp_value_refs (cp_value_map f o) = map f (cp_value_refs o).
Proof. intros f []; reflexivity. Qed.
#[export] Hint Resolve map_ext_cp_value map_id_cp_value map_map_cp_value refs_map_cp_value : rename.

Ltac ext_sub ::= first [ apply map_ext_cp_value ].
Lemma map_ext_param_point_property : forall f g (o : param_point_property), (forall r, In r (param_point_property_refs o) -> f r = g r) -> param_point_property_map f o = param_point_property_map g o.
Proof. intros f g o H. unfold param_point_property_map. unfold param_point_property_refs in H. replace (cp_value_map f (ppp_value o)) with (cp_value_map g (ppp_value o)) by (symmetry; ext_field H). reflexivity. Qed.
Lemma map_id_param_point_property : forall o : param_point_property, param_point_property_map (fun r => r) o = o.
Proof. intros o; intros; destruct o as [x0 x1 x2]; unfold param_point_property_map; cbn [ppp_code ppp_type ppp_value] in *; replace (cp_value_map (fun r => r) (x2)) with x2 by (symmetry; id_field); reflexivity. Qed.
Lemma map_map_param_point_property : forall f g (o : param_point_property), param_point_property_map g (param_point_property_map f o) = param_point_property_map (fun r => g (f r)) o.
Proof. intros f g o. unfold param_point_property_map. cbn [ppp_code ppp_type ppp_value]. replace (cp_value_map g ((cp_value_map f (ppp_value o)))) with (cp_value_map (fun r => g (f r)) (ppp_value o)) by (symmetry; mm_field). reflexivity. Qed.
Lemma refs_map_param_point_property : forall f (o : param_point_property), param_point_property_refs (param_point_property_map f o) = map f (param_point_property_refs o).
Proof. intros f o. unfold param_point_property_refs, param_point_property_map. cbn [ppp_code ppp_type ppp_value]. refs_go. Qed.
#[export] Hint Resolve map_ext_param_point_property map_id_param_point_property map_map_param_point_property refs_map_param_point_property : rename.

Ltac ext_sub ::= first [ apply map_ext_cp_value | apply map_ext_param_point_property ].
Lemma map_ext_param_control_point : forall f g (o : param_control_point), (forall r, In r (param_control_point_refs o) -> f r = g r) -> param_control_point_map f o = param_control_point_map g o.
Proof. intros f g o H. unfold param_control_point_map. unfold param_control_point_refs in H. replace (cp_value_map f (pcp_value o)) with (cp_value_map g (pcp_value o)) by (symmetry; ext_field H). replace (map (param_point_property_map f) (pcp_pp o)) with (map (param_point_property_map g) (pcp_pp o)) by (symmetry; ext_field H). reflexivity. Qed.
Lemma map_id_param_control_point : forall o : param_control_point, param_control_point_map (fun r => r) o = o.
Proof. intros o; intros; destruct o as [x0 x1 x2 x3 x4]; unfold param_control_point_map; cbn [pcp_offset_num pcp_offset_den pcp_timescale pcp_value pcp_pp] in *; replace (cp_value_map (fun r => r) (x3)) with x3 by (symmetry; id_field); replace (map (param_point_property_map (fun r => r)) (x4)) with x4 by (symmetry; id_field); reflexivity. Qed.
Lemma map_map_param_control_point : forall f g (o : param_control_point), param_control_point_map g (param_control_point_map f o) = param_control_point_map (fun r => g (f r)) o.
Proof. intros f g o. unfold param_control_point_map. cbn [pcp_offset_num pcp_offset_den pcp_timescale pcp_value pcp_pp]. replace (cp_value_map g ((cp_value_map f (pcp_value o)))) with (cp_value_map (fun r => g (f r)) (pcp_value o)) by (symmetry; mm_field). replace (map (param_point_property_map g) ((map (param_point_property_map f) (pcp_pp o)))) with (map (param_point_property_map (fun r => g (f r))) (pcp_pp o)) by (symmetry; mm_field). reflexivity. Qed.
Lemma refs_map_param_control_point : forall f (o : param_control_point), param_control_point_refs (param_control_point_map f o) = map f (param_control_point_refs o).
Proof. intros f o. unfold param_control_point_refs, param_control_point_map. cbn [pcp_offset_num pcp_offset_den pcp_timescale pcp_value pcp_pp]. refs_go. Qed.
#[export] Hint Resolve map_ext_param_control_point map_id_param_control_point map_map_param_control_point refs_map_param_control_point : rename.

Ltac ext_sub ::= first [ apply map_ext_clip | apply map_ext_param_control_point ].
Lemma map_ext_param_clip : forall f g (o : param_clip), (forall r, In r (param_clip_refs o) -> f r = g r) -> param_clip_map f o = param_clip_map g o.
Proof. intros f g o H. unfold param_clip_map. unfold param_clip_refs in H. replace (clip_map f (prcl_clip o)) with (clip_map g (prcl_clip o)) by (symmetry; ext_field H). replace (map (param_control_point_map f) (prcl_control_points o)) with (map (param_control_point_map g) (prcl_control_points o)) by (symmetry; ext_field H). reflexivity. Qed.
Lemma map_id_param_clip : forall o : param_clip, param_clip_map (fun r => r) o = o.
Proof. intros o; intros; destruct o as [x0 x1 x2 x3 x4 x5]; unfold param_clip_map; cbn [prcl_clip prcl_interp_kind prcl_value_type prcl_control_points prcl_extrap_kind prcl_fields] in *; replace (clip_map (fun r => r) (x0)) with x0 by (symmetry; id_field); replace (map (param_control_point_map (fun r => r)) (x3)) with x3 by (symmetry; id_field); reflexivity. Qed.
Lemma map_map_param_clip : forall f g (o : param_clip), param_clip_map g (param_clip_map f o) = param_clip_map (fun r => g (f r)) o.
Proof. intros f g o. unfold param_clip_map. cbn [prcl_clip prcl_interp_kind prcl_value_type prcl_control_points prcl_extrap_kind prcl_fields]. replace (clip_map g ((clip_map f (prcl_clip o)))) with (clip_map (fun r => g (f r)) (prcl_clip o)) by (symmetry; mm_field). replace (map (param_control_point_map g) ((map (param_control_point_map f) (prcl_control_points o)))) with (map (param_control_point_map (fun r => g (f r))) (prcl_control_points o)) by (symmetry; mm_field). reflexivity. Qed.
Lemma refs_map_param_clip : forall f (o : param_clip), param_clip_refs (param_clip_map f o) = map f (param_clip_refs o).
Proof. intros f o. unfold param_clip_refs, param_clip_map. cbn [prcl_clip prcl_interp_kind prcl_value_type prcl_control_points prcl_extrap_kind prcl_fields]. refs_go. Qed.
#[export] Hint Resolve map_ext_param_clip map_id_param_clip map_map_param_clip refs_map_param_clip : rename.

Lemma map_ext_control_point_property : forall f g (o : control_point_property), (forall r, In r (control_point_property_refs o) -> f r = g r) -> control_point_property_map f o = control_point_property_map g o.
Proof. intros f g o H. unfold control_point_property_map. unfold control_point_property_refs in H. reflexivity. Qed.
Lemma map_id_control_point_property : forall o : control_point_property, control_point_property_map (fun r => r) o = o.
Proof. intros o; intros; destruct o as [x0 x1 x2]; unfold control_point_property_map; cbn [cpp_code cpp_value_num cpp_value_den] in *; reflexivity. Qed.
Lemma map_map_control_point_property : forall f g (o : control_point_property), control_point_property_map g (control_point_property_map f o) = control_point_property_map (fun r => g (f r)) o.
Proof. intros f g o. unfold control_point_property_map. cbn [cpp_code cpp_value_num cpp_value_den]. reflexivity. Qed.
Lemma refs_map_control_point_property : forall f (o : control_point_property), control_point_property_refs (control_point_property_map f o) = map f (control_point_property_refs o).
Proof. intros f o. unfold control_point_property_refs, control_point_property_map. cbn [cpp_code cpp_value_num cpp_value_den]. refs_go. Qed.
#[export] Hint Resolve map_ext_control_point_property map_id_control_point_property map_map_control_point_property refs_map_control_point_property : rename.

Ltac ext_sub ::= first [ apply map_ext_control_point_property ].
Lemma map_ext_control_point : forall f g (o : control_point), (forall r, In r (control_point_refs o) -> f r = g r) -> control_point_map f o = control_point_map g o.
Proof. intros f g o H. unfold control_point_map. unfold control_point_refs in H. replace (map (control_point_property_map f) (cp_pp o)) with (map (control_point_property_map g) (cp_pp o)) by (symmetry; ext_field H). reflexivity. Qed.
Lemma map_id_control_point : forall o : control_point, control_point_map (fun r => r) o = o.
Proof. intros o; intros; destruct o as [x0 x1 x2 x3 x4 x5]; unfold control_point_map; cbn [cp_offset_num cp_offset_den cp_time_scale cp_value_num cp_value_den cp_pp] in *; replace (map (control_point_property_map (fun r => r)) (x5)) with x5 by (symmetry; id_field); reflexivity. Qed.
Lemma map_map_control_point : forall f g (o : control_point), control_point_map g (control_point_map f o) = control_point_map (fun r => g (f r)) o.
Proof. intros f g o. unfold control_point_map. cbn [cp_offset_num cp_offset_den cp_time_scale cp_value_num cp_value_den cp_pp]. replace (map (control_point_property_map g) ((map (control_point_property_map f) (cp_pp o)))) with (map (control_point_property_map (fun r => g (f r))) (cp_pp o)) by (symmetry; mm_field). reflexivity. Qed.
Lemma refs_map_control_point : forall f (o : control_point), control_point_refs (control_point_map f o) = map f (control_point_refs o).
Proof. intros f o. unfold control_point_refs, control_point_map. cbn [cp_offset_num cp_offset_den cp_time_scale cp_value_num cp_value_den cp_pp]. refs_go. Qed.
#[export] Hint Resolve map_ext_control_point map_id_control_point map_map_control_point refs_map_control_point : rename.

Ltac ext_sub ::= first [ apply map_ext_clip | apply map_ext_control_point ].
Lemma map_ext_control_clip : forall f g (o : control_clip), (forall r, In r (control_clip_refs o) -> f r = g r) -> control_clip_map f o = control_clip_map g o.
Proof. intros f g o H. unfold control_clip_map. unfold control_clip_refs in H. replace (clip_map f (ctrl_clip o)) with (clip_map g (ctrl_clip o)) by (symmetry; ext_field H). replace (map (control_point_map f) (ctrl_control_points o)) with (map (control_point_map g) (ctrl_control_points o)) by (symmetry; ext_field H). reflexivity. Qed.
Lemma map_id_control_clip : forall o : control_clip, control_clip_map (fun r => r) o = o.
Proof. intros o; intros; destruct o as [x0 x1 x2]; unfold control_clip_map; cbn [ctrl_clip ctrl_interp_kind ctrl_control_points] in *; replace (clip_map (fun r => r) (x0)) with x0 by (symmetry; id_field); replace (map (control_point_map (fun r => r)) (x2)) with x2 by (symmetry; id_field); reflexivity. Qed.
Lemma map_map_control_clip : forall f g (o : control_clip), control_clip_map g (control_clip_map f o) = control_clip_map (fun r => g (f r)) o.
Proof. intros f g o. unfold control_clip_map. cbn [ctrl_clip ctrl_interp_kind ctrl_control_points]. replace (clip_map g ((clip_map f (ctrl_clip o)))) with (clip_map (fun r => g (f r)) (ctrl_clip o)) by (symmetry; mm_field). replace (map (control_point_map g) ((map (control_point_map f) (ctrl_control_points o)))) with (map (control_point_map (fun r => g (f r))) (ctrl_control_points o)) by (symmetry; mm_field). reflexivity. Qed.
Lemma refs_map_control_clip : forall f (o : control_clip), control_clip_refs (control_clip_map f o) = map f (control_clip_refs o).
Proof. intros f o. unfold control_clip_refs, control_clip_map. cbn [ctrl_clip ctrl_interp_kind ctrl_control_points]. refs_go. Qed.
#[export] Hint Resolve map_ext_control_clip map_id_control_clip map_map_control_clip refs_map_control_clip : rename.

Ltac ext_sub ::= first [ apply map_ext_clip ].
Lemma map_ext_filler : forall f g (o : filler), (forall r, In r (filler_refs o) -> f r = g r) -> filler_map f o = filler_map g o.
Proof. intros f g o H. unfold filler_map. unfold filler_refs in H. replace (clip_map f (fill_clip o)) with (clip_map g (fill_clip o)) by (symmetry; ext_field H). reflexivity. Qed.
Lemma map_id_filler : forall o : filler, filler_map (fun r => r) o = o.
Proof. intros o; intros; destruct o as [x0]; unfold filler_map; cbn [fill_clip] in *; replace (clip_map (fun r => r) (x0)) with x0 by (symmetry; id_field); reflexivity. Qed.
Lemma map_map_filler : forall f g (o : filler), filler_map g (filler_map f o) = filler_map (fun r => g (f r)) o.
Proof. intros f g o. unfold filler_map. cbn [fill_clip]. replace (clip_map g ((clip_map f (fill_clip o)))) with (clip_map (fun r => g (f r)) (fill_clip o)) by (symmetry; mm_field). reflexivity. Qed.
Lemma refs_map_filler : forall f (o : filler), filler_refs (filler_map f o) = map f (filler_refs o).
Proof. intros f o. unfold filler_refs, filler_map. cbn [fill_clip]. refs_go. Qed.
#[export] Hint Resolve map_ext_filler map_id_filler map_map_filler refs_map_filler : rename.

Lemma map_ext_track : forall f g (o : track), (forall r, In r (track_refs o) -> f r = g r) -> track_map f o = track_map g o.
Proof. intros f g o H. unfold track_map. unfold track_refs in H. replace (option_map f (trak_attributes o)) with (option_map g (trak_attributes o)) by (symmetry; ext_field H). replace (option_map f (trak_session_attr o)) with (option_map g (trak_session_attr o)) by (symmetry; ext_field H). replace (option_map f (trak_component o)) with (option_map g (trak_component o)) by (symmetry; ext_field H). replace (option_map f (trak_filler_proxy o)) with (option_map g (trak_filler_proxy o)) by (symmetry; ext_field H). replace (option_map f (trak_bob_data o)) with (option_map g (trak_bob_data o)) by (symmetry; ext_field H). reflexivity. Qed.
Lemma map_id_track : forall o : track, trak_lock_number o <> None -> track_map (fun r => r) o = o.
Proof.
  intros o H. destruct o as [x0 x1 x2 x3 x4 x5 x6 x7 x8 x9 x10]. cbn in H. unfold track_map. cbn.
  destruct x1, x2, x3, x4, x5, x10; try reflexivity; now destruct H.
Qed.
Lemma map_map_track : forall f g (o : track), track_map g (track_map f o) = track_map (fun r => g (f r)) o.
Proof. intros f g o. unfold track_map. cbn [trak_index trak_attributes trak_session_attr trak_component trak_filler_proxy trak_bob_data trak_control_code trak_control_sub_code trak_start_pos trak_read_only trak_lock_number]. replace (option_map g ((option_map f (trak_attributes o)))) with (option_map (fun r => g (f r)) (trak_attributes o)) by (symmetry; mm_field). replace (option_map g ((option_map f (trak_session_attr o)))) with (option_map (fun r => g (f r)) (trak_session_attr o)) by (symmetry; mm_field). replace (option_map g ((option_map f (trak_component o)))) with (option_map (fun r => g (f r)) (trak_component o)) by (symmetry; mm_field). replace (option_map g ((option_map f (trak_filler_proxy o)))) with (option_map (fun r => g (f r)) (trak_filler_proxy o)) by (symmetry; mm_field). replace (option_map g ((option_map f (trak_bob_data o)))) with (option_map (fun r => g (f r)) (trak_bob_data o)) by (symmetry; mm_field). replace (Some (match (Some (match trak_lock_number o with Some v => v | None => 0 end)) with Some v => v | None => 0 end)) with (Some (match trak_lock_number o with Some v => v | None => 0 end)) by (symmetry; mm_field). reflexivity. Qed.
Lemma refs_map_track : forall f (o : track), track_refs (track_map f o) = map f (track_refs o).
Proof. intros f o. unfold track_refs, track_map. cbn [trak_index trak_attributes trak_session_attr trak_component trak_filler_proxy trak_bob_data trak_control_code trak_control_sub_code trak_start_pos trak_read_only trak_lock_number]. refs_go. Qed.
#[export] Hint Resolve map_ext_track map_id_track map_map_track refs_map_track : rename.

Ltac ext_sub ::= first [ apply map_ext_component | apply map_ext_track ].
Lemma map_ext_track_group : forall f g (o : track_group), (forall r, In r (track_group_refs o) -> f r = g r) -> track_group_map f o = track_group_map g o.
Proof. intros f g o H. unfold track_group_map. unfold track_group_refs in H. replace (component_map f (trkg_component o)) with (component_map g (trkg_component o)) by (symmetry; ext_field H). replace (map (track_map f) (trkg_tracks o)) with (map (track_map g) (trkg_tracks o)) by (symmetry; ext_field H). reflexivity. Qed.
Lemma map_id_track_group : forall o : track_group, locked (o) -> track_group_map (fun r => r) o = o.
Proof.
  intros o H. destruct o as [x0 x1 x2 x3 x4]. unfold locked in H. cbn in H. unfold track_group_map. cbn.
  rewrite map_id_component. rewrite (map_id_in _ (track_map (fun r => r))); [reflexivity|].
  intros a Ha. apply map_id_track. rewrite Forall_forall in H. auto.
Qed.
Lemma map_map_track_group : forall f g (o : track_group), track_group_map g (track_group_map f o) = track_group_map (fun r => g (f r)) o.
Proof. intros f g o. unfold track_group_map. cbn [trkg_component trkg_mc_mode trkg_length trkg_num_scalars trkg_tracks]. replace (component_map g ((component_map f (trkg_component o)))) with (component_map (fun r => g (f r)) (trkg_component o)) by (symmetry; mm_field). replace (map (track_map g) ((map (track_map f) (trkg_tracks o)))) with (map (track_map (fun r => g (f r))) (trkg_tracks o)) by (symmetry; mm_field). reflexivity. Qed.
Lemma refs_map_track_group : forall f (o : track_group), track_group_refs (track_group_map f o) = map f (track_group_refs o).
Proof. intros f o. unfold track_group_refs, track_group_map. cbn [trkg_component trkg_mc_mode trkg_length trkg_num_scalars trkg_tracks]. refs_go. Qed.
#[export] Hint Resolve map_ext_track_group map_id_track_group map_map_track_group refs_map_track_group : rename.

Ltac ext_sub ::= first [ apply map_ext_track_group ].
Lemma map_ext_track_effect : forall f g (o : track_effect), (forall r, In r (track_effect_refs o) -> f r = g r) -> track_effect_map f o = track_effect_map g o.
Proof. intros f g o H. unfold track_effect_map. unfold track_effect_refs in H. replace (track_group_map f (tkfx_group o)) with (track_group_map g (tkfx_group o)) by (symmetry; ext_field H). replace (f (tkfx_keyframes o)) with (g (tkfx_keyframes o)) by (symmetry; ext_field H). replace (option_map f (tkfx_trackman o)) with (option_map g (tkfx_trackman o)) by (symmetry; ext_field H). reflexivity. Qed.
Lemma map_id_track_effect : forall o : track_effect, locked (tkfx_group o) -> track_effect_map (fun r => r) o = o.
Proof. intros o; intros; destruct o as [x0 x1 x2 x3 x4 x5 x6 x7 x8 x9 x10 x11 x12 x13]; unfold track_effect_map; cbn [tkfx_group tkfx_left_length tkfx_right_length tkfx_info_version tkfx_info_current tkfx_info_smooth tkfx_info_color_item tkfx_info_quality tkfx_info_is_reversed tkfx_info_aspect_on tkfx_keyframes tkfx_info_force_software tkfx_info_never_hardware tkfx_trackman] in *; replace (track_group_map (fun r => r) (x0)) with x0 by (symmetry; id_field); replace ((fun r => r) (x10)) with x10 by (symmetry; id_field); replace (option_map (fun r => r) (x13)) with x13 by (symmetry; id_field); reflexivity. Qed.
Lemma map_map_track_effect : forall f g (o : track_effect), track_effect_map g (track_effect_map f o) = track_effect_map (fun r => g (f r)) o.
Proof. intros f g o. unfold track_effect_map. cbn [tkfx_group tkfx_left_length tkfx_right_length tkfx_info_version tkfx_info_current tkfx_info_smooth tkfx_info_color_item tkfx_info_quality tkfx_info_is_reversed tkfx_info_aspect_on tkfx_keyframes tkfx_info_force_software tkfx_info_never_hardware tkfx_trackman]. replace (track_group_map g ((track_group_map f (tkfx_group o)))) with (track_group_map (fun r => g (f r)) (tkfx_group o)) by (symmetry; mm_field). replace (g ((f (tkfx_keyframes o)))) with ((fun r => g (f r)) (tkfx_keyframes o)) by (symmetry; mm_field). replace (option_map g ((option_map f (tkfx_trackman o)))) with (option_map (fun r => g (f r)) (tkfx_trackman o)) by (symmetry; mm_field). reflexivity. Qed.
Lemma refs_map_track_effect : forall f (o : track_effect), track_effect_refs (track_effect_map f o) = map f (track_effect_refs o).
Proof. intros f o. unfold track_effect_refs, track_effect_map. cbn [tkfx_group tkfx_left_length tkfx_right_length tkfx_info_version tkfx_info_current tkfx_info_smooth tkfx_info_color_item tkfx_info_quality tkfx_info_is_reversed tkfx_info_aspect_on tkfx_keyframes tkfx_info_force_software tkfx_info_never_hardware tkfx_trackman]. refs_go. Qed.
#[export] Hint Resolve map_ext_track_effect map_id_track_effect map_map_track_effect refs_map_track_effect : rename.

Ltac ext_sub ::= first [ apply map_ext_track_effect ].
Lemma map_ext_pan_volume_effect : forall f g (o : pan_volume_effect), (forall r, In r (pan_volume_effect_refs o) -> f r = g r) -> pan_volume_effect_map f o = pan_volume_effect_map g o.
Proof. intros f g o H. unfold pan_volume_effect_map. unfold pan_volume_effect_refs in H. replace (track_effect_map f (pvol_effect o)) with (track_effect_map g (pvol_effect o)) by (symmetry; ext_field H). reflexivity. Qed.
Lemma map_id_pan_volume_effect : forall o : pan_volume_effect, locked (tkfx_group (pvol_effect o)) -> pan_volume_effect_map (fun r => r) o = o.
Proof. intros o; intros; destruct o as [x0 x1 x2 x3 x4 x5 x6 x7]; unfold pan_volume_effect_map; cbn [pvol_effect pvol_level pvol_pan pvol_suppress_validation pvol_level_set pvol_pan_set pvol_supports_seperate_gain pvol_is_trim_gain_effect] in *; replace (track_effect_map (fun r => r) (x0)) with x0 by (symmetry; id_field); reflexivity. Qed.
Lemma map_map_pan_volume_effect : forall f g (o : pan_volume_effect), pan_volume_effect_map g (pan_volume_effect_map f o) = pan_volume_effect_map (fun r => g (f r)) o.
Proof. intros f g o. unfold pan_volume_effect_map. cbn [pvol_effect pvol_level pvol_pan pvol_suppress_validation pvol_level_set pvol_pan_set pvol_supports_seperate_gain pvol_is_trim_gain_effect]. replace (track_effect_map g ((track_effect_map f (pvol_effect o)))) with (track_effect_map (fun r => g (f r)) (pvol_effect o)) by (symmetry; mm_field). reflexivity. Qed.
Lemma refs_map_pan_volume_effect : forall f (o : pan_volume_effect), pan_volume_effect_refs (pan_volume_effect_map f o) = map f (pan_volume_effect_refs o).
Proof. intros f o. unfold pan_volume_effect_refs, pan_volume_effect_map. cbn [pvol_effect pvol_level pvol_pan pvol_suppress_validation pvol_level_set pvol_pan_set pvol_supports_seperate_gain pvol_is_trim_gain_effect]. refs_go. Qed.
#[export] Hint Resolve map_ext_pan_volume_effect map_id_pan_volume_effect map_map_pan_volume_effect refs_map_pan_volume_effect : rename.

Lemma map_ext_aspi_chunk : forall f g (o : aspi_chunk), (forall r, In r (aspi_chunk_refs o) -> f r = g r) -> aspi_chunk_map f o = aspi_chunk_map g o.
Proof. intros f g o H. unfold aspi_chunk_map. unfold aspi_chunk_refs in H. reflexivity. Qed.
Lemma map_id_aspi_chunk : forall o : aspi_chunk, aspi_chunk_map (fun r => r) o = o.
Proof. intros o; intros; destruct o as [x0 x1 x2 x3 x4 x5 x6]; unfold aspi_chunk_map; cbn [aspc_version aspc_manufacturer_id aspc_product_id aspc_plugin_id aspc_chunk_id aspc_name aspc_data] in *; reflexivity. Qed.
Lemma map_map_aspi_chunk : forall f g (o : aspi_chunk), aspi_chunk_map g (aspi_chunk_map f o) = aspi_chunk_map (fun r => g (f r)) o.
Proof. intros f g o. unfold aspi_chunk_map. cbn [aspc_version aspc_manufacturer_id aspc_product_id aspc_plugin_id aspc_chunk_id aspc_name aspc_data]. reflexivity. Qed.
Lemma refs_map_aspi_chunk : forall f (o : aspi_chunk), aspi_chunk_refs (aspi_chunk_map f o) = map f (aspi_chunk_refs o).
Proof. intros f o. unfold aspi_chunk_refs, aspi_chunk_map. cbn [aspc_version aspc_manufacturer_id aspc_product_id aspc_plugin_id aspc_chunk_id aspc_name aspc_data]. refs_go. Qed.
#[export] Hint Resolve map_ext_aspi_chunk map_id_aspi_chunk map_map_aspi_chunk refs_map_aspi_chunk : rename.

Ltac ext_sub ::= first [ apply map_ext_aspi_chunk ].
Lemma map_ext_aspi_plugin : forall f g (o : aspi_plugin), (forall r, In r (aspi_plugin_refs o) -> f r = g r) -> aspi_plugin_map f o = aspi_plugin_map g o.
Proof. intros f g o H. unfold aspi_plugin_map. unfold aspi_plugin_refs in H. replace (map (aspi_chunk_map f) (aspp_chunks o)) with (map (aspi_chunk_map g) (aspp_chunks o)) by (symmetry; ext_field H). reflexivity. Qed.
Lemma map_id_aspi_plugin : forall o : aspi_plugin, aspi_plugin_map (fun r => r) o = o.
Proof. intros o; intros; destruct o as [x0 x1 x2 x3 x4]; unfold aspi_plugin_map; cbn [aspp_name aspp_manufacturer_id aspp_product_id aspp_plugin_id aspp_chunks] in *; replace (map (aspi_chunk_map (fun r => r)) (x4)) with x4 by (symmetry; id_field); reflexivity. Qed.
Lemma map_map_aspi_plugin : forall f g (o : aspi_plugin), aspi_plugin_map g (aspi_plugin_map f o) = aspi_plugin_map (fun r => g (f r)) o.
Proof. intros f g o. unfold aspi_plugin_map. cbn [aspp_name aspp_manufacturer_id aspp_product_id aspp_plugin_id aspp_chunks]. replace (map (aspi_chunk_map g) ((map (aspi_chunk_map f) (aspp_chunks o)))) with (map (aspi_chunk_map (fun r => g (f r))) (aspp_chunks o)) by (symmetry; mm_field). reflexivity. Qed.
Lemma refs_map_aspi_plugin : forall f (o : aspi_plugin), aspi_plugin_refs (aspi_plugin_map f o) = map f (aspi_plugin_refs o).
Proof. intros f o. unfold aspi_plugin_refs, aspi_plugin_map. cbn [aspp_name aspp_manufacturer_id aspp_product_id aspp_plugin_id aspp_chunks]. refs_go. Qed.
#[export] Hint Resolve map_ext_aspi_plugin map_id_aspi_plugin map_map_aspi_plugin refs_map_aspi_plugin : rename.

Ltac ext_sub ::= first [ apply map_ext_track_effect | apply map_ext_aspi_plugin ].
Lemma map_ext_audio_suite_effect : forall f g (o : audio_suite_effect), (forall r, In r (audio_suite_effect_refs o) -> f r = g r) -> audio_suite_effect_map f o = audio_suite_effect_map g o.
Proof. intros f g o H. unfold audio_suite_effect_map. unfold audio_suite_effect_refs in H. replace (track_effect_map f (aspi_effect o)) with (track_effect_map g (aspi_effect o)) by (symmetry; ext_field H). replace (map (aspi_plugin_map f) (aspi_plugins o)) with (map (aspi_plugin_map g) (aspi_plugins o)) by (symmetry; ext_field H). reflexivity. Qed.
Lemma map_id_audio_suite_effect : forall o : audio_suite_effect, locked (tkfx_group (aspi_effect o)) -> audio_suite_effect_map (fun r => r) o = o.
Proof. intros o; intros; destruct o as [x0 x1 x2 x3 x4 x5 x6 x7 x8]; unfold audio_suite_effect_map; cbn [aspi_effect aspi_plugins aspi_mob_id aspi_mark_in aspi_mark_out aspi_tracks_to_affect aspi_rendering_mode aspi_padding_secs aspi_preset_path] in *; replace (track_effect_map (fun r => r) (x0)) with x0 by (symmetry; id_field); replace (map (aspi_plugin_map (fun r => r)) (x1)) with x1 by (symmetry; id_field); reflexivity. Qed.
Lemma map_map_audio_suite_effect : forall f g (o : audio_suite_effect), audio_suite_effect_map g (audio_suite_effect_map f o) = audio_suite_effect_map (fun r => g (f r)) o.
Proof. intros f g o. unfold audio_suite_effect_map. cbn [aspi_effect aspi_plugins aspi_mob_id aspi_mark_in aspi_mark_out aspi_tracks_to_affect aspi_rendering_mode aspi_padding_secs aspi_preset_path]. replace (track_effect_map g ((track_effect_map f (aspi_effect o)))) with (track_effect_map (fun r => g (f r)) (aspi_effect o)) by (symmetry; mm_field). replace (map (aspi_plugin_map g) ((map (aspi_plugin_map f) (aspi_plugins o)))) with (map (aspi_plugin_map (fun r => g (f r))) (aspi_plugins o)) by (symmetry; mm_field). reflexivity. Qed.
Lemma refs_map_audio_suite_effect : forall f (o : audio_suite_effect), audio_suite_effect_refs (audio_suite_effect_map f o) = map f (audio_suite_effect_refs o).
Proof. intros f o. unfold audio_suite_effect_refs, audio_suite_effect_map. cbn [aspi_effect aspi_plugins aspi_mob_id aspi_mark_in aspi_mark_out aspi_tracks_to_affect aspi_rendering_mode aspi_padding_secs aspi_preset_path]. refs_go. Qed.
#[export] Hint Resolve map_ext_audio_suite_effect map_id_audio_suite_effect map_map_audio_suite_effect refs_map_audio_suite_effect : rename.

Lemma map_ext_equalizer_band : forall f g (o : equalizer_band), (forall r, In r (equalizer_band_refs o) -> f r = g r) -> equalizer_band_map f o = equalizer_band_map g o.
Proof. intros f g o H. unfold equalizer_band_map. unfold equalizer_band_refs in H. reflexivity. Qed.
Lemma map_id_equalizer_band : forall o : equalizer_band, equalizer_band_map (fun r => r) o = o.
Proof. intros o; intros; destruct o as [x0 x1 x2 x3 x4]; unfold equalizer_band_map; cbn [eqbd_type eqbd_freq eqbd_gain eqbd_q eqbd_enable] in *; reflexivity. Qed.
Lemma map_map_equalizer_band : forall f g (o : equalizer_band), equalizer_band_map g (equalizer_band_map f o) = equalizer_band_map (fun r => g (f r)) o.
Proof. intros f g o. unfold equalizer_band_map. cbn [eqbd_type eqbd_freq eqbd_gain eqbd_q eqbd_enable]. reflexivity. Qed.
Lemma refs_map_equalizer_band : forall f (o : equalizer_band), equalizer_band_refs (equalizer_band_map f o) = map f (equalizer_band_refs o).
Proof. intros f o. unfold equalizer_band_refs, equalizer_band_map. cbn [eqbd_type eqbd_freq eqbd_gain eqbd_q eqbd_enable]. refs_go. Qed.
#[export] Hint Resolve map_ext_equalizer_band map_id_equalizer_band map_map_equalizer_band refs_map_equalizer_band : rename.

Ltac ext_sub ::= first [ apply map_ext_track_effect | apply map_ext_equalizer_band ].
Lemma map_ext_equalizer_multi_band : forall f g (o : equalizer_multi_band), (forall r, In r (equalizer_multi_band_refs o) -> f r = g r) -> equalizer_multi_band_map f o = equalizer_multi_band_map g o.
Proof. intros f g o H. unfold equalizer_multi_band_map. unfold equalizer_multi_band_refs in H. replace (track_effect_map f (eqmb_effect o)) with (track_effect_map g (eqmb_effect o)) by (symmetry; ext_field H). replace (map (equalizer_band_map f) (eqmb_bands o)) with (map (equalizer_band_map g) (eqmb_bands o)) by (symmetry; ext_field H). reflexivity. Qed.
Lemma map_id_equalizer_multi_band : forall o : equalizer_multi_band, locked (tkfx_group (eqmb_effect o)) -> equalizer_multi_band_map (fun r => r) o = o.
Proof. intros o; intros; destruct o as [x0 x1 x2 x3]; unfold equalizer_multi_band_map; cbn [eqmb_effect eqmb_bands eqmb_effect_enable eqmb_filter_name] in *; replace (track_effect_map (fun r => r) (x0)) with x0 by (symmetry; id_field); replace (map (equalizer_band_map (fun r => r)) (x1)) with x1 by (symmetry; id_field); reflexivity. Qed.
Lemma map_map_equalizer_multi_band : forall f g (o : equalizer_multi_band), equalizer_multi_band_map g (equalizer_multi_band_map f o) = equalizer_multi_band_map (fun r => g (f r)) o.
Proof. intros f g o. unfold equalizer_multi_band_map. cbn [eqmb_effect eqmb_bands eqmb_effect_enable eqmb_filter_name]. replace (track_effect_map g ((track_effect_map f (eqmb_effect o)))) with (track_effect_map (fun r => g (f r)) (eqmb_effect o)) by (symmetry; mm_field). replace (map (equalizer_band_map g) ((map (equalizer_band_map f) (eqmb_bands o)))) with (map (equalizer_band_map (fun r => g (f r))) (eqmb_bands o)) by (symmetry; mm_field). reflexivity. Qed.
Lemma refs_map_equalizer_multi_band : forall f (o : equalizer_multi_band), equalizer_multi_band_refs (equalizer_multi_band_map f o) = map f (equalizer_multi_band_refs o).
Proof. intros f o. unfold equalizer_multi_band_refs, equalizer_multi_band_map. cbn [eqmb_effect eqmb_bands eqmb_effect_enable eqmb_filter_name]. refs_go. Qed.
#[export] Hint Resolve map_ext_equalizer_multi_band map_id_equalizer_multi_band map_map_equalizer_multi_band refs_map_equalizer_multi_band : rename.

Ltac ext_sub ::= first [ apply map_ext_track_group ].
Lemma map_ext_time_warp : forall f g (o : time_warp), (forall r, In r (time_warp_refs o) -> f r = g r) -> time_warp_map f o = time_warp_map g o.
Proof. intros f g o H. unfold time_warp_map. unfold time_warp_refs in H. replace (track_group_map f (warp_group o)) with (track_group_map g (warp_group o)) by (symmetry; ext_field H). reflexivity. Qed.
Lemma map_id_time_warp : forall o : time_warp, locked (warp_group o) -> time_warp_map (fun r => r) o = o.
Proof. intros o; intros; destruct o as [x0 x1]; unfold time_warp_map; cbn [warp_group warp_phase_offset] in *; replace (track_group_map (fun r => r) (x0)) with x0 by (symmetry; id_field); reflexivity. Qed.
Lemma map_map_time_warp : forall f g (o : time_warp), time_warp_map g (time_warp_map f o) = time_warp_map (fun r => g (f r)) o.
Proof. intros f g o. unfold time_warp_map. cbn [warp_group warp_phase_offset]. replace (track_group_map g ((track_group_map f (warp_group o)))) with (track_group_map (fun r => g (f r)) (warp_group o)) by (symmetry; mm_field). reflexivity. Qed.
Lemma refs_map_time_warp : forall f (o : time_warp), time_warp_refs (time_warp_map f o) = map f (time_warp_refs o).
Proof. intros f o. unfold time_warp_refs, time_warp_map. cbn [warp_group warp_phase_offset]. refs_go. Qed.
#[export] Hint Resolve map_ext_time_warp map_id_time_warp map_map_time_warp refs_map_time_warp : rename.

Ltac ext_sub ::= first [ apply map_ext_time_warp ].
Lemma map_ext_capture_mask : forall f g (o : capture_mask), (forall r, In r (capture_mask_refs o) -> f r = g r) -> capture_mask_map f o = capture_mask_map g o.
Proof. intros f g o H. unfold capture_mask_map. unfold capture_mask_refs in H. replace (time_warp_map f (mask_warp o)) with (time_warp_map g (mask_warp o)) by (symmetry; ext_field H). reflexivity. Qed.
Lemma map_id_capture_mask : forall o : capture_mask, locked (warp_group (mask_warp o)) -> capture_mask_map (fun r => r) o = o.
Proof. intros o; intros; destruct o as [x0 x1 x2]; unfold capture_mask_map; cbn [mask_warp mask_is_double mask_mask_bits] in *; replace (time_warp_map (fun r => r) (x0)) with x0 by (symmetry; id_field); reflexivity. Qed.
Lemma map_map_capture_mask : forall f g (o : capture_mask), capture_mask_map g (capture_mask_map f o) = capture_mask_map (fun r => g (f r)) o.
Proof. intros f g o. unfold capture_mask_map. cbn [mask_warp mask_is_double mask_mask_bits]. replace (time_warp_map g ((time_warp_map f (mask_warp o)))) with (time_warp_map (fun r => g (f r)) (mask_warp o)) by (symmetry; mm_field). reflexivity. Qed.
Lemma refs_map_capture_mask : forall f (o : capture_mask), capture_mask_refs (capture_mask_map f o) = map f (capture_mask_refs o).
Proof. intros f o. unfold capture_mask_refs, capture_mask_map. cbn [mask_warp mask_is_double mask_mask_bits]. refs_go. Qed.
#[export] Hint Resolve map_ext_capture_mask map_id_capture_mask map_map_capture_mask refs_map_capture_mask : rename.

Ltac ext_sub ::= first [ apply map_ext_time_warp ].
Lemma map_ext_strobe_effect : forall f g (o : strobe_effect), (forall r, In r (strobe_effect_refs o) -> f r = g r) -> strobe_effect_map f o = strobe_effect_map g o.
Proof. intros f g o H. unfold strobe_effect_map. unfold strobe_effect_refs in H. replace (time_warp_map f (strb_warp o)) with (time_warp_map g (strb_warp o)) by (symmetry; ext_field H). reflexivity. Qed.
Lemma map_id_strobe_effect : forall o : strobe_effect, locked (warp_group (strb_warp o)) -> strobe_effect_map (fun r => r) o = o.
Proof. intros o; intros; destruct o as [x0 x1]; unfold strobe_effect_map; cbn [strb_warp strb_strobe_value] in *; replace (time_warp_map (fun r => r) (x0)) with x0 by (symmetry; id_field); reflexivity. Qed.
Lemma map_map_strobe_effect : forall f g (o : strobe_effect), strobe_effect_map g (strobe_effect_map f o) = strobe_effect_map (fun r => g (f r)) o.
Proof. intros f g o. unfold strobe_effect_map. cbn [strb_warp strb_strobe_value]. replace (time_warp_map g ((time_warp_map f (strb_warp o)))) with (time_warp_map (fun r => g (f r)) (strb_warp o)) by (symmetry; mm_field). reflexivity. Qed.
Lemma refs_map_strobe_effect : forall f (o : strobe_effect), strobe_effect_refs (strobe_effect_map f o) = map f (strobe_effect_refs o).
Proof. intros f o. unfold strobe_effect_refs, strobe_effect_map. cbn [strb_warp strb_strobe_value]. refs_go. Qed.
#[export] Hint Resolve map_ext_strobe_effect map_id_strobe_effect map_map_strobe_effect refs_map_strobe_effect : rename.

Ltac ext_sub ::= first [ apply map_ext_time_warp ].
Lemma map_ext_motion_effect : forall f g (o : motion_effect), (forall r, In r (motion_effect_refs o) -> f r = g r) -> motion_effect_map f o = motion_effect_map g o.
Proof. intros f g o H. unfold motion_effect_map. unfold motion_effect_refs in H. replace (time_warp_map f (sped_warp o)) with (time_warp_map g (sped_warp o)) by (symmetry; ext_field H). replace (option_map f (sped_source_param_list o)) with (option_map g (sped_source_param_list o)) by (symmetry; ext_field H). reflexivity. Qed.
Lemma map_id_motion_effect : forall o : motion_effect, locked (warp_group (sped_warp o)) -> motion_effect_map (fun r => r) o = o.
Proof. intros o; intros; destruct o as [x0 x1 x2 x3 x4 x5]; unfold motion_effect_map; cbn [sped_warp sped_speed_num sped_speed_den sped_offset_adjust sped_source_param_list sped_new_source_calculation] in *; replace (time_warp_map (fun r => r) (x0)) with x0 by (symmetry; id_field); replace (option_map (fun r => r) (x4)) with x4 by (symmetry; id_field); reflexivity. Qed.
Lemma map_map_motion_effect : forall f g (o : motion_effect), motion_effect_map g (motion_effect_map f o) = motion_effect_map (fun r => g (f r)) o.
Proof. intros f g o. unfold motion_effect_map. cbn [sped_warp sped_speed_num sped_speed_den sped_offset_adjust sped_source_param_list sped_new_source_calculation]. replace (time_warp_map g ((time_warp_map f (sped_warp o)))) with (time_warp_map (fun r => g (f r)) (sped_warp o)) by (symmetry; mm_field). replace (option_map g ((option_map f (sped_source_param_list o)))) with (option_map (fun r => g (f r)) (sped_source_param_list o)) by (symmetry; mm_field). reflexivity. Qed.
Lemma refs_map_motion_effect : forall f (o : motion_effect), motion_effect_refs (motion_effect_map f o) = map f (motion_effect_refs o).
Proof. intros f o. unfold motion_effect_refs, motion_effect_map. cbn [sped_warp sped_speed_num sped_speed_den sped_offset_adjust sped_source_param_list sped_new_source_calculation]. refs_go. Qed.
#[export] Hint Resolve map_ext_motion_effect map_id_motion_effect map_map_motion_effect refs_map_motion_effect : rename.

Ltac ext_sub ::= first [ apply map_ext_time_warp ].
Lemma map_ext_repeat_effect : forall f g (o : repeat_effect), (forall r, In r (repeat_effect_refs o) -> f r = g r) -> repeat_effect_map f o = repeat_effect_map g o.
Proof. intros f g o H. unfold repeat_effect_map. unfold repeat_effect_refs in H. replace (time_warp_map f (rept_warp o)) with (time_warp_map g (rept_warp o)) by (symmetry; ext_field H). reflexivity. Qed.
Lemma map_id_repeat_effect : forall o : repeat_effect, locked (warp_group (rept_warp o)) -> repeat_effect_map (fun r => r) o = o.
Proof. intros o; intros; destruct o as [x0]; unfold repeat_effect_map; cbn [rept_warp] in *; replace (time_warp_map (fun r => r) (x0)) with x0 by (symmetry; id_field); reflexivity. Qed.
Lemma map_map_repeat_effect : forall f g (o : repeat_effect), repeat_effect_map g (repeat_effect_map f o) = repeat_effect_map (fun r => g (f r)) o.
Proof. intros f g o. unfold repeat_effect_map. cbn [rept_warp]. replace (time_warp_map g ((time_warp_map f (rept_warp o)))) with (time_warp_map (fun r => g (f r)) (rept_warp o)) by (symmetry; mm_field). reflexivity. Qed.
Lemma refs_map_repeat_effect : forall f (o : repeat_effect), repeat_effect_refs (repeat_effect_map f o) = map f (repeat_effect_refs o).
Proof. intros f o. unfold repeat_effect_refs, repeat_effect_map. cbn [rept_warp]. refs_go. Qed.
#[export] Hint Resolve map_ext_repeat_effect map_id_repeat_effect map_map_repeat_effect refs_map_repeat_effect : rename.

Ltac ext_sub ::= first [ apply map_ext_track_group ].
Lemma map_ext_essence_group : forall f g (o : essence_group), (forall r, In r (essence_group_refs o) -> f r = g r) -> essence_group_map f o = essence_group_map g o.
Proof. intros f g o H. unfold essence_group_map. unfold essence_group_refs in H. replace (track_group_map f (rset_group o)) with (track_group_map g (rset_group o)) by (symmetry; ext_field H). reflexivity. Qed.
Lemma map_id_essence_group : forall o : essence_group, locked (rset_group o) -> essence_group_map (fun r => r) o = o.
Proof. intros o; intros; destruct o as [x0 x1]; unfold essence_group_map; cbn [rset_group rset_rep_set_type] in *; replace (track_group_map (fun r => r) (x0)) with x0 by (symmetry; id_field); reflexivity. Qed.
Lemma map_map_essence_group : forall f g (o : essence_group), essence_group_map g (essence_group_map f o) = essence_group_map (fun r => g (f r)) o.
Proof. intros f g o. unfold essence_group_map. cbn [rset_group rset_rep_set_type]. replace (track_group_map g ((track_group_map f (rset_group o)))) with (track_group_map (fun r => g (f r)) (rset_group o)) by (symmetry; mm_field). reflexivity. Qed.
Lemma refs_map_essence_group : forall f (o : essence_group), essence_group_refs (essence_group_map f o) = map f (essence_group_refs o).
Proof. intros f o. unfold essence_group_refs, essence_group_map. cbn [rset_group rset_rep_set_type]. refs_go. Qed.
#[export] Hint Resolve map_ext_essence_group map_id_essence_group map_map_essence_group refs_map_essence_group : rename.

Ltac ext_sub ::= first [ apply map_ext_track_group ].
Lemma map_ext_transition_effect : forall f g (o : transition_effect), (forall r, In r (transition_effect_refs o) -> f r = g r) -> transition_effect_map f o = transition_effect_map g o.
Proof. intros f g o H. unfold transition_effect_map. unfold transition_effect_refs in H. replace (track_group_map f (tnfx_group o)) with (track_group_map g (tnfx_group o)) by (symmetry; ext_field H). replace (f (tnfx_keyframes o)) with (g (tnfx_keyframes o)) by (symmetry; ext_field H). replace (option_map f (tnfx_trackman o)) with (option_map g (tnfx_trackman o)) by (symmetry; ext_field H). reflexivity. Qed.
Lemma map_id_transition_effect : forall o : transition_effect, locked (tnfx_group o) -> transition_effect_map (fun r => r) o = o.
Proof. intros o; intros; destruct o as [x0 x1 x2 x3 x4 x5 x6 x7 x8 x9 x10 x11 x12 x13 x14]; unfold transition_effect_map; cbn [tnfx_group tnfx_cutpoint tnfx_left_length tnfx_right_length tnfx_info_version tnfx_info_current tnfx_info_smooth tnfx_info_color_item tnfx_info_quality tnfx_info_is_reversed tnfx_info_aspect_on tnfx_keyframes tnfx_info_force_software tnfx_info_never_hardware tnfx_trackman] in *; replace (track_group_map (fun r => r) (x0)) with x0 by (symmetry; id_field); replace ((fun r => r) (x11)) with x11 by (symmetry; id_field); replace (option_map (fun r => r) (x14)) with x14 by (symmetry; id_field); reflexivity. Qed.
Lemma map_map_transition_effect : forall f g (o : transition_effect), transition_effect_map g (transition_effect_map f o) = transition_effect_map (fun r => g (f r)) o.
Proof. intros f g o. unfold transition_effect_map. cbn [tnfx_group tnfx_cutpoint tnfx_left_length tnfx_right_length tnfx_info_version tnfx_info_current tnfx_info_smooth tnfx_info_color_item tnfx_info_quality tnfx_info_is_reversed tnfx_info_aspect_on tnfx_keyframes tnfx_info_force_software tnfx_info_never_hardware tnfx_trackman]. replace (track_group_map g ((track_group_map f (tnfx_group o)))) with (track_group_map (fun r => g (f r)) (tnfx_group o)) by (symmetry; mm_field). replace (g ((f (tnfx_keyframes o)))) with ((fun r => g (f r)) (tnfx_keyframes o)) by (symmetry; mm_field). replace (option_map g ((option_map f (tnfx_trackman o)))) with (option_map (fun r => g (f r)) (tnfx_trackman o)) by (symmetry; mm_field). reflexivity. Qed.
Lemma refs_map_transition_effect : forall f (o : transition_effect), transition_effect_refs (transition_effect_map f o) = map f (transition_effect_refs o).
Proof. intros f o. unfold transition_effect_refs, transition_effect_map. cbn [tnfx_group tnfx_cutpoint tnfx_left_length tnfx_right_length tnfx_info_version tnfx_info_current tnfx_info_smooth tnfx_info_color_item tnfx_info_quality tnfx_info_is_reversed tnfx_info_aspect_on tnfx_keyframes tnfx_info_force_software tnfx_info_never_hardware tnfx_trackman]. refs_go. Qed.
#[export] Hint Resolve map_ext_transition_effect map_id_transition_effect map_map_transition_effect refs_map_transition_effect : rename.

Ltac ext_sub ::= first [ apply map_ext_track_group ].
Lemma map_ext_selector : forall f g (o : selector), (forall r, In r (selector_refs o) -> f r = g r) -> selector_map f o = selector_map g o.
Proof. intros f g o H. unfold selector_map. unfold selector_refs in H. replace (track_group_map f (slct_group o)) with (track_group_map g (slct_group o)) by (symmetry; ext_field H). reflexivity. Qed.
Lemma map_id_selector : forall o : selector, locked (slct_group o) -> selector_map (fun r => r) o = o.
Proof. intros o; intros; destruct o as [x0 x1 x2]; unfold selector_map; cbn [slct_group slct_is_ganged slct_selected] in *; replace (track_group_map (fun r => r) (x0)) with x0 by (symmetry; id_field); reflexivity. Qed.
Lemma map_map_selector : forall f g (o : selector), selector_map g (selector_map f o) = selector_map (fun r => g (f r)) o.
Proof. intros f g o. unfold selector_map. cbn [slct_group slct_is_ganged slct_selected]. replace (track_group_map g ((track_group_map f (slct_group o)))) with (track_group_map (fun r => g (f r)) (slct_group o)) by (symmetry; mm_field). reflexivity. Qed.
Lemma refs_map_selector : forall f (o : selector), selector_refs (selector_map f o) = map f (selector_refs o).
Proof. intros f o. unfold selector_refs, selector_map. cbn [slct_group slct_is_ganged slct_selected]. refs_go. Qed.
#[export] Hint Resolve map_ext_selector map_id_selector map_map_selector refs_map_selector : rename.

Ltac ext_sub ::= first [ apply map_ext_track_group ].
Lemma map_ext_composition : forall f g (o : composition), (forall r, In r (composition_refs o) -> f r = g r) -> composition_map f o = composition_map g o.
Proof. intros f g o H. unfold composition_map. unfold composition_refs in H. replace (track_group_map f (cmpo_group o)) with (track_group_map g (cmpo_group o)) by (symmetry; ext_field H). replace (f (cmpo_descriptor o)) with (g (cmpo_descriptor o)) by (symmetry; ext_field H). reflexivity. Qed.
Lemma map_id_composition : forall o : composition, locked (cmpo_group o) -> composition_map (fun r => r) o = o.
Proof. intros o; intros; destruct o as [x0 x1 x2 x3 x4 x5 x6]; unfold composition_map; cbn [cmpo_group cmpo_last_modified cmpo_mob_type_id cmpo_usage_code cmpo_descriptor cmpo_creation_time cmpo_mob_id] in *; replace (track_group_map (fun r => r) (x0)) with x0 by (symmetry; id_field); replace ((fun r => r) (x4)) with x4 by (symmetry; id_field); reflexivity. Qed.
Lemma map_map_composition : forall f g (o : composition), composition_map g (composition_map f o) = composition_map (fun r => g (f r)) o.
Proof. intros f g o. unfold composition_map. cbn [cmpo_group cmpo_last_modified cmpo_mob_type_id cmpo_usage_code cmpo_descriptor cmpo_creation_time cmpo_mob_id]. replace (track_group_map g ((track_group_map f (cmpo_group o)))) with (track_group_map (fun r => g (f r)) (cmpo_group o)) by (symmetry; mm_field). replace (g ((f (cmpo_descriptor o)))) with ((fun r => g (f r)) (cmpo_descriptor o)) by (symmetry; mm_field). reflexivity. Qed.
Lemma refs_map_composition : forall f (o : composition), composition_refs (composition_map f o) = map f (composition_refs o).
Proof. intros f o. unfold composition_refs, composition_map. cbn [cmpo_group cmpo_last_modified cmpo_mob_type_id cmpo_usage_code cmpo_descriptor cmpo_creation_time cmpo_mob_id]. refs_go. Qed.
#[export] Hint Resolve map_ext_composition map_id_composition map_map_composition refs_map_composition : rename.

Lemma map_ext_file_locator : forall f g (o : file_locator), (forall r, In r (file_locator_refs o) -> f r = g r) -> file_locator_map f o = file_locator_map g o.
Proof. intros f g o H. unfold file_locator_map. unfold file_locator_refs in H. reflexivity. Qed.
Lemma map_id_file_locator : forall o : file_locator, file_locator_map (fun r => r) o = o.
Proof. intros o; intros; destruct o as [x0 x1 x2 x3]; unfold file_locator_map; cbn [file_path file_path_posix file_path_utf8 file_path2_utf8] in *; reflexivity. Qed.
Lemma map_map_file_locator : forall f g (o : file_locator), file_locator_map g (file_locator_map f o) = file_locator_map (fun r => g (f r)) o.
Proof. intros f g o. unfold file_locator_map. cbn [file_path file_path_posix file_path_utf8 file_path2_utf8]. reflexivity. Qed.
Lemma refs_map_file_locator : forall f (o : file_locator), file_locator_refs (file_locator_map f o) = map f (file_locator_refs o).
Proof. intros f o. unfold file_locator_refs, file_locator_map. cbn [file_path file_path_posix file_path_utf8 file_path2_utf8]. refs_go. Qed.
#[export] Hint Resolve map_ext_file_locator map_id_file_locator map_map_file_locator refs_map_file_locator : rename.

Lemma map_ext_url_locator : forall f g (o : url_locator), (forall r, In r (url_locator_refs o) -> f r = g r) -> url_locator_map f o = url_locator_map g o.
Proof. reflexivity. Qed.
Lemma map_id_url_locator : forall o : url_locator, url_locator_map (fun r => r) o = o.
Proof. reflexivity. Qed.
Lemma map_map_url_locator : forall f g (o : url_locator), url_locator_map g (url_locator_map f o) = url_locator_map (fun r => g (f r)) o.
Proof. reflexivity. Qed.
Lemma refs_map_url_locator : forall f (o : url_locator), url_locator_refs (url_locator_map f o) = map f (url_locator_refs o).
Proof. reflexivity. Qed.
#[export] Hint Resolve map_ext_url_locator map_id_url_locator map_map_url_locator refs_map_url_locator : rename.

Lemma map_ext_graphic_effect : forall f g (o : graphic_effect), (forall r, In r (graphic_effect_refs o) -> f r = g r) -> graphic_effect_map f o = graphic_effect_map g o.
Proof. intros f g o H. unfold graphic_effect_map. unfold graphic_effect_refs in H. reflexivity. Qed.
Lemma map_id_graphic_effect : forall o : graphic_effect, graphic_effect_map (fun r => r) o = o.
Proof. intros o; intros; destruct o as [x0]; unfold graphic_effect_map; cbn [grfx_pict_data] in *; reflexivity. Qed.
Lemma map_map_graphic_effect : forall f g (o : graphic_effect), graphic_effect_map g (graphic_effect_map f o) = graphic_effect_map (fun r => g (f r)) o.
Proof. intros f g o. unfold graphic_effect_map. cbn [grfx_pict_data]. reflexivity. Qed.
Lemma refs_map_graphic_effect : forall f (o : graphic_effect), graphic_effect_refs (graphic_effect_map f o) = map f (graphic_effect_refs o).
Proof. intros f o. unfold graphic_effect_refs, graphic_effect_map. cbn [grfx_pict_data]. refs_go. Qed.
#[export] Hint Resolve map_ext_graphic_effect map_id_graphic_effect map_map_graphic_effect refs_map_graphic_effect : rename.

Lemma map_ext_shape_list : forall f g (o : shape_list), (forall r, In r (shape_list_refs o) -> f r = g r) -> shape_list_map f o = shape_list_map g o.
Proof. intros f g o H. unfold shape_list_map. unfold shape_list_refs in H. reflexivity. Qed.
Lemma map_id_shape_list : forall o : shape_list, shape_list_map (fun r => r) o = o.
Proof. intros o; intros; destruct o as [x0]; unfold shape_list_map; cbn [shlp_shape_data] in *; reflexivity. Qed.
Lemma map_map_shape_list : forall f g (o : shape_list), shape_list_map g (shape_list_map f o) = shape_list_map (fun r => g (f r)) o.
Proof. intros f g o. unfold shape_list_map. cbn [shlp_shape_data]. reflexivity. Qed.
Lemma refs_map_shape_list : forall f (o : shape_list), shape_list_refs (shape_list_map f o) = map f (shape_list_refs o).
Proof. intros f o. unfold shape_list_refs, shape_list_map. cbn [shlp_shape_data]. refs_go. Qed.
#[export] Hint Resolve map_ext_shape_list map_id_shape_list map_map_shape_list refs_map_shape_list : rename.

Lemma map_ext_color_correction_effect : forall f g (o : color_correction_effect), (forall r, In r (color_correction_effect_refs o) -> f r = g r) -> color_correction_effect_map f o = color_correction_effect_map g o.
Proof. intros f g o H. unfold color_correction_effect_map. unfold color_correction_effect_refs in H. reflexivity. Qed.
Lemma map_id_color_correction_effect : forall o : color_correction_effect, color_correction_effect_map (fun r => r) o = o.
Proof. intros o; intros; destruct o as [x0]; unfold color_correction_effect_map; cbn [ccfx_color_correction] in *; reflexivity. Qed.
Lemma map_map_color_correction_effect : forall f g (o : color_correction_effect), color_correction_effect_map g (color_correction_effect_map f o) = color_correction_effect_map (fun r => g (f r)) o.
Proof. intros f g o. unfold color_correction_effect_map. cbn [ccfx_color_correction]. reflexivity. Qed.
Lemma refs_map_color_correction_effect : forall f (o : color_correction_effect), color_correction_effect_refs (color_correction_effect_map f o) = map f (color_correction_effect_refs o).
Proof. intros f o. unfold color_correction_effect_refs, color_correction_effect_map. cbn [ccfx_color_correction]. refs_go. Qed.
#[export] Hint Resolve map_ext_color_correction_effect map_id_color_correction_effect map_map_color_correction_effect refs_map_color_correction_effect : rename.

Lemma map_ext_effect_param : forall f g (o : effect_param), (forall r, In r (effect_param_refs o) -> f r = g r) -> effect_param_map f o = effect_param_map g o.
Proof. intros f g o H. unfold effect_param_map. unfold effect_param_refs in H. reflexivity. Qed.
Lemma map_id_effect_param : forall o : effect_param, effect_param_map (fun r => r) o = o.
Proof. intros o; intros; destruct o as [x0 x1 x2 x3 x4 x5 x6 x7 x8 x9 x10 x11 x12 x13 x14 x15 x16 x17 x18 x19 x20 x21 x22 x23 x24 x25 x26 x27 x28]; unfold effect_param_map; cbn [fxp_percent_time fxp_level fxp_pos_x fxp_floor_x fxp_ceil_x fxp_pos_y fxp_floor_y fxp_ceil_y fxp_scale_x fxp_scale_y fxp_crop_left fxp_crop_right fxp_crop_top fxp_crop_bottom fxp_box fxp_box_xscale fxp_box_yscale fxp_box_xpos fxp_box_ypos fxp_border_width fxp_border_soft fxp_splill_gain2 fxp_splill_gain fxp_splill_soft2 fxp_splill_soft fxp_enable_key_flags fxp_colors fxp_user_param fxp_selected] in *; reflexivity. Qed.
Lemma map_map_effect_param : forall f g (o : effect_param), effect_param_map g (effect_param_map f o) = effect_param_map (fun r => g (f r)) o.
Proof. intros f g o. unfold effect_param_map. cbn [fxp_percent_time fxp_level fxp_pos_x fxp_floor_x fxp_ceil_x fxp_pos_y fxp_floor_y fxp_ceil_y fxp_scale_x fxp_scale_y fxp_crop_left fxp_crop_right fxp_crop_top fxp_crop_bottom fxp_box fxp_box_xscale fxp_box_yscale fxp_box_xpos fxp_box_ypos fxp_border_width fxp_border_soft fxp_splill_gain2 fxp_splill_gain fxp_splill_soft2 fxp_splill_soft fxp_enable_key_flags fxp_colors fxp_user_param fxp_selected]. reflexivity. Qed.
Lemma refs_map_effect_param : forall f (o : effect_param), effect_param_refs (effect_param_map f o) = map f (effect_param_refs o).
Proof. intros f o. unfold effect_param_refs, effect_param_map. cbn [fxp_percent_time fxp_level fxp_pos_x fxp_floor_x fxp_ceil_x fxp_pos_y fxp_floor_y fxp_ceil_y fxp_scale_x fxp_scale_y fxp_crop_left fxp_crop_right fxp_crop_top fxp_crop_bottom fxp_box fxp_box_xscale fxp_box_yscale fxp_box_xpos fxp_box_ypos fxp_border_width fxp_border_soft fxp_splill_gain2 fxp_splill_gain fxp_splill_soft2 fxp_splill_soft fxp_enable_key_flags fxp_colors fxp_user_param fxp_selected]. refs_go. Qed.
#[export] Hint Resolve map_ext_effect_param map_id_effect_param map_map_effect_param refs_map_effect_param : rename.

Ltac ext_sub ::= first [ apply map_ext_effect_param ].
Lemma map_ext_effect_param_list : forall f g (o : effect_param_list), (forall r, In r (effect_param_list_refs o) -> f r = g r) -> effect_param_list_map f o = effect_param_list_map g o.
Proof. intros f g o H. unfold effect_param_list_map. unfold effect_param_list_refs in H. replace (map (effect_param_map f) (fxps_parameters o)) with (map (effect_param_map g) (fxps_parameters o)) by (symmetry; ext_field H). reflexivity. Qed.
Lemma map_id_effect_param_list : forall o : effect_param_list, effect_param_list_map (fun r => r) o = o.
Proof. intros o; intros; destruct o as [x0 x1 x2 x3]; unfold effect_param_list_map; cbn [fxps_orig_length fxps_window_offset fxps_keyframe_size fxps_parameters] in *; replace (map (effect_param_map (fun r => r)) (x3)) with x3 by (symmetry; id_field); reflexivity. Qed.
Lemma map_map_effect_param_list : forall f g (o : effect_param_list), effect_param_list_map g (effect_param_list_map f o) = effect_param_list_map (fun r => g (f r)) o.
Proof. intros f g o. unfold effect_param_list_map. cbn [fxps_orig_length fxps_window_offset fxps_keyframe_size fxps_parameters]. replace (map (effect_param_map g) ((map (effect_param_map f) (fxps_parameters o)))) with (map (effect_param_map (fun r => g (f r))) (fxps_parameters o)) by (symmetry; mm_field). reflexivity. Qed.
Lemma refs_map_effect_param_list : forall f (o : effect_param_list), effect_param_list_refs (effect_param_list_map f o) = map f (effect_param_list_refs o).
Proof. intros f o. unfold effect_param_list_refs, effect_param_list_map. cbn [fxps_orig_length fxps_window_offset fxps_keyframe_size fxps_parameters]. refs_go. Qed.
#[export] Hint Resolve map_ext_effect_param_list map_id_effect_param_list map_map_effect_param_list refs_map_effect_param_list : rename.

Lemma map_ext_cf_user_param : forall f g (o : cf_user_param), (forall r, In r (cf_user_param_refs o) -> f r = g r) -> cf_user_param_map f o = cf_user_param_map g o.
Proof. intros f g o H. unfold cf_user_param_map. unfold cf_user_param_refs in H. reflexivity. Qed.
Lemma map_id_cf_user_param : forall o : cf_user_param, cf_user_param_map (fun r => r) o = o.
Proof. intros o; intros; destruct o as [x0 x1 x2]; unfold cf_user_param_map; cbn [avup_byte_order avup_uuid avup_data] in *; reflexivity. Qed.
Lemma map_map_cf_user_param : forall f g (o : cf_user_param), cf_user_param_map g (cf_user_param_map f o) = cf_user_param_map (fun r => g (f r)) o.
Proof. intros f g o. unfold cf_user_param_map. cbn [avup_byte_order avup_uuid avup_data]. reflexivity. Qed.
Lemma refs_map_cf_user_param : forall f (o : cf_user_param), cf_user_param_refs (cf_user_param_map f o) = map f (cf_user_param_refs o).
Proof. intros f o. unfold cf_user_param_refs, cf_user_param_map. cbn [avup_byte_order avup_uuid avup_data]. refs_go. Qed.
#[export] Hint Resolve map_ext_cf_user_param map_id_cf_user_param map_map_cf_user_param refs_map_cf_user_param : rename.

Ltac ext_sub ::= first [ apply map_ext_cp_value ].
Lemma map_ext_parameter_item : forall f g (o : parameter_item), (forall r, In r (parameter_item_refs o) -> f r = g r) -> parameter_item_map f o = parameter_item_map g o.
Proof. intros f g o H. unfold parameter_item_map. unfold parameter_item_refs in H. replace (cp_value_map f (prit_value o)) with (cp_value_map g (prit_value o)) by (symmetry; ext_field H). replace (f (prit_control_track o)) with (g (prit_control_track o)) by (symmetry; ext_field H). reflexivity. Qed.
Lemma map_id_parameter_item : forall o : parameter_item, parameter_item_map (fun r => r) o = o.
Proof. intros o; intros; destruct o as [x0 x1 x2 x3 x4 x5 x6]; unfold parameter_item_map; cbn [prit_uuid prit_value_type prit_value prit_name prit_enable prit_control_track prit_contribs_to_sig] in *; replace (cp_value_map (fun r => r) (x2)) with x2 by (symmetry; id_field); replace ((fun r => r) (x5)) with x5 by (symmetry; id_field); reflexivity. Qed.
Lemma map_map_parameter_item : forall f g (o : parameter_item), parameter_item_map g (parameter_item_map f o) = parameter_item_map (fun r => g (f r)) o.
Proof. intros f g o. unfold parameter_item_map. cbn [prit_uuid prit_value_type prit_value prit_name prit_enable prit_control_track prit_contribs_to_sig]. replace (cp_value_map g ((cp_value_map f (prit_value o)))) with (cp_value_map (fun r => g (f r)) (prit_value o)) by (symmetry; mm_field). replace (g ((f (prit_control_track o)))) with ((fun r => g (f r)) (prit_control_track o)) by (symmetry; mm_field). reflexivity. Qed.
Lemma refs_map_parameter_item : forall f (o : parameter_item), parameter_item_refs (parameter_item_map f o) = map f (parameter_item_refs o).
Proof. intros f o. unfold parameter_item_refs, parameter_item_map. cbn [prit_uuid prit_value_type prit_value prit_name prit_enable prit_control_track prit_contribs_to_sig]. refs_go. Qed.
#[export] Hint Resolve map_ext_parameter_item map_id_parameter_item map_map_parameter_item refs_map_parameter_item : rename.

Lemma map_ext_msm_locator : forall f g (o : msm_locator), (forall r, In r (msm_locator_refs o) -> f r = g r) -> msm_locator_map f o = msm_locator_map g o.
Proof. intros f g o H. unfold msm_locator_map. unfold msm_locator_refs in H. reflexivity. Qed.
Lemma map_id_msm_locator : forall o : msm_locator, msm_locator_map (fun r => r) o = o.
Proof. intros o; intros; destruct o as [x0 x1 x2 x3]; unfold msm_locator_map; cbn [msml_last_known_volume msml_domain_type msml_mob_id msml_last_known_volume_utf8] in *; reflexivity. Qed.
Lemma map_map_msm_locator : forall f g (o : msm_locator), msm_locator_map g (msm_locator_map f o) = msm_locator_map (fun r => g (f r)) o.
Proof. intros f g o. unfold msm_locator_map. cbn [msml_last_known_volume msml_domain_type msml_mob_id msml_last_known_volume_utf8]. reflexivity. Qed.
Lemma refs_map_msm_locator : forall f (o : msm_locator), msm_locator_refs (msm_locator_map f o) = map f (msm_locator_refs o).
Proof. intros f o. unfold msm_locator_refs, msm_locator_map. cbn [msml_last_known_volume msml_domain_type msml_mob_id msml_last_known_volume_utf8]. refs_go. Qed.
#[export] Hint Resolve map_ext_msm_locator map_id_msm_locator map_map_msm_locator refs_map_msm_locator : rename.

Lemma map_ext_position : forall f g (o : position), (forall r, In r (position_refs o) -> f r = g r) -> position_map f o = position_map g o.
Proof. intros f g o H. unfold position_map. unfold position_refs in H. reflexivity. Qed.
Lemma map_id_position : forall o : position, position_map (fun r => r) o = o.
Proof. intros o; intros; destruct o as [x0]; unfold position_map; cbn [apos_mob_id] in *; reflexivity. Qed.
Lemma map_map_position : forall f g (o : position), position_map g (position_map f o) = position_map (fun r => g (f r)) o.
Proof. intros f g o. unfold position_map. cbn [apos_mob_id]. reflexivity. Qed.
Lemma refs_map_position : forall f (o : position), position_refs (position_map f o) = map f (position_refs o).
Proof. intros f o. unfold position_refs, position_map. cbn [apos_mob_id]. refs_go. Qed.
#[export] Hint Resolve map_ext_position map_id_position map_map_position refs_map_position : rename.

Ltac ext_sub ::= first [ apply map_ext_position ].
Lemma map_ext_bob_position : forall f g (o : bob_position), (forall r, In r (bob_position_refs o) -> f r = g r) -> bob_position_map f o = bob_position_map g o.
Proof. intros f g o H. unfold bob_position_map. unfold bob_position_refs in H. replace (position_map f (abob_position o)) with (position_map g (abob_position o)) by (symmetry; ext_field H). reflexivity. Qed.
Lemma map_id_bob_position : forall o : bob_position, bob_position_map (fun r => r) o = o.
Proof. intros o; intros; destruct o as [x0 x1 x2 x3 x4]; unfold bob_position_map; cbn [abob_position abob_sample_num abob_length abob_track_type abob_track_index] in *; replace (position_map (fun r => r) (x0)) with x0 by (symmetry; id_field); reflexivity. Qed.
Lemma map_map_bob_position : forall f g (o : bob_position), bob_position_map g (bob_position_map f o) = bob_position_map (fun r => g (f r)) o.
Proof. intros f g o. unfold bob_position_map. cbn [abob_position abob_sample_num abob_length abob_track_type abob_track_index]. replace (position_map g ((position_map f (abob_position o)))) with (position_map (fun r => g (f r)) (abob_position o)) by (symmetry; mm_field). reflexivity. Qed.
Lemma refs_map_bob_position : forall f (o : bob_position), bob_position_refs (bob_position_map f o) = map f (bob_position_refs o).
Proof. intros f o. unfold bob_position_refs, bob_position_map. cbn [abob_position abob_sample_num abob_length abob_track_type abob_track_index]. refs_go. Qed.
#[export] Hint Resolve map_ext_bob_position map_id_bob_position map_map_bob_position refs_map_bob_position : rename.

Ltac ext_sub ::= first [ apply map_ext_bob_position ].
Lemma map_ext_did_position : forall f g (o : did_position), (forall r, In r (did_position_refs o) -> f r = g r) -> did_position_map f o = did_position_map g o.
Proof. intros f g o H. unfold did_position_map. unfold did_position_refs in H. replace (bob_position_map f (didp_bob o)) with (bob_position_map g (didp_bob o)) by (symmetry; ext_field H). reflexivity. Qed.
Lemma map_id_did_position : forall o : did_position, did_position_map (fun r => r) o = o.
Proof. intros o; intros; destruct o as [x0 x1 x2 x3 x4]; unfold did_position_map; cbn [didp_bob didp_strip didp_offset didp_byte_length didp_spos_invalid] in *; replace (bob_position_map (fun r => r) (x0)) with x0 by (symmetry; id_field); reflexivity. Qed.
Lemma map_map_did_position : forall f g (o : did_position), did_position_map g (did_position_map f o) = did_position_map (fun r => g (f r)) o.
Proof. intros f g o. unfold did_position_map. cbn [didp_bob didp_strip didp_offset didp_byte_length didp_spos_invalid]. replace (bob_position_map g ((bob_position_map f (didp_bob o)))) with (bob_position_map (fun r => g (f r)) (didp_bob o)) by (symmetry; mm_field). reflexivity. Qed.
Lemma refs_map_did_position : forall f (o : did_position), did_position_refs (did_position_map f o) = map f (did_position_refs o).
Proof. intros f o. unfold did_position_refs, did_position_map. cbn [didp_bob didp_strip didp_offset didp_byte_length didp_spos_invalid]. refs_go. Qed.
#[export] Hint Resolve map_ext_did_position map_id_did_position map_map_did_position refs_map_did_position : rename.

Ltac ext_sub ::= first [ apply map_ext_did_position ].
Lemma map_ext_mpg_position : forall f g (o : mpg_position), (forall r, In r (mpg_position_refs o) -> f r = g r) -> mpg_position_map f o = mpg_position_map g o.
Proof. intros f g o H. unfold mpg_position_map. unfold mpg_position_refs in H. replace (did_position_map f (mpgp_did o)) with (did_position_map g (mpgp_did o)) by (symmetry; ext_field H). reflexivity. Qed.
Lemma map_id_mpg_position : forall o : mpg_position, mpg_position_map (fun r => r) o = o.
Proof. intros o; intros; destruct o as [x0 x1 x2 x3]; unfold mpg_position_map; cbn [mpgp_did mpgp_trailing_discards mpgp_need_seq_hdr mpgp_fields] in *; replace (did_position_map (fun r => r) (x0)) with x0 by (symmetry; id_field); reflexivity. Qed.
Lemma map_map_mpg_position : forall f g (o : mpg_position), mpg_position_map g (mpg_position_map f o) = mpg_position_map (fun r => g (f r)) o.
Proof. intros f g o. unfold mpg_position_map. cbn [mpgp_did mpgp_trailing_discards mpgp_need_seq_hdr mpgp_fields]. replace (did_position_map g ((did_position_map f (mpgp_did o)))) with (did_position_map (fun r => g (f r)) (mpgp_did o)) by (symmetry; mm_field). reflexivity. Qed.
Lemma refs_map_mpg_position : forall f (o : mpg_position), mpg_position_refs (mpg_position_map f o) = map f (mpg_position_refs o).
Proof. intros f o. unfold mpg_position_refs, mpg_position_map. cbn [mpgp_did mpgp_trailing_discards mpgp_need_seq_hdr mpgp_fields]. refs_go. Qed.
#[export] Hint Resolve map_ext_mpg_position map_id_mpg_position map_map_mpg_position refs_map_mpg_position : rename.

Lemma map_ext_bin_ref : forall f g (o : bin_ref), (forall r, In r (bin_ref_refs o) -> f r = g r) -> bin_ref_map f o = bin_ref_map g o.
Proof. intros f g o H. unfold bin_ref_map. unfold bin_ref_refs in H. reflexivity. Qed.
Lemma map_id_bin_ref : forall o : bin_ref, bin_ref_map (fun r => r) o = o.
Proof. intros o; intros; destruct o as [x0 x1 x2 x3]; unfold bin_ref_map; cbn [mcbr_uid_high mcbr_uid_low mcbr_name mcbr_name_utf8] in *; reflexivity. Qed.
Lemma map_map_bin_ref : forall f g (o : bin_ref), bin_ref_map g (bin_ref_map f o) = bin_ref_map (fun r => g (f r)) o.
Proof. intros f g o. unfold bin_ref_map. cbn [mcbr_uid_high mcbr_uid_low mcbr_name mcbr_name_utf8]. reflexivity. Qed.
Lemma refs_map_bin_ref : forall f (o : bin_ref), bin_ref_refs (bin_ref_map f o) = map f (bin_ref_refs o).
Proof. intros f o. unfold bin_ref_refs, bin_ref_map. cbn [mcbr_uid_high mcbr_uid_low mcbr_name mcbr_name_utf8]. refs_go. Qed.
#[export] Hint Resolve map_ext_bin_ref map_id_bin_ref map_map_bin_ref refs_map_bin_ref : rename.

Lemma map_ext_mob_ref : forall f g (o : mob_ref), (forall r, In r (mob_ref_refs o) -> f r = g r) -> mob_ref_map f o = mob_ref_map g o.
Proof. intros f g o H. unfold mob_ref_map. unfold mob_ref_refs in H. reflexivity. Qed.
Lemma map_id_mob_ref : forall o : mob_ref, mob_ref_map (fun r => r) o = o.
Proof. intros o; intros; destruct o as [x0 x1]; unfold mob_ref_map; cbn [mcmr_position mcmr_mob_id] in *; reflexivity. Qed.
Lemma map_map_mob_ref : forall f g (o : mob_ref), mob_ref_map g (mob_ref_map f o) = mob_ref_map (fun r => g (f r)) o.
Proof. intros f g o. unfold mob_ref_map. cbn [mcmr_position mcmr_mob_id]. reflexivity. Qed.
Lemma refs_map_mob_ref : forall f (o : mob_ref), mob_ref_refs (mob_ref_map f o) = map f (mob_ref_refs o).
Proof. intros f o. unfold mob_ref_refs, mob_ref_map. cbn [mcmr_position mcmr_mob_id]. refs_go. Qed.
#[export] Hint Resolve map_ext_mob_ref map_id_mob_ref map_map_mob_ref refs_map_mob_ref : rename.

Ltac ext_sub ::= first [ apply map_ext_mob_ref ].
Lemma map_ext_marker : forall f g (o : marker), (forall r, In r (marker_refs o) -> f r = g r) -> marker_map f o = marker_map g o.
Proof. intros f g o H. unfold marker_map. unfold marker_refs in H. replace (mob_ref_map f (tmbc_mob_ref o)) with (mob_ref_map g (tmbc_mob_ref o)) by (symmetry; ext_field H). replace (f (tmbc_attributes o)) with (g (tmbc_attributes o)) by (symmetry; ext_field H). reflexivity. Qed.
Lemma map_id_marker : forall o : marker, marker_map (fun r => r) o = o.
Proof. intros o; intros; destruct o as [x0 x1 x2 x3 x4]; unfold marker_map; cbn [tmbc_mob_ref tmbc_comp_offset tmbc_attributes tmbc_color tmbc_handled_codes] in *; replace (mob_ref_map (fun r => r) (x0)) with x0 by (symmetry; id_field); replace ((fun r => r) (x2)) with x2 by (symmetry; id_field); reflexivity. Qed.
Lemma map_map_marker : forall f g (o : marker), marker_map g (marker_map f o) = marker_map (fun r => g (f r)) o.
Proof. intros f g o. unfold marker_map. cbn [tmbc_mob_ref tmbc_comp_offset tmbc_attributes tmbc_color tmbc_handled_codes]. replace (mob_ref_map g ((mob_ref_map f (tmbc_mob_ref o)))) with (mob_ref_map (fun r => g (f r)) (tmbc_mob_ref o)) by (symmetry; mm_field). replace (g ((f (tmbc_attributes o)))) with ((fun r => g (f r)) (tmbc_attributes o)) by (symmetry; mm_field). reflexivity. Qed.
Lemma refs_map_marker : forall f (o : marker), marker_refs (marker_map f o) = map f (marker_refs o).
Proof. intros f o. unfold marker_refs, marker_map. cbn [tmbc_mob_ref tmbc_comp_offset tmbc_attributes tmbc_color tmbc_handled_codes]. refs_go. Qed.
#[export] Hint Resolve map_ext_marker map_id_marker map_map_marker refs_map_marker : rename.

Lemma map_ext_tracker_manager : forall f g (o : tracker_manager), (forall r, In r (tracker_manager_refs o) -> f r = g r) -> tracker_manager_map f o = tracker_manager_map g o.
Proof. intros f g o H. unfold tracker_manager_map. unfold tracker_manager_refs in H. replace (f (tkmn_data_slots o)) with (g (tkmn_data_slots o)) by (symmetry; ext_field H). replace (f (tkmn_param_slots o)) with (g (tkmn_param_slots o)) by (symmetry; ext_field H). reflexivity. Qed.
Lemma map_id_tracker_manager : forall o : tracker_manager, tracker_manager_map (fun r => r) o = o.
Proof. intros o; intros; destruct o as [x0 x1]; unfold tracker_manager_map; cbn [tkmn_data_slots tkmn_param_slots] in *; replace ((fun r => r) (x0)) with x0 by (symmetry; id_field); replace ((fun r => r) (x1)) with x1 by (symmetry; id_field); reflexivity. Qed.
Lemma map_map_tracker_manager : forall f g (o : tracker_manager), tracker_manager_map g (tracker_manager_map f o) = tracker_manager_map (fun r => g (f r)) o.
Proof. intros f g o. unfold tracker_manager_map. cbn [tkmn_data_slots tkmn_param_slots]. replace (g ((f (tkmn_data_slots o)))) with ((fun r => g (f r)) (tkmn_data_slots o)) by (symmetry; mm_field). replace (g ((f (tkmn_param_slots o)))) with ((fun r => g (f r)) (tkmn_param_slots o)) by (symmetry; mm_field). reflexivity. Qed.
Lemma refs_map_tracker_manager : forall f (o : tracker_manager), tracker_manager_refs (tracker_manager_map f o) = map f (tracker_manager_refs o).
Proof. intros f o. unfold tracker_manager_refs, tracker_manager_map. cbn [tkmn_data_slots tkmn_param_slots]. refs_go. Qed.
#[export] Hint Resolve map_ext_tracker_manager map_id_tracker_manager map_map_tracker_manager refs_map_tracker_manager : rename.

Lemma map_ext_tracker_data_slot : forall f g (o : tracker_data_slot), (forall r, In r (tracker_data_slot_refs o) -> f r = g r) -> tracker_data_slot_map f o = tracker_data_slot_map g o.
Proof. intros f g o H. unfold tracker_data_slot_map. unfold tracker_data_slot_refs in H. replace (map f (tkds_tracker_data o)) with (map g (tkds_tracker_data o)) by (symmetry; ext_field H). reflexivity. Qed.
Lemma map_id_tracker_data_slot : forall o : tracker_data_slot, tracker_data_slot_map (fun r => r) o = o.
Proof. intros o; intros; destruct o as [x0 x1]; unfold tracker_data_slot_map; cbn [tkds_tracker_data tkds_track_fg] in *; replace (map (fun r => r) (x0)) with x0 by (symmetry; id_field); reflexivity. Qed.
Lemma map_map_tracker_data_slot : forall f g (o : tracker_data_slot), tracker_data_slot_map g (tracker_data_slot_map f o) = tracker_data_slot_map (fun r => g (f r)) o.
Proof. intros f g o. unfold tracker_data_slot_map. cbn [tkds_tracker_data tkds_track_fg]. replace (map g ((map f (tkds_tracker_data o)))) with (map (fun r => g (f r)) (tkds_tracker_data o)) by (symmetry; mm_field). reflexivity. Qed.
Lemma refs_map_tracker_data_slot : forall f (o : tracker_data_slot), tracker_data_slot_refs (tracker_data_slot_map f o) = map f (tracker_data_slot_refs o).
Proof. intros f o. unfold tracker_data_slot_refs, tracker_data_slot_map. cbn [tkds_tracker_data tkds_track_fg]. refs_go. Qed.
#[export] Hint Resolve map_ext_tracker_data_slot map_id_tracker_data_slot map_map_tracker_data_slot refs_map_tracker_data_slot : rename.

Lemma map_ext_tracker_parameter_slot : forall f g (o : tracker_parameter_slot), (forall r, In r (tracker_parameter_slot_refs o) -> f r = g r) -> tracker_parameter_slot_map f o = tracker_parameter_slot_map g o.
Proof. intros f g o H. unfold tracker_parameter_slot_map. unfold tracker_parameter_slot_refs in H. replace (map f (tkps_params o)) with (map g (tkps_params o)) by (symmetry; ext_field H). reflexivity. Qed.
Lemma map_id_tracker_parameter_slot : forall o : tracker_parameter_slot, tracker_parameter_slot_map (fun r => r) o = o.
Proof. intros o; intros; destruct o as [x0 x1]; unfold tracker_parameter_slot_map; cbn [tkps_settings tkps_params] in *; replace (map (fun r => r) (x1)) with x1 by (symmetry; id_field); reflexivity. Qed.
Lemma map_map_tracker_parameter_slot : forall f g (o : tracker_parameter_slot), tracker_parameter_slot_map g (tracker_parameter_slot_map f o) = tracker_parameter_slot_map (fun r => g (f r)) o.
Proof. intros f g o. unfold tracker_parameter_slot_map. cbn [tkps_settings tkps_params]. replace (map g ((map f (tkps_params o)))) with (map (fun r => g (f r)) (tkps_params o)) by (symmetry; mm_field). reflexivity. Qed.
Lemma refs_map_tracker_parameter_slot : forall f (o : tracker_parameter_slot), tracker_parameter_slot_refs (tracker_parameter_slot_map f o) = map f (tracker_parameter_slot_refs o).
Proof. intros f o. unfold tracker_parameter_slot_refs, tracker_parameter_slot_map. cbn [tkps_settings tkps_params]. refs_go. Qed.
#[export] Hint Resolve map_ext_tracker_parameter_slot map_id_tracker_parameter_slot map_map_tracker_parameter_slot refs_map_tracker_parameter_slot : rename.

Lemma map_ext_tracker_data : forall f g (o : tracker_data), (forall r, In r (tracker_data_refs o) -> f r = g r) -> tracker_data_map f o = tracker_data_map g o.
Proof. intros f g o H. unfold tracker_data_map. unfold tracker_data_refs in H. replace (map f (tkda_clips o)) with (map g (tkda_clips o)) by (symmetry; ext_field H). replace (option_map f (tkda_clip5 o)) with (option_map g (tkda_clip5 o)) by (symmetry; ext_field H). replace (option_map f (tkda_clip6 o)) with (option_map g (tkda_clip6 o)) by (symmetry; ext_field H). reflexivity. Qed.
Lemma map_id_tracker_data : forall o : tracker_data, tracker_data_map (fun r => r) o = o.
Proof. intros o; intros; destruct o as [x0 x1 x2 x3 x4 x5 x6 x7 x8]; unfold tracker_data_map; cbn [tkda_settings tkda_clip_version tkda_clips tkda_offset_tracking tkda_smoothing tkda_jitter_removal tkda_filter_amount tkda_clip5 tkda_clip6] in *; replace (map (fun r => r) (x2)) with x2 by (symmetry; id_field); replace (option_map (fun r => r) (x7)) with x7 by (symmetry; id_field); replace (option_map (fun r => r) (x8)) with x8 by (symmetry; id_field); reflexivity. Qed.
Lemma map_map_tracker_data : forall f g (o : tracker_data), tracker_data_map g (tracker_data_map f o) = tracker_data_map (fun r => g (f r)) o.
Proof. intros f g o. unfold tracker_data_map. cbn [tkda_settings tkda_clip_version tkda_clips tkda_offset_tracking tkda_smoothing tkda_jitter_removal tkda_filter_amount tkda_clip5 tkda_clip6]. replace (map g ((map f (tkda_clips o)))) with (map (fun r => g (f r)) (tkda_clips o)) by (symmetry; mm_field). replace (option_map g ((option_map f (tkda_clip5 o)))) with (option_map (fun r => g (f r)) (tkda_clip5 o)) by (symmetry; mm_field). replace (option_map g ((option_map f (tkda_clip6 o)))) with (option_map (fun r => g (f r)) (tkda_clip6 o)) by (symmetry; mm_field). reflexivity. Qed.
Lemma refs_map_tracker_data : forall f (o : tracker_data), tracker_data_refs (tracker_data_map f o) = map f (tracker_data_refs o).
Proof. intros f o. unfold tracker_data_refs, tracker_data_map. cbn [tkda_settings tkda_clip_version tkda_clips tkda_offset_tracking tkda_smoothing tkda_jitter_removal tkda_filter_amount tkda_clip5 tkda_clip6]. refs_go. Qed.
#[export] Hint Resolve map_ext_tracker_data map_id_tracker_data map_map_tracker_data refs_map_tracker_data : rename.

Lemma map_ext_tracker_parameter : forall f g (o : tracker_parameter), (forall r, In r (tracker_parameter_refs o) -> f r = g r) -> tracker_parameter_map f o = tracker_parameter_map g o.
Proof. intros f g o H. unfold tracker_parameter_map. unfold tracker_parameter_refs in H. reflexivity. Qed.
Lemma map_id_tracker_parameter : forall o : tracker_parameter, tracker_parameter_map (fun r => r) o = o.
Proof. intros o; intros; destruct o as [x0]; unfold tracker_parameter_map; cbn [tkpa_settings] in *; reflexivity. Qed.
Lemma map_map_tracker_parameter : forall f g (o : tracker_parameter), tracker_parameter_map g (tracker_parameter_map f o) = tracker_parameter_map (fun r => g (f r)) o.
Proof. intros f g o. unfold tracker_parameter_map. cbn [tkpa_settings]. reflexivity. Qed.
Lemma refs_map_tracker_parameter : forall f (o : tracker_parameter), tracker_parameter_refs (tracker_parameter_map f o) = map f (tracker_parameter_refs o).
Proof. intros f o. unfold tracker_parameter_refs, tracker_parameter_map. cbn [tkpa_settings]. refs_go. Qed.
#[export] Hint Resolve map_ext_tracker_parameter map_id_tracker_parameter map_map_tracker_parameter refs_map_tracker_parameter : rename.

Lemma map_ext_media_descriptor : forall f g (o : media_descriptor), (forall r, In r (media_descriptor_refs o) -> f r = g r) -> media_descriptor_map f o = media_descriptor_map g o.
Proof. intros f g o H. unfold media_descriptor_map. unfold media_descriptor_refs in H. replace (f (mdes_locator o)) with (g (mdes_locator o)) by (symmetry; ext_field H). replace (f (mdes_physical_media o)) with (g (mdes_physical_media o)) by (symmetry; ext_field H). replace (option_map f (mdes_attributes o)) with (option_map g (mdes_attributes o)) by (symmetry; ext_field H). reflexivity. Qed.
Lemma map_id_media_descriptor : forall o : media_descriptor, media_descriptor_map (fun r => r) o = o.
Proof. intros o; intros; destruct o as [x0 x1 x2 x3 x4 x5 x6]; unfold media_descriptor_map; cbn [mdes_mob_kind mdes_locator mdes_intermediate mdes_physical_media mdes_uuid mdes_wchar mdes_attributes] in *; replace ((fun r => r) (x1)) with x1 by (symmetry; id_field); replace ((fun r => r) (x3)) with x3 by (symmetry; id_field); replace (option_map (fun r => r) (x6)) with x6 by (symmetry; id_field); reflexivity. Qed.
Lemma map_map_media_descriptor : forall f g (o : media_descriptor), media_descriptor_map g (media_descriptor_map f o) = media_descriptor_map (fun r => g (f r)) o.
Proof. intros f g o. unfold media_descriptor_map. cbn [mdes_mob_kind mdes_locator mdes_intermediate mdes_physical_media mdes_uuid mdes_wchar mdes_attributes]. replace (g ((f (mdes_locator o)))) with ((fun r => g (f r)) (mdes_locator o)) by (symmetry; mm_field). replace (g ((f (mdes_physical_media o)))) with ((fun r => g (f r)) (mdes_physical_media o)) by (symmetry; mm_field). replace (option_map g ((option_map f (mdes_attributes o)))) with (option_map (fun r => g (f r)) (mdes_attributes o)) by (symmetry; mm_field). reflexivity. Qed.
Lemma refs_map_media_descriptor : forall f (o : media_descriptor), media_descriptor_refs (media_descriptor_map f o) = map f (media_descriptor_refs o).
Proof. intros f o. unfold media_descriptor_refs, media_descriptor_map. cbn [mdes_mob_kind mdes_locator mdes_intermediate mdes_physical_media mdes_uuid mdes_wchar mdes_attributes]. refs_go. Qed.
#[export] Hint Resolve map_ext_media_descriptor map_id_media_descriptor map_map_media_descriptor refs_map_media_descriptor : rename.

Ltac ext_sub ::= first [ apply map_ext_media_descriptor ].
Lemma map_ext_tape_descriptor : forall f g (o : tape_descriptor), (forall r, In r (tape_descriptor_refs o) -> f r = g r) -> tape_descriptor_map f o = tape_descriptor_map g o.
Proof. intros f g o H. unfold tape_descriptor_map. unfold tape_descriptor_refs in H. replace (media_descriptor_map f (mdtp_media o)) with (media_descriptor_map g (mdtp_media o)) by (symmetry; ext_field H). reflexivity. Qed.
Lemma map_id_tape_descriptor : forall o : tape_descriptor, tape_descriptor_map (fun r => r) o = o.
Proof. intros o; intros; destruct o as [x0 x1]; unfold tape_descriptor_map; cbn [mdtp_media mdtp_cframe] in *; replace (media_descriptor_map (fun r => r) (x0)) with x0 by (symmetry; id_field); reflexivity. Qed.
Lemma map_map_tape_descriptor : forall f g (o : tape_descriptor), tape_descriptor_map g (tape_descriptor_map f o) = tape_descriptor_map (fun r => g (f r)) o.
Proof. intros f g o. unfold tape_descriptor_map. cbn [mdtp_media mdtp_cframe]. replace (media_descriptor_map g ((media_descriptor_map f (mdtp_media o)))) with (media_descriptor_map (fun r => g (f r)) (mdtp_media o)) by (symmetry; mm_field). reflexivity. Qed.
Lemma refs_map_tape_descriptor : forall f (o : tape_descriptor), tape_descriptor_refs (tape_descriptor_map f o) = map f (tape_descriptor_refs o).
Proof. intros f o. unfold tape_descriptor_refs, tape_descriptor_map. cbn [mdtp_media mdtp_cframe]. refs_go. Qed.
#[export] Hint Resolve map_ext_tape_descriptor map_id_tape_descriptor map_map_tape_descriptor refs_map_tape_descriptor : rename.

Ltac ext_sub ::= first [ apply map_ext_media_descriptor ].
Lemma map_ext_media_file_descriptor : forall f g (o : media_file_descriptor), (forall r, In r (media_file_descriptor_refs o) -> f r = g r) -> media_file_descriptor_map f o = media_file_descriptor_map g o.
Proof. intros f g o H. unfold media_file_descriptor_map. unfold media_file_descriptor_refs in H. replace (media_descriptor_map f (mdfl_media o)) with (media_descriptor_map g (mdfl_media o)) by (symmetry; ext_field H). reflexivity. Qed.
Lemma map_id_media_file_descriptor : forall o : media_file_descriptor, media_file_descriptor_map (fun r => r) o = o.
Proof. intros o; intros; destruct o as [x0 x1 x2 x3 x4]; unfold media_file_descriptor_map; cbn [mdfl_media mdfl_edit_rate mdfl_length mdfl_is_omfi mdfl_data_offset] in *; replace (media_descriptor_map (fun r => r) (x0)) with x0 by (symmetry; id_field); reflexivity. Qed.
Lemma map_map_media_file_descriptor : forall f g (o : media_file_descriptor), media_file_descriptor_map g (media_file_descriptor_map f o) = media_file_descriptor_map (fun r => g (f r)) o.
Proof. intros f g o. unfold media_file_descriptor_map. cbn [mdfl_media mdfl_edit_rate mdfl_length mdfl_is_omfi mdfl_data_offset]. replace (media_descriptor_map g ((media_descriptor_map f (mdfl_media o)))) with (media_descriptor_map (fun r => g (f r)) (mdfl_media o)) by (symmetry; mm_field). reflexivity. Qed.
Lemma refs_map_media_file_descriptor : forall f (o : media_file_descriptor), media_file_descriptor_refs (media_file_descriptor_map f o) = map f (media_file_descriptor_refs o).
Proof. intros f o. unfold media_file_descriptor_refs, media_file_descriptor_map. cbn [mdfl_media mdfl_edit_rate mdfl_length mdfl_is_omfi mdfl_data_offset]. refs_go. Qed.
#[export] Hint Resolve map_ext_media_file_descriptor map_id_media_file_descriptor map_map_media_file_descriptor refs_map_media_file_descriptor : rename.

Ltac ext_sub ::= first [ apply map_ext_media_file_descriptor ].
Lemma map_ext_multi_descriptor : forall f g (o : multi_descriptor), (forall r, In r (multi_descriptor_refs o) -> f r = g r) -> multi_descriptor_map f o = multi_descriptor_map g o.
Proof. intros f g o H. unfold multi_descriptor_map. unfold multi_descriptor_refs in H. replace (media_file_descriptor_map f (muld_file o)) with (media_file_descriptor_map g (muld_file o)) by (symmetry; ext_field H). replace (map f (muld_descriptors o)) with (map g (muld_descriptors o)) by (symmetry; ext_field H). reflexivity. Qed.
Lemma map_id_multi_descriptor : forall o : multi_descriptor, multi_descriptor_map (fun r => r) o = o.
Proof. intros o; intros; destruct o as [x0 x1]; unfold multi_descriptor_map; cbn [muld_file muld_descriptors] in *; replace (media_file_descriptor_map (fun r => r) (x0)) with x0 by (symmetry; id_field); replace (map (fun r => r) (x1)) with x1 by (symmetry; id_field); reflexivity. Qed.
Lemma map_map_multi_descriptor : forall f g (o : multi_descriptor), multi_descriptor_map g (multi_descriptor_map f o) = multi_descriptor_map (fun r => g (f r)) o.
Proof. intros f g o. unfold multi_descriptor_map. cbn [muld_file muld_descriptors]. replace (media_file_descriptor_map g ((media_file_descriptor_map f (muld_file o)))) with (media_file_descriptor_map (fun r => g (f r)) (muld_file o)) by (symmetry; mm_field). replace (map g ((map f (muld_descriptors o)))) with (map (fun r => g (f r)) (muld_descriptors o)) by (symmetry; mm_field). reflexivity. Qed.
Lemma refs_map_multi_descriptor : forall f (o : multi_descriptor), multi_descriptor_refs (multi_descriptor_map f o) = map f (multi_descriptor_refs o).
Proof. intros f o. unfold multi_descriptor_refs, multi_descriptor_map. cbn [muld_file muld_descriptors]. refs_go. Qed.
#[export] Hint Resolve map_ext_multi_descriptor map_id_multi_descriptor map_map_multi_descriptor refs_map_multi_descriptor : rename.

Ltac ext_sub ::= first [ apply map_ext_media_file_descriptor ].
Lemma map_ext_wave_descriptor : forall f g (o : wave_descriptor), (forall r, In r (wave_descriptor_refs o) -> f r = g r) -> wave_descriptor_map f o = wave_descriptor_map g o.
Proof. intros f g o H. unfold wave_descriptor_map. unfold wave_descriptor_refs in H. replace (media_file_descriptor_map f (wave_file o)) with (media_file_descriptor_map g (wave_file o)) by (symmetry; ext_field H). reflexivity. Qed.
Lemma map_id_wave_descriptor : forall o : wave_descriptor, wave_descriptor_map (fun r => r) o = o.
Proof. intros o; intros; destruct o as [x0 x1]; unfold wave_descriptor_map; cbn [wave_file wave_summary] in *; replace (media_file_descriptor_map (fun r => r) (x0)) with x0 by (symmetry; id_field); reflexivity. Qed.
Lemma map_map_wave_descriptor : forall f g (o : wave_descriptor), wave_descriptor_map g (wave_descriptor_map f o) = wave_descriptor_map (fun r => g (f r)) o.
Proof. intros f g o. unfold wave_descriptor_map. cbn [wave_file wave_summary]. replace (media_file_descriptor_map g ((media_file_descriptor_map f (wave_file o)))) with (media_file_descriptor_map (fun r => g (f r)) (wave_file o)) by (symmetry; mm_field). reflexivity. Qed.
Lemma refs_map_wave_descriptor : forall f (o : wave_descriptor), wave_descriptor_refs (wave_descriptor_map f o) = map f (wave_descriptor_refs o).
Proof. intros f o. unfold wave_descriptor_refs, wave_descriptor_map. cbn [wave_file wave_summary]. refs_go. Qed.
#[export] Hint Resolve map_ext_wave_descriptor map_id_wave_descriptor map_map_wave_descriptor refs_map_wave_descriptor : rename.

Ltac ext_sub ::= first [ apply map_ext_media_file_descriptor ].
Lemma map_ext_aifc_descriptor : forall f g (o : aifc_descriptor), (forall r, In r (aifc_descriptor_refs o) -> f r = g r) -> aifc_descriptor_map f o = aifc_descriptor_map g o.
Proof. intros f g o H. unfold aifc_descriptor_map. unfold aifc_descriptor_refs in H. replace (media_file_descriptor_map f (aifc_file o)) with (media_file_descriptor_map g (aifc_file o)) by (symmetry; ext_field H). reflexivity. Qed.
Lemma map_id_aifc_descriptor : forall o : aifc_descriptor, aifc_descriptor_map (fun r => r) o = o.
Proof. intros o; intros; destruct o as [x0 x1 x2]; unfold aifc_descriptor_map; cbn [aifc_file aifc_summary aifc_data_pos] in *; replace (media_file_descriptor_map (fun r => r) (x0)) with x0 by (symmetry; id_field); reflexivity. Qed.
Lemma map_map_aifc_descriptor : forall f g (o : aifc_descriptor), aifc_descriptor_map g (aifc_descriptor_map f o) = aifc_descriptor_map (fun r => g (f r)) o.
Proof. intros f g o. unfold aifc_descriptor_map. cbn [aifc_file aifc_summary aifc_data_pos]. replace (media_file_descriptor_map g ((media_file_descriptor_map f (aifc_file o)))) with (media_file_descriptor_map (fun r => g (f r)) (aifc_file o)) by (symmetry; mm_field). reflexivity. Qed.
Lemma refs_map_aifc_descriptor : forall f (o : aifc_descriptor), aifc_descriptor_refs (aifc_descriptor_map f o) = map f (aifc_descriptor_refs o).
Proof. intros f o. unfold aifc_descriptor_refs, aifc_descriptor_map. cbn [aifc_file aifc_summary aifc_data_pos]. refs_go. Qed.
#[export] Hint Resolve map_ext_aifc_descriptor map_id_aifc_descriptor map_map_aifc_descriptor refs_map_aifc_descriptor : rename.

Ltac ext_sub ::= first [ apply map_ext_media_file_descriptor ].
Lemma map_ext_pcma_descriptor : forall f g (o : pcma_descriptor), (forall r, In r (pcma_descriptor_refs o) -> f r = g r) -> pcma_descriptor_map f o = pcma_descriptor_map g o.
Proof. intros f g o H. unfold pcma_descriptor_map. unfold pcma_descriptor_refs in H. replace (media_file_descriptor_map f (pcma_file o)) with (media_file_descriptor_map g (pcma_file o)) by (symmetry; ext_field H). reflexivity. Qed.
Lemma map_id_pcma_descriptor : forall o : pcma_descriptor, pcma_descriptor_map (fun r => r) o = o.
Proof. intros o; intros; destruct o as [x0 x1 x2 x3 x4 x5 x6 x7 x8 x9 x10 x11 x12 x13 x14 x15 x16 x17 x18 x19 x20 x21 x22]; unfold pcma_descriptor_map; cbn [pcma_file pcma_channels pcma_quantization_bits pcma_sample_rate pcma_locked pcma_audio_ref_level pcma_electro_spatial_formulation pcma_dial_norm pcma_coding_format pcma_block_align pcma_sequence_offset pcma_average_bps pcma_has_peak_envelope_data pcma_peak_envelope_version pcma_peak_envelope_format pcma_points_per_peak_value pcma_peak_envelope_block_size pcma_peak_channel_count pcma_peak_frame_count pcma_peak_of_peaks_offset pcma_peak_envelope_timestamp pcma_ebu_timestamp pcma_timecode_framerate] in *; replace (media_file_descriptor_map (fun r => r) (x0)) with x0 by (symmetry; id_field); reflexivity. Qed.
Lemma map_map_pcma_descriptor : forall f g (o : pcma_descriptor), pcma_descriptor_map g (pcma_descriptor_map f o) = pcma_descriptor_map (fun r => g (f r)) o.
Proof. intros f g o. unfold pcma_descriptor_map. cbn [pcma_file pcma_channels pcma_quantization_bits pcma_sample_rate pcma_locked pcma_audio_ref_level pcma_electro_spatial_formulation pcma_dial_norm pcma_coding_format pcma_block_align pcma_sequence_offset pcma_average_bps pcma_has_peak_envelope_data pcma_peak_envelope_version pcma_peak_envelope_format pcma_points_per_peak_value pcma_peak_envelope_block_size pcma_peak_channel_count pcma_peak_frame_count pcma_peak_of_peaks_offset pcma_peak_envelope_timestamp pcma_ebu_timestamp pcma_timecode_framerate]. replace (media_file_descriptor_map g ((media_file_descriptor_map f (pcma_file o)))) with (media_file_descriptor_map (fun r => g (f r)) (pcma_file o)) by (symmetry; mm_field). reflexivity. Qed.
Lemma refs_map_pcma_descriptor : forall f (o : pcma_descriptor), pcma_descriptor_refs (pcma_descriptor_map f o) = map f (pcma_descriptor_refs o).
Proof. intros f o. unfold pcma_descriptor_refs, pcma_descriptor_map. cbn [pcma_file pcma_channels pcma_quantization_bits pcma_sample_rate pcma_locked pcma_audio_ref_level pcma_electro_spatial_formulation pcma_dial_norm pcma_coding_format pcma_block_align pcma_sequence_offset pcma_average_bps pcma_has_peak_envelope_data pcma_peak_envelope_version pcma_peak_envelope_format pcma_points_per_peak_value pcma_peak_envelope_block_size pcma_peak_channel_count pcma_peak_frame_count pcma_peak_of_peaks_offset pcma_peak_envelope_timestamp pcma_ebu_timestamp pcma_timecode_framerate]. refs_go. Qed.
#[export] Hint Resolve map_ext_pcma_descriptor map_id_pcma_descriptor map_map_pcma_descriptor refs_map_pcma_descriptor : rename.

Ltac ext_sub ::= first [ apply map_ext_media_file_descriptor ].
Lemma map_ext_mpga_descriptor : forall f g (o : mpga_descriptor), (forall r, In r (mpga_descriptor_refs o) -> f r = g r) -> mpga_descriptor_map f o = mpga_descriptor_map g o.
Proof. intros f g o H. unfold mpga_descriptor_map. unfold mpga_descriptor_refs in H. replace (media_file_descriptor_map f (mpga_file o)) with (media_file_descriptor_map g (mpga_file o)) by (symmetry; ext_field H). reflexivity. Qed.
Lemma map_id_mpga_descriptor : forall o : mpga_descriptor, mpga_descriptor_map (fun r => r) o = o.
Proof. intros o; intros; destruct o as [x0 x1 x2 x3 x4 x5 x6 x7 x8 x9 x10 x11]; unfold mpga_descriptor_map; cbn [mpga_file mpga_channels mpga_quantization_bits mpga_sample_rate mpga_locked mpga_audio_ref_level mpga_electro_spatial_formulation mpga_dial_norm mpga_coding_format mpga_bit_rate mpga_sub_frame_alignment mpga_origin] in *; replace (media_file_descriptor_map (fun r => r) (x0)) with x0 by (symmetry; id_field); reflexivity. Qed.
Lemma map_map_mpga_descriptor : forall f g (o : mpga_descriptor), mpga_descriptor_map g (mpga_descriptor_map f o) = mpga_descriptor_map (fun r => g (f r)) o.
Proof. intros f g o. unfold mpga_descriptor_map. cbn [mpga_file mpga_channels mpga_quantization_bits mpga_sample_rate mpga_locked mpga_audio_ref_level mpga_electro_spatial_formulation mpga_dial_norm mpga_coding_format mpga_bit_rate mpga_sub_frame_alignment mpga_origin]. replace (media_file_descriptor_map g ((media_file_descriptor_map f (mpga_file o)))) with (media_file_descriptor_map (fun r => g (f r)) (mpga_file o)) by (symmetry; mm_field). reflexivity. Qed.
Lemma refs_map_mpga_descriptor : forall f (o : mpga_descriptor), mpga_descriptor_refs (mpga_descriptor_map f o) = map f (mpga_descriptor_refs o).
Proof. intros f o. unfold mpga_descriptor_refs, mpga_descriptor_map. cbn [mpga_file mpga_channels mpga_quantization_bits mpga_sample_rate mpga_locked mpga_audio_ref_level mpga_electro_spatial_formulation mpga_dial_norm mpga_coding_format mpga_bit_rate mpga_sub_frame_alignment mpga_origin]. refs_go. Qed.
#[export] Hint Resolve map_ext_mpga_descriptor map_id_mpga_descriptor map_map_mpga_descriptor refs_map_mpga_descriptor : rename.

Ltac ext_sub ::= first [ apply map_ext_media_file_descriptor ].
Lemma map_ext_did_descriptor : forall f g (o : did_descriptor), (forall r, In r (did_descriptor_refs o) -> f r = g r) -> did_descriptor_map f o = did_descriptor_map g o.
Proof. intros f g o H. unfold did_descriptor_map. unfold did_descriptor_refs in H. replace (media_file_descriptor_map f (didd_file o)) with (media_file_descriptor_map g (didd_file o)) by (symmetry; ext_field H). replace (f (didd_next_did_desc o)) with (g (didd_next_did_desc o)) by (symmetry; ext_field H). reflexivity. Qed.
Lemma map_id_did_descriptor : forall o : did_descriptor, did_descriptor_map (fun r => r) o = o.
Proof. intros o; intros; destruct o as [x0 x1 x2 x3 x4 x5 x6 x7 x8 x9 x10 x11 x12 x13 x14 x15 x16 x17 x18 x19 x20 x21 x22 x23 x24 x25 x26 x27 x28 x29 x30 x31 x32 x33 x34 x35 x36 x37 x38 x39]; unfold did_descriptor_map; cbn [didd_file didd_stored_height didd_stored_width didd_sampled_height didd_sampled_width didd_sampled_x_offset didd_sampled_y_offset didd_display_height didd_display_width didd_display_x_offset didd_display_y_offset didd_frame_layout didd_aspect_num didd_aspect_den didd_line_map didd_alpha_transparency didd_uniformness didd_did_image_size didd_next_did_desc didd_compress_method didd_resolution_id didd_image_alignment_factor didd_frame_index_byte_order didd_frame_sample_size didd_first_frame_offset didd_client_fill_start didd_client_fill_end didd_offset_to_rle_frame_index didd_frame_start_offset didd_valid_box didd_essence_box didd_source_box didd_framing_box didd_reformatting_option didd_transfer_characteristic didd_color_primaries didd_coding_equations didd_essence_compression didd_essence_element_size_kind didd_frame_checked_with_mapper] in *; replace (media_file_descriptor_map (fun r => r) (x0)) with x0 by (symmetry; id_field); replace ((fun r => r) (x18)) with x18 by (symmetry; id_field); reflexivity. Qed.
Lemma map_map_did_descriptor : forall f g (o : did_descriptor), did_descriptor_map g (did_descriptor_map f o) = did_descriptor_map (fun r => g (f r)) o.
Proof. intros f g o. unfold did_descriptor_map. cbn [didd_file didd_stored_height didd_stored_width didd_sampled_height didd_sampled_width didd_sampled_x_offset didd_sampled_y_offset didd_display_height didd_display_width didd_display_x_offset didd_display_y_offset didd_frame_layout didd_aspect_num didd_aspect_den didd_line_map didd_alpha_transparency didd_uniformness didd_did_image_size didd_next_did_desc didd_compress_method didd_resolution_id didd_image_alignment_factor didd_frame_index_byte_order didd_frame_sample_size didd_first_frame_offset didd_client_fill_start didd_client_fill_end didd_offset_to_rle_frame_index didd_frame_start_offset didd_valid_box didd_essence_box didd_source_box didd_framing_box didd_reformatting_option didd_transfer_characteristic didd_color_primaries didd_coding_equations didd_essence_compression didd_essence_element_size_kind didd_frame_checked_with_mapper]. replace (media_file_descriptor_map g ((media_file_descriptor_map f (didd_file o)))) with (media_file_descriptor_map (fun r => g (f r)) (didd_file o)) by (symmetry; mm_field). replace (g ((f (didd_next_did_desc o)))) with ((fun r => g (f r)) (didd_next_did_desc o)) by (symmetry; mm_field). reflexivity. Qed.
Lemma refs_map_did_descriptor : forall f (o : did_descriptor), did_descriptor_refs (did_descriptor_map f o) = map f (did_descriptor_refs o).
Proof. intros f o. unfold did_descriptor_refs, did_descriptor_map. cbn [didd_file didd_stored_height didd_stored_width didd_sampled_height didd_sampled_width didd_sampled_x_offset didd_sampled_y_offset didd_display_height didd_display_width didd_display_x_offset didd_display_y_offset didd_frame_layout didd_aspect_num didd_aspect_den didd_line_map didd_alpha_transparency didd_uniformness didd_did_image_size didd_next_did_desc didd_compress_method didd_resolution_id didd_image_alignment_factor didd_frame_index_byte_order didd_frame_sample_size didd_first_frame_offset didd_client_fill_start didd_client_fill_end didd_offset_to_rle_frame_index didd_frame_start_offset didd_valid_box didd_essence_box didd_source_box didd_framing_box didd_reformatting_option didd_transfer_characteristic didd_color_primaries didd_coding_equations didd_essence_compression didd_essence_element_size_kind didd_frame_checked_with_mapper]. refs_go. Qed.
#[export] Hint Resolve map_ext_did_descriptor map_id_did_descriptor map_map_did_descriptor refs_map_did_descriptor : rename.

Ltac ext_sub ::= first [ apply map_ext_did_descriptor ].
Lemma map_ext_cdci_descriptor : forall f g (o : cdci_descriptor), (forall r, In r (cdci_descriptor_refs o) -> f r = g r) -> cdci_descriptor_map f o = cdci_descriptor_map g o.
Proof. intros f g o H. unfold cdci_descriptor_map. unfold cdci_descriptor_refs in H. replace (did_descriptor_map f (cdci_did o)) with (did_descriptor_map g (cdci_did o)) by (symmetry; ext_field H). reflexivity. Qed.
Lemma map_id_cdci_descriptor : forall o : cdci_descriptor, cdci_descriptor_map (fun r => r) o = o.
Proof. intros o; intros; destruct o as [x0 x1 x2 x3 x4 x5 x6 x7 x8 x9 x10]; unfold cdci_descriptor_map; cbn [cdci_did cdci_horizontal_subsampling cdci_vertical_subsampling cdci_component_width cdci_color_sitting cdci_black_ref_level cdci_white_ref_level cdci_color_range cdci_frame_index_offset cdci_alpha_sampled_width cdci_ignore_bw] in *; replace (did_descriptor_map (fun r => r) (x0)) with x0 by (symmetry; id_field); reflexivity. Qed.
Lemma map_map_cdci_descriptor : forall f g (o : cdci_descriptor), cdci_descriptor_map g (cdci_descriptor_map f o) = cdci_descriptor_map (fun r => g (f r)) o.
Proof. intros f g o. unfold cdci_descriptor_map. cbn [cdci_did cdci_horizontal_subsampling cdci_vertical_subsampling cdci_component_width cdci_color_sitting cdci_black_ref_level cdci_white_ref_level cdci_color_range cdci_frame_index_offset cdci_alpha_sampled_width cdci_ignore_bw]. replace (did_descriptor_map g ((did_descriptor_map f (cdci_did o)))) with (did_descriptor_map (fun r => g (f r)) (cdci_did o)) by (symmetry; mm_field). reflexivity. Qed.
Lemma refs_map_cdci_descriptor : forall f (o : cdci_descriptor), cdci_descriptor_refs (cdci_descriptor_map f o) = map f (cdci_descriptor_refs o).
Proof. intros f o. unfold cdci_descriptor_refs, cdci_descriptor_map. cbn [cdci_did cdci_horizontal_subsampling cdci_vertical_subsampling cdci_component_width cdci_color_sitting cdci_black_ref_level cdci_white_ref_level cdci_color_range cdci_frame_index_offset cdci_alpha_sampled_width cdci_ignore_bw]. refs_go. Qed.
#[export] Hint Resolve map_ext_cdci_descriptor map_id_cdci_descriptor map_map_cdci_descriptor refs_map_cdci_descriptor : rename.

Ltac ext_sub ::= first [ apply map_ext_cdci_descriptor ].
Lemma map_ext_mpgi_descriptor : forall f g (o : mpgi_descriptor), (forall r, In r (mpgi_descriptor_refs o) -> f r = g r) -> mpgi_descriptor_map f o = mpgi_descriptor_map g o.
Proof. intros f g o H. unfold mpgi_descriptor_map. unfold mpgi_descriptor_refs in H. replace (cdci_descriptor_map f (mpgi_cdci o)) with (cdci_descriptor_map g (mpgi_cdci o)) by (symmetry; ext_field H). reflexivity. Qed.
Lemma map_id_mpgi_descriptor : forall o : mpgi_descriptor, mpgi_descriptor_map (fun r => r) o = o.
Proof. intros o; intros; destruct o as [x0 x1 x2 x3 x4 x5 x6 x7 x8 x9 x10]; unfold mpgi_descriptor_map; cbn [mpgi_cdci mpgi_mpeg_version mpgi_profile mpgi_gop_structure mpgi_stream_type mpgi_random_access mpgi_leading_discard mpgi_trailing_discard mpgi_min_gop_length mpgi_max_gop_length mpgi_sequence_hdr] in *; replace (cdci_descriptor_map (fun r => r) (x0)) with x0 by (symmetry; id_field); reflexivity. Qed.
Lemma map_map_mpgi_descriptor : forall f g (o : mpgi_descriptor), mpgi_descriptor_map g (mpgi_descriptor_map f o) = mpgi_descriptor_map (fun r => g (f r)) o.
Proof. intros f g o. unfold mpgi_descriptor_map. cbn [mpgi_cdci mpgi_mpeg_version mpgi_profile mpgi_gop_structure mpgi_stream_type mpgi_random_access mpgi_leading_discard mpgi_trailing_discard mpgi_min_gop_length mpgi_max_gop_length mpgi_sequence_hdr]. replace (cdci_descriptor_map g ((cdci_descriptor_map f (mpgi_cdci o)))) with (cdci_descriptor_map (fun r => g (f r)) (mpgi_cdci o)) by (symmetry; mm_field). reflexivity. Qed.
Lemma refs_map_mpgi_descriptor : forall f (o : mpgi_descriptor), mpgi_descriptor_refs (mpgi_descriptor_map f o) = map f (mpgi_descriptor_refs o).
Proof. intros f o. unfold mpgi_descriptor_refs, mpgi_descriptor_map. cbn [mpgi_cdci mpgi_mpeg_version mpgi_profile mpgi_gop_structure mpgi_stream_type mpgi_random_access mpgi_leading_discard mpgi_trailing_discard mpgi_min_gop_length mpgi_max_gop_length mpgi_sequence_hdr]. refs_go. Qed.
#[export] Hint Resolve map_ext_mpgi_descriptor map_id_mpgi_descriptor map_map_mpgi_descriptor refs_map_mpgi_descriptor : rename.

Ltac ext_sub ::= first [ apply map_ext_cdci_descriptor ].
Lemma map_ext_jped_descriptor : forall f g (o : jped_descriptor), (forall r, In r (jped_descriptor_refs o) -> f r = g r) -> jped_descriptor_map f o = jped_descriptor_map g o.
Proof. intros f g o H. unfold jped_descriptor_map. unfold jped_descriptor_refs in H. replace (cdci_descriptor_map f (jped_cdci o)) with (cdci_descriptor_map g (jped_cdci o)) by (symmetry; ext_field H). reflexivity. Qed.
Lemma map_id_jped_descriptor : forall o : jped_descriptor, jped_descriptor_map (fun r => r) o = o.
Proof. intros o; intros; destruct o as [x0 x1 x2 x3 x4]; unfold jped_descriptor_map; cbn [jped_cdci jped_jpeg_table_id jped_jpeg_frame_index_offset jped_quantization_tables jped_image_start_align] in *; replace (cdci_descriptor_map (fun r => r) (x0)) with x0 by (symmetry; id_field); reflexivity. Qed.
Lemma map_map_jped_descriptor : forall f g (o : jped_descriptor), jped_descriptor_map g (jped_descriptor_map f o) = jped_descriptor_map (fun r => g (f r)) o.
Proof. intros f g o. unfold jped_descriptor_map. cbn [jped_cdci jped_jpeg_table_id jped_jpeg_frame_index_offset jped_quantization_tables jped_image_start_align]. replace (cdci_descriptor_map g ((cdci_descriptor_map f (jped_cdci o)))) with (cdci_descriptor_map (fun r => g (f r)) (jped_cdci o)) by (symmetry; mm_field). reflexivity. Qed.
Lemma refs_map_jped_descriptor : forall f (o : jped_descriptor), jped_descriptor_refs (jped_descriptor_map f o) = map f (jped_descriptor_refs o).
Proof. intros f o. unfold jped_descriptor_refs, jped_descriptor_map. cbn [jped_cdci jped_jpeg_table_id jped_jpeg_frame_index_offset jped_quantization_tables jped_image_start_align]. refs_go. Qed.
#[export] Hint Resolve map_ext_jped_descriptor map_id_jped_descriptor map_map_jped_descriptor refs_map_jped_descriptor : rename.

Ltac ext_sub ::= first [ apply map_ext_did_descriptor ].
Lemma map_ext_rgba_descriptor : forall f g (o : rgba_descriptor), (forall r, In r (rgba_descriptor_refs o) -> f r = g r) -> rgba_descriptor_map f o = rgba_descriptor_map g o.
Proof. intros f g o H. unfold rgba_descriptor_map. unfold rgba_descriptor_refs in H. replace (did_descriptor_map f (rgba_did o)) with (did_descriptor_map g (rgba_did o)) by (symmetry; ext_field H). reflexivity. Qed.
Lemma map_id_rgba_descriptor : forall o : rgba_descriptor, rgba_descriptor_map (fun r => r) o = o.
Proof. intros o; intros; destruct o as [x0 x1 x2 x3 x4 x5 x6 x7 x8]; unfold rgba_descriptor_map; cbn [rgba_did rgba_pixel_layout rgba_frame_index_offset rgba_has_comp_min_ref rgba_comp_min_ref rgba_has_comp_max_ref rgba_comp_max_ref rgba_alpha_min_ref rgba_alpha_max_ref] in *; replace (did_descriptor_map (fun r => r) (x0)) with x0 by (symmetry; id_field); reflexivity. Qed.
Lemma map_map_rgba_descriptor : forall f g (o : rgba_descriptor), rgba_descriptor_map g (rgba_descriptor_map f o) = rgba_descriptor_map (fun r => g (f r)) o.
Proof. intros f g o. unfold rgba_descriptor_map. cbn [rgba_did rgba_pixel_layout rgba_frame_index_offset rgba_has_comp_min_ref rgba_comp_min_ref rgba_has_comp_max_ref rgba_comp_max_ref rgba_alpha_min_ref rgba_alpha_max_ref]. replace (did_descriptor_map g ((did_descriptor_map f (rgba_did o)))) with (did_descriptor_map (fun r => g (f r)) (rgba_did o)) by (symmetry; mm_field). reflexivity. Qed.
Lemma refs_map_rgba_descriptor : forall f (o : rgba_descriptor), rgba_descriptor_refs (rgba_descriptor_map f o) = map f (rgba_descriptor_refs o).
Proof. intros f o. unfold rgba_descriptor_refs, rgba_descriptor_map. cbn [rgba_did rgba_pixel_layout rgba_frame_index_offset rgba_has_comp_min_ref rgba_comp_min_ref rgba_has_comp_max_ref rgba_comp_max_ref rgba_alpha_min_ref rgba_alpha_max_ref]. refs_go. Qed.
#[export] Hint Resolve map_ext_rgba_descriptor map_id_rgba_descriptor map_map_rgba_descriptor refs_map_rgba_descriptor : rename.

Ltac ext_sub ::= first [ apply map_ext_media_file_descriptor ].
Lemma map_ext_data_descriptor : forall f g (o : data_descriptor), (forall r, In r (data_descriptor_refs o) -> f r = g r) -> data_descriptor_map f o = data_descriptor_map g o.
Proof. intros f g o H. unfold data_descriptor_map. unfold data_descriptor_refs in H. replace (media_file_descriptor_map f (datd_file o)) with (media_file_descriptor_map g (datd_file o)) by (symmetry; ext_field H). reflexivity. Qed.
Lemma map_id_data_descriptor : forall o : data_descriptor, data_descriptor_map (fun r => r) o = o.
Proof. intros o; intros; destruct o as [x0 x1 x2 x3 x4 x5]; unfold data_descriptor_map; cbn [datd_file datd_is_offset_to_frame_indexes_valid datd_offset_to_frame_indexes datd_first_frame_offset datd_min_sample_size datd_max_sample_size] in *; replace (media_file_descriptor_map (fun r => r) (x0)) with x0 by (symmetry; id_field); reflexivity. Qed.
Lemma map_map_data_descriptor : forall f g (o : data_descriptor), data_descriptor_map g (data_descriptor_map f o) = data_descriptor_map (fun r => g (f r)) o.
Proof. intros f g o. unfold data_descriptor_map. cbn [datd_file datd_is_offset_to_frame_indexes_valid datd_offset_to_frame_indexes datd_first_frame_offset datd_min_sample_size datd_max_sample_size]. replace (media_file_descriptor_map g ((media_file_descriptor_map f (datd_file o)))) with (media_file_descriptor_map (fun r => g (f r)) (datd_file o)) by (symmetry; mm_field). reflexivity. Qed.
Lemma refs_map_data_descriptor : forall f (o : data_descriptor), data_descriptor_refs (data_descriptor_map f o) = map f (data_descriptor_refs o).
Proof. intros f o. unfold data_descriptor_refs, data_descriptor_map. cbn [datd_file datd_is_offset_to_frame_indexes_valid datd_offset_to_frame_indexes datd_first_frame_offset datd_min_sample_size datd_max_sample_size]. refs_go. Qed.
#[export] Hint Resolve map_ext_data_descriptor map_id_data_descriptor map_map_data_descriptor refs_map_data_descriptor : rename.

Ltac ext_sub ::= first [ apply map_ext_data_descriptor ].
Lemma map_ext_anc_data_descriptor : forall f g (o : anc_data_descriptor), (forall r, In r (anc_data_descriptor_refs o) -> f r = g r) -> anc_data_descriptor_map f o = anc_data_descriptor_map g o.
Proof. intros f g o H. unfold anc_data_descriptor_map. unfold anc_data_descriptor_refs in H. replace (data_descriptor_map f (ancd_data o)) with (data_descriptor_map g (ancd_data o)) by (symmetry; ext_field H). reflexivity. Qed.
Lemma map_id_anc_data_descriptor : forall o : anc_data_descriptor, anc_data_descriptor_map (fun r => r) o = o.
Proof. intros o; intros; destruct o as [x0 x1]; unfold anc_data_descriptor_map; cbn [ancd_data ancd_manifest_element_count] in *; replace (data_descriptor_map (fun r => r) (x0)) with x0 by (symmetry; id_field); reflexivity. Qed.
Lemma map_map_anc_data_descriptor : forall f g (o : anc_data_descriptor), anc_data_descriptor_map g (anc_data_descriptor_map f o) = anc_data_descriptor_map (fun r => g (f r)) o.
Proof. intros f g o. unfold anc_data_descriptor_map. cbn [ancd_data ancd_manifest_element_count]. replace (data_descriptor_map g ((data_descriptor_map f (ancd_data o)))) with (data_descriptor_map (fun r => g (f r)) (ancd_data o)) by (symmetry; mm_field). reflexivity. Qed.
Lemma refs_map_anc_data_descriptor : forall f (o : anc_data_descriptor), anc_data_descriptor_refs (anc_data_descriptor_map f o) = map f (anc_data_descriptor_refs o).
Proof. intros f o. unfold anc_data_descriptor_refs, anc_data_descriptor_map. cbn [ancd_data ancd_manifest_element_count]. refs_go. Qed.
#[export] Hint Resolve map_ext_anc_data_descriptor map_id_anc_data_descriptor map_map_anc_data_descriptor refs_map_anc_data_descriptor : rename.

Lemma map_ext_setting : forall f g (o : setting), (forall r, In r (setting_refs o) -> f r = g r) -> setting_map f o = setting_map g o.
Proof. intros f g o H. unfold setting_map. unfold setting_refs in H. replace (f (aset_attributes o)) with (g (aset_attributes o)) by (symmetry; ext_field H). reflexivity. Qed.
Lemma map_id_setting : forall o : setting, setting_map (fun r => r) o = o.
Proof. intros o; intros; destruct o as [x0 x1 x2 x3 x4]; unfold setting_map; cbn [aset_name aset_kind aset_attr_count aset_attr_type aset_attributes] in *; replace ((fun r => r) (x4)) with x4 by (symmetry; id_field); reflexivity. Qed.
Lemma map_map_setting : forall f g (o : setting), setting_map g (setting_map f o) = setting_map (fun r => g (f r)) o.
Proof. intros f g o. unfold setting_map. cbn [aset_name aset_kind aset_attr_count aset_attr_type aset_attributes]. replace (g ((f (aset_attributes o)))) with ((fun r => g (f r)) (aset_attributes o)) by (symmetry; mm_field). reflexivity. Qed.
Lemma refs_map_setting : forall f (o : setting), setting_refs (setting_map f o) = map f (setting_refs o).
Proof. intros f o. unfold setting_refs, setting_map. cbn [aset_name aset_kind aset_attr_count aset_attr_type aset_attributes]. refs_go. Qed.
#[export] Hint Resolve map_ext_setting map_id_setting map_map_setting refs_map_setting : rename.

Lemma map_ext_bin_column : forall f g (o : bin_column), (forall r, In r (bin_column_refs o) -> f r = g r) -> bin_column_map f o = bin_column_map g o.
Proof. intros f g o H. unfold bin_column_map. unfold bin_column_refs in H. reflexivity. Qed.
Lemma map_id_bin_column : forall o : bin_column, bin_column_map (fun r => r) o = o.
Proof. intros o; intros; destruct o as [x0 x1 x2 x3]; unfold bin_column_map; cbn [bcol_title bcol_format bcol_type bcol_hidden] in *; reflexivity. Qed.
Lemma map_map_bin_column : forall f g (o : bin_column), bin_column_map g (bin_column_map f o) = bin_column_map (fun r => g (f r)) o.
Proof. intros f g o. unfold bin_column_map. cbn [bcol_title bcol_format bcol_type bcol_hidden]. reflexivity. Qed.
Lemma refs_map_bin_column : forall f (o : bin_column), bin_column_refs (bin_column_map f o) = map f (bin_column_refs o).
Proof. intros f o. unfold bin_column_refs, bin_column_map. cbn [bcol_title bcol_format bcol_type bcol_hidden]. refs_go. Qed.
#[export] Hint Resolve map_ext_bin_column map_id_bin_column map_map_bin_column refs_map_bin_column : rename.

Lemma map_ext_format_desc : forall f g (o : format_desc), (forall r, In r (format_desc_refs o) -> f r = g r) -> format_desc_map f o = format_desc_map g o.
Proof. intros f g o H. unfold format_desc_map. unfold format_desc_refs in H. reflexivity. Qed.
Lemma map_id_format_desc : forall o : format_desc, format_desc_map (fun r => r) o = o.
Proof. intros o; intros; destruct o as [x0 x1]; unfold format_desc_map; cbn [fdsc_vcid_free_column_id fdsc_format_descriptor] in *; reflexivity. Qed.
Lemma map_map_format_desc : forall f g (o : format_desc), format_desc_map g (format_desc_map f o) = format_desc_map (fun r => g (f r)) o.
Proof. intros f g o. unfold format_desc_map. cbn [fdsc_vcid_free_column_id fdsc_format_descriptor]. reflexivity. Qed.
Lemma refs_map_format_desc : forall f (o : format_desc), format_desc_refs (format_desc_map f o) = map f (format_desc_refs o).
Proof. intros f o. unfold format_desc_refs, format_desc_map. cbn [fdsc_vcid_free_column_id fdsc_format_descriptor]. refs_go. Qed.
#[export] Hint Resolve map_ext_format_desc map_id_format_desc map_map_format_desc refs_map_format_desc : rename.

Ltac ext_sub ::= first [ apply map_ext_setting | apply map_ext_bin_column | apply map_ext_format_desc ].
Lemma map_ext_bin_view_setting : forall f g (o : bin_view_setting), (forall r, In r (bin_view_setting_refs o) -> f r = g r) -> bin_view_setting_map f o = bin_view_setting_map g o.
Proof. intros f g o H. unfold bin_view_setting_map. unfold bin_view_setting_refs in H. replace (setting_map f (bvst_setting o)) with (setting_map g (bvst_setting o)) by (symmetry; ext_field H). replace (map (bin_column_map f) (bvst_columns o)) with (map (bin_column_map g) (bvst_columns o)) by (symmetry; ext_field H). replace (option_map (fun x => map (format_desc_map f) x) (bvst_format_descriptors o)) with (option_map (fun x => map (format_desc_map g) x) (bvst_format_descriptors o)) by (symmetry; ext_field H). reflexivity. Qed.
Lemma map_id_bin_view_setting : forall o : bin_view_setting, bin_view_setting_map (fun r => r) o = o.
Proof. intros o; intros; destruct o as [x0 x1 x2]; unfold bin_view_setting_map; cbn [bvst_setting bvst_columns bvst_format_descriptors] in *; replace (setting_map (fun r => r) (x0)) with x0 by (symmetry; id_field); replace (map (bin_column_map (fun r => r)) (x1)) with x1 by (symmetry; id_field); replace (option_map (fun x => map (format_desc_map (fun r => r)) x) (x2)) with x2 by (symmetry; id_field); reflexivity. Qed.
Lemma map_map_bin_view_setting : forall f g (o : bin_view_setting), bin_view_setting_map g (bin_view_setting_map f o) = bin_view_setting_map (fun r => g (f r)) o.
Proof. intros f g o. unfold bin_view_setting_map. cbn [bvst_setting bvst_columns bvst_format_descriptors]. replace (setting_map g ((setting_map f (bvst_setting o)))) with (setting_map (fun r => g (f r)) (bvst_setting o)) by (symmetry; mm_field). replace (map (bin_column_map g) ((map (bin_column_map f) (bvst_columns o)))) with (map (bin_column_map (fun r => g (f r))) (bvst_columns o)) by (symmetry; mm_field). replace (option_map (fun x => map (format_desc_map g) x) ((option_map (fun x => map (format_desc_map f) x) (bvst_format_descriptors o)))) with (option_map (fun x => map (format_desc_map (fun r => g (f r))) x) (bvst_format_descriptors o)) by (symmetry; mm_field). reflexivity. Qed.
Lemma refs_map_bin_view_setting : forall f (o : bin_view_setting), bin_view_setting_refs (bin_view_setting_map f o) = map f (bin_view_setting_refs o).
Proof. intros f o. unfold bin_view_setting_refs, bin_view_setting_map. cbn [bvst_setting bvst_columns bvst_format_descriptors]. refs_go. Qed.
#[export] Hint Resolve map_ext_bin_view_setting map_id_bin_view_setting map_map_bin_view_setting refs_map_bin_view_setting : rename.

Lemma map_ext_bin_item : forall f g (o : bin_item), (forall r, In r (bin_item_refs o) -> f r = g r) -> bin_item_map f o = bin_item_map g o.
Proof. intros f g o H. unfold bin_item_map. unfold bin_item_refs in H. replace (f (item_mob o)) with (g (item_mob o)) by (symmetry; ext_field H). reflexivity. Qed.
Lemma map_id_bin_item : forall o : bin_item, bin_item_map (fun r => r) o = o.
Proof. intros o; intros; destruct o as [x0 x1 x2 x3 x4]; unfold bin_item_map; cbn [item_mob item_x item_y item_keyframe item_user_placed] in *; replace ((fun r => r) (x0)) with x0 by (symmetry; id_field); reflexivity. Qed.
Lemma map_map_bin_item : forall f g (o : bin_item), bin_item_map g (bin_item_map f o) = bin_item_map (fun r => g (f r)) o.
Proof. intros f g o. unfold bin_item_map. cbn [item_mob item_x item_y item_keyframe item_user_placed]. replace (g ((f (item_mob o)))) with ((fun r => g (f r)) (item_mob o)) by (symmetry; mm_field). reflexivity. Qed.
Lemma refs_map_bin_item : forall f (o : bin_item), bin_item_refs (bin_item_map f o) = map f (bin_item_refs o).
Proof. intros f o. unfold bin_item_refs, bin_item_map. cbn [item_mob item_x item_y item_keyframe item_user_placed]. refs_go. Qed.
#[export] Hint Resolve map_ext_bin_item map_id_bin_item map_map_bin_item refs_map_bin_item : rename.

Lemma map_ext_sift_item : forall f g (o : sift_item), (forall r, In r (sift_item_refs o) -> f r = g r) -> sift_item_map f o = sift_item_map g o.
Proof. intros f g o H. unfold sift_item_map. unfold sift_item_refs in H. reflexivity. Qed.
Lemma map_id_sift_item : forall o : sift_item, sift_item_map (fun r => r) o = o.
Proof. intros o; intros; destruct o as [x0 x1 x2]; unfold sift_item_map; cbn [sift_method sift_string sift_column] in *; reflexivity. Qed.
Lemma map_map_sift_item : forall f g (o : sift_item), sift_item_map g (sift_item_map f o) = sift_item_map (fun r => g (f r)) o.
Proof. intros f g o. unfold sift_item_map. cbn [sift_method sift_string sift_column]. reflexivity. Qed.
Lemma refs_map_sift_item : forall f (o : sift_item), sift_item_refs (sift_item_map f o) = map f (sift_item_refs o).
Proof. intros f o. unfold sift_item_refs, sift_item_map. cbn [sift_method sift_string sift_column]. refs_go. Qed.
#[export] Hint Resolve map_ext_sift_item map_id_sift_item map_map_sift_item refs_map_sift_item : rename.

Lemma map_ext_sort_column : forall f g (o : sort_column), (forall r, In r (sort_column_refs o) -> f r = g r) -> sort_column_map f o = sort_column_map g o.
Proof. intros f g o H. unfold sort_column_map. unfold sort_column_refs in H. reflexivity. Qed.
Lemma map_id_sort_column : forall o : sort_column, sort_column_map (fun r => r) o = o.
Proof. intros o; intros; destruct o as [x0 x1]; unfold sort_column_map; cbn [scol_direction scol_name] in *; reflexivity. Qed.
Lemma map_map_sort_column : forall f g (o : sort_column), sort_column_map g (sort_column_map f o) = sort_column_map (fun r => g (f r)) o.
Proof. intros f g o. unfold sort_column_map. cbn [scol_direction scol_name]. reflexivity. Qed.
Lemma refs_map_sort_column : forall f (o : sort_column), sort_column_refs (sort_column_map f o) = map f (sort_column_refs o).
Proof. intros f o. unfold sort_column_refs, sort_column_map. cbn [scol_direction scol_name]. refs_go. Qed.
#[export] Hint Resolve map_ext_sort_column map_id_sort_column map_map_sort_column refs_map_sort_column : rename.

Ltac ext_sub ::= first [ apply map_ext_bin_item | apply map_ext_sift_item | apply map_ext_sort_column ].
Lemma map_ext_bin : forall f g (o : bin), (forall r, In r (bin_refs o) -> f r = g r) -> bin_map f o = bin_map g o.
Proof. intros f g o H. unfold bin_map. unfold bin_refs in H. replace (f (abin_view_setting o)) with (g (abin_view_setting o)) by (symmetry; ext_field H). replace (map (bin_item_map f) (abin_items o)) with (map (bin_item_map g) (abin_items o)) by (symmetry; ext_field H). replace (map (sift_item_map f) (abin_sifted_settings o)) with (map (sift_item_map g) (abin_sifted_settings o)) by (symmetry; ext_field H). replace (map (sort_column_map f) (abin_sort_columns o)) with (map (sort_column_map g) (abin_sort_columns o)) by (symmetry; ext_field H). replace (f (abin_attributes o)) with (g (abin_attributes o)) by (symmetry; ext_field H). reflexivity. Qed.
Lemma map_id_bin : forall o : bin, bin_map (fun r => r) o = o.
Proof. intros o; intros; destruct o as [x0 x1 x2 x3 x4 x5 x6 x7 x8 x9 x10 x11 x12 x13 x14 x15 x16 x17]; unfold bin_map; cbn [abin_large_bin abin_view_setting abin_uid abin_items abin_display_mask abin_display_mode abin_sifted abin_sifted_settings abin_sort_columns abin_mac_font abin_mac_font_size abin_mac_image_scale abin_home_rect abin_background_color abin_forground_color abin_ql_image_scale abin_attributes abin_was_iconic] in *; replace ((fun r => r) (x1)) with x1 by (symmetry; id_field); replace (map (bin_item_map (fun r => r)) (x3)) with x3 by (symmetry; id_field); replace (map (sift_item_map (fun r => r)) (x7)) with x7 by (symmetry; id_field); replace (map (sort_column_map (fun r => r)) (x8)) with x8 by (symmetry; id_field); replace ((fun r => r) (x16)) with x16 by (symmetry; id_field); reflexivity. Qed.
Lemma map_map_bin : forall f g (o : bin), bin_map g (bin_map f o) = bin_map (fun r => g (f r)) o.
Proof. intros f g o. unfold bin_map. cbn [abin_large_bin abin_view_setting abin_uid abin_items abin_display_mask abin_display_mode abin_sifted abin_sifted_settings abin_sort_columns abin_mac_font abin_mac_font_size abin_mac_image_scale abin_home_rect abin_background_color abin_forground_color abin_ql_image_scale abin_attributes abin_was_iconic]. replace (g ((f (abin_view_setting o)))) with ((fun r => g (f r)) (abin_view_setting o)) by (symmetry; mm_field). replace (map (bin_item_map g) ((map (bin_item_map f) (abin_items o)))) with (map (bin_item_map (fun r => g (f r))) (abin_items o)) by (symmetry; mm_field). replace (map (sift_item_map g) ((map (sift_item_map f) (abin_sifted_settings o)))) with (map (sift_item_map (fun r => g (f r))) (abin_sifted_settings o)) by (symmetry; mm_field). replace (map (sort_column_map g) ((map (sort_column_map f) (abin_sort_columns o)))) with (map (sort_column_map (fun r => g (f r))) (abin_sort_columns o)) by (symmetry; mm_field). replace (g ((f (abin_attributes o)))) with ((fun r => g (f r)) (abin_attributes o)) by (symmetry; mm_field). reflexivity. Qed.
Lemma refs_map_bin : forall f (o : bin), bin_refs (bin_map f o) = map f (bin_refs o).
Proof. intros f o. unfold bin_refs, bin_map. cbn [abin_large_bin abin_view_setting abin_uid abin_items abin_display_mask abin_display_mode abin_sifted abin_sifted_settings abin_sort_columns abin_mac_font abin_mac_font_size abin_mac_image_scale abin_home_rect abin_background_color abin_forground_color abin_ql_image_scale abin_attributes abin_was_iconic]. refs_go. Qed.
#[export] Hint Resolve map_ext_bin map_id_bin map_map_bin refs_map_bin : rename.

Ltac ext_sub ::= first [ apply map_ext_bin ].
Lemma map_ext_bin_first : forall f g (o : bin_first), (forall r, In r (bin_first_refs o) -> f r = g r) -> bin_first_map f o = bin_first_map g o.
Proof. intros f g o H. unfold bin_first_map. unfold bin_first_refs in H. replace (bin_map f (binf_bin o)) with (bin_map g (binf_bin o)) by (symmetry; ext_field H). reflexivity. Qed.
Lemma map_id_bin_first : forall o : bin_first, bin_first_map (fun r => r) o = o.
Proof. intros o; intros; destruct o as [x0 x1]; unfold bin_first_map; cbn [binf_bin binf_unknown_s32] in *; replace (bin_map (fun r => r) (x0)) with x0 by (symmetry; id_field); reflexivity. Qed.
Lemma map_map_bin_first : forall f g (o : bin_first), bin_first_map g (bin_first_map f o) = bin_first_map (fun r => g (f r)) o.
Proof. intros f g o. unfold bin_first_map. cbn [binf_bin binf_unknown_s32]. replace (bin_map g ((bin_map f (binf_bin o)))) with (bin_map (fun r => g (f r)) (binf_bin o)) by (symmetry; mm_field). reflexivity. Qed.
Lemma refs_map_bin_first : forall f (o : bin_first), bin_first_refs (bin_first_map f o) = map f (bin_first_refs o).
Proof. intros f o. unfold bin_first_refs, bin_first_map. cbn [binf_bin binf_unknown_s32]. refs_go. Qed.
#[export] Hint Resolve map_ext_bin_first map_id_bin_first map_map_bin_first refs_map_bin_first : rename.
