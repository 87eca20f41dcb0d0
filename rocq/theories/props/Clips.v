(** C13 and C14: clips and keyframe curves survive a save.
    [saves] is in Saved.v, the [_fits] conditions in Fits.v, the [_ok] conditions beside the
    classes; the sample objects in Samples.v. *)
From Coq Require Import ZArith List Bool Lia.
From Verif Require Import Base IoCtx Text Exp10 MobId Storable Attributes Components TrackGroups
  Misc Essence BinModel Fits RoundTrip ComponentsProofs TrackGroupsProofs MiscProofs EssenceProofs
  BinProofs FitsProofs MapProofs Saved SavedProofs Samples.
Import ListNotations.
Open Scope Z_scope.

Theorem C13_source_clip_saved :
  saves rsource_clip wsource_clip source_clip_map source_clip_refs source_clip_ok source_clip_fits
    always.
Proof.
  apply saves_intro.
  - exact rt_source_clip.
  - intros c o H. apply fit_source_clip; exact H.
  - intros o H. apply map_id_source_clip.
  - intros f o. apply refs_map_source_clip.
Qed.
Print Assumptions C13_source_clip_saved.

Example C13_source_clip_case :
  source_clip_ok sample_source_clip /\ forall bo, source_clip_fits (sample_out bo) sample_source_clip.
Proof.
  assert (source_clip_ok sample_source_clip) as H by sample_ok.
  split; [exact H|]. intros bo. apply fit_source_clip; [exact H|]. destruct bo; vm_compute; eexists; reflexivity.
Qed.

Theorem C13_timecode_saved :
  saves rtimecode wtimecode timecode_map timecode_refs timecode_ok timecode_fits
    always.
Proof.
  apply saves_intro.
  - exact rt_timecode.
  - intros c o H. apply fit_timecode; exact H.
  - intros o H. apply map_id_timecode.
  - intros f o. apply refs_map_timecode.
Qed.
Print Assumptions C13_timecode_saved.

Example C13_timecode_case :
  timecode_ok sample_timecode /\ forall bo, timecode_fits (sample_out bo) sample_timecode.
Proof.
  assert (timecode_ok sample_timecode) as H by sample_ok.
  split; [exact H|]. intros bo. apply fit_timecode; [exact H|]. destruct bo; vm_compute; eexists; reflexivity.
Qed.

Theorem C13_edgecode_saved :
  saves redgecode wedgecode edgecode_map edgecode_refs edgecode_ok edgecode_fits
    always.
Proof.
  apply saves_intro.
  - exact rt_edgecode.
  - intros c o H. apply fit_edgecode; exact H.
  - intros o H. apply map_id_edgecode.
  - intros f o. apply refs_map_edgecode.
Qed.
Print Assumptions C13_edgecode_saved.

Example C13_edgecode_case :
  edgecode_ok sample_edgecode /\ forall bo, edgecode_fits (sample_out bo) sample_edgecode.
Proof.
  assert (edgecode_ok sample_edgecode) as H by sample_ok.
  split; [exact H|]. intros bo. apply fit_edgecode; [exact H|]. destruct bo; vm_compute; eexists; reflexivity.
Qed.

Theorem C13_track_ref_saved :
  saves rtrack_ref wtrack_ref track_ref_map track_ref_refs track_ref_ok track_ref_fits
    always.
Proof.
  apply saves_intro.
  - exact rt_track_ref.
  - intros c o H. apply fit_track_ref; exact H.
  - intros o H. apply map_id_track_ref.
  - intros f o. apply refs_map_track_ref.
Qed.
Print Assumptions C13_track_ref_saved.

Example C13_track_ref_case :
  track_ref_ok sample_track_ref /\ forall bo, track_ref_fits (sample_out bo) sample_track_ref.
Proof.
  assert (track_ref_ok sample_track_ref) as H by sample_ok.
  split; [exact H|]. intros bo. apply fit_track_ref; [exact H|]. destruct bo; vm_compute; eexists; reflexivity.
Qed.

Theorem C13_filler_saved :
  saves rfiller wfiller filler_map filler_refs filler_ok filler_fits
    always.
Proof.
  apply saves_intro.
  - exact rt_filler.
  - intros c o H. apply fit_filler; exact H.
  - intros o H. apply map_id_filler.
  - intros f o. apply refs_map_filler.
Qed.
Print Assumptions C13_filler_saved.

Example C13_filler_case :
  filler_ok sample_filler /\ forall bo, filler_fits (sample_out bo) sample_filler.
Proof.
  assert (filler_ok sample_filler) as H by sample_ok.
  split; [exact H|]. intros bo. apply fit_filler; [exact H|]. destruct bo; vm_compute; eexists; reflexivity.
Qed.

Theorem C14_param_clip_saved :
  saves rparam_clip wparam_clip param_clip_map param_clip_refs param_clip_ok param_clip_fits
    always.
Proof.
  apply saves_intro.
  - exact rt_param_clip.
  - intros c o H. apply fit_param_clip; exact H.
  - intros o H. apply map_id_param_clip.
  - intros f o. apply refs_map_param_clip.
Qed.
Print Assumptions C14_param_clip_saved.

Example C14_param_clip_case :
  param_clip_ok sample_param_clip /\ forall bo, param_clip_fits (sample_out bo) sample_param_clip.
Proof.
  assert (param_clip_ok sample_param_clip) as H by sample_ok.
  split; [exact H|]. intros bo. apply fit_param_clip; [exact H|]. destruct bo; vm_compute; eexists; reflexivity.
Qed.

Theorem C14_control_clip_saved :
  saves rcontrol_clip wcontrol_clip control_clip_map control_clip_refs control_clip_ok control_clip_fits
    always.
Proof.
  apply saves_intro.
  - exact rt_control_clip.
  - intros c o H. apply fit_control_clip; exact H.
  - intros o H. apply map_id_control_clip.
  - intros f o. apply refs_map_control_clip.
Qed.
Print Assumptions C14_control_clip_saved.

Example C14_control_clip_case :
  control_clip_ok sample_control_clip /\ forall bo, control_clip_fits (sample_out bo) sample_control_clip.
Proof.
  assert (control_clip_ok sample_control_clip) as H by sample_ok.
  split; [exact H|]. intros bo. apply fit_control_clip; [exact H|]. destruct bo; vm_compute; eexists; reflexivity.
Qed.

(** The other two kinds of values: integers and references. *)
Definition curve (kind : Z) (v : cp_value) : param_clip := {|
  prcl_clip := sample_clip;
  prcl_interp_kind := 2;
  prcl_value_type := kind;
  prcl_control_points :=
    [{| pcp_offset_num := 1; pcp_offset_den := 2; pcp_timescale := 3; pcp_value := v; pcp_pp := [] |};
     {| pcp_offset_num := 1; pcp_offset_den := 1; pcp_timescale := 3; pcp_value := v;
        pcp_pp := [{| ppp_code := 4; ppp_type := 1; ppp_value := CPInt (-7) |}] |}];
  prcl_extrap_kind := None;
  prcl_fields := Some 2 |}.

Example C14_param_clip_kinds_case : forall bo,
  param_clip_fits (sample_out bo) (curve 1 (CPInt (-5))) /\
  param_clip_fits (sample_out bo) (curve 4 (CPRef 9)).
Proof.
  intros bo. split; (apply fit_param_clip; [sample_ok|]); destruct bo; vm_compute; eexists; reflexivity.
Qed.

(** The condition on the kind in [param_clip_ok] is needed: a parameter clip of an unknown kind
    and without points is written without complaint, and cannot be read again. *)
Theorem C14_unknown_kind_refuted : exists o bs,
  prcl_value_type o = 3 /\ prcl_control_points o = [] /\
  wparam_clip (sample_out LE) o = Ok bs /\ rparam_clip (sample_in LE) bs = Err AssertionErr.
Proof.
  exists {| prcl_clip := sample_clip; prcl_interp_kind := 2; prcl_value_type := 3;
    prcl_control_points := []; prcl_extrap_kind := None; prcl_fields := None |}.
  eexists. split; [reflexivity|]. split; [reflexivity|]. split; [vm_compute; reflexivity|].
  vm_compute. reflexivity.
Qed.
Print Assumptions C14_unknown_kind_refuted.
