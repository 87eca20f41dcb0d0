(** C11 and C12: attribute dictionaries and lists of references survive a save.
    [saves] is in Saved.v, the [_fits] conditions in Fits.v, the [_ok] conditions beside the
    classes; the sample objects in Samples.v. *)
From Coq Require Import ZArith List Bool Lia.
From Verif Require Import Base IoCtx Text Exp10 MobId Storable Attributes Components TrackGroups
  Misc Essence BinModel Fits RoundTrip ComponentsProofs TrackGroupsProofs MiscProofs EssenceProofs
  BinProofs FitsProofs MapProofs Saved SavedProofs Samples.
Import ListNotations.
Open Scope Z_scope.

Theorem C11_attributes_saved :
  saves rattributes wattributes attributes_map attributes_refs attributes_ok attributes_fits
    always.
Proof.
  apply saves_intro.
  - exact rt_attributes.
  - intros c o H. apply fit_attributes; exact H.
  - intros o H. apply map_id_attributes.
  - intros f o. apply refs_map_attributes.
Qed.
Print Assumptions C11_attributes_saved.

Example C11_attributes_case :
  attributes_ok sample_attributes /\ forall bo, attributes_fits (sample_out bo) sample_attributes.
Proof.
  assert (attributes_ok sample_attributes) as H by sample_ok.
  split; [exact H|]. intros bo. apply fit_attributes; [exact H|]. destruct bo; vm_compute; eexists; reflexivity.
Qed.

Theorem C12_parameter_list_saved :
  saves rparameter_list wparameter_list parameter_list_map parameter_list_refs parameter_list_ok parameter_list_fits
    always.
Proof.
  apply saves_intro.
  - exact rt_parameter_list.
  - intros c o H. apply fit_parameter_list; exact H.
  - intros o H. apply map_id_parameter_list.
  - intros f o. apply refs_map_parameter_list.
Qed.
Print Assumptions C12_parameter_list_saved.

Example C12_parameter_list_case :
  parameter_list_ok sample_parameter_list /\ forall bo, parameter_list_fits (sample_out bo) sample_parameter_list.
Proof.
  assert (parameter_list_ok sample_parameter_list) as H by sample_ok.
  split; [exact H|]. intros bo. apply fit_parameter_list; [exact H|]. destruct bo; vm_compute; eexists; reflexivity.
Qed.

Theorem C12_time_crumb_list_saved :
  saves rtime_crumb_list wtime_crumb_list time_crumb_list_map time_crumb_list_refs time_crumb_list_ok time_crumb_list_fits
    always.
Proof.
  apply saves_intro.
  - exact rt_time_crumb_list.
  - intros c o H. apply fit_time_crumb_list; exact H.
  - intros o H. apply map_id_time_crumb_list.
  - intros f o. apply refs_map_time_crumb_list.
Qed.
Print Assumptions C12_time_crumb_list_saved.

Example C12_time_crumb_list_case :
  time_crumb_list_ok sample_time_crumb_list /\ forall bo, time_crumb_list_fits (sample_out bo) sample_time_crumb_list.
Proof.
  assert (time_crumb_list_ok sample_time_crumb_list) as H by sample_ok.
  split; [exact H|]. intros bo. apply fit_time_crumb_list; [exact H|]. destruct bo; vm_compute; eexists; reflexivity.
Qed.

Theorem C12_sequence_saved :
  saves rsequence wsequence sequence_map sequence_refs sequence_ok sequence_fits
    always.
Proof.
  apply saves_intro.
  - exact rt_sequence.
  - intros c o H. apply fit_sequence; exact H.
  - intros o H. apply map_id_sequence.
  - intros f o. apply refs_map_sequence.
Qed.
Print Assumptions C12_sequence_saved.

Example C12_sequence_case :
  sequence_ok sample_sequence /\ forall bo, sequence_fits (sample_out bo) sample_sequence.
Proof.
  assert (sequence_ok sample_sequence) as H by sample_ok.
  split; [exact H|]. intros bo. apply fit_sequence; [exact H|]. destruct bo; vm_compute; eexists; reflexivity.
Qed.

