(** C67: the names of effect parameters. *)
From Coq Require Import ZArith String List Bool Lia.
From Verif Require Import Base Text MobId Misc Names NamesProofs Samples LookupSpec Params ParamSpec ParamProofs.
Import ListNotations.
Open Scope Z_scope.

(** The text of a UUID spells it, and spells no other. *)
Theorem C67_text : forall u, uuid_wf u ->
  spells (uuid_text u) u /\ forall u', spells (uuid_text u) u' -> u' = u.
Proof.
  intros u H. split; [now apply text_spells|]. intros u' H'. symmetry.
  exact (spells_one _ u u' (text_spells u H) H').
Qed.
Print Assumptions C67_text.

(** The name of a parameter is the one the table has for its UUID, and the UUID itself if the table
    has none; the table never has two. *)
Theorem C67_name : forall o s, uuid_wf (prit_uuid o) -> spells s (prit_uuid o) ->
  (forall n, entry parameter_uuids s n -> parameter_name o = n) /\
  ((forall n, ~ entry parameter_uuids s n) -> parameter_name o = s).
Proof.
  intros o s W H. rewrite (spells_text s (prit_uuid o) W H). destruct (name_of o) as [E|[N E]]; split.
  - intros n En. exact (table_one _ _ _ E En).
  - intros N. now apply N in E.
  - intros n En. now apply N in En.
  - intros _. exact E.
Qed.
Print Assumptions C67_name.

(** Every entry of the table counts: its key spells a UUID, and a parameter with this UUID has its
    name. (A key in upper case, say, would never be found.) *)
Theorem C67_entries : forall k n, In (k, n) parameter_uuids ->
  exists u, uuid_wf u /\ spells (txt k) u /\ forall o, prit_uuid o = u -> parameter_name o = txt n.
Proof.
  intros k n H. destruct (entry_good k n H) as (W & E & _). exists (key_uuid k). split; [exact W|].
  assert (spells (txt k) (key_uuid k)) as S by (rewrite <- E; now apply text_spells).
  split; [exact S|]. intros o Eo. rewrite <- Eo in W, S.
  apply (proj1 (C67_name o (txt k) W S)). now exists k, n.
Qed.
Print Assumptions C67_entries.

(** Parameters the table does not know are told apart by their names, also from those it knows. *)
Theorem C67_unknown : forall o o', uuid_wf (prit_uuid o) -> uuid_wf (prit_uuid o') ->
  (forall n, ~ entry parameter_uuids (uuid_text (prit_uuid o)) n) ->
  parameter_name o = parameter_name o' -> prit_uuid o = prit_uuid o'.
Proof.
  intros o o' W W' N E. destruct (name_of o) as [Eo|[_ Eo]]; [now apply N in Eo|]. rewrite Eo in E.
  destruct (name_of o') as [(k & n & I & _ & En)|[_ En]].
  - destruct (entry_good k n I) as (_ & _ & D). rewrite En in E.
    pose proof (spells_dash _ _ (text_spells _ W)) as D'. rewrite E in D'. now apply D in D'.
  - rewrite En in E. apply (spells_one (uuid_text (prit_uuid o))); [now apply text_spells|].
    rewrite E. now apply text_spells.
Qed.
Print Assumptions C67_unknown.

(** The name does not tell the parameter: two UUIDs are both called Blue. *)
Theorem C67_names_refuted : exists o o', uuid_wf (prit_uuid o) /\ uuid_wf (prit_uuid o') /\
  parameter_name o = txt "Blue" /\ parameter_name o' = txt "Blue" /\ prit_uuid o <> prit_uuid o'.
Proof.
  exists (with_uuid [0; 130; 184; 89; 135; 240; 66; 109; 133; 222; 255; 20; 229; 201; 8; 11]),
    (with_uuid [10; 163; 149; 50; 50; 85; 78; 116; 169; 145; 149; 254; 23; 96; 14; 7]).
  split; [apply wf_b; reflexivity|]. split; [apply wf_b; reflexivity|].
  split; [vm_compute; reflexivity|]. split; [vm_compute; reflexivity|]. discriminate.
Qed.
Print Assumptions C67_names_refuted.

(** The sample parameter is not in the table; the first entry is. *)
Example C67_case : uuid_wf (prit_uuid sample_parameter_item) /\
  parameter_name sample_parameter_item = txt "a1b2c3d4-e5f6-0718-293a-4b5c6d7e8fa0" /\
  (forall n, ~ entry parameter_uuids (uuid_text (prit_uuid sample_parameter_item)) n) /\
  In ("0082b859-87f0-426d-85de-ff14e5c9080b", "Blue")%string parameter_uuids /\ length parameter_uuids = 735%nat.
Proof.
  split; [apply wf_b; reflexivity|]. split; [vm_compute; reflexivity|].
  split; [apply table_get_none; vm_compute; reflexivity|]. split; [now left|reflexivity].
Qed.
