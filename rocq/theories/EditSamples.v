(** Edits of the small file of ResaveSamples.v, for the cases shown beside the theorems. *)
From Coq Require Import ZArith List Bool.
From Verif Require Import Base IoCtx RoundTrip Text Exp10 MobId Storable Attributes Components Fits Saved SavedProofs
  Samples Dates Objects ObjSpec ObjProofs ObjTheory FileModel SampleDocs ResaveSamples Edited EditSpec.
Import ListNotations.
Open Scope Z_scope.

(** The clip of the document with other attributes and another length. *)
Definition other_clip (attributes length : Z) : obj := Obj K_SCLP {|
  sclp_clip := {| clip_component := plain_component attributes; clip_length := length |};
  sclp_track_id := 1; sclp_start_time := 5; sclp_mob_id := sclp_mob_id sample_source_clip |}.

(** In the file the attributes are objects 1 and 2, the filler 3, the clip 4 and the sequence 5. The
    attributes are changed and let go; attributes that refer to them are made (they get number 7)
    and become those of the clip, whose length is then changed in place. *)
Definition new_number : obj := Obj K_ATTR [([78], AInt 4)].
Definition new_attributes : obj := Obj K_ATTR [([77], ARef 1)].
Definition session : list edit :=
  [Follow 4; Assign 1 new_number; Collect 1; Make new_attributes; Assign 4 (other_clip 7 50);
   InPlace 4 (other_clip 7 60); Collect 4; Collect 7; Collect 5].

(** Changed in place without more, and let go. *)
Definition unnoticed : list edit := [InPlace 4 (other_clip 2 60); Collect 4].

Lemma session_ok : Forall (fun o => obj_ok o) [new_number; new_attributes; other_clip 7 50; other_clip 7 60].
Proof.
  repeat (apply Forall_cons; [split; [reflexivity|]|]); [..|apply Forall_nil];
    cbn [ok_of okind oval new_number new_attributes other_clip]; sample_ok.
Qed.
