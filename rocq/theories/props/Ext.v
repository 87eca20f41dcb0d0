(** C43: the accelerated readers. *)
From Coq Require Import ZArith String List Bool Lia.
From Verif Require Import Base IoCtx Text Attributes Components TrackGroups Essence Misc Samples.
From Verif Require Import RoundTrip Saved Objects ObjSpec ObjTheory Ext ExtSpec ExtStrict ExtRead
  ExtWritten.
Import ListNotations.
Open Scope Z_scope.

(** Whatever the standard reader of a class accepts, whoever wrote it and whether references are
    checked or not, the accelerated reader of the class accepts as well and finds the same
    properties, up to [standard]; or memory for a negative number of elements is asked for, where
    the standard reader takes the list for an empty one. *)
Theorem C43_reads_alike : forall k f n data x rest,
  ext_read k = Some f -> Forall is_byte data ->
  C_read (class_of k) {| ibo := LE; inobj := n |} data = Ok (x, rest) ->
  (exists d, f data = ExtOk d /\ agrees k x d) \/ (f data = ExtMemory /\ countless k x).
Proof.
  intros k f n data x rest Hf Hb E. rewrite <- strict_read_false in E.
  destruct (ext_strict false false k n f data x rest Hf Hb E) as [(d & Hd & H)|(H & _ & H')];
    [left; exists d; split; [exact Hd|apply agree_p_false; exact H]|right; split; assumption].
Qed.

(** What the library itself writes is read without an error and holds what was written, every
    reference replaced by the number it was stored under. *)
Theorem C43_reads_what_is_written : forall k f c v data,
  ext_read k = Some f -> ok_of k v -> obo c = LE ->
  C_write (class_of k) c v = Ok data -> Forall is_byte data ->
  exists d, f data = ExtOk d /\ agrees k (C_map (class_of k) (reff c) v) d.
Proof.
  intros k f c v data Hf Hok Hbo Hw Hb. eapply ext_written; try eassumption.
  pose proof (compat_unchecked c) as H. rewrite Hbo in H. exact H.
Qed.

(** The classes in question. *)
Theorem C43_classes : forall k, ext_read k <> None <->
  In k [K_CMPO; K_TKFX; K_MDES; K_DIDD; K_CDCI; K_SLCT; K_SEQU; K_FILL; K_SCLP; K_PRCL; K_PRIT;
        K_TRKR; K_FXPS; K_ATTR].
Proof.
  intros k. split.
  - destruct k; intros H; try (now contradiction H); cbn [In];
      repeat (first [left; reflexivity|right]).
  - cbn [In]. intros H. repeat (destruct H as [<-|H]; [discriminate|]). destruct H.
Qed.

(** ** Cases *)

Definition le_data (o : obj) : bytes :=
  match wbody (sample_out LE) o with Ok data => data | Err _ => [] end.
Definition found (o : obj) : option ext_result :=
  match ext_read (okind o) with Some f => Some (f (le_data o)) | None => None end.
Definition is_byteb (x : Z) : bool := (0 <=? x) && (x <? 256).

Definition covered : list obj :=
  [Obj K_ATTR sample_attributes; Obj K_SEQU sample_sequence; Obj K_FILL sample_filler;
   Obj K_SCLP sample_source_clip; Obj K_TRKR sample_track_ref; Obj K_PRCL sample_param_clip;
   Obj K_PRIT sample_parameter_item; Obj K_TKFX sample_track_effect; Obj K_SLCT sample_selector;
   Obj K_CMPO sample_composition; Obj K_MDES sample_media_descriptor;
   Obj K_DIDD sample_did_descriptor; Obj K_CDCI sample_cdci_descriptor;
   Obj K_FXPS sample_effect_param_list].

(** One object with everything set of each class: written, bytes, read by both. *)
Example covered_read : forallb (fun o =>
  match wbody (sample_out LE) o, found o, rbody (sample_in LE) (okind o) (le_data o) with
  | Ok (_ :: _), Some (ExtOk _), Ok (_, []) => forallb is_byteb (le_data o)
  | _, _, _ => false
  end) covered = true.
Proof. vm_compute. reflexivity. Qed.

Example track_ref_found :
  exists d, found (Obj K_TRKR sample_track_ref) = Some (ExtOk (Props d)) /\
    lookup d "name" = Some (One (CText [69; 233; 101])) /\
    lookup d "left_bob" = Some (One (CRef 12)) /\ lookup d "length" = Some (One (CInt 86)) /\
    lookup d "relative_scope" = Some (One (CInt 59)) /\
    lookup d "relative_track" = Some (One (CInt 66)) /\ lookup d "start_time" = None.
Proof. eexists. split; [vm_compute; reflexivity|]. repeat split. Qed.

(** ** Differences *)

Definition flat_clip (v : Z) : param_clip := {|
  prcl_clip := sample_clip; prcl_interp_kind := 4; prcl_value_type := 1;
  prcl_control_points := [{| pcp_offset_num := 0; pcp_offset_den := 1; pcp_timescale := 1;
    pcp_value := CPInt v; pcp_pp := [] |}];
  prcl_extrap_kind := None; prcl_fields := None |}.

(** A keyframe value of -1 comes back as 4294967295 and can not be saved any more. *)
Theorem C43_negative_value_refuted : exists d,
  wbody (sample_out LE) (Obj K_PRCL (flat_clip (-1))) <> Ok [] /\
  found (Obj K_PRCL (flat_clip (-1))) = Some (ExtOk (Props d)) /\
  lookup d "control_points" =
    Some (One (CPoints (prcl_control_points (flat_clip 4294967295)))) /\
  (exists e, wbody (sample_out LE) (Obj K_PRCL (flat_clip 4294967295)) = Err e).
Proof.
  eexists. split; [vm_compute; discriminate|]. split; [vm_compute; reflexivity|].
  split; [reflexivity|]. eexists. vm_compute. reflexivity.
Qed.

(** The same for the kind of media of a component, which is two bytes. *)
Definition odd_filler (name : str) (kind : Z) : filler :=
  {| fill_clip := {| clip_component := {| cpnt_left_bob := 0; cpnt_right_bob := 0;
       cpnt_media_kind_id := kind; cpnt_edit_rate := sample_rate; cpnt_name := name;
       cpnt_effect_id := []; cpnt_attributes := 0; cpnt_session_attrs := 0;
       cpnt_precomputed := 0; cpnt_param_list := Some 0 |}; clip_length := 5 |} |}.

Theorem C43_negative_kind_refuted : exists d,
  rbody (sample_in LE) K_FILL (le_data (Obj K_FILL (odd_filler [65] (-1)))) =
    Ok (Obj K_FILL (odd_filler [65] (-1)), []) /\
  found (Obj K_FILL (odd_filler [65] (-1))) = Some (ExtOk (Props d)) /\
  lookup d "media_kind_id" = Some (One (CInt 65535)) /\
  (exists e, wbody (sample_out LE) (Obj K_FILL (odd_filler [65] 65535)) = Err e).
Proof.
  eexists. split; [vm_compute; reflexivity|]. split; [vm_compute; reflexivity|].
  split; [reflexivity|]. eexists. vm_compute. reflexivity.
Qed.

(** The standard readers drop zero characters at the end of a text, the others keep them. *)
Theorem C43_text_refuted : exists d,
  rbody (sample_in LE) K_FILL (le_data (Obj K_FILL (odd_filler [65; 0] 1))) =
    Ok (Obj K_FILL (odd_filler [65] 1), []) /\
  found (Obj K_FILL (odd_filler [65; 0] 1)) = Some (ExtOk (Props d)) /\
  lookup d "name" = Some (One (CText [65; 0])).
Proof.
  eexists. split; [vm_compute; reflexivity|]. split; [vm_compute; reflexivity|]. reflexivity.
Qed.

(** A number of elements of -1: no elements for the one, an error of another kind for the other. *)
Definition uncounted : bytes := [2; 18; 1; 0; 0; 0; 2; 0; 0; 0; 255; 255; 255; 255; 3; 0; 0; 0; 3].
Theorem C43_negative_count_refuted :
  (exists o, rbody (sample_in LE) K_FXPS uncounted = Ok (o, [])) /\
  (exists f, ext_read K_FXPS = Some f /\ f uncounted = ExtMemory).
Proof.
  split; [eexists; vm_compute; reflexivity|].
  eexists. split; [reflexivity|]. vm_compute. reflexivity.
Qed.

(** Chunks the standard reader refuses: what should be a filler and gives an object without
    properties, a sequence with a reference to a chunk that does not exist, and a media descriptor
    without its closing byte. *)
Definition refused (k : kind) (data : bytes) : Prop := exists e, rbody (sample_in LE) k data = Err e.
Definition accepted (k : kind) (data : bytes) (d : loaded) : Prop :=
  exists f, ext_read k = Some f /\ f data = ExtOk d.

Theorem C43_broken_chunks_refuted :
  (exists data, refused K_FILL data /\ accepted K_FILL data (Props [])) /\
  (exists data d, refused K_SEQU data /\ accepted K_SEQU data (Props d) /\
     lookup d "components" = Some (One (CRefs [500]))) /\
  (exists data d, refused K_MDES data /\ accepted K_MDES data d /\ ~ refused K_MDES (data ++ [3])).
Proof.
  split; [|split].
  - exists [7; 7; 2; 1; 3]. split; [eexists; vm_compute; reflexivity|].
    eexists. split; [reflexivity|]. vm_compute. reflexivity.
  - exists (match wsequence {| obo := LE; orefs := fun r => Some r |}
        {| sequ_component := sample_component; sequ_components := [500] |} with
      Ok data => data | Err _ => [] end).
    eexists. split; [eexists; vm_compute; reflexivity|]. split.
    + eexists. split; [reflexivity|]. vm_compute. reflexivity.
    + reflexivity.
  - exists (removelast (le_data (Obj K_MDES sample_media_descriptor))). eexists.
    split; [eexists; vm_compute; reflexivity|]. split.
    + eexists. split; [reflexivity|]. vm_compute. reflexivity.
    + intros [e H]. vm_compute in H. discriminate H.
Qed.

Print Assumptions C43_reads_alike.
Print Assumptions C43_reads_what_is_written.
Print Assumptions C43_classes.
Print Assumptions C43_negative_value_refuted.
Print Assumptions C43_negative_kind_refuted.
Print Assumptions C43_text_refuted.
Print Assumptions C43_negative_count_refuted.
Print Assumptions C43_broken_chunks_refuted.
