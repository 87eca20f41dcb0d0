(** C21, C22, C23, C44 and C50: one object in its chunk, whatever its class.
    [wbody] and [wchunk] write an object and its chunk, [robject] reads the data of a chunk
    (Objects.v); [obj_ok], [obj_fits] and [obj_whole] collect the side conditions of the classes
    (ObjSpec.v). *)
From Coq Require Import ZArith List Bool Lia.
From Verif Require Import Base IoCtx RoundTrip Components TrackGroups Essence FitsProofs Saved SavedProofs Samples
  OrderProofs RefsProofs Objects ObjSpec ObjProofs ObjTheory.
Import ListNotations.
Open Scope Z_scope.

(** ** C21 *)

(** The contexts of two saves that differ in the byte order only. *)
Definition save_in (bo : border) (refs : Z -> option Z) : octx := {| obo := bo; orefs := refs |}.

(** Both saves end alike: both fail, with the same exception, or both succeed, with chunks of the
    same length. This holds for every object, storable or not. *)
Theorem C21_same_outcome : forall refs o, closes (okind o) = true ->
  (exists e, wchunk (save_in LE refs) o = Err e /\ wchunk (save_in BE refs) o = Err e) \/
  (exists b b', wchunk (save_in LE refs) o = Ok b /\ wchunk (save_in BE refs) o = Ok b' /\
     length b = length b').
Proof.
  intros refs o Hk.
  pose proof (weq_chunk (save_in LE refs) (save_in BE refs) o Hk (fun _ => eq_refl)) as H.
  unfold weq in H. destruct (wchunk (save_in LE refs) o) as [b|e], (wchunk (save_in BE refs) o) as [b'|e'];
    cbn [wlen] in H; try discriminate H.
  - right. exists b, b'. repeat split. now injection H.
  - left. exists e. split; [reflexivity|]. f_equal. now injection H.
Qed.
Print Assumptions C21_same_outcome.

(** Reading each in its own order gives equal objects: the object that was saved, its references
    replaced by chunk numbers. [n] is the size of the object table of the files. *)
Theorem C21_same_object : forall refs n o d d',
  obj_ok o -> 0 < n -> (forall r x, refs r = Some x -> x < n) ->
  wbody (save_in LE refs) o = Ok d -> wbody (save_in BE refs) o = Ok d' ->
  length d = length d' /\
  exists o', robject {| ibo := LE; inobj := Some n |} (class_id (okind o)) d = Ok o' /\
             robject {| ibo := BE; inobj := Some n |} (class_id (okind o)) d' = Ok o' /\
             o' = obj_map (fun r => if r =? 0 then 0 else match refs r with Some x => x | None => 0 end) o.
Proof.
  intros refs n o d d' Hok Hn Hr Hd Hd'. split.
  - pose proof (weq_body (save_in LE refs) (save_in BE refs) o (fun _ => eq_refl)) as H.
    unfold weq in H. rewrite Hd, Hd' in H. cbn [wlen] in H. now injection H.
  - assert (forall bo, compat {| ibo := bo; inobj := Some n |} (save_in bo refs)) as Hc.
    { intros bo. split; [reflexivity|]. split; [now apply Z.ltb_lt|].
      intros r x Hx. apply Z.ltb_lt. exact (Hr r x Hx). }
    eexists. split; [exact (robject_saved _ _ o d (Hc LE) Hok Hd)|].
    split; [exact (robject_saved _ _ o d' (Hc BE) Hok Hd')|reflexivity].
Qed.
Print Assumptions C21_same_object.

Example C21_case :
  obj_ok (Obj K_CMPO sample_composition) /\
  exists b b', wchunk (sample_out LE) (Obj K_CMPO sample_composition) = Ok b /\
               wchunk (sample_out BE) (Obj K_CMPO sample_composition) = Ok b' /\
               b <> b' /\ length b = length b'.
Proof.
  split.
  - split; [reflexivity|]. cbn [okind oval ok_of]. sample_ok.
  - eexists. eexists. split; [vm_compute; reflexivity|]. split; [vm_compute; reflexivity|].
    split; [discriminate|reflexivity].
Qed.

(** ** C22 *)

(** Whatever is accepted as the data of a chunk: no proper prefix of it is. *)
Theorem C22_prefix_refused : forall i cc p q o,
  robject i cc (p ++ q) = Ok o -> q <> [] -> exists e, robject i cc p = Err e.
Proof. exact robject_shorter. Qed.
Print Assumptions C22_prefix_refused.

(** In particular the data of a saved object, cut anywhere. *)
Theorem C22_cut_object_refused : forall i c o data k,
  compat i c -> obj_ok o -> wbody c o = Ok data -> (k < length data)%nat ->
  exists e, robject i (class_id (okind o)) (firstn k data) = Err e.
Proof.
  intros i c o data k Hc Hok Hw Hk.
  apply (robject_shorter i (class_id (okind o)) (firstn k data) (skipn k data) (obj_map (reff c) o)).
  - rewrite firstn_skipn. now apply robject_saved.
  - intros E. apply (f_equal (@length Z)) in E. rewrite skipn_length in E. cbn in E. lia.
Qed.
Print Assumptions C22_cut_object_refused.

Example C22_case : forall bo, compat (sample_in bo) (sample_out bo) /\
  exists data, wbody (sample_out bo) (Obj K_CDCI sample_cdci_descriptor) = Ok data /\
    (100 < length data)%nat.
Proof.
  intros bo. split; [apply sample_compat|].
  destruct bo; (eexists; split; [vm_compute; reflexivity|vm_compute; lia]).
Qed.

(** ** C23 *)

Theorem C23_longer_refused : forall i cc d o s,
  robject i cc d = Ok o -> s <> [] -> robject i cc (d ++ s) = Err AssertionErr.
Proof. exact robject_longer. Qed.
Print Assumptions C23_longer_refused.

Theorem C23_saved_object_longer_refused : forall i c o data s,
  compat i c -> obj_ok o -> wbody c o = Ok data -> s <> [] ->
  robject i (class_id (okind o)) (data ++ s) = Err AssertionErr.
Proof.
  intros i c o data s Hc Hok Hw Hs.
  apply (robject_longer _ _ _ (obj_map (reff c) o)); [now apply robject_saved|exact Hs].
Qed.
Print Assumptions C23_saved_object_longer_refused.

Example C23_case : exists data,
  wbody (sample_out LE) (Obj K_SEQU sample_sequence) = Ok data /\
  robject (sample_in LE) (class_id K_SEQU) (data ++ [3]) = Err AssertionErr.
Proof. eexists. split; [vm_compute; reflexivity|]. vm_compute. reflexivity. Qed.

(** ** C44 *)

(** Whatever bytes are found in a chunk: if they are accepted, every reference of the object is 0
    or the number of an entry of the object table (entries are numbered from 1, the table has
    [n] places counting place 0). *)
Theorem C44_references_in_table : forall bo n cc d o,
  Forall is_byte d -> robject {| ibo := bo; inobj := Some n |} cc d = Ok o ->
  forall r, In r (obj_refs o) -> r = 0 \/ 1 <= r <= n - 1.
Proof.
  intros bo n cc d o Hd H r Hr. pose proof (robject_refs _ _ _ _ Hd H) as F.
  unfold refs_ok in F. rewrite Forall_forall in F. specialize (F r Hr). unfold ref_ok in F.
  cbn [inobj] in F. lia.
Qed.
Print Assumptions C44_references_in_table.

(** A reference beyond the table: the reader raises [ValueError]. *)
Example C44_case :
  robject {| ibo := LE; inobj := Some 3 |} (class_id K_PRLS) [2; 1; 1; 0; 0; 0; 2; 0; 0; 0; 3]
    = Ok (Obj K_PRLS [2]) /\
  robject {| ibo := LE; inobj := Some 3 |} (class_id K_PRLS) [2; 1; 1; 0; 0; 0; 3; 0; 0; 0; 3]
    = Err ValueErr.
Proof. split; vm_compute; reflexivity. Qed.

(** ** C50 *)

(** Two objects with the same chunk are equal, class and properties. References are compared
    through the chunk numbers of the objects they lead to, so these have to be different for
    different objects and not 0. *)
Theorem C50_equal_chunks : forall c a b bs,
  obj_ok a -> obj_ok b -> obj_whole a -> obj_whole b ->
  (forall r, In r (obj_refs a ++ obj_refs b) -> orefs c r <> Some 0) ->
  (forall r r' x, orefs c r = Some x -> orefs c r' = Some x -> r = r') ->
  wchunk c a = Ok bs -> wchunk c b = Ok bs -> a = b.
Proof.
  intros c a b bs Oa Ob Wa Wb H0 Hi Ha Hb.
  apply (wchunk_inj_stored c a b bs); assumption.
Qed.
Print Assumptions C50_equal_chunks.

(** The code determines the class. *)
Theorem C50_class_codes : forall k k', class_id k = class_id k' -> k = k'.
Proof. exact class_id_inj. Qed.
Print Assumptions C50_class_codes.

(** An effect with one track, with or without lock number. *)
Definition unlocked (lock : option Z) : track_effect := {|
  tkfx_group := {|
    trkg_component := sample_component; trkg_mc_mode := 0; trkg_length := 1; trkg_num_scalars := 0;
    trkg_tracks := [ {| trak_index := Some 1; trak_attributes := None; trak_session_attr := None;
      trak_component := None; trak_filler_proxy := None; trak_bob_data := None;
      trak_control_code := None; trak_control_sub_code := None; trak_start_pos := None;
      trak_read_only := None; trak_lock_number := lock |} ] |};
  tkfx_left_length := 0; tkfx_right_length := 0; tkfx_info_version := 1; tkfx_info_current := 0;
  tkfx_info_smooth := 0; tkfx_info_color_item := 0; tkfx_info_quality := 0;
  tkfx_info_is_reversed := 0; tkfx_info_aspect_on := true; tkfx_keyframes := 0;
  tkfx_info_force_software := false; tkfx_info_never_hardware := false; tkfx_trackman := None |}.

(** Without its lock number a track has the same stored form as with the lock number 0. *)
Theorem C50_lock_number_refuted : exists c a b bs,
  obj_ok a /\ obj_ok b /\ a <> b /\ wchunk c a = Ok bs /\ wchunk c b = Ok bs.
Proof.
  exists (sample_out LE), (Obj K_TKFX (unlocked None)), (Obj K_TKFX (unlocked (Some 0))).
  eexists. split; [split; [reflexivity|]; cbn [okind oval ok_of]; unfold unlocked; sample_ok|].
  split; [split; [reflexivity|]; cbn [okind oval ok_of]; unfold unlocked; sample_ok|].
  split; [|split; [vm_compute; reflexivity|vm_compute; reflexivity]].
  intros E. apply (f_equal (fun o => match o return option (option Z) with
    | Obj K_TKFX v => option_map trak_lock_number (hd_error (trkg_tracks (tkfx_group v)))
    | _ => None end)) in E. discriminate E.
Qed.
Print Assumptions C50_lock_number_refuted.

Example C50_case :
  obj_ok (Obj K_SEQU sample_sequence) /\ obj_whole (Obj K_SEQU sample_sequence) /\
  obj_refs (Obj K_SEQU sample_sequence) <> [] /\
  exists bs, wchunk (sample_out BE) (Obj K_SEQU sample_sequence) = Ok bs.
Proof.
  split; [split; [reflexivity|]; cbn [okind oval ok_of]; sample_ok|].
  split; [exact I|]. split; [discriminate|]. eexists. vm_compute. reflexivity.
Qed.
