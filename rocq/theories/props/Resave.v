(** C57 and C58: saving again what was read. [obj_keeps] lists, class by class, what a readable
    object must satisfy beyond being readable (ResaveSpec.v); [opened_doc] is the document a file
    opens as (Opened.v). *)
From Coq Require Import ZArith List Bool Lia.
From Verif Require Import Base IoCtx RoundTrip Text Exp10 MobId Dates Fits Components TrackGroups Misc Essence
  BinModel Objects ObjSpec ObjProofs ObjTheory DateSpec FileModel FileSpec SaveProofs Opened Samples SampleDocs
  ResaveSpec ResaveProofs ResaveTheory ResaveSamples.
From Verif.props Require Import Saves.
Import ListNotations.
Open Scope Z_scope.

(** ** C57 *)

(** Whatever bytes a chunk consists of: if it can be read and the object keeps the conditions, then
    it can be written, in either byte order and with any numbering of its references; the chunk
    written ends in the closing byte and reads back as the same object renumbered. *)
Theorem C57_rewrites : forall i cc data o, Forall is_byte data -> robject i cc data = Ok o -> obj_keeps o ->
  forall i' c, compat i' c ->
  (forall r, In r (obj_refs o) -> r = 0 \/ exists x, orefs c r = Some x /\ 0 <= x < 2 ^ 32) ->
  exists data', wbody c o = Ok data' /\ last data' 0 = 3 /\
    robject i' (class_id (okind o)) data' = Ok (obj_map (reff c) o).
Proof.
  intros i cc data o Hd H K i' c Hc Hr.
  destruct (resave_chunk i cc data o c Hd H K) as (A & _ & data' & W); [exact Hr|].
  exists data'. split; [exact W|]. split; [exact (ends3_last c o data' (proj1 A) W)|].
  now apply robject_saved.
Qed.
Print Assumptions C57_rewrites.

(** If the numbers stay, the very object is read back, except that tracks without a lock number
    get one ([obj_whole]: they all have one). *)
Theorem C57_same : forall i cc data o, Forall is_byte data -> robject i cc data = Ok o -> obj_keeps o ->
  obj_whole o ->
  forall i' c, compat i' c ->
  (forall r, In r (obj_refs o) -> r <> 0 -> orefs c r = Some r /\ 0 <= r < 2 ^ 32) ->
  exists data', wbody c o = Ok data' /\ robject i' (class_id (okind o)) data' = Ok o.
Proof.
  intros i cc data o Hd H K Wh i' c Hc Hr.
  destruct (C57_rewrites i cc data o Hd H K i' c Hc) as (data' & W & _ & R).
  { intros r Hi. destruct (Z.eq_dec r 0); [now left|right]. exists r. now apply Hr. }
  exists data'. split; [exact W|]. rewrite R. f_equal.
  destruct (read_again i cc data o Hd H K) as [[Hk _] _].
  rewrite <- (map_id_obj o Hk Wh) at 2. apply map_ext_obj. intros r Hi. unfold reff.
  destruct (Z.eqb_spec r 0); [auto|]. now destruct (Hr r Hi n) as [-> _].
Qed.
Print Assumptions C57_same.

(** The conditions are exact: an object that was read, satisfies the conditions under which a class
    reads back what it writes (C10 to C24) and whose references have numbers can be written just if
    it keeps them. *)
Theorem C57_exact : forall i cc data o c, Forall is_byte data -> robject i cc data = Ok o -> obj_ok o ->
  (forall r, In r (obj_refs o) -> r = 0 \/ exists x, orefs c r = Some x /\ 0 <= x < 2 ^ 32) ->
  (obj_keeps o <-> exists data', wbody c o = Ok data').
Proof.
  intros i cc data o c Hd H A Hr. split.
  - intros K. destruct (resave_chunk i cc data o c Hd H K Hr) as (_ & _ & W). exact W.
  - intros W. apply (written_keeps c o A). now apply (obj_fit c o A).
Qed.
Print Assumptions C57_exact.

(** What the library has written keeps them when it is read. *)
Theorem C57_library : forall i c o data o', compat i c -> obj_ok o -> wbody c o = Ok data ->
  robject i (class_id (okind o)) data = Ok o' -> obj_keeps o'.
Proof.
  intros i c o data o' Hc A W R. rewrite (robject_saved i c o data Hc A W) in R. injection R as <-.
  apply keeps_map. apply (written_keeps c o A). apply (obj_fit c o A). eauto.
Qed.
Print Assumptions C57_library.

(** A source clip as in the samples, with two more bytes in its name length than needed, read
    without a file and written big endian. *)
Example C57_case : exists o data', robject alone (class_id K_SCLP)
    (put 18 [3; 0; 69; 0; 0] (chunk_of (Obj K_SCLP sample_source_clip))) = Ok o /\
  obj_keeps o /\ obj_whole o /\ obj_ok o /\ okind o = K_SCLP /\
  Forall is_byte (put 18 [3; 0; 69; 0; 0] (chunk_of (Obj K_SCLP sample_source_clip))) /\
  wbody (kept_numbers BE) o = Ok data' /\
  compat {| ibo := BE; inobj := None |} (kept_numbers BE) /\
  robject {| ibo := BE; inobj := None |} (class_id K_SCLP) data' = Ok o /\ length data' = 119%nat.
Proof.
  assert (Forall is_byte (put 18 [3; 0; 69; 0; 0] (chunk_of (Obj K_SCLP sample_source_clip)))) as Hb.
  { vm_compute. repeat constructor; vm_compute; congruence. }
  eexists. eexists. split; [vm_compute; reflexivity|].
  match goal with |- obj_keeps ?o /\ _ => assert (obj_keeps o) as K end.
  { split; [|vm_compute; discriminate]. eexists. eexists. split; [vm_compute; reflexivity|].
    split; [vm_compute; split; congruence|]. split; [vm_compute; split; congruence|].
    vm_compute; reflexivity. }
  split; [exact K|]. split; [exact I|]. split.
  { refine (proj1 (read_again alone (class_id K_SCLP) _ _ Hb _ K)). vm_compute. reflexivity. }
  split; [reflexivity|]. split; [exact Hb|]. split; [vm_compute; reflexivity|].
  split; [split; [reflexivity|split; [reflexivity|intros; reflexivity]]|].
  split; vm_compute; reflexivity.
Qed.

(** *** Readable chunks that cannot be written, or not without a change *)

(** A mob ID that is missing from the file: nine classes read the chunk, and the writer fails. *)
Theorem C57_missing_mob_id_refuted : forall bo, Forall (fun p : obj * nat =>
    let data := cut (snd p) 51 (chunk_of (fst p)) in
    exists o, robject alone (class_id (okind (fst p))) data = Ok o /\
      wbody (kept_numbers bo) o = Err AttributeErr)
  [ (Obj K_SCLP sample_source_clip, 69%nat); (Obj K_CMPO sample_composition, 166%nat);
    (Obj K_MSML sample_msm_locator, 22%nat); (Obj K_APOS sample_position, 10%nat);
    (Obj K_ABOB sample_bob_position, 10%nat); (Obj K_DIDP sample_did_position, 10%nat);
    (Obj K_MPGP sample_mpg_position, 10%nat); (Obj K_MCMR sample_mob_ref, 14%nat);
    (Obj K_TMBC sample_marker, 14%nat) ].
Proof.
  intros bo. repeat (apply Forall_cons; [eexists; split; [vm_compute; reflexivity|destruct bo; vm_compute; reflexivity]|]).
  constructor.
Qed.
Print Assumptions C57_missing_mob_id_refuted.

(** So does the one of bin references if the UTF-8 name is missing. *)
Theorem C57_missing_name_refuted : forall bo, exists o,
  robject alone (class_id K_MCBR) (cut 15 11 (chunk_of (Obj K_MCBR sample_bin_ref))) = Ok o /\
  wbody (kept_numbers bo) o = Err AttributeErr.
Proof. intros bo. eexists. split; [vm_compute; reflexivity|destruct bo; vm_compute; reflexivity]. Qed.
Print Assumptions C57_missing_name_refuted.

(** The rate 0.126763 of a sequence is written as 0.126762; the next time as that. *)
Theorem C57_rate_refuted : forall bo, exists s s' data',
  robject alone (class_id K_SEQU) (put 12 [43; 239; 1; 0; 250; 255] (chunk_of (Obj K_SEQU sample_sequence)))
    = Ok (Obj K_SEQU s) /\
  exp10_value 126763 (-6) = Ok (cpnt_edit_rate (sequ_component s)) /\
  wbody (kept_numbers bo) (Obj K_SEQU s) = Ok data' /\
  robject {| ibo := bo; inobj := None |} (class_id K_SEQU) data' = Ok (Obj K_SEQU s') /\
  exp10_value 126762 (-6) = Ok (cpnt_edit_rate (sequ_component s')) /\
  cpnt_edit_rate (sequ_component s) <> cpnt_edit_rate (sequ_component s').
Proof.
  intros bo. destruct bo; eexists; eexists; eexists; (split; [vm_compute; reflexivity|]);
    (split; [vm_compute; reflexivity|]); (split; [vm_compute; reflexivity|]); (split; [vm_compute; reflexivity|]);
    (split; [vm_compute; reflexivity|]); vm_compute; discriminate.
Qed.
Print Assumptions C57_rate_refuted.

(** The rate 2147483647e10 can be read and cannot be written. *)
Theorem C57_large_rate_refuted : forall bo, exists o,
  robject alone (class_id K_SEQU) (put 12 [255; 255; 255; 127; 10; 0] (chunk_of (Obj K_SEQU sample_sequence))) = Ok o /\
  wbody (kept_numbers bo) o = Err StructError.
Proof. intros bo. eexists. split; [vm_compute; reflexivity|destruct bo; vm_compute; reflexivity]. Qed.
Print Assumptions C57_large_rate_refuted.

(** Numbers read unsigned and written signed: the material number of an audio suite effect's mob ID,
    the sub-frame alignment of an MPEG audio descriptor. *)
Theorem C57_sign_refuted : forall bo,
  (exists o, robject alone (class_id K_ASPI) (put 309 [200] (chunk_of (Obj K_ASPI sample_audio_suite_effect))) = Ok o /\
     wbody (kept_numbers bo) o = Err StructError) /\
  (exists o, robject alone (class_id K_MPGA) (put 109 [200] (chunk_of (Obj K_MPGA sample_mpga_descriptor))) = Ok o /\
     wbody (kept_numbers bo) o = Err StructError).
Proof.
  intros bo. split; eexists; (split; [vm_compute; reflexivity|destruct bo; vm_compute; reflexivity]).
Qed.
Print Assumptions C57_sign_refuted.

(** The two zero bytes the writer puts before a UTF-8 text: a text of 65534 bytes is read, and
    cannot be written; one of 65533 bytes is written with the length that stands for a missing
    text, so nothing is read back and the reader goes on in the middle of it. *)
Theorem C57_long_text_refuted : forall bo rest,
  rstr_enc bo Utf8 (enc bo 2 65534 ++ letters 65534 ++ rest) = Ok (letters 65534, rest) /\
  wstr_enc bo Utf8 (letters 65534) = Err StructError /\
  rstr_enc bo Utf8 (enc bo 2 65533 ++ letters 65533 ++ rest) = Ok (letters 65533, rest) /\
  exists data, wstr_enc bo Utf8 (letters 65533) = Ok data /\
    rstr_enc bo Utf8 (data ++ rest) = Ok ([], 0 :: 0 :: letters 65533 ++ rest).
Proof.
  intros bo rest. split; [apply letters_read; lia|]. split.
  { rewrite letters_write by lia. reflexivity. }
  split; [apply letters_read; lia|]. eexists. split.
  { rewrite letters_write by lia. reflexivity. }
  unfold rstr_enc. change (65533 + 2) with 65535. rewrite <- app_assoc. unfold bind at 1, ru16.
  rewrite runsigned_enc by (change (pow256 2) with 65536; lia). reflexivity.
Qed.
Print Assumptions C57_long_text_refuted.

(** Lengths with one bit less when written: a format descriptor of 32766 bytes, 16384 fields of an
    MPEG position. *)
Theorem C57_long_list_refuted : forall i c rest,
  (exists o, rformat_desc i (long_format (ibo i) 32766 ++ rest) = Ok (o, rest) /\
     wformat_desc c o = Err StructError) /\
  (exists l, rmpg_fields i (many_fields (ibo i) 16384 ++ rest) = Ok (l, rest) /\
     wmpg_fields c l = Err StructError).
Proof.
  intros i c rest. split; eexists.
  - split; [apply long_format_read; lia|]. unfold wformat_desc. cbn [fdsc_format_descriptor fdsc_vcid_free_column_id].
    rewrite letters_enc, len_letters by lia. destruct (obo c); vm_compute; reflexivity.
  - split; [apply many_fields_read; lia|]. unfold wmpg_fields.
    replace (len (repeat (1, 0) (Z.to_nat 16384))) with 16384 by (unfold len; rewrite repeat_length; lia).
    reflexivity.
Qed.
Print Assumptions C57_long_list_refuted.

(** A plain data descriptor is read without a closing byte and written without one; the assertion
    of [write_object] then fails. *)
Theorem C57_closing_byte_refuted : forall bo, exists o data',
  robject alone (class_id K_DATD) (chunk_of (Obj K_DATD sample_data_descriptor)) = Ok o /\
  wbody (kept_numbers bo) o = Ok data' /\ last data' 0 <> 3.
Proof.
  intros bo. destruct bo; eexists; eexists; (split; [vm_compute; reflexivity|]);
    (split; [vm_compute; reflexivity|vm_compute; discriminate]).
Qed.
Print Assumptions C57_closing_byte_refuted.

(** Without [obj_whole] the object changes: tracks without lock numbers come back with the number
    0. *)
Theorem C57_locks_refuted : exists o o' data',
  robject alone (class_id K_TKFX) (cut 128 8 (chunk_of (Obj K_TKFX sample_track_effect))) = Ok o /\
  obj_keeps o /\ wbody (kept_numbers LE) o = Ok data' /\ robject alone (class_id K_TKFX) data' = Ok o' /\ o <> o'.
Proof.
  eexists. eexists. eexists. split; [vm_compute; reflexivity|]. split.
  { eexists. eexists. split; [vm_compute; reflexivity|].
    split; [vm_compute; split; congruence|]. split; [vm_compute; split; congruence|].
    vm_compute; reflexivity. }
  split; [vm_compute; reflexivity|]. split; [vm_compute; reflexivity|].
  intros E. apply (f_equal (fun o => match o with
    | Obj K_TKFX v => map trak_lock_number (trkg_tracks (tkfx_group v)) | _ => [] end)) in E.
  vm_compute in E. discriminate E.
Qed.
Print Assumptions C57_locks_refuted.

(** ** C58 *)

(** A file is opened and the document saved, in either byte order, over any order of walking. If the
    objects of the document keep the conditions and the save completes, the new file opens and
    holds the same objects, each once, renumbered; the root it shows is the one the old file
    shows. *)
Theorem C58_resaves : forall lim z bo file t c self kids o,
  Forall is_byte file -> open_file file = Ok (t, c) -> follows kids ->
  let d := opened_doc z t self kids in
  (forall n ob, in_doc d n -> read_object t n = Ok (Some ob) -> obj_keeps ob) ->
  save lim z bo d = (o, None) ->
  exists order t', open_file (run_ops o) = Ok (t', option_map (obj_map (number order)) c) /\
    hd_bo (of_head t') = bo /\ NoDup order /\ (forall n, In n order <-> in_doc d n) /\
    forall n, in_doc d n -> exists ob, read_object t n = Ok (Some ob) /\
      read_object t' (number order n) = Ok (Some (obj_map (number order) ob)) /\
      (obj_whole ob -> obj_map (numbered order) (obj_map (number order) ob) = ob).
Proof.
  intros lim z bo file t c self kids o Hf Of Fo d K H.
  unfold open_file in Of. destruct (open_table file) as [t1|e] eqn:T; [|discriminate].
  destruct (read_object t1 _) as [c1|e] eqn:Rc; [|discriminate]. injection Of as -> ->.
  destruct (open_table_got file t Hf T) as (Ef & _).
  assert (Forall is_byte (of_file t)) as Hf' by now rewrite Ef.
  pose proof (opened_walks z t self kids Fo) as W. pose proof (opened_ids z t self kids) as Id.
  pose proof (opened_ok z t self kids Hf' K) as A. fold d in W, Id, A.
  destruct (C25_reopens lim z bo d o W Id A H) as (order & t' & T' & B & ND & Io & R & C0 & C1).
  exists order, t'. split.
  { destruct (Z.eq_dec (dc_content d) 0) as [E0|N0].
    - rewrite (C0 E0). cbn [d opened_doc dc_content] in E0. unfold read_object in Rc. rewrite E0 in Rc.
      injection Rc as <-. reflexivity.
    - destruct (C1 N0) as (nd & En & ->). apply load_inv in En as (ob & Rn & ->).
      cbn [d opened_doc dc_content] in Rn. rewrite Rn in Rc. injection Rc as <-. reflexivity. }
  split; [exact B|]. split; [exact ND|]. split; [exact Io|]. intros n Hn.
  assert (exists nd, dc_heap d n = Ok nd) as [nd En].
  { apply Io in Hn. destruct (completed_node lim z bo d o W Id H n) as [nd E]; [now apply Io|eauto]. }
  pose proof En as En'. apply load_inv in En' as (ob & Rn & ->). exists ob. split; [exact Rn|].
  specialize (R n _ Hn En). cbn [nd_obj] in R. split; [exact R|]. intros Wh.
  specialize (A n _ Hn En). cbn [nd_obj] in A.
  rewrite map_map_obj. rewrite <- (map_id_obj ob) at 2; [|exact (proj1 A)|exact Wh].
  apply map_ext_obj. intros r Hr. destruct (Z.eq_dec r 0) as [->|N].
  - rewrite number_none; [reflexivity|]. intros G. apply Io in G. now apply in_doc_not0 in G.
  - apply numbered_number. apply Io. apply (in_doc_step d n r Hn). eexists. split; [exact En|]. auto.
Qed.
Print Assumptions C58_resaves.

(** A save of an opened document completes if its objects can be read, keep the conditions, do not
    refer to each other in a circle and have chunks of less than 4 GiB: nothing is asked of the
    header but that its time stamp is not one of an hour the local clock shows twice. *)
Theorem C58_completes : forall lim z bo file t self kids,
  Forall is_byte file -> open_table file = Ok t -> follows kids ->
  mktime_right z -> unambiguous z (of_stamp t) ->
  let d := opened_doc z t self kids in
  acyclic d ->
  (forall n, in_doc d n -> exists ob, read_object t n = Ok (Some ob) /\ obj_keeps ob /\
     forall data, wbody (all_numbered bo) ob = Ok data -> len data < 2 ^ 32) ->
  (Z.to_nat (hd_count (of_head t)) <= lim)%nat ->
  exists o, save lim z bo d = (o, None).
Proof.
  intros lim z bo file t self kids Hf T Fo M U d A K Hl.
  destruct (open_table_got file t Hf T) as (Ef & _).
  apply (C25_completes lim z bo d (map Z.of_nat (seq 1 (Z.to_nat (hd_count (of_head t)))))).
  - now apply opened_walks.
  - apply opened_ids.
  - apply opened_ok; [now rewrite Ef|]. intros n ob Hn R. destruct (K n Hn) as (ob' & R' & Ko & _).
    rewrite R' in R. injection R as <-. exact Ko.
  - exact A.
  - now apply (opened_saveable file).
  - now apply (opened_header file).
  - now rewrite map_length, seq_length.
Qed.
Print Assumptions C58_completes.

(** The small document of SampleDocs.v is saved little endian, opened, and saved big endian: all
    conditions are met, and the second file shows the sequence of objects 3, 4 and 3 again. *)
Example C58_case : exists t c, Forall is_byte small_file /\ open_file small_file = Ok (t, Some c) /\
  follows in_order_kids /\ mktime_right cet /\ unambiguous cet (of_stamp t) /\
  acyclic (opened_doc cet t 8 in_order_kids) /\ in_doc (opened_doc cet t 8 in_order_kids) 3 /\
  (forall n, in_doc (opened_doc cet t 8 in_order_kids) n -> exists ob, read_object t n = Ok (Some ob) /\ obj_keeps ob /\
     forall data, wbody (all_numbered BE) ob = Ok data -> len data < 2 ^ 32) /\
  exists o t' s, save 5 cet BE (opened_doc cet t 8 in_order_kids) = (o, None) /\
    open_file (run_ops o) = Ok (t', Some (Obj K_SEQU s)) /\ hd_bo (of_head t') = BE /\ sequ_components s = [3; 4; 3].
Proof.
  assert (Forall is_byte small_file) as Hf.
  { apply Forall_forall. intros x Hx. assert (forallb (fun x => (0 <=? x) && (x <? 256)) small_file = true) as G
      by (vm_compute; reflexivity). rewrite forallb_forall in G. specialize (G x Hx).
    apply andb_true_iff in G as [G1 G2]. unfold is_byte. lia. }
  destruct (open_file small_file) as [[t c]|e] eqn:O; [|vm_compute in O; discriminate O].
  assert (open_table small_file = Ok t) as T.
  { unfold open_file in O. destruct (open_table small_file) as [t1|e]; [|discriminate].
    destruct (read_object t1 _); [|discriminate]. injection O as -> _. reflexivity. }
  vm_compute in O. injection O as Et Ec. exists t. subst c. eexists. split; [exact Hf|].
  split; [reflexivity|]. split; [intros n ob b; apply in_nonzero|].
  split; [intros u; unfold from_timestamp, to_timestamp; cbn; lia|].
  split; [intros u; unfold from_timestamp; cbn; lia|].
  assert (Forall (fun n => exists ob, read_object t n = Ok (Some ob) /\ obj_keeps ob /\
    Forall (fun r => r < n) (obj_refs ob) /\
    forall data, wbody (all_numbered BE) ob = Ok data -> len data < 2 ^ 32) [1; 2; 3; 4; 5]) as R.
  { subst t. repeat apply Forall_cons; try apply Forall_nil;
      (eexists; split; [vm_compute; reflexivity|]; split;
       [|split; [vm_compute; repeat constructor|intros data E; vm_compute in E; injection E as <-; reflexivity]]).
    - exact I.
    - exact I.
    - eexists. eexists. split; [vm_compute; reflexivity|]. repeat split; vm_compute; congruence.
    - split; [|vm_compute; discriminate].
      eexists. eexists. split; [vm_compute; reflexivity|]. repeat split; vm_compute; congruence.
    - eexists. eexists. split; [vm_compute; reflexivity|]. repeat split; vm_compute; congruence. }
  assert (hd_count (of_head t) = 5) as C5 by (subst t; reflexivity).
  assert (hd_root (of_head t) = 5) as R5 by (subst t; reflexivity).
  assert (forall n, in_doc (opened_doc cet t 8 in_order_kids) n -> In n [1; 2; 3; 4; 5]) as Rn.
  { intros n Hn. assert (1 <= n <= 5) as Hr.
    { rewrite <- C5. apply (opened_range small_file cet t 8 in_order_kids n Hf T Hn). rewrite R5.
      do 4 apply Forall_inv_tail in R. apply Forall_inv in R as (ob & -> & _). discriminate. }
    cbn [In]. lia. }
  rewrite Forall_forall in R. split.
  { apply opened_descends. intros n o r Hn Ro Hr. destruct (R n (Rn n Hn)) as (ob & E & _ & F & _).
    rewrite E in Ro. injection Ro as <-. rewrite Forall_forall in F. now apply F. }
  split.
  { split; [cbn [opened_doc dc_content]; lia|]. apply reach_step with 5; [cbn [opened_doc dc_content]; rewrite R5; constructor|].
    subst t. eexists. split; [vm_compute; reflexivity|]. split; [vm_compute; tauto|discriminate]. }
  split.
  { intros n Hn. destruct (R n (Rn n Hn)) as (ob & E & Ko & _ & S). eauto. }
  clear - Et. subst t. eexists. eexists. eexists. split; [vm_compute; reflexivity|].
  split; [vm_compute; reflexivity|]. split; reflexivity.
Qed.
