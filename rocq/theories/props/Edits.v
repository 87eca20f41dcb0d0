(** C60: what is edited is what is saved. A program opens a file or makes a document, follows
    references, makes objects, assigns to them, changes some in place, sets the content and lets
    objects go, in any order and number; EditSpec.v says what it means to have then, as if every
    object stayed in memory. [careful] asks that an object is changed in place only after the program
    made it or assigned to it. *)
From Coq Require Import ZArith List Bool Lia.
From Verif Require Import Base IoCtx RoundTrip Text Dates Attributes Components Objects ObjSpec ObjProofs ObjTheory FileModel FileSpec
  Storable Fits Saved SavedProofs Samples SaveProofs Opened SampleDocs ResaveSpec ResaveTheory ResaveSamples MoveProofs Edited EditSpec EditProofs EditSamples.
From Verif.props Require Import Saves.
Import ListNotations.
Open Scope Z_scope.

(** Whatever was done to an opened document and whatever was let go on the way: getting hold of an
    object gives the contents it is meant to have. *)
Theorem C60_kept : forall t h i, careful (mean_opened t) h ->
  snd (fetch (fold_left edit_step h (edit_opened t)) i) = mt_objects (fold_left mean_step h (mean_opened t)) i.
Proof. intros t h i C. apply ag_objects. apply edits_agree; [apply opened_agrees|exact C]. Qed.
Print Assumptions C60_kept.

(** The same for a document that was not opened from a file. *)
Theorem C60_kept_new : forall h i, careful mean_new h ->
  snd (fetch (fold_left edit_step h edit_new) i) = mt_objects (fold_left mean_step h mean_new) i.
Proof. intros h i C. apply ag_objects. apply edits_agree; [apply new_agrees|exact C]. Qed.
Print Assumptions C60_kept_new.

(** An object no edit was aimed at is as the file has it. *)
Theorem C60_untouched : forall t h i o, careful (mean_opened t) h -> leaves (mean_opened t) h i ->
  read_object t i = Ok (Some o) -> snd (fetch (fold_left edit_step h (edit_opened t)) i) = Ok o.
Proof.
  intros t h i o C L R. rewrite C60_kept by exact C. rewrite meant_left by exact L.
  cbn [mean_opened mt_objects]. now rewrite R.
Qed.
Print Assumptions C60_untouched.

(** Following references and letting objects go, at whatever moment, changes nothing that a save
    does: neither the file nor whether the save ends in an exception. *)
Theorem C60_looking : forall t h lim z bo self kids version saved, careful (mean_opened t) h ->
  save lim z bo (edit_doc (fold_left edit_step h (edit_opened t)) self kids version saved) =
  save lim z bo (edit_doc (fold_left edit_step (filter acts h) (edit_opened t)) self kids version saved).
Proof.
  intros t h lim z bo self kids version saved C.
  rewrite (agrees_save _ (fold_left mean_step h (mean_opened t))) by (apply edits_agree; [apply opened_agrees|exact C]).
  rewrite <- acts_mean. symmetry. apply agrees_save. apply edits_agree; [apply opened_agrees|now apply acts_careful].
Qed.
Print Assumptions C60_looking.

(** A file is opened, edited and saved, and the result opened: it holds the objects that can be
    reached from the content meant, each once and with the contents meant, references renumbered.
    The contents that were assigned must be ones that can be stored, those that were only read must
    keep the conditions of C58. *)
Theorem C60_saves : forall file t h lim z bo self kids version saved o,
  Forall is_byte file -> open_table file = Ok t -> follows kids ->
  let w := fold_left mean_step h (mean_opened t) in
  let d := meant_doc w self kids version saved in
  careful (mean_opened t) h -> Forall (fun e => forall ob, brings e ob -> obj_ok ob) h ->
  (forall n ob, in_doc d n -> read_object t n = Ok (Some ob) -> mt_objects w n = Ok ob -> obj_keeps ob) ->
  save lim z bo (edit_doc (fold_left edit_step h (edit_opened t)) self kids version saved) = (o, None) ->
  exists order t', open_table (run_ops o) = Ok t' /\ hd_bo (of_head t') = bo /\
    NoDup order /\ (forall a, In a order <-> in_doc d a) /\
    (forall a, In a order -> exists ob, mt_objects w a = Ok ob /\
       read_object t' (number order a) = Ok (Some (obj_map (number order) ob))) /\
    (mt_content w = 0 -> open_file (run_ops o) = Ok (t', None)) /\
    (mt_content w <> 0 -> exists ob, mt_objects w (mt_content w) = Ok ob /\
       open_file (run_ops o) = Ok (t', Some (obj_map (number order) ob))).
Proof.
  intros file t h lim z bo self kids version saved o Hf T Fo w d C B K H.
  rewrite (agrees_save _ w) in H by (apply edits_agree; [apply opened_agrees|exact C]). fold d in H.
  assert (walks_refs d) as W by now apply meant_walks.
  assert (ids_distinct d) as I by apply meant_ids.
  assert (all_ok d) as A.
  { intros a nd Ha E. apply meant_node in E as (ob & M & ->). cbn [nd_obj].
    destruct (meant_from h (mean_opened t) a ob M) as [M0|M0].
    - cbn [mean_opened mt_objects] in M0. destruct (read_object t a) as [[ob'|]|e] eqn:R; try discriminate.
      injection M0 as ->. destruct (open_table_got file t Hf T) as (Ef & _). rewrite <- Ef in Hf.
      destruct (read_object_inv t a ob Hf R) as (cc & data & Hd & Hr).
      now apply (read_again _ cc data ob Hd Hr), (K a ob).
    - apply Exists_exists in M0 as (e & He & Hb). rewrite Forall_forall in B. exact (B e He ob Hb). }
  destruct (C25_reopens lim z bo d o W I A H) as (order & t' & T' & Bo & ND & Io & R & C0 & C1).
  exists order, t'. split; [exact T'|]. split; [exact Bo|]. split; [exact ND|]. split; [exact Io|]. split; [|split].
  - intros a Ha. apply Io in Ha. destruct (completed_node lim z bo d o W I H a Ha) as [nd En].
    pose proof (R a nd Ha En) as Rn. apply meant_node in En as (ob & M & ->). exists ob. split; [exact M|exact Rn].
  - exact C0.
  - intros N0. destruct (C1 N0) as (nd & En & On). apply meant_node in En as (ob & M & ->). eauto.
Qed.
Print Assumptions C60_saves.

(** The session of EditSamples.v on the small file: the conditions are met; the save ends well, and
    the new file shows the clip with the new length and with the attributes that were made, which
    refer to the changed ones. *)
Example C60_case : exists t, open_table small_file = Ok t /\ Forall is_byte small_file /\ follows in_order_kids /\
  careful (mean_opened t) session /\ Forall (fun e => forall ob, brings e ob -> obj_ok ob) session /\
  leaves (mean_opened t) session 3 /\
  (let w := fold_left mean_step session (mean_opened t) in
   (forall n ob, in_doc (meant_doc w 8 in_order_kids [50] 981173106) n -> read_object t n = Ok (Some ob) ->
      mt_objects w n = Ok ob -> obj_keeps ob) /\
   in_doc (meant_doc w 8 in_order_kids [50] 981173106) 7 /\ mt_objects w 4 = Ok (other_clip 7 60)) /\
  exists o t' s, save 5 cet BE (edit_doc (fold_left edit_step session (edit_opened t)) 8 in_order_kids [50] 981173106) = (o, None) /\
    open_file (run_ops o) = Ok (t', Some (Obj K_SEQU s)) /\ sequ_components s = [3; 5; 3] /\
    read_object t' 5 = Ok (Some (other_clip 4 60)) /\ read_object t' 4 = Ok (Some (Obj K_ATTR [([77], ARef 1)])) /\
    read_object t' 1 = Ok (Some (Obj K_ATTR [([78], AInt 4)])).
Proof.
  destruct (open_table small_file) as [t|e] eqn:T; [|vm_compute in T; discriminate T].
  exists t. split; [reflexivity|]. split.
  { apply Forall_forall. intros x Hx. assert (forallb (fun x => (0 <=? x) && (x <? 256)) small_file = true) as G
      by (vm_compute; reflexivity). rewrite forallb_forall in G. specialize (G x Hx).
    apply andb_true_iff in G as [G1 G2]. unfold is_byte. lia. }
  split; [intros n ob b; apply in_nonzero|].
  assert (exists o1 o2 o3 o5, (read_object t 1 = Ok (Some o1) /\ read_object t 2 = Ok (Some o2) /\ read_object t 3 = Ok (Some o3) /\
    read_object t 4 = Ok (Some (other_clip 2 50)) /\ read_object t 5 = Ok (Some o5)) /\ okind o1 = K_ATTR /\
    obj_keeps o2 /\ obj_keeps o3 /\ obj_keeps o5 /\ obj_refs o2 = [1] /\ obj_refs o3 = [0; 0; 0; 0; 0] /\
    obj_refs o5 = [0; 0; 2; 0; 0; 3; 4; 3] /\ hd_count (of_head t) = 5 /\ hd_root (of_head t) = 5)
    as (o1 & o2 & o3 & o5 & (R1 & R2 & R3 & R4 & R5) & K1 & K2 & K3 & K5 & F2 & F3 & F5 & Hc & Hr).
  { clear - T. vm_compute in T. injection T as <-. eexists. eexists. eexists. eexists.
    split; [split; [vm_compute; reflexivity|]; split; [vm_compute; reflexivity|]; split; [vm_compute; reflexivity|];
            split; vm_compute; reflexivity|].
    split; [reflexivity|]. split; [exact I|]. split.
    { eexists. eexists. split; [vm_compute; reflexivity|]. repeat split; vm_compute; congruence. }
    split.
    { eexists. eexists. split; [vm_compute; reflexivity|]. repeat split; vm_compute; congruence. }
    repeat split. }
  pose (w0 := mean_opened t). pose (w1 := now_is w0 1 new_number True).
  pose (w2 := mean_step w1 (Make new_attributes)).
  pose (w3 := now_is w2 4 (other_clip 7 50) True). pose (w4 := now_is w3 4 (other_clip 7 60) False).
  assert (mean_step w0 (Assign 1 new_number) = w1) as S1.
  { cbn [mean_step]. unfold suits. cbn [w0 mean_opened mt_objects]. rewrite R1, K1. reflexivity. }
  assert (mt_next w0 + 1 = 7) as N7 by (cbn [w0 mean_opened mt_next]; rewrite Hc; reflexivity).
  assert (mt_objects w2 4 = Ok (other_clip 2 50)) as M2.
  { change (mt_objects w2 4) with (if Z.eq_dec 4 (mt_next w0 + 1) then Ok new_attributes else mt_objects w0 4).
    rewrite N7. cbn [w0 mean_opened mt_objects]. rewrite R4. reflexivity. }
  assert (mean_step w2 (Assign 4 (other_clip 7 50)) = w3) as S3.
  { cbn [mean_step]. unfold suits. rewrite M2. reflexivity. }
  assert (mean_step w3 (InPlace 4 (other_clip 7 60)) = w4) as S4 by reflexivity.
  split.
  { unfold session. cbn [careful]. fold w0. change (mean_step w0 (Follow 4)) with w0. rewrite S1.
    change (mean_step w1 (Collect 1)) with w1. change (mean_step w1 (Make new_attributes)) with w2. rewrite S3.
    repeat (split; [exact I|]). split; [|repeat (split; [exact I|]); exact I]. right. split; [reflexivity|exact I]. }
  split.
  { pose proof session_ok as O. apply Forall_inv in O as O1; apply Forall_inv_tail in O.
    apply Forall_inv in O as O2; apply Forall_inv_tail in O. apply Forall_inv in O as O3; apply Forall_inv_tail in O.
    apply Forall_inv in O as O4. clear O.
    unfold session. repeat (apply Forall_cons; [intros ob Hb; cbn [brings] in Hb; try destruct Hb; assumption|]). apply Forall_nil. }
  split.
  { clear T. unfold session. cbn [leaves]. fold w0. change (mean_step w0 (Follow 4)) with w0. rewrite S1.
    change (mean_step w1 (Collect 1)) with w1. change (mean_step w1 (Make new_attributes)) with w2. rewrite S3, S4.
    cbn [touches mean_step]. repeat split; try discriminate; try tauto.
    change (mt_next w1) with (mt_next w0). rewrite N7. discriminate. }
  assert (fold_left mean_step session (mean_opened t) = w4) as W.
  { unfold session. cbn [fold_left]. fold w0. change (mean_step w0 (Follow 4)) with w0. rewrite S1.
    change (mean_step w1 (Collect 1)) with w1. change (mean_step w1 (Make new_attributes)) with w2. now rewrite S3, S4. }
  assert (forall n, mt_objects w4 n = if Z.eq_dec n 4 then Ok (other_clip 7 60) else if Z.eq_dec n 7 then Ok new_attributes
    else if Z.eq_dec n 1 then Ok new_number else mt_objects w0 n) as M.
  { intros n. change (mt_objects w4 n) with (if Z.eq_dec n 4 then Ok (other_clip 7 60) else
      if Z.eq_dec n 4 then Ok (other_clip 7 50) else if Z.eq_dec n (mt_next w0 + 1) then Ok new_attributes else
      if Z.eq_dec n 1 then Ok new_number else mt_objects w0 n). rewrite N7. now destruct (Z.eq_dec n 4). }
  split.
  { clear T. rewrite W. clear W. cbv zeta.
    assert (Forall (fun n => exists ob, mt_objects w4 n = Ok ob /\ Forall (fun r => In r [0; 1; 2; 3; 4; 5; 7]) (obj_refs ob) /\
      (read_object t n = Ok (Some ob) -> obj_keeps ob)) [1; 2; 3; 4; 5; 7]) as R.
    { repeat apply Forall_cons; try apply Forall_nil; rewrite M; cbn [Z.eq_dec w0 mean_opened mt_objects].
      - exists new_number. split; [reflexivity|]. split; [apply Forall_nil|exact (fun _ => I)].
      - exists o2. rewrite R2, F2. split; [reflexivity|]. split; [|auto]. apply Forall_forall. intros r Hi. clear - Hi. cbn [In] in *. lia.
      - exists o3. rewrite R3, F3. split; [reflexivity|]. split; [|auto]. apply Forall_forall. intros r Hi. clear - Hi. cbn [In] in *. lia.
      - exists (other_clip 7 60). split; [reflexivity|]. rewrite R4. split.
        2: intros F; apply (f_equal (fun r => match r with Ok (Some o) => obj_refs o | _ => [] end)) in F;
           vm_compute in F; discriminate F.
        change (obj_refs (other_clip 7 60)) with [0; 0; 7; 0; 0]. apply Forall_forall. intros r Hi. clear - Hi. cbn [In] in *. lia.
      - exists o5. rewrite R5, F5. split; [reflexivity|]. split; [|auto]. apply Forall_forall. intros r Hi. clear - Hi. cbn [In] in *. lia.
      - exists new_attributes. split; [reflexivity|]. split; [|exact (fun _ => I)].
        change (obj_refs new_attributes) with [1]. apply Forall_forall. intros r Hi. clear - Hi. cbn [In] in *. lia. }
    assert (mt_content w4 = 5) as C5 by exact Hr.
    rewrite Forall_forall in R.
    assert (forall n, in_doc (meant_doc w4 8 in_order_kids [50] 981173106) n -> In n [1; 2; 3; 4; 5; 7]) as Rn.
    { intros n [_ Re]. cbn [meant_doc dc_content] in Re. rewrite C5 in Re.
      induction Re as [|x y Re IH (nd & E & Hy & Ny)]; [clear; cbn [In]; tauto|].
      apply meant_node in E as (ob & Mo & ->). cbn [nd_obj] in Hy.
      destruct (R x IH) as (ob' & M' & F & _). rewrite Mo in M'. injection M' as <-.
      rewrite Forall_forall in F. specialize (F y Hy). clear - F Ny. cbn [In] in *. lia. }
    split; [|split].
    - intros n ob Hn Rd Mo. destruct (R n (Rn n Hn)) as (ob' & M' & _ & K). rewrite Mo in M'. injection M' as <-. auto.
    - split; [cbn [meant_doc dc_content]; rewrite C5; discriminate|]. apply reach_step with 4.
      + apply reach_step with 5; [cbn [meant_doc dc_content]; rewrite C5; constructor|].
        eexists. cbn [meant_doc dc_heap]. rewrite M. cbn [Z.eq_dec w0 mean_opened mt_objects]. rewrite R5.
        split; [reflexivity|]. cbn [nd_obj]. rewrite F5. split; [clear; cbn [In]; tauto|discriminate].
      + eexists. cbn [meant_doc dc_heap]. rewrite M. split; [reflexivity|]. cbn [nd_obj].
        change (obj_refs (other_clip 7 60)) with [0; 0; 7; 0; 0]. split; [clear; cbn [In]; tauto|discriminate].
    - rewrite M. reflexivity. }
  clear - T. vm_compute in T. injection T as <-.
  eexists. eexists. eexists. split; [vm_compute; reflexivity|]. split; [vm_compute; reflexivity|].
  split; [reflexivity|]. split; [vm_compute; reflexivity|]. split; vm_compute; reflexivity.
Qed.

(** Without the condition it is false: the clip is got hold of, its length changed in place and the
    clip let go; the file that is saved has the old length. *)
Theorem C60_unnoticed_refuted : exists t, open_table small_file = Ok t /\
  mt_objects (fold_left mean_step unnoticed (mean_opened t)) 4 = Ok (other_clip 2 60) /\
  snd (fetch (fold_left edit_step unnoticed (edit_opened t)) 4) = Ok (other_clip 2 50) /\
  exists o t', save 5 cet LE (edit_doc (fold_left edit_step unnoticed (edit_opened t)) 8 in_order_kids [50] 981173106) = (o, None) /\
    open_table (run_ops o) = Ok t' /\ read_object t' 4 = Ok (Some (other_clip 2 50)).
Proof.
  eexists. split; [vm_compute; reflexivity|]. split; [vm_compute; reflexivity|]. split; [vm_compute; reflexivity|].
  eexists. eexists. split; [vm_compute; reflexivity|]. split; [vm_compute; reflexivity|vm_compute; reflexivity].
Qed.
Print Assumptions C60_unnoticed_refuted.
