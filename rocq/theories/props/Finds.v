(** C61, C62: finding things. [clip_mob], [clip_track], [selector_components], [iter_class_ids] and
    [chunk_hex] are the functions of the model; LookupSpec.v says what they are to find. *)
From Coq Require Import ZArith String List Bool Lia.
From Verif Require Import Base IoCtx RoundTrip Text MobId Attributes Components TrackGroups BinModel Dates Objects ObjSpec ObjProofs ObjTheory
  FileModel FileSpec Storable Fits Saved SavedProofs Samples SaveProofs TableProofs LocProofs GotProofs GotClasses Opened SampleDocs ResaveSpec ResaveTheory ResaveSamples
  Names Lookups LookupSpec LookupProofs LookupSamples.
From Verif.props Require Import Saves.
Import ListNotations.
Open Scope Z_scope.

(** In a bin whose items are all compositions with an id: a clip that names a mob gets the last item
    with this id, None if there is none. *)
Theorem C61_mob : forall get content items s id, is_bin content items ->
  Forall (fun it => exists i, has_mob_id get (item_mob it) i) items -> sclp_mob_id s = Some id ->
  exists r, clip_mob get content s = Ok r /\ last_at (fun it => has_mob_id get (item_mob it) id) item_mob items r.
Proof.
  intros get content items s id B F E. unfold clip_mob. rewrite E. apply is_bin_items in B as ->.
  destruct (find_mob_ok get id items None F) as (r & Er & M). exists r. split; [exact Er|].
  destruct r as [a|]; cbn [last_at].
  - destruct M as [M|[M _]]; [exact M|discriminate].
  - apply M.
Qed.
Print Assumptions C61_mob.

(** A clip that names no mob has none, and no track, whatever the document holds. *)
Theorem C61_none : forall get content s, sclp_mob_id s = None ->
  clip_mob get content s = Ok None /\ clip_track get content s = Ok None.
Proof. intros get content s E. unfold clip_track, clip_mob. rewrite E. split; reflexivity. Qed.
Print Assumptions C61_none.

Example C61_none_case : sclp_mob_id (clip_of 1 1 None) = None /\ clip_track (in_memory lookup_doc) None (clip_of 1 1 None) = Ok None.
Proof. split; reflexivity. Qed.

(** The track of a clip with a mob is the first track of that composition with the clip's track number and a component of
    the clip's media kind, None if there is none. *)
Theorem C61_track : forall get content s a c, clip_mob get content s = Ok (Some a) -> get a = Ok (Obj K_CMPO c) ->
  tracks_whole get (trkg_tracks (cmpo_group c)) ->
  exists r, clip_track get content s = Ok (option_map (pair a) r) /\ first_with (shows get s) (trkg_tracks (cmpo_group c)) r.
Proof.
  intros get content s a c M G W. unfold clip_track. rewrite M, G. cbn [mob_tracks].
  destruct (find_track_ok get s _ 0 W) as (r & E & H). exists r. split; [|exact H].
  rewrite E. destruct r as [k|]; reflexivity.
Qed.
Print Assumptions C61_track.

(** The media kind that counts: an object of a class that derives from [Component] has the kind whose
    number stands in its chunk after the marks and two references, other objects have none. *)
Theorem C61_kind : forall o,
  (In (class_id (okind o)) component_codes -> object_kind o = media_kind (kind_number o) /\
     forall c b, wbody c o = Ok b -> exists q, rs16 (obo c) (skipn 10 b) = Ok (kind_number o, q)) /\
  (~ In (class_id (okind o)) component_codes -> object_kind o = None).
Proof.
  intros o. split; intros H; rewrite component_code in H.
  - split; [apply object_kind_number|]. intros c b W. unfold kind_number.
    destruct (component_in (okind o) (oval o)) as [k|] eqn:E; [|contradiction]. exact (kind_stored o k c b E W).
  - unfold object_kind. destruct (component_in (okind o) (oval o)); [|reflexivity]. exfalso. apply H. discriminate.
Qed.
Print Assumptions C61_kind.

(** The composition of Samples.v: written, its kind is at byte 10. *)
Example C61_kind_case : In (class_id K_CMPO) component_codes /\
  exists b q, wbody (sample_out BE) (Obj K_CMPO sample_composition) = Ok b /\ rs16 BE (skipn 10 b) = Ok (kind_number (Obj K_CMPO sample_composition), q) /\
    kind_number (Obj K_CMPO sample_composition) = 23.
Proof.
  split; [vm_compute; tauto|]. destruct (wbody (sample_out BE) (Obj K_CMPO sample_composition)) as [b|e] eqn:E; [|vm_compute in E; discriminate E].
  destruct (proj2 (proj1 (C61_kind (Obj K_CMPO sample_composition)) ltac:(vm_compute; tauto)) _ _ E) as [q Q].
  exists b, q. split; [reflexivity|]. split; [exact Q|reflexivity].
Qed.

(** A document is saved and the file opened: every clip of the file finds the mob and the track it
    found in memory, by their new numbers, or fails as it failed in memory. *)
Theorem C61_saved : forall lim z bo d o, walks_refs d -> ids_distinct d -> all_ok d -> save lim z bo d = (o, None) ->
  dc_content d <> 0 ->
  exists order t root root', open_file (run_ops o) = Ok (t, Some root') /\ in_memory d (dc_content d) = Ok root /\
    NoDup order /\ (forall a, In a order <-> in_doc d a) /\
    forall a s, in_doc d a -> in_memory d a = Ok (Obj K_SCLP s) ->
      exists s', read_object t (number order a) = Ok (Some (Obj K_SCLP s')) /\
        clip_mob (in_file t) (Some root') s' =
          match clip_mob (in_memory d) (Some root) s with Ok r => Ok (option_map (number order) r) | Err e => Err e end /\
        clip_track (in_file t) (Some root') s' =
          match clip_track (in_memory d) (Some root) s with
          | Ok r => Ok (option_map (fun p => (number order (fst p), snd p)) r) | Err e => Err e end.
Proof.
  intros lim z bo d o W I A H N0. destruct (C25_reopens lim z bo d o W I A H) as (order & t & T & _ & ND & Io & R & _ & C1).
  destruct (C1 N0) as (rd & Er & Op). exists order, t, (nd_obj rd), (obj_map (number order) (nd_obj rd)).
  split; [exact Op|]. split; [unfold in_memory; now rewrite Er|]. split; [exact ND|]. split; [exact Io|].
  intros a s Ha Ms. unfold in_memory in Ms. destruct (dc_heap d a) as [nd|e] eqn:Ea; [|discriminate].
  injection Ms as Es. pose proof (R a nd Ha Ea) as Rs. rewrite Es in Rs.
  exists (source_clip_map (number order) s). split; [exact Rs|].
  set (P := fun x => x = 0 \/ in_doc d x).
  assert (forall x, P x -> x <> 0 -> exists ob, in_memory d x = Ok ob /\ in_file t (number order x) = Ok (obj_map (number order) ob)) as Mv.
  { intros x [->|Hx] N; [contradiction|]. destruct (completed_node lim z bo d o W I H x Hx) as [n En].
    exists (nd_obj n). unfold in_memory, in_file. rewrite En, (R x n Hx En). split; reflexivity. }
  assert (forall x, P x -> (number order x = 0 <-> x = 0)) as Zr.
  { intros x [->|Hx]; split; intros E.
    - reflexivity.
    - apply number_none. intros G. apply Io in G. now apply in_doc_not0 in G.
    - exfalso. apply (proj2 (number_in order x)); [now apply Io|exact E].
    - subst x. now apply in_doc_not0 in Hx. }
  assert (forall x n r, in_doc d x -> dc_heap d x = Ok n -> In r (obj_refs (nd_obj n)) -> P r) as Rf.
  { intros x n r Hx En Hr. destruct (Z.eq_dec r 0) as [->|N]; [now left|]. right. apply (in_doc_step d x r Hx).
    exists n. split; [exact En|]. split; [exact Hr|exact N]. }
  assert (in_doc d (dc_content d)) as Dc by (split; [exact N0|constructor]).
  assert (forall items, bin_items (Some (nd_obj rd)) = Ok items -> Forall (fun it => P (item_mob it)) items) as Hi.
  { intros items Hb. apply Forall_forall. intros it Hit. apply (Rf _ _ _ Dc Er).
    assert (forall b, abin_items b = items -> In (item_mob it) (bin_refs b)) as Hr.
    { intros b <-. unfold bin_refs. apply in_or_app. right. apply in_or_app. left. apply in_flat_map. exists it. split; [exact Hit|now left]. }
    destruct (nd_obj rd) as [k v]. destruct k; try discriminate; injection Hb as Hb; exact (Hr _ Hb). }
  assert (forall x c tr r, P x -> x <> 0 -> in_memory d x = Ok (Obj K_CMPO c) -> In tr (trkg_tracks (cmpo_group c)) -> trak_component tr = Some r -> P r) as Ht.
  { intros x c tr r Px Nx Mx Htr Hr. unfold in_memory in Mx. destruct (dc_heap d x) as [n|e] eqn:En; [|discriminate]. injection Mx as Mx.
    destruct Px as [F|Hx]; [contradiction|]. apply (Rf x n r Hx En). rewrite Mx.
      change (obj_refs (Obj K_CMPO c)) with (composition_refs c). unfold composition_refs, track_group_refs.
      apply in_or_app. left. apply in_or_app. right. apply in_flat_map. exists tr. split; [exact Htr|].
      unfold track_refs. rewrite Hr. apply in_or_app. right. apply in_or_app. right. apply in_or_app. left. now left. }
  split.
  - exact (moved_mob (in_memory d) (in_file t) (number order) P Mv Zr (Some (nd_obj rd)) s Hi).
  - exact (moved_clip_track (in_memory d) (in_file t) (number order) P Mv Zr (Some (nd_obj rd)) s Hi Ht).
Qed.
Print Assumptions C61_saved.

(** The bin of LookupSamples.v: clip 3 finds composition 21, the last one with its id, and in it the
    third track, since the first is of sound and the second has another number. Saved big endian
    and opened, with objects numbered anew, it finds the same. *)
Example C61_case : walks_refs lookup_doc /\ ids_distinct lookup_doc /\ all_ok lookup_doc /\ in_doc lookup_doc 3 /\
  (let get := in_memory lookup_doc in
   let s := clip_of 1 1 (Some id_b) in
   get 3 = Ok (Obj K_SCLP s) /\ is_bin (Some (bin_of [20; 21; 10])) (map item_of [20; 21; 10]) /\
   Forall (fun it => exists i, has_mob_id get (item_mob it) i) (map item_of [20; 21; 10]) /\
   clip_mob get (Some (bin_of [20; 21; 10])) s = Ok (Some 21) /\
   (exists c, get 21 = Ok (Obj K_CMPO c) /\ length (trkg_tracks (cmpo_group c)) = 3%nat /\ tracks_whole get (trkg_tracks (cmpo_group c))) /\
   clip_track get (Some (bin_of [20; 21; 10])) s = Ok (Some (21, 2%nat))) /\
  exists o t root s, save 7 cet BE lookup_doc = (o, None) /\ open_file (run_ops o) = Ok (t, Some root) /\
    read_object t 5 = Ok (Some (Obj K_SCLP s)) /\ clip_track (in_file t) (Some root) s = Ok (Some (4, 2%nat)).
Proof.
  assert (In 50 (map fst lookup_mem)) as Hr by (vm_compute; tauto).
  split; [exact (listed_walks lookup_mem 50)|]. split; [exact (listed_ids lookup_mem 50)|].
  split; [exact (listed_ok lookup_mem 50 lookup_mem_ok)|]. split.
  { assert (in_doc lookup_doc 50) as D50 by (split; [discriminate|constructor]).
    apply (in_doc_step lookup_doc 10 3).
    - apply (in_doc_step lookup_doc 50 10 D50). eexists. split; [reflexivity|]. split; [vm_compute; tauto|discriminate].
    - eexists. split; [reflexivity|]. split; [vm_compute; tauto|discriminate]. }
  split.
  { cbv zeta. split; [reflexivity|]. split; [left; eexists; split; reflexivity|]. split.
    { repeat (apply Forall_cons; [eexists; split; [discriminate|]; eexists; split; reflexivity|]). apply Forall_nil. }
    split; [vm_compute; reflexivity|]. split; [|vm_compute; reflexivity].
    eexists. split; [reflexivity|]. split; [reflexivity|].
    repeat (apply Forall_cons; [split; [discriminate|]; eexists; split; [reflexivity|]; right; eexists; reflexivity|]). apply Forall_nil. }
  pose proof lookup_ends as E. unfold lookup_ops in E. destruct (save 7 cet BE lookup_doc) as [o e] eqn:S. cbn [fst snd] in E. subst e.
  pose proof lookup_again as L. unfold lookup_ops in L. rewrite S in L. cbn [fst] in L.
  destruct (open_file (run_ops o)) as [[t [root|]]|e] eqn:Op; [|discriminate L|discriminate L].
  destruct (read_object t 5) as [[[k v]|]|e] eqn:R; [|discriminate L|discriminate L]. destruct k; try discriminate L.
  exists o, t, root, v. split; [reflexivity|]. split; [exact Op|]. split; [exact R|exact L].
Qed.

(** A track without a number, which the format has (trackgroups.py:128), stands in the way of the
    tracks after it: asking for the clip's track raises although there is one. *)
Theorem C61_unnumbered_refuted : exists get content s a c tr, clip_mob get content s = Ok (Some a) /\ get a = Ok (Obj K_CMPO c) /\
  In tr (trkg_tracks (cmpo_group c)) /\ shows get s tr /\ clip_track get content s = Err AttributeErr.
Proof.
  exists (in_memory (doc_of [(1, filler_of 1); (20, comp_of id_b [track_of None 1; track_of (Some 1) 1]); (50, bin_of [20])] 50)),
    (Some (bin_of [20])), (clip_of 1 1 (Some id_b)), 20.
  eexists. exists (track_of (Some 1) 1). split; [vm_compute; reflexivity|]. split; [reflexivity|].
  split; [right; now left|]. split; [|vm_compute; reflexivity].
  split; [reflexivity|]. exists 1, (filler_of 1). repeat split; discriminate.
Qed.
Print Assumptions C61_unnumbered_refuted.

(** Two mobs of a bin with the same id: the clip never finds the first. *)
Theorem C61_same_id_refuted : exists get content items s it id, is_bin content items /\ In it items /\
  sclp_mob_id s = Some id /\ has_mob_id get (item_mob it) id /\ clip_mob get content s <> Ok (Some (item_mob it)).
Proof.
  exists (in_memory lookup_doc), (Some (bin_of [20; 21; 10])), (map item_of [20; 21; 10]), (clip_of 1 1 (Some id_b)), (item_of 20), id_b.
  split; [left; eexists; split; reflexivity|]. split; [now left|]. split; [reflexivity|].
  split; [split; [discriminate|eexists; split; reflexivity]|]. vm_compute. discriminate.
Qed.
Print Assumptions C61_same_id_refuted.

(** The components of a selector that was read are those of its tracks, in order, and the selected
    one is among them. *)
Theorem C61_selector : forall i b s rest, Forall is_byte b -> rselector i b = Ok (s, rest) ->
  (forall t, In t (trkg_tracks (slct_group s)) -> trak_component t <> None) ->
  exists cs, selector_components s = Ok cs /\ map trak_component (trkg_tracks (slct_group s)) = map Some cs /\
    exists c, nth_error cs (Z.to_nat (slct_selected s)) = Some c.
Proof.
  intros i b s rest Hb H Hc.
  destruct (rmap_all _ _ (fun t => match trak_component t with Some c => Ok c | None => Err AttributeErr end) (trkg_tracks (slct_group s)))
    as [cs E].
  { intros t Ht. specialize (Hc t Ht). destruct (trak_component t) as [c|]; [eauto|contradiction]. }
  exists cs. split; [exact E|].
  assert (map trak_component (trkg_tracks (slct_group s)) = map Some cs) as M.
  { clear - E. revert cs E. induction (trkg_tracks (slct_group s)) as [|t ts IH]; intros cs E; cbn [rmap] in E.
    - injection E as <-. reflexivity.
    - destruct (trak_component t) as [c|] eqn:Et; [|discriminate]. destruct (rmap _ ts) as [cs'|e]; [|discriminate].
      injection E as <-. cbn [map]. rewrite Et, (IH cs' eq_refl). reflexivity. }
  split; [exact M|].
  assert (slct_selected s < len (trkg_tracks (slct_group s)) /\ 0 <= slct_selected s) as [L P].
  { destruct (got_rselector _ _ _ _ Hb H) as [(_ & F & L) _]. unfold fits_u16 in F. split; [exact L|lia]. }
  assert (length cs = length (trkg_tracks (slct_group s))) as Le by (rewrite <- (map_length trak_component), M; symmetry; apply map_length).
  destruct (nth_error cs (Z.to_nat (slct_selected s))) as [c|] eqn:N; [eauto|].
  apply nth_error_None in N. unfold len in L. lia.
Qed.
Print Assumptions C61_selector.

(** The selector of Samples.v, written and read. *)
Example C61_selector_case : exists b s, wselector (sample_out LE) sample_selector = Ok b /\ Forall is_byte b /\
  rselector (sample_in LE) b = Ok (s, []) /\ (forall t, In t (trkg_tracks (slct_group s)) -> trak_component t <> None) /\
  selector_components s = Ok [15; 15] /\ slct_selected s = 1.
Proof.
  destruct (wselector (sample_out LE) sample_selector) as [b|e] eqn:E; [|vm_compute in E; discriminate E].
  vm_compute in E. injection E as <-. eexists. eexists. split; [reflexivity|]. split.
  { repeat (apply Forall_cons; [unfold is_byte; lia|]). apply Forall_nil. }
  split; [vm_compute; reflexivity|]. split; [|split; vm_compute; reflexivity].
  intros t [<-|[<-|[]]]; discriminate.
Qed.

(** [iter_class_ids] gives, in the order of the file, the objects of exactly those chunks whose code
    is listed, each read as [read_object] reads it; nothing else is read. An object is of the
    class its chunk says. *)
Theorem C62_listing : forall d ids cs, chunks d = Ok cs ->
  (forall i c, nth_error cs i = Some c -> In (ck_id c) ids -> exists o, read_object d (Z.of_nat i) = Ok o) ->
  exists sel os, iter_class_ids d ids = Ok os /\ Forall2 (fun i o => read_object d i = Ok o) sel os /\
    Sorted.StronglySorted Z.lt sel /\
    (forall i, In i sel <-> 0 <= i /\ exists c, nth_error cs (Z.to_nat i) = Some c /\ In (ck_id c) ids) /\
    (forall ob, In (Some ob) os -> In (class_id (okind ob)) ids).
Proof.
  intros d ids cs Hc R. pose proof Hc as Hc'. unfold chunks in Hc.
  assert (length cs = S (length (of_positions d))) as Le.
  { apply rmap_nth in Hc as [L _]. rewrite L. clear. generalize (S (length (of_positions d))). intros n.
    generalize 0. induction n; intros z; cbn [range_from length]; [reflexivity|now rewrite IHn]. }
  destruct (iter_from_ok d ids _ cs Hc) as (os & E & F).
  { rewrite <- Le. intros i c Hi Hk. apply combine_range in Hi as [L N]. rewrite Z.sub_0_r in N.
    destruct (R _ _ N Hk) as [o Ho]. rewrite Z2Nat.id in Ho by lia. eauto. }
  rewrite <- Le in F. set (l := filter (fun ic => listed ids (ck_id (snd ic))) (combine (range_from 0 (length cs)) cs)) in F.
  assert (Forall2 (fun i o => read_object d i = Ok o) (map fst l) os) as F2.
  { clear - F. induction F; cbn [map]; constructor; assumption. }
  assert (forall i, In i (map fst l) <-> 0 <= i /\ exists c, nth_error cs (Z.to_nat i) = Some c /\ In (ck_id c) ids) as Il.
  { intros i. rewrite in_map_iff. split.
    - intros ([i' c] & <- & H). apply filter_In in H as [H L]. apply combine_range in H as [H N]. rewrite Z.sub_0_r in N.
      cbn [fst snd] in *. split; [exact H|]. exists c. split; [exact N|]. now apply LookupProofs.listed_in.
    - intros (H & c & N & L). exists (i, c). split; [reflexivity|]. apply filter_In. split; [|now apply LookupProofs.listed_in].
      apply combine_range. rewrite Z.sub_0_r. auto. }
  exists (map fst l), os. split; [exact E|]. split; [exact F2|].
  split; [apply (filter_range (fun ic => listed ids (ck_id (snd ic))) cs 0)|]. split; [exact Il|].
  intros ob Hob. apply In_nth_error in Hob as [k Hk].
  assert (exists i, In i (map fst l) /\ read_object d i = Ok (Some ob)) as (i & Hi & Ro).
  { clear - F2 Hk. revert k Hk. induction F2 as [|x y xs ys Hx F IH]; intros [|k] Hk; try discriminate; cbn [nth_error] in Hk.
    - injection Hk as ->. exists x. split; [now left|exact Hx].
    - destruct (IH k Hk) as (i & Hi & Hr). exists i. split; [now right|exact Hr]. }
  apply Il in Hi as (H0 & c & N & L). destruct (read_object_class _ _ _ Ro) as (c' & Rc & Ek).
  destruct (rmap_nth _ _ _ _ _ Hc) as [_ G]. destruct (G _ _ N) as (x & Hx & Rx).
  apply range_nth in Hx. rewrite Z2Nat.id in Hx by lia. subst x. cbn [Z.add] in Rx. rewrite Rc in Rx. injection Rx as ->. now rewrite <- Ek.
Qed.
Print Assumptions C62_listing.

(** In a saved document, opened again: the objects of the document that are of the classes asked for,
    in the order they were written in, each once, none of another class, references renumbered. *)
Theorem C62_saved : forall lim z bo d o ids, walks_refs d -> ids_distinct d -> all_ok d -> save lim z bo d = (o, None) ->
  ~ In cc_OBJD ids ->
  exists order t os, open_table (run_ops o) = Ok t /\ NoDup order /\ (forall a, In a order <-> in_doc d a) /\
    iter_class_ids t ids = Ok os /\
    Forall2 (fun a ob => exists nd, dc_heap d a = Ok nd /\ ob = Some (obj_map (number order) (nd_obj nd)))
      (filter (wanted d ids) order) os.
Proof.
  intros lim z bo d o ids W I A H NI. destruct (C25_reopens lim z bo d o W I A H) as (order & t & T & _ & ND & Io & R & _ & _).
  assert (length (of_positions t) = length order) as Lp.
  { pose proof (saved_count lim z bo d o t order W I H T ND Io) as E. exact E. }
  destruct (saved_from d t ids order) with (s := order) (p := @nil Z) as (os & E & F); [| exact ND | reflexivity |].
  { intros a Ha. apply Io in Ha. destruct (completed_node lim z bo d o W I H a Ha) as [nd En]. exists nd. split; [exact En|]. now apply R. }
  exists order, t, os. split; [exact T|]. split; [exact ND|]. split; [exact Io|]. split; [|exact F].
  unfold iter_class_ids. rewrite Lp. cbn [range_from iter_from].
  change (read_chunk t 0) with (Ok {| ck_id := cc_OBJD; ck_pos := 8; ck_size := of_start t - 8 |}). cbn [ck_id].
  destruct (listed ids cc_OBJD) eqn:L; [apply LookupProofs.listed_in in L; contradiction|]. exact E.
Qed.
Print Assumptions C62_saved.

(** In a little endian file: the text of a chunk spells the bytes the chunk has in the file, its
    code and size included. *)
Theorem C62_text : forall file d i c, Forall is_byte file -> open_table file = Ok d -> hd_bo (of_head d) = LE ->
  i <> 0 -> read_chunk d i = Ok c ->
  unhex (chunk_hex d c) = firstn (8 + Z.to_nat (ck_size c)) (skipn (Z.to_nat (ck_pos c - 8)) file) /\
  Forall (fun x => 48 <= x <= 57 \/ 97 <= x <= 102) (chunk_hex d c).
Proof.
  intros file d i c Hf T Hl Hi H. split; [exact (chunk_hex_little file d i c Hf T Hl Hi H)|].
  apply hexlify_digits. destruct (open_table_inv _ _ T) as [Ef _]. unfold chunk_data. rewrite Ef.
  apply Forall_app. split.
  - apply Forall_rev. unfold read_chunk in H. destruct (Z.eqb_spec i 0); [contradiction|].
    destruct (position d i) as [pos|e]; [|discriminate].
    destruct (rchunk_head _ _) as [[[cc size] b]|e] eqn:Er in H; [|discriminate]. injection H as <-. cbn [ck_id].
    rewrite Ef in Er. exact (head_code _ _ _ _ _ (is_byte_skipn (Z.to_nat pos) _ Hf) Er).
  - apply Forall_app. split; [apply le_enc_bytes|]. apply is_byte_firstn, is_byte_skipn, Hf.
Qed.
Print Assumptions C62_text.

(** The big endian file of the bin: listing the clips and compositions gives three compositions and
    the clip, in the order of the file; and the little endian small file of ResaveSamples.v: its
    second object as text. *)
Example C62_case : (exists t cs, open_table (run_ops (fst lookup_ops)) = Ok t /\ chunks t = Ok cs /\ length cs = 8%nat /\
    (forall i c, nth_error cs i = Some c -> In (ck_id c) [class_id K_SCLP; class_id K_CMPO] -> exists o, read_object t (Z.of_nat i) = Ok o)) /\
  kinds_found [class_id K_SCLP; class_id K_CMPO] = Ok [Some K_CMPO; Some K_CMPO; Some K_SCLP; Some K_CMPO] /\
  exists t c, open_table small_file = Ok t /\ hd_bo (of_head t) = LE /\ read_chunk t 1 = Ok c /\
    chunk_hex t c = txt "525454411200000002010100000001000000" ++ txt "01004efdffffff03".
Proof.
  split.
  { pose proof lookup_chunks as L. destruct (open_table (run_ops (fst lookup_ops))) as [t|e]; [|discriminate L].
    destruct (chunks t) as [cs|e] eqn:C; [|discriminate L]. exists t, cs. split; [reflexivity|]. split; [exact C|].
    apply andb_true_iff in L as [L1 L2]. apply Nat.eqb_eq in L1. split; [exact L1|]. intros i c Hi _.
    assert (i < 8)%nat as Li by (rewrite <- L1; apply nth_error_Some; congruence).
    rewrite forallb_forall in L2. specialize (L2 i). destruct (read_object t (Z.of_nat i)) as [o|e]; [eauto|].
    exfalso. assert (false = true) by (apply L2, in_seq; lia). discriminate. }
  split; [exact lookup_classes|].
  pose proof small_text as L. destruct (open_table small_file) as [t|e]; [|discriminate L].
  destruct (read_chunk t 1) as [c|e] eqn:C; [|discriminate L]. exists t, c. injection L as L1 L2. auto.
Qed.

(** In a big endian file the text is not what the file has: code and size are turned round. *)
Theorem C62_text_big_refuted : exists file d i c, open_table file = Ok d /\ i <> 0 /\ read_chunk d i = Ok c /\
  unhex (chunk_hex d c) <> firstn (8 + Z.to_nat (ck_size c)) (skipn (Z.to_nat (ck_pos c - 8)) file).
Proof.
  destruct (open_table (run_ops (fst lookup_ops))) as [t|e] eqn:T; [|vm_compute in T; discriminate T].
  exists (run_ops (fst lookup_ops)), t, 1. vm_compute in T. injection T as <-. eexists.
  split; [vm_compute; reflexivity|]. split; [discriminate|]. split; [vm_compute; reflexivity|]. vm_compute. discriminate.
Qed.
Print Assumptions C62_text_big_refuted.
