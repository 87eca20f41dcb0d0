(** C24 and C45: the header and the object table. [header_of], [stored], [layout] and [slice] are
    in FileSpec.v; [open_table], [chunks], [read_chunk], [chunk_data] and [read_object] are the
    code, in FileModel.v. *)
From Coq Require Import ZArith List Bool Lia.
From Verif Require Import Base IoCtx RoundTrip Text Dates Objects FileModel FileSpec HeaderProofs
  TableProofs SaveProofs SampleDocs.
Import ListNotations.
Open Scope Z_scope.

(** ** C24 *)

(** A file made of a header and of objects one after the other: the table is built, the list of
    chunks gives the code and the byte range of every object in order, after the header; asking
    for object [i] gives its code and data, and reading it reads exactly these. *)
Theorem C24_table : forall hdr h t ver l,
  header_of hdr h t ver -> hd_count h = len l -> Forall stored_ok l ->
  exists d, open_table (hdr ++ concat (map (stored_bytes (hd_bo h)) l)) = Ok d /\
    of_head d = h /\ of_stamp d = t /\ of_version d = ver /\
    chunks d = Ok (header_chunk (len hdr) :: layout (len hdr) l) /\
    forall i s, nth_error l i = Some s ->
      (exists c, read_chunk d (Z.of_nat i + 1) = Ok c /\ nth_error (layout (len hdr) l) i = Some c /\
         ck_id c = fst s /\ chunk_data d c = snd s) /\
      read_object d (Z.of_nat i + 1) =
        match robject {| ibo := hd_bo h; inobj := Some (len l + 1) |} (fst s) (snd s) with
        | Ok o => Ok (Some o) | Err e => Err e end.
Proof.
  intros hdr h t ver l Hh Hn Hl. exists (table hdr h t ver l).
  split; [exact (open_table_ok hdr h t ver l Hh Hn Hl)|].
  split; [reflexivity|]. split; [reflexivity|]. split; [reflexivity|].
  split; [exact (chunks_ok hdr h t ver l Hl)|].
  intros i s Hs. apply nth_error_split in Hs as (a & b & -> & <-).
  fold (len a). split.
  - eexists. split; [apply read_chunk_ok; exact Hl|]. split; [|split; [reflexivity|]].
    + apply Forall_app in Hl as [Ha _]. rewrite (layout_app a (s :: b) (len hdr) Ha (hd_bo h)).
      assert (forall l pos, length (layout pos l) = length l) as LL.
      { clear. induction l as [|x l IH]; intros pos; cbn [layout length]; [reflexivity|now rewrite IH]. }
      rewrite nth_error_app2 by (rewrite LL; lia). rewrite LL, Nat.sub_diag. cbn [layout nth_error].
      now rewrite len_app.
    + unfold chunk_data. cbn [ck_pos ck_size of_file table].
      unfold stored_all at 2. rewrite map_app, concat_app. cbn [map concat]. unfold stored_bytes at 2.
      rewrite Forall_app in Hl. destruct Hl as [_ Hl]. inversion Hl as [|? ? Hs _]; subst.
      rewrite <- !app_assoc. rewrite (app_assoc hdr).
      rewrite (app_assoc (match hd_bo h with LE => rev (fst s) | BE => fst s end)).
      rewrite (app_assoc (hdr ++ _)).
      rewrite skipn_app_len.
      * apply firstn_app_len. reflexivity.
      * assert (len (enc (hd_bo h) 4 (len (snd s))) = 4) as E4 by (unfold len; now rewrite enc_length).
        rewrite !len_app, (cc_len _ s Hs), E4. unfold stored_all. lia.
  - rewrite read_object_ok by exact Hl. unfold of_ictx. cbn [of_head table]. now rewrite Hn.
Qed.
Print Assumptions C24_table.

(** Whatever the file: if it is accepted, each chunk starts where the one before it ends, so no
    two overlap. The eight bytes between are code and size. *)
Theorem C24_no_overlap : forall file d cs,
  Forall is_byte file -> open_table file = Ok d -> chunks d = Ok cs ->
  forall i j a b, (i < j)%nat -> nth_error cs i = Some a -> nth_error cs j = Some b ->
  ck_pos a + ck_size a + 8 <= ck_pos b /\ (j = S i -> ck_pos a + ck_size a + 8 = ck_pos b).
Proof.
  intros file d cs Hb Ho Hc. 
  assert (forall j i a b, (i < j)%nat -> nth_error cs i = Some a -> nth_error cs j = Some b ->
    ck_pos a + ck_size a + 8 <= ck_pos b) as G.
  { induction j as [|j IH]; intros i a b L Ha Hj; [lia|].
    destruct (nth_error cs j) as [c|] eqn:Ec.
    2:{ apply nth_error_None in Ec.
        assert (S j < length cs)%nat by (apply nth_error_Some; congruence). lia. }
    pose proof (chunks_consecutive file d cs Ho Hc j c b Ec Hj) as E.
    destruct (Nat.eq_dec i j) as [->|N].
    - assert (c = a) as -> by congruence. lia.
    - specialize (IH i a c ltac:(lia) Ha eq_refl).
      assert (0 <= ck_size c).
      { unfold chunks in Hc. apply rmap_nth in Hc as [_ R]. destruct (R _ _ Ec) as (x & Hx & Rx).
        apply range_nth in Hx as ->. apply (chunk_size_nonneg d (0 + Z.of_nat j)); [|lia|exact Rx].
        apply open_table_inv in Ho as [-> _]. exact Hb. }
      lia. }
  intros i j a b L Ha Hj. split; [exact (G j i a b L Ha Hj)|]. intros ->.
  symmetry. exact (chunks_consecutive file d cs Ho Hc i a b Ha Hj).
Qed.
Print Assumptions C24_no_overlap.

(** Reading object [index] looks at the bytes of its chunk only: in a file with other bytes
    elsewhere it gives the same. *)
Theorem C24_reads_its_bytes : forall d d' index c,
  of_head d = of_head d' -> position d index = position d' index ->
  0 < index -> read_chunk d index = Ok c -> Forall is_byte (of_file d) ->
  slice (of_file d) (ck_pos c - 8) (ck_size c + 8) = slice (of_file d') (ck_pos c - 8) (ck_size c + 8) ->
  read_object d index = read_object d' index.
Proof.
  intros d d' index c Eh Ep Hi Hc Hb E. apply (read_object_slice d d' index c); try assumption.
  exact (chunk_size_nonneg d index c Hb Hi Hc).
Qed.
Print Assumptions C24_reads_its_bytes.

(** A concrete file: the header of the small document and two objects. *)
Definition two_stored : list stored := [([65; 84; 84; 82], [2; 1; 0; 0; 0; 0; 3]); ([70; 73; 76; 76], [9; 3])].
Example C24_case : exists hdr h t ver, header_of hdr h t ver /\ hd_count h = len two_stored /\
  Forall stored_ok two_stored /\ layout (len hdr) two_stored =
    [{| ck_id := [65; 84; 84; 82]; ck_pos := 127; ck_size := 7 |};
     {| ck_id := [70; 73; 76; 76]; ck_pos := 142; ck_size := 2 |}].
Proof.
  exists (saved_hdr LE small_doc 2 5 [49]), (saved_head LE small_doc 2), 5, (version_read [49]).
  split; [apply saved_header; lia|]. split; [reflexivity|]. split; [|vm_compute; reflexivity].
  repeat constructor.
Qed.

(** ** C45 *)

(** For every document whose version can be stored and whose save time has 32 bits, in both byte
    orders: the header is written (119 bytes, always), it can be read with any counts in place
    of the two zeros, and gives byte order, text of the save time, save time, and the first 30
    characters of the version, padded with blanks to 30, less outer NULs. *)
Theorem C45_header : forall z bo d, header_fits z d ->
  exists before after bs,
    run_writers (head_before z bo d ++ head_counts bo ++ head_after z bo d) = (map Append bs, None) /\
    concat bs = before ++ enc bo 4 0 ++ enc bo 4 0 ++ after /\
    length before = 43%nat /\ length (concat bs) = 119%nat /\
    forall n r rest, 0 <= n < 2 ^ 32 -> 0 <= r < 2 ^ 32 ->
      exists b, rhead (before ++ enc bo 4 n ++ enc bo 4 r ++ after ++ rest) =
        Ok ({| hd_bo := bo; hd_text := save_text (dc_saved d); hd_count := n; hd_root := r |}, b) /\
        rhead_rest bo b = Ok ((to_timestamp z (dc_saved d),
          trim_nuls (firstn 30 (dc_version d) ++ repeat 32 (30 - length (dc_version d)))), rest).
Proof.
  intros z bo d [[v Hv] Ht].
  destruct (head_before_ok z bo d) as (b1 & E1 & C1).
  destruct (head_after_intro z bo d v (conj Hv Ht)) as (b2 & E2 & C2).
  exists (head_pre bo d), (head_post bo (to_timestamp z (dc_saved d)) v),
    (b1 ++ enc bo 4 0 :: enc bo 4 0 :: b2).
  assert (concat (b1 ++ enc bo 4 0 :: enc bo 4 0 :: b2) =
    head_pre bo d ++ enc bo 4 0 ++ enc bo 4 0 ++ head_post bo (to_timestamp z (dc_saved d)) v) as Cc.
  { rewrite concat_app. cbn [concat]. now rewrite C1, C2. }
  split.
  { rewrite E1, E2. unfold head_counts, wu32.
    rewrite wunsigned_in by (vm_compute; split; congruence). rewrite <- run_writers_ok.
    rewrite map_app. reflexivity. }
  split; [exact Cc|]. split; [apply head_pre_length|]. split.
  { rewrite Cc, !app_length, head_pre_length, head_post_length, !enc_length. reflexivity. }
  intros n r rest Hn Hr. eexists. split; [apply rhead_ok; assumption|].
  rewrite rhead_rest_ok by exact Ht. now rewrite (version_text _ _ Hv).
Qed.
Print Assumptions C45_header.

(** A version of 32 characters, the first and the 30th NUL. *)
Definition long_version : str := [0; 233] ++ repeat 65 27 ++ [0; 66; 67].
Example C45_case : header_fits cet {| dc_self := 1; dc_heap := heap_of 1 []; dc_content := 0;
    dc_version := long_version; dc_saved := 981173106 |} /\
  trim_nuls (firstn 30 long_version ++ repeat 32 (30 - length long_version)) = 233 :: repeat 65 27.
Proof. split; [split; [eexists; vm_compute; reflexivity|vm_compute; split; congruence]|reflexivity]. Qed.

(** A version with a character outside Mac Roman or a save time before 1970 stops the save. *)
Theorem C45_refused : forall z bo d o s,
  run_writers (head_before z bo d ++ head_counts bo ++ head_after z bo d) = (o, s) ->
  (s = None <-> header_fits z d).
Proof.
  intros z bo d o s H. split.
  - intros ->. destruct (head_before_ok z bo d) as (b1 & E1 & _). rewrite E1 in H.
    assert (exists o', run_writers (head_counts bo ++ head_after z bo d) = (o', None)) as [o' H'].
    { clear E1. revert o H. induction b1 as [|x b1 IH]; intros o H; [exists o; exact H|].
      change (run_writers (Ok x :: (map Ok b1 ++ head_counts bo ++ head_after z bo d)) = (o, None)) in H.
      remember (map Ok b1 ++ head_counts bo ++ head_after z bo d) as w. cbn [run_writers] in H.
      destruct (run_writers w) as [o1 s1] eqn:E.
      apply (f_equal snd) in H. cbn [snd] in H. subst s1 w. exact (IH o1 E). }
    apply head_counts_run in H' as (o2 & H2 & _). apply head_after_ok in H2 as [v [Hv Ht]].
    split; [eauto|exact Ht].
  - intros Hf. destruct (C45_header z bo d Hf) as (b & a & bs & E & _). rewrite E in H. congruence.
Qed.
Print Assumptions C45_refused.
