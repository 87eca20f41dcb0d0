(** The object table. *)
From Coq Require Import ZArith List Bool Lia.
From Verif Require Import Base IoCtx RoundTrip Text Dates Objects LocProofs FileModel FileSpec HeaderProofs.
Import ListNotations.
Open Scope Z_scope.

Definition stored_all (bo : border) (l : list stored) : bytes := concat (map (stored_bytes bo) l).

Lemma stored_bytes_length : forall bo s, stored_ok s -> len (stored_bytes bo s) = 8 + len (snd s).
Proof.
  intros bo s [H _]. unfold stored_bytes, len. rewrite !app_length, enc_length.
  destruct bo; rewrite ?rev_length, H; lia.
Qed.

Lemma skipn_app_len : forall (a b : bytes) n, n = len a -> skipn (Z.to_nat n) (a ++ b) = b.
Proof.
  intros a b n ->. unfold len. rewrite Nat2Z.id, skipn_app, skipn_all, Nat.sub_diag. reflexivity.
Qed.

Lemma firstn_app_len : forall (a b : bytes) n, n = len a -> firstn (Z.to_nat n) (a ++ b) = a.
Proof.
  intros a b n ->. unfold len. rewrite Nat2Z.id, firstn_app, firstn_all, Nat.sub_diag.
  now rewrite firstn_O, app_nil_r.
Qed.

Lemma len_app : forall A (a b : list A), len (a ++ b) = len a + len b.
Proof. intros. unfold len. rewrite app_length. lia. Qed.

Lemma len_nonneg : forall A (l : list A), 0 <= len l.
Proof. intros. unfold len. lia. Qed.

Lemma cc_len : forall bo s, stored_ok s -> len (match bo with LE => rev (fst s) | BE => fst s end) = 4.
Proof. intros bo s [H _]. unfold len. destruct bo; rewrite ?rev_length, H; reflexivity. Qed.

Fixpoint offsets (pos : Z) (l : list stored) : list Z :=
  match l with [] => [] | s :: l' => pos :: offsets (pos + 8 + len (snd s)) l' end.

Lemma scan_ok : forall bo l pre, Forall stored_ok l ->
  scan (length l) bo (pre ++ stored_all bo l) (len pre) = Ok (offsets (len pre) l).
Proof.
  intros bo l. induction l as [|s l IH]; intros pre H; [reflexivity|].
  inversion H as [|x y Hs Hl]; subst. cbn [length scan offsets].
  rewrite skipn_app_len by reflexivity. unfold stored_all. cbn [map concat].
  fold (stored_all bo l). unfold stored_bytes at 1. rewrite <- !app_assoc.
  erewrite bind_step by (apply fread_app; symmetry; now apply cc_len).
  unfold ru32. rewrite runsigned_enc by (split; [apply len_nonneg|apply Hs]).
  rewrite app_assoc. specialize (IH (pre ++ stored_bytes bo s) Hl).
  rewrite len_app, (stored_bytes_length bo s Hs) in IH.
  replace (len pre + 8 + len (snd s)) with (len pre + (8 + len (snd s))) by lia. now rewrite IH.
Qed.

(** Opening a header followed by objects. *)
Lemma open_table_ok : forall hdr h t ver l, header_of hdr h t ver -> hd_count h = len l ->
  Forall stored_ok l ->
  open_table (hdr ++ stored_all (hd_bo h) l) =
  Ok {| of_file := hdr ++ stored_all (hd_bo h) l; of_head := h; of_stamp := t; of_version := ver;
        of_start := len hdr; of_positions := offsets (len hdr) l |}.
Proof.
  intros hdr h t ver l Hh Hn Hl. unfold open_table.
  destruct (Hh (stored_all (hd_bo h) l)) as (b & H1 & H2). rewrite H1, H2.
  rewrite len_app. replace (len hdr + len (stored_all (hd_bo h) l) - len (stored_all (hd_bo h) l))
    with (len hdr) by lia.
  rewrite Hn. unfold len at 1. rewrite Nat2Z.id, scan_ok by assumption. reflexivity.
Qed.

Lemma offsets_app : forall a b pos, exists q,
  offsets pos (a ++ b) = offsets pos a ++ offsets q b /\
  (Forall stored_ok a -> forall bo, q = pos + len (stored_all bo a)).
Proof.
  induction a as [|s a IH]; intros b pos.
  - exists pos. split; [reflexivity|]. intros _ bo. unfold len. cbn. lia.
  - destruct (IH b (pos + 8 + len (snd s))) as (q & E & Hq). exists q. cbn [app offsets].
    split; [now rewrite E|]. intros H bo. inversion H; subst. unfold stored_all. cbn [map concat].
    rewrite len_app, stored_bytes_length by assumption. rewrite (Hq H3 bo). unfold stored_all. lia.
Qed.

Lemma offsets_length : forall l pos, length (offsets pos l) = length l.
Proof. induction l as [|s l IH]; intros pos; cbn [offsets length]; [reflexivity|]. now rewrite IH. Qed.

(** The table of a file made of a header and objects. *)
Definition table (hdr : bytes) (h : head) (t : Z) (ver : str) (l : list stored) : opened :=
  {| of_file := hdr ++ stored_all (hd_bo h) l; of_head := h; of_stamp := t; of_version := ver;
     of_start := len hdr; of_positions := offsets (len hdr) l |}.

Lemma table_position : forall hdr h t ver a s b, Forall stored_ok (a ++ s :: b) ->
  position (table hdr h t ver (a ++ s :: b)) (len a + 1) = Ok (len (hdr ++ stored_all (hd_bo h) a)).
Proof.
  intros hdr h t ver a s b H. unfold position. cbn [of_positions table].
  destruct (offsets_app a (s :: b) (len hdr)) as (q & -> & Hq).
  replace (Z.to_nat (len a + 1 - 1)) with (length (offsets (len hdr) a))
    by (rewrite offsets_length; unfold len; lia).
  rewrite nth_error_app2 by lia. rewrite Nat.sub_diag. cbn [offsets nth_error].
  f_equal. rewrite len_app. apply Hq. now apply Forall_app in H as [H _].
Qed.

Lemma table_skip : forall hdr h t ver a s b,
  skipn (Z.to_nat (len (hdr ++ stored_all (hd_bo h) a))) (of_file (table hdr h t ver (a ++ s :: b))) =
  stored_bytes (hd_bo h) s ++ stored_all (hd_bo h) b.
Proof.
  intros hdr h t ver a s b. cbn [of_file table].
  unfold stored_all at 2. rewrite map_app, concat_app. cbn [map concat].
  rewrite (app_assoc hdr). apply skipn_app_len. reflexivity.
Qed.

Lemma rchunk_head_ok : forall bo s rest, stored_ok s ->
  rchunk_head bo (stored_bytes bo s ++ rest) = Ok ((fst s, len (snd s)), snd s ++ rest).
Proof.
  intros bo s rest H. unfold rchunk_head, stored_bytes. rewrite <- !app_assoc.
  rewrite (app_assoc _ (enc bo 4 (len (snd s)))).
  pose proof (cc_len bo s H) as L.
  erewrite bind_step.
  2:{ apply take_app. rewrite app_length, enc_length. unfold len in L. lia. }
  unfold ret. f_equal. f_equal. f_equal.
  - destruct H as [H _]. destruct bo.
    + rewrite <- (rev_length (fst s)) in H. rewrite firstn_app, firstn_all2 by lia.
      replace (4 - length (rev (fst s)))%nat with 0%nat by lia.
      rewrite firstn_O, app_nil_r. apply rev_involutive.
    + rewrite firstn_app, firstn_all2 by lia.
      replace (4 - length (fst s))%nat with 0%nat by lia. now rewrite firstn_O, app_nil_r.
  - rewrite skipn_app, skipn_all2 by (unfold len in L; lia).
    replace (4 - length (match bo with LE => rev (fst s) | BE => fst s end))%nat with 0%nat
      by (unfold len in L; lia).
    cbn [app skipn]. apply dec_enc_small. split; [apply len_nonneg|apply H].
Qed.

Lemma read_chunk_ok : forall hdr h t ver a s b, Forall stored_ok (a ++ s :: b) ->
  read_chunk (table hdr h t ver (a ++ s :: b)) (len a + 1) =
  Ok {| ck_id := fst s; ck_pos := len (hdr ++ stored_all (hd_bo h) a) + 8; ck_size := len (snd s) |}.
Proof.
  intros hdr h t ver a s b H. unfold read_chunk. rewrite table_position by exact H.
  destruct (Z.eqb_spec (len a + 1) 0); [pose proof (len_nonneg _ a); lia|].
  rewrite table_skip. cbn [of_head table].
  rewrite rchunk_head_ok; [reflexivity|].
  rewrite Forall_forall in H. apply H. apply in_or_app. right. now left.
Qed.

Lemma read_object_ok : forall hdr h t ver a s b, Forall stored_ok (a ++ s :: b) ->
  read_object (table hdr h t ver (a ++ s :: b)) (len a + 1) =
  match robject (of_ictx (table hdr h t ver (a ++ s :: b))) (fst s) (snd s) with
  | Ok o => Ok (Some o) | Err e => Err e end.
Proof.
  intros hdr h t ver a s b H. unfold read_object. rewrite table_position by exact H.
  destruct (Z.eqb_spec (len a + 1) 0); [pose proof (len_nonneg _ a); lia|].
  rewrite table_skip. cbn [of_head table].
  rewrite rchunk_head_ok.
  - rewrite firstn_app_len by reflexivity. now rewrite Z.eqb_refl.
  - rewrite Forall_forall in H. apply H. apply in_or_app. right. now left.
Qed.

(** All chunks. *)
Lemma layout_app : forall a b pos, Forall stored_ok a -> forall bo,
  layout pos (a ++ b) = layout pos a ++ layout (pos + len (stored_all bo a)) b.
Proof.
  induction a as [|s a IH]; intros b pos H bo.
  - cbn [app layout]. f_equal. unfold stored_all, len. cbn. lia.
  - inversion H; subst. cbn [app layout]. f_equal. rewrite (IH b _ H3 bo). f_equal. f_equal.
    unfold stored_all. cbn [map concat]. rewrite len_app, stored_bytes_length by assumption. lia.
Qed.

Lemma rmap_chunks : forall hdr h t ver b a, Forall stored_ok (a ++ b) ->
  rmap (read_chunk (table hdr h t ver (a ++ b))) (range_from (len a + 1) (length b)) =
  Ok (layout (len (hdr ++ stored_all (hd_bo h) a)) b).
Proof.
  intros hdr h t ver b. induction b as [|s b IH]; intros a H; [reflexivity|].
  cbn [length range_from rmap layout]. rewrite read_chunk_ok by exact H.
  specialize (IH (a ++ [s])). rewrite <- app_assoc in IH. cbn [app] in IH. specialize (IH H).
  rewrite len_app in IH. change (len [s]) with 1 in IH. rewrite IH.
  f_equal. f_equal. f_equal. unfold stored_all. rewrite map_app, concat_app.
  cbn [map concat]. rewrite app_nil_r, !len_app.
  assert (stored_ok s) as Hs by (rewrite Forall_forall in H; apply H; apply in_or_app; right; now left).
  rewrite (stored_bytes_length _ s Hs). lia.
Qed.

Lemma chunks_ok : forall hdr h t ver l, Forall stored_ok l ->
  chunks (table hdr h t ver l) =
  Ok ({| ck_id := cc_OBJD; ck_pos := 8; ck_size := len hdr - 8 |} :: layout (len hdr) l).
Proof.
  intros hdr h t ver l H. unfold chunks. cbn [of_positions table]. rewrite offsets_length.
  cbn [range_from rmap]. change (read_chunk (table hdr h t ver l) 0) with
    (@Ok chunk {| ck_id := cc_OBJD; ck_pos := 8; ck_size := len hdr - 8 |}). cbv iota.
  pose proof (rmap_chunks hdr h t ver l [] H) as E. cbn [app] in E.
  change (len [] + 1) with (0 + 1) in E. rewrite E. unfold stored_all. cbn [map concat].
  now rewrite app_nil_r.
Qed.

(** ** Files of any origin *)

Lemma scan_inv : forall n bo file pos l, scan n bo file pos = Ok l ->
  length l = n /\
  forall i p, nth_error l i = Some p ->
    (i = 0%nat -> p = pos) /\
    exists size b, (_c <- fread 4 ;; ru32 bo) (skipn (Z.to_nat p) file) = Ok (size, b) /\
      forall q, nth_error l (S i) = Some q -> q = p + 8 + size.
Proof.
  induction n; intros bo file pos l H; cbn [scan] in H.
  - injection H as <-. split; [reflexivity|]. intros [|i] p Hp; discriminate.
  - destruct ((_c <- fread 4 ;; ru32 bo) (skipn (Z.to_nat pos) file)) as [[size b]|e] eqn:E; [|discriminate].
    destruct (scan n bo file (pos + 8 + size)) as [l'|e] eqn:E'; [|discriminate].
    injection H as <-. destruct (IHn _ _ _ _ E') as [L R]. cbn [length]. split; [now rewrite L|].
    intros [|i] p Hp; cbn [nth_error] in Hp.
    + injection Hp as <-. split; [reflexivity|]. exists size, b. split; [exact E|].
      intros q Hq. cbn [nth_error] in Hq. destruct (R 0%nat q Hq) as [R0 _]. now apply R0.
    + split; [discriminate|]. destruct (R i p Hp) as (_ & size' & b' & R1 & R3).
      exists size', b'. auto.
Qed.

(** The size found in the scan is the size the chunk is read with. *)
Lemma sizes_agree : forall bo b size r cc size' r',
  (_c <- fread 4 ;; ru32 bo) b = Ok (size, r) -> rchunk_head bo b = Ok ((cc, size'), r') -> size = size'.
Proof.
  intros bo b size r cc size' r' H1 H2. unfold rchunk_head, bind, take in H2.
  destruct (Nat.ltb_spec (length b) 8) as [|L]; [discriminate|]. unfold ret in H2. apply Ok_inj in H2.
  injection H2 as _ <- _. unfold bind, fread, ru32, runsigned, bind, take in H1.
  replace (Z.to_nat (Z.min 4 (len b))) with 4%nat in H1 by (unfold len; lia). change (4 <? 0) with false in H1. cbv iota beta in H1. rewrite ?skipn_length in H1.
  destruct (Nat.ltb_spec (length b - 4) 4) as [|L2]; [lia|].
  unfold ret in H1. apply Ok_inj in H1. injection H1 as <- _.
  do 8 (destruct b as [|? b]; [cbn [length] in L; lia|]). reflexivity.
Qed.

Lemma dec_nonneg : forall bo l, Forall is_byte l -> 0 <= dec bo l.
Proof.
  intros bo l H. pose proof (dec_range bo l H). lia.
Qed.

Lemma rmap_nth : forall A B (f : A -> result B) l r, rmap f l = Ok r -> length r = length l /\
  forall i y, nth_error r i = Some y -> exists x, nth_error l i = Some x /\ f x = Ok y.
Proof.
  induction l as [|x l IH]; intros r H; cbn [rmap] in H.
  - injection H as <-. split; [reflexivity|]. intros [|i] y Hy; discriminate.
  - destruct (f x) as [y|e] eqn:E; [|discriminate]. destruct (rmap f l) as [ys|e]; [|discriminate].
    injection H as <-. destruct (IH ys eq_refl) as [L R]. cbn [length]. split; [now rewrite L|].
    intros [|i] z Hz; cbn [nth_error] in *; [injection Hz as <-; eauto|auto].
Qed.

Lemma range_nth : forall n i j x, nth_error (range_from i n) j = Some x -> x = i + Z.of_nat j.
Proof.
  induction n; intros i j x H; cbn [range_from] in H; [destruct j; discriminate|].
  destruct j; cbn [nth_error] in H; [injection H as <-; lia|]. apply IHn in H. lia.
Qed.

Lemma open_table_inv : forall file d, open_table file = Ok d -> of_file d = file /\
  scan (Z.to_nat (hd_count (of_head d))) (hd_bo (of_head d)) file (of_start d) = Ok (of_positions d).
Proof.
  intros file d H. unfold open_table in H. destruct (rhead file) as [[h b1]|e]; [|discriminate].
  destruct (rhead_rest (hd_bo h) b1) as [[[t ver] b2]|e]; [|discriminate].
  destruct (scan _ _ _ _) as [l|e] eqn:E; [|discriminate]. injection H as <-. split; [reflexivity|exact E].
Qed.

(** Each chunk starts where the one before it ends; the header is the first. *)
Lemma chunks_consecutive : forall file d cs, open_table file = Ok d -> chunks d = Ok cs ->
  forall i a b, nth_error cs i = Some a -> nth_error cs (S i) = Some b ->
  ck_pos b = ck_pos a + ck_size a + 8.
Proof.
  intros file d cs Ho Hc i a b Ha Hb. apply open_table_inv in Ho as [Ef Es].
  destruct (scan_inv _ _ _ _ _ Es) as [_ R].
  unfold chunks in Hc. apply rmap_nth in Hc as [_ N].
  destruct (N _ _ Ha) as (x & Hx & Ra). destruct (N _ _ Hb) as (y & Hy & Rb).
  apply range_nth in Hx as ->. apply range_nth in Hy as ->.
  unfold read_chunk in Rb. destruct (Z.eqb_spec (0 + Z.of_nat (S i)) 0); [lia|].
  unfold position in Rb. replace (Z.to_nat (0 + Z.of_nat (S i) - 1)) with i in Rb by lia.
  destruct (nth_error (of_positions d) i) as [p|] eqn:Ep; [|discriminate].
  destruct (rchunk_head _ _) as [[[cc size] rest]|e] in Rb; [|discriminate]. injection Rb as <-.
  cbn [ck_pos]. destruct i as [|i].
  - cbn in Ra. injection Ra as <-. cbn [ck_pos ck_size]. destruct (R 0%nat p Ep) as [R0 _].
    rewrite (R0 eq_refl). lia.
  - unfold read_chunk in Ra. destruct (Z.eqb_spec (0 + Z.of_nat (S i)) 0); [lia|].
    unfold position in Ra. replace (Z.to_nat (0 + Z.of_nat (S i) - 1)) with i in Ra by lia.
    destruct (nth_error (of_positions d) i) as [q|] eqn:Eq; [|discriminate].
    rewrite Ef in Ra.
    destruct (rchunk_head _ _) as [[[cc' size'] rest']|e] eqn:Er in Ra; [|discriminate]. injection Ra as <-.
    cbn [ck_pos ck_size]. destruct (R i q Eq) as (_ & size2 & b2 & S1 & S2).
    rewrite (S2 p Ep). rewrite (sizes_agree _ _ _ _ _ _ _ S1 Er). lia.
Qed.

Lemma chunk_size_nonneg : forall d i a, Forall is_byte (of_file d) -> 0 < i -> read_chunk d i = Ok a -> 0 <= ck_size a.
Proof.
  intros d i a Hb Hi H. unfold read_chunk in H. destruct (Z.eqb_spec i 0); [lia|].
  destruct (position d i) as [p|e]; [|discriminate].
  unfold rchunk_head, bind, take in H.
  destruct (Nat.ltb_spec (length (skipn (Z.to_nat p) (of_file d))) 8) as [|L]; [discriminate|].
  unfold ret in H. apply Ok_inj in H. subst a. cbn [ck_size]. apply dec_nonneg.
  assert (forall n l, Forall is_byte l -> Forall is_byte (skipn n l)) as Fs.
  { intros k l Hl. rewrite <- (firstn_skipn k l) in Hl. now apply Forall_app in Hl as [_ Hl]. }
  assert (forall n l, Forall is_byte l -> Forall is_byte (firstn n l)) as Ff.
  { intros k l Hl. rewrite <- (firstn_skipn k l) in Hl. now apply Forall_app in Hl as [Hl _]. }
  apply Fs, Ff, Fs, Hb.
Qed.

(** Reading an object looks at its chunk only. *)
Lemma read_object_slice : forall d d' index c, of_head d = of_head d' ->
  position d index = position d' index -> 0 < index ->
  read_chunk d index = Ok c -> 0 <= ck_size c ->
  slice (of_file d) (ck_pos c - 8) (ck_size c + 8) = slice (of_file d') (ck_pos c - 8) (ck_size c + 8) ->
  read_object d index = read_object d' index.
Proof.
  intros d d' index c Eh Ep Hi Hc Hs E. unfold read_chunk in Hc. unfold read_object, of_ictx.
  rewrite <- Eh, <- Ep. destruct (index =? 0); [reflexivity|]. destruct (position d index) as [p|e]; [|discriminate].
  destruct (rchunk_head (hd_bo (of_head d)) (skipn (Z.to_nat p) (of_file d))) as [[[cc size] b]|e] eqn:E1; [|discriminate].
  injection Hc as <-. cbn [ck_pos ck_size] in *. unfold slice in E.
  replace (p + 8 - 8) with p in E by lia.
  replace (Z.to_nat (size + 8)) with (8 + Z.to_nat size)%nat in E by lia.
  unfold rchunk_head, bind, take in *.
  set (t := skipn (Z.to_nat p) (of_file d)) in *. set (t' := skipn (Z.to_nat p) (of_file d')) in *.
  destruct (Nat.ltb_spec (length t) 8) as [|L]; [discriminate|].
  assert (length t' >= 8)%nat as L'.
  { apply (f_equal (@length Z)) in E. rewrite !firstn_length in E. lia. }
  destruct (Nat.ltb_spec (length t') 8) as [|_]; [lia|].
  unfold ret in *. apply Ok_inj in E1. apply pair_equal_spec in E1 as [E1 <-].
  apply pair_equal_spec in E1 as [<- <-].
  assert (firstn 8 t = firstn 8 t') as E8.
  { apply (f_equal (firstn 8)) in E. rewrite !firstn_firstn in E.
    replace (Nat.min 8 (8 + Z.to_nat (dec (hd_bo (of_head d)) (skipn 4 (firstn 8 t)))))%nat with 8%nat in E by lia.
    exact E. }
  rewrite <- E8. set (n := dec (hd_bo (of_head d)) (skipn 4 (firstn 8 t))) in *.
  assert (firstn (Z.to_nat n) (skipn 8 t) = firstn (Z.to_nat n) (skipn 8 t')) as En.
  { rewrite !firstn_skipn_comm. now rewrite E. }
  now rewrite En.
Qed.
