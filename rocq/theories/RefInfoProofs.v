(** Lemmas for C68. *)
From Coq Require Import ZArith List Bool Lia.
From Verif Require Import Base IoCtx Objects ObjProofs FileModel FileSpec ResaveTheory ResaveSamples RefInfo.
Import ListNotations.
Open Scope Z_scope.

Lemma head_there : forall bo b v r, (_c <- fread 4 ;; ru32 bo) b = Ok (v, r) ->
  exists cc r', rchunk_head bo b = Ok ((cc, v), r').
Proof.
  intros bo b v r H. unfold bind, fread, ru32, runsigned, bind, take, ret in H.
  change (4 <? 0) with false in H. cbv iota in H. unfold len in H.
  destruct (length (skipn (Z.to_nat (Z.min 4 (Z.of_nat (length b)))) b) <? 4)%nat eqn:L; [discriminate H|].
  unfold rchunk_head, bind, take, ret. apply Nat.ltb_ge in L. rewrite skipn_length in L.
  assert (8 <= length b)%nat as M by lia.
  replace (Z.to_nat (Z.min 4 (Z.of_nat (length b)))) with 4%nat in H by lia.
  destruct (length b <? 8)%nat eqn:N; [apply Nat.ltb_lt in N; lia|].
  injection H as <- <-. eexists _, _. f_equal. f_equal. f_equal.
  do 8 (destruct b as [|? b]; [cbn [length] in M; lia|]). reflexivity.
Qed.

Lemma scan_there : forall n bo file pos l, scan n bo file pos = Ok l -> forall i p, nth_error l i = Some p ->
  exists cc size r, rchunk_head bo (skipn (Z.to_nat p) file) = Ok ((cc, size), r) /\
    (i = 0%nat -> p = pos) /\ forall p', nth_error l (S i) = Some p' -> p' = p + 8 + size.
Proof.
  induction n as [|n IH]; intros bo file pos l H i p E; cbn [scan] in H.
  - injection H as <-. destruct i; discriminate E.
  - destruct ((_c <- fread 4 ;; ru32 bo) (skipn (Z.to_nat pos) file)) as [[size r]|e] eqn:R; [|discriminate H].
    destruct (scan n bo file (pos + 8 + size)) as [l'|e] eqn:S; [|discriminate H]. injection H as <-.
    destruct i as [|i]; cbn [nth_error] in E |- *.
    + injection E as <-. apply head_there in R as (cc & r' & R). exists cc, size, r'. split; [exact R|].
      split; [reflexivity|]. intros p' E'. destruct (IH _ _ _ _ S 0%nat p' E') as (_ & _ & _ & _ & F & _). now apply F.
    + destruct (IH _ _ _ _ S i p E) as (cc & sz & r' & R' & _ & N). exists cc, sz, r'. split; [exact R'|].
      split; [discriminate|exact N].
Qed.

Lemma open_scanned : forall file t, open_table file = Ok t ->
  scan (Z.to_nat (hd_count (of_head t))) (hd_bo (of_head t)) (of_file t) (of_start t) = Ok (of_positions t).
Proof.
  intros file t H. unfold open_table in H. destruct (rhead file) as [[h b1]|e]; [|discriminate H].
  destruct (rhead_rest (hd_bo h) b1) as [[[s v] b2]|e]; [|discriminate H].
  destruct (scan _ _ _ _) as [l|e] eqn:S in H; [|discriminate H]. injection H as <-. exact S.
Qed.

Lemma chunk_there : forall file t, open_table file = Ok t -> forall n p, 0 < n -> position t n = Ok p ->
  exists c, read_chunk t n = Ok c /\ ck_pos c = p + 8 /\
    forall p', position t (n + 1) = Ok p' -> p' = ck_pos c + ck_size c.
Proof.
  intros file t H n p N P. unfold read_chunk. destruct (Z.eqb_spec n 0); [lia|]. rewrite P.
  unfold position in P. destruct (nth_error (of_positions t) (Z.to_nat (n - 1))) as [q|] eqn:E; [|discriminate P].
  injection P as ->. destruct (scan_there _ _ _ _ _ (open_scanned file t H) _ _ E) as (cc & size & r & R & _ & F).
  rewrite R. eexists. split; [reflexivity|]. split; [reflexivity|]. intros p' P'. cbn [ck_pos ck_size].
  unfold position in P'. replace (Z.to_nat (n + 1 - 1)) with (S (Z.to_nat (n - 1))) in P' by lia.
  destruct (nth_error (of_positions t) (S (Z.to_nat (n - 1)))) as [q|] eqn:E'; [|discriminate P'].
  injection P' as ->. exact (F p' eq_refl).
Qed.

Lemma position_in : forall t n, 0 < n <= len (of_positions t) -> exists p, position t n = Ok p.
Proof.
  intros t n H. unfold position, len in *.
  destruct (nth_error (of_positions t) (Z.to_nat (n - 1))) as [q|] eqn:E; [eauto|].
  apply nth_error_None in E. lia.
Qed.

Lemma position_out : forall t n, len (of_positions t) < n -> position t n = Err IndexErr.
Proof.
  intros t n H. unfold position, len in *.
  destruct (nth_error (of_positions t) (Z.to_nat (n - 1))) as [q|] eqn:E; [|reflexivity].
  assert (nth_error (of_positions t) (Z.to_nat (n - 1)) <> None) as G by congruence. apply nth_error_Some in G. lia.
Qed.

Lemma object_class : forall t n ob, 0 < n -> read_object t n = Ok (Some ob) ->
  exists c, read_chunk t n = Ok c /\ ck_id c = class_id (okind ob).
Proof.
  intros t n ob N H. unfold read_object in H. unfold read_chunk. destruct (Z.eqb_spec n 0); [lia|].
  destruct (position t n) as [p|e]; [|discriminate H].
  destruct (rchunk_head (hd_bo (of_head t)) (skipn (Z.to_nat p) (of_file t))) as [[[cc size] b]|e]; [|discriminate H].
  destruct (_ =? size) in H; [|discriminate H].
  destruct (robject (of_ictx t) cc (firstn (Z.to_nat size) b)) as [o|e] eqn:R; [|discriminate H]. injection H as ->.
  eexists. split; [reflexivity|]. cbn [ck_id]. unfold robject in R.
  destruct (kind_of cc) as [k|] eqn:K; [|discriminate R]. apply kind_of_some in K.
  unfold rbody, bind, ret in R.
  destruct (C_read (class_of k) (of_ictx t) (firstn (Z.to_nat size) b)) as [[v r]|e]; [|discriminate R].
  destruct r; [|discriminate R]. injection R as <-. exact K.
Qed.

Lemma valid_iff : forall t n, ref_is_valid t n = true <-> n <= len (of_positions t).
Proof. intros t n. unfold ref_is_valid. destruct (Z.leb_spec (1 + len (of_positions t)) n); split; intros; try lia; congruence. Qed.

Lemma small_bytes : Forall is_byte small_file.
Proof.
  apply Forall_forall. intros x Hx. assert (forallb (fun x => (0 <=? x) && (x <? 256)) small_file = true) as G
    by (vm_compute; reflexivity). rewrite forallb_forall in G. specialize (G x Hx).
  apply andb_true_iff in G as [G1 G2]. unfold is_byte. lia.
Qed.
