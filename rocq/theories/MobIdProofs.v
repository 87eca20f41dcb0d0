(** Lemmas about UUIDs, mob IDs and the integer helpers. *)
From Coq Require Import ZArith List Bool Lia.
From Verif Require Import Base IoCtx RoundTrip MobId.
Import ListNotations.
Open Scope Z_scope.

(** Splits a list of known length into its elements. *)
Ltac explode l H :=
  repeat (let x := fresh "x" in destruct l as [|x l]; [discriminate H|];
          cbn [length] in H; apply eq_add_S in H);
  destruct l; [clear H|discriminate H].

Ltac split_bytes H :=
  repeat match type of H with
    | Forall _ (_ :: _) =>
      let h := fresh "B" in let t := fresh in
      pose proof (Forall_inv H) as h; pose proof (Forall_inv_tail H) as t; clear H; rename t into H
    end.

(** ** UUIDs *)

Lemma slice_length : forall b i j, (j <= length b)%nat -> (i <= j)%nat ->
  length (slice b i j) = (j - i)%nat.
Proof. intros b i j H1 H2. unfold slice. rewrite firstn_length, skipn_length. lia. Qed.

Lemma Forall_firstn' : forall A (P : A -> Prop) n l, Forall P l -> Forall P (firstn n l).
Proof.
  intros A P n l H. revert n. induction H; intros [|n]; cbn; auto.
Qed.

Lemma Forall_skipn' : forall A (P : A -> Prop) n l, Forall P l -> Forall P (skipn n l).
Proof.
  intros A P n l H. revert n. induction H; intros [|n]; cbn; auto.
Qed.

Lemma slice_bytes : forall b i j, Forall is_byte b -> Forall is_byte (slice b i j).
Proof. intros b i j H. unfold slice. now apply Forall_firstn', Forall_skipn'. Qed.

Definition orient (bo : border) (s : bytes) : bytes := match bo with LE => rev s | BE => s end.

Lemma enc_dec_be : forall bo n s, length s = n -> Forall is_byte s ->
  enc bo n (dec BE s) = orient bo s.
Proof.
  intros bo n s <- H. unfold orient. destruct bo.
  - unfold enc, dec. rewrite <- (rev_length s). apply le_enc_dec. now apply Forall_rev.
  - now apply enc_dec.
Qed.

Lemma orient_length : forall bo s, length (orient bo s) = length s.
Proof. intros [] s; cbn; auto using rev_length. Qed.

Lemma rt_be_bytes : forall P bo n s, length s = n -> Forall is_byte s ->
  rt P (fread (Z.of_nat n)) (wunsigned bo n (dec BE s)) (orient bo s).
Proof.
  intros P bo n s Hl Hb bs rest Hw _. unfold wunsigned in Hw.
  destruct ((0 <=? dec BE s) && (dec BE s <? pow256 n)); [|discriminate].
  apply Ok_inj in Hw as <-. rewrite enc_dec_be by auto.
  apply fread_app. unfold len. now rewrite orient_length, Hl.
Qed.

Lemma uuid_swap_swap : forall u, length u = 16%nat -> uuid_swap (uuid_swap u) = u.
Proof. intros u H. explode u H. reflexivity. Qed.

Lemma uuid_swap_length : forall u, length u = 16%nat -> length (uuid_swap u) = 16%nat.
Proof. intros u H. explode u H. reflexivity. Qed.

Lemma uuid_swap_bytes : forall u, Forall is_byte u -> length u = 16%nat -> Forall is_byte (uuid_swap u).
Proof.
  intros u H _. unfold uuid_swap. rewrite !Forall_app.
  repeat split; try apply Forall_rev; try apply slice_bytes; auto. now apply Forall_skipn'.
Qed.

Lemma rt_uuid : forall P bo u, uuid_wf u -> rt P (ruuid bo) (wuuid bo u) u.
Proof.
  intros P bo u [Hl Hb]. unfold ruuid, wuuid.
  eapply rt_bind; [apply (rt_tag anyr)| |intros; exact I].
  eapply rt_bind; [apply (rt_be_bytes anyr bo 4 (slice u 0 4))| |intros; exact I].
  { apply slice_length; lia. }
  { now apply slice_bytes. }
  eapply rt_bind; [apply (rt_tag anyr)| |intros; exact I].
  eapply rt_bind; [apply (rt_be_bytes anyr bo 2 (slice u 4 6))| |intros; exact I].
  { apply slice_length; lia. }
  { now apply slice_bytes. }
  eapply rt_bind; [apply (rt_tag anyr)| |intros; exact I].
  eapply rt_bind; [apply (rt_be_bytes anyr bo 2 (slice u 6 8))| |intros; exact I].
  { apply slice_length; lia. }
  { now apply slice_bytes. }
  eapply rt_bind; [apply (rt_tag anyr)| |intros; exact I].
  eapply rt_bind; [apply (rt_s32 anyr)| |intros; exact I].
  eapply rt_bind_pure; [reflexivity|].
  eapply rt_bind_last; [apply rt_bytes|].
  - explode u Hl. destruct bo; reflexivity.
  - intros rest. explode u Hl. destruct bo; reflexivity.
Qed.

Lemma rt_rawuuid : forall P bo u, uuid_wf u -> rt P (rrawuuid bo) (wrawuuid bo u) u.
Proof.
  intros P bo u [Hl Hb]. unfold rrawuuid, wrawuuid.
  eapply rt_bind_last; [apply rt_bytes|].
  - explode u Hl. destruct bo; reflexivity.
  - intros rest. explode u Hl. destruct bo; reflexivity.
Qed.

(** ** Mob IDs in a chunk *)

Lemma rt_forallb_label : forall v, Forall is_byte v -> forallb byte_ok v = true.
Proof.
  intros v H. apply forallb_forall. intros x Hx. rewrite Forall_forall in H.
  specialize (H x Hx). unfold is_byte, byte_ok in *. apply andb_true_intro.
  split; [apply Z.leb_le|apply Z.ltb_lt]; lia.
Qed.

Lemma m_set_label_ok : forall m v, length v = 12%nat -> Forall is_byte v ->
  m_set_label m v = Ok (splice m 0 v).
Proof.
  intros m v Hl Hb. unfold m_set_label, len. rewrite Hl, rt_forallb_label by auto. reflexivity.
Qed.

Lemma byte_ok_true : forall v, is_byte v -> byte_ok v = true.
Proof.
  intros v H. unfold is_byte, byte_ok in *. apply andb_true_intro.
  split; [apply Z.leb_le|apply Z.ltb_lt]; lia.
Qed.

Lemma m_set_byte_ok : forall k m v, is_byte v -> m_set_byte k m v = Ok (splice m k [v]).
Proof. intros k m v H. unfold m_set_byte. now rewrite byte_ok_true. Qed.

Lemma byte_at_byte : forall m k, Forall is_byte m -> is_byte (byte_at m k).
Proof.
  intros m k H. unfold byte_at. destruct (nth_in_or_default k m 0) as [Hi | ->].
  - rewrite Forall_forall in H. auto.
  - unfold is_byte. lia.
Qed.

Lemma material_wf : forall m, mobid_wf m -> uuid_wf (m_material m).
Proof.
  intros m [Hl Hb]. unfold m_material, uuid_wf.
  assert (length (skipn 16 m) = 16%nat) as H by (rewrite skipn_length; lia). split.
  - now apply uuid_swap_length.
  - apply uuid_swap_bytes; auto. now apply Forall_skipn'.
Qed.

Lemma rt_mobid : forall P bo m, mobid_wf m -> rt P (rmobid bo) (wmobid bo m) m.
Proof.
  intros P bo m Hwf. pose proof Hwf as [Hl Hb]. unfold rmobid, wmobid.
  eapply rt_bind; [apply (rt_tag anyr)| |intros; exact I].
  eapply rt_bind; [apply (rt_s32 anyr)| |intros; exact I].
  eapply rt_bind_pure; [reflexivity|].
  eapply rt_bind; [apply (rt_list_id _ anyr ru8 wu8)| |intros; exact I].
  { unfold m_label. rewrite slice_length; lia. }
  { intros. apply rt_u8. }
  assert (length (m_label m) = 12%nat) as Hll by (unfold m_label; rewrite slice_length; lia).
  assert (Forall is_byte (m_label m)) as Hlb by now apply slice_bytes.
  eapply rt_bind_pure; [intros; rewrite m_set_label_ok by auto; reflexivity|].
  do 4 (eapply rt_bind; [apply (rt_tag anyr)| |intros; exact I];
        eapply rt_bind; [apply (rt_u8 anyr)| |intros; exact I];
        eapply rt_bind_pure;
        [intros; unfold m_set_length, m_set_instanceHigh, m_set_instanceMid, m_set_instanceLow;
         rewrite m_set_byte_ok by (apply (byte_at_byte m); exact Hb); reflexivity|]).
  eapply rt_bind_last; [apply rt_uuid; now apply material_wf|].
  intros rest. unfold ret. f_equal. f_equal. clear Hwf Hll Hlb Hb. explode m Hl. reflexivity.
Qed.

#[export] Hint Resolve rt_uuid rt_rawuuid rt_mobid : rt.

(** ** Integer helpers *)

Lemma int_from_bytes_le_dec : forall b i, 0 <= i ->
  int_from_bytes_le b i = 2 ^ (i * 8) * le_dec b.
Proof.
  induction b as [|x b IH]; intros i Hi; cbn [int_from_bytes_le le_dec].
  - now rewrite Z.mul_0_r.
  - rewrite IH, Z.shiftl_mul_pow2 by lia.
    replace ((i + 1) * 8) with (i * 8 + 8) by lia.
    rewrite Z.pow_add_r by lia. change (2 ^ 8) with 256. lia.
Qed.

Lemma le_dec_app : forall a b, le_dec (a ++ b) = le_dec a + pow256 (length a) * le_dec b.
Proof.
  induction a as [|x a IH]; intros b; cbn [app le_dec length].
  - unfold pow256. cbn [Z.of_nat]. rewrite Z.pow_0_r. lia.
  - rewrite IH, pow256_S. lia.
Qed.

Lemma pow2_pow256 : forall n, 2 ^ (Z.of_nat n * 8) = pow256 n.
Proof.
  intros n. unfold pow256. rewrite Z.mul_comm, Z.pow_mul_r by lia. reflexivity.
Qed.

Lemma int_from_bytes_be_dec : forall b l i, l = i + len b - 1 -> 0 <= i ->
  int_from_bytes_be b l i = le_dec (rev b).
Proof.
  induction b as [|x b IH]; intros l i Hl Hi; cbn [int_from_bytes_be rev]; auto.
  unfold len in *. cbn [length] in Hl. rewrite IH by lia.
  rewrite le_dec_app, rev_length, Z.shiftl_mul_pow2 by lia.
  replace ((l - i) * 8) with (Z.of_nat (length b) * 8) by lia.
  rewrite pow2_pow256. cbn [le_dec]. lia.
Qed.

Lemma int_from_bytes_dec : forall b bo, int_from_bytes b bo = dec bo b.
Proof.
  intros b []; unfold int_from_bytes, dec.
  - rewrite int_from_bytes_le_dec by lia. rewrite Z.mul_0_l, Z.pow_0_r. lia.
  - apply int_from_bytes_be_dec; lia.
Qed.

Lemma land_255 : forall x, Z.land x 255 = x mod 256.
Proof. intros x. change 255 with (Z.ones 8). rewrite Z.land_ones by lia. reflexivity. Qed.

Lemma le_enc_map : forall n num k,
  map (fun i => Z.land (Z.shiftr num (Z.of_nat i * 8)) 255) (seq k n)
  = le_enc n (num / pow256 k).
Proof.
  induction n as [|n IH]; intros num k; cbn [seq map le_enc]; auto.
  f_equal.
  - rewrite land_255, Z.shiftr_div_pow2, pow2_pow256 by lia. reflexivity.
  - rewrite IH, pow256_S. f_equal. pose proof (pow256_pos k).
    rewrite Z.div_div by lia. f_equal. lia.
Qed.

Lemma rev_seq_map : forall A (f : nat -> A) n,
  rev (map f (seq 0 n)) = map (fun i => f (n - 1 - i)%nat) (seq 0 n).
Proof.
  intros A f n. induction n as [|n IH]; [reflexivity|].
  rewrite seq_S at 1. rewrite map_app, rev_app_distr, IH. cbn [rev map app seq].
  f_equal; [f_equal; lia|]. rewrite <- seq_shift, map_map.
  apply map_ext_in. intros i Hi. f_equal. lia.
Qed.

Lemma bytes_from_int_enc : forall num length bo,
  bytes_from_int num length bo = enc bo (Z.to_nat length) num.
Proof.
  intros num length bo. unfold bytes_from_int, enc. destruct bo.
  - cbv zeta. rewrite le_enc_map. unfold pow256. cbn [Z.of_nat].
    rewrite Z.pow_0_r, Z.div_1_r. reflexivity.
  - cbv zeta. pose proof (le_enc_map (Z.to_nat length) num 0) as H.
    change (pow256 0) with 1 in H. rewrite Z.div_1_r in H. rewrite <- H.
    rewrite rev_seq_map. apply map_ext_in. intros i Hi. apply in_seq in Hi.
    do 3 f_equal. lia.
Qed.

(** ** Integer form, order, hash *)

Lemma m_int_dec : forall m, m_int m = dec BE m.
Proof. intros m. apply int_from_bytes_dec. Qed.

Lemma m_of_int_enc : forall v, m_of_int v = enc BE 32 v.
Proof. intros v. apply bytes_from_int_enc. Qed.

Lemma m_int_range : forall m, mobid_wf m -> 0 <= m_int m < 2 ^ 256.
Proof.
  intros m [Hl Hb]. rewrite m_int_dec. pose proof (dec_range BE m Hb) as H.
  rewrite Hl in H. exact H.
Qed.

Lemma m_of_int_int : forall m, mobid_wf m -> m_of_int (m_int m) = m.
Proof.
  intros m [Hl Hb]. rewrite m_int_dec, m_of_int_enc, <- Hl. now apply enc_dec.
Qed.

Lemma m_int_of_int : forall v, m_int (m_of_int v) = v mod 2 ^ 256.
Proof. intros v. rewrite m_int_dec, m_of_int_enc, dec_enc. reflexivity. Qed.

Lemma m_of_int_wf : forall v, mobid_wf (m_of_int v).
Proof.
  intros v. rewrite m_of_int_enc. split; [apply enc_length|apply enc_bytes].
Qed.

Lemma m_int_inj : forall a b, mobid_wf a -> mobid_wf b -> m_int a = m_int b -> a = b.
Proof.
  intros a b Ha Hb H. rewrite <- (m_of_int_int a Ha), <- (m_of_int_int b Hb). now rewrite H.
Qed.

Lemma m_eqb_eq : forall a b, m_eqb a b = true <-> a = b.
Proof.
  intros a b. unfold m_eqb. destruct (list_eq_dec Z.eq_dec a b); split; congruence.
Qed.
