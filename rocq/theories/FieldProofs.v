(** The fields of a mob ID do not disturb each other. *)
From Coq Require Import ZArith List Bool Lia.
From Verif Require Import Base IoCtx RoundTrip MobId MobIdProofs UrnProofs PrimProofs.
Import ListNotations.
Open Scope Z_scope.

(** The assignable fields of a [MobID]; a number is a one-element list. *)
Inductive mfield := FLabel | FLength | FHigh | FMid | FLow | FMaterial | FData1 | FData2 | FData3 | FData4.

Definition mf_get (f : mfield) (m : mobid) : list Z :=
  match f with
  | FLabel => m_label m | FLength => [m_length m] | FHigh => [m_instanceHigh m]
  | FMid => [m_instanceMid m] | FLow => [m_instanceLow m] | FMaterial => m_material m
  | FData1 => [m_Data1 m] | FData2 => [m_Data2 m] | FData3 => [m_Data3 m] | FData4 => m_Data4 m
  end.

Definition mf_set (f : mfield) (m : mobid) (v : list Z) : result mobid :=
  match f, v with
  | FLabel, _ => m_set_label m v
  | FLength, [x] => m_set_length m x
  | FHigh, [x] => m_set_instanceHigh m x
  | FMid, [x] => m_set_instanceMid m x
  | FLow, [x] => m_set_instanceLow m x
  | FMaterial, _ => Ok (m_set_material m v)
  | FData1, [x] => m_set_Data1 m x
  | FData2, [x] => m_set_Data2 m x
  | FData3, [x] => m_set_Data3 m x
  | FData4, _ => m_set_Data4 m v
  | _, _ => Err TypeErr
  end.

(** The values a field can hold. *)
Definition mf_value (f : mfield) (v : list Z) : Prop :=
  match f with
  | FLabel => length v = 12%nat /\ Forall is_byte v
  | FLength | FHigh | FMid | FLow => exists x, v = [x] /\ 0 <= x <= 255
  | FMaterial => length v = 16%nat /\ Forall is_byte v
  | FData1 => exists x, v = [x] /\ 0 <= x <= 0xFFFFFFFF
  | FData2 | FData3 => exists x, v = [x] /\ 0 <= x <= 0xFFFF
  | FData4 => length v = 8%nat /\ Forall is_byte v
  end.

(** The material number is made of Data1 to Data4; the other fields are apart. *)
Definition mf_part_of_material (f : mfield) : bool :=
  match f with FMaterial | FData1 | FData2 | FData3 | FData4 => true | _ => false end.

Definition mf_disjoint (f g : mfield) : Prop :=
  f <> g /\ ~ (f = FMaterial /\ mf_part_of_material g = true)
         /\ ~ (g = FMaterial /\ mf_part_of_material f = true).

Lemma is_byte_255 : forall x, 0 <= x <= 255 -> is_byte x.
Proof. intros. unfold is_byte. lia. Qed.

Lemma set_uint_val : forall off n m v, 0 <= v < pow256 n ->
  m_set_uint off n m v = Ok (splice m off (le_enc n v)).
Proof.
  intros off n m v H. unfold m_set_uint. now rewrite (proj1 (wunsigned_spec LE n v)).
Qed.

Lemma le4 : forall v, 0 <= v < pow256 4 ->
  exists a b c d, le_enc 4 v = [a; b; c; d] /\
    is_byte a /\ is_byte b /\ is_byte c /\ is_byte d /\
    a + b * 256 + c * 65536 + d * 16777216 = v.
Proof.
  intros v H. pose proof (le_enc_length 4 v) as Hl. pose proof (le_enc_bytes 4 v) as Hb.
  pose proof (le_dec_enc 4 v) as Hd. rewrite Z.mod_small in Hd by auto.
  remember (le_enc 4 v) as l eqn:E. clear E.
  destruct l as [|a [|b [|c [|d [|]]]]]; try discriminate Hl.
  exists a, b, c, d. cbn [le_dec] in Hd.
  pose proof (Forall_inv Hb). apply Forall_inv_tail in Hb.
  pose proof (Forall_inv Hb). apply Forall_inv_tail in Hb.
  pose proof (Forall_inv Hb). apply Forall_inv_tail in Hb.
  pose proof (Forall_inv Hb). repeat split; auto; try lia; apply H0 || apply H1 || apply H2 || apply H3.
Qed.

Lemma le2 : forall v, 0 <= v < pow256 2 ->
  exists a b, le_enc 2 v = [a; b] /\ is_byte a /\ is_byte b /\ a + b * 256 = v.
Proof.
  intros v H. pose proof (le_enc_length 2 v) as Hl. pose proof (le_enc_bytes 2 v) as Hb.
  pose proof (le_dec_enc 2 v) as Hd. rewrite Z.mod_small in Hd by auto.
  remember (le_enc 2 v) as l eqn:E. clear E.
  destruct l as [|a [|b [|]]]; try discriminate Hl.
  exists a, b. cbn [le_dec] in Hd.
  pose proof (Forall_inv Hb). apply Forall_inv_tail in Hb.
  pose proof (Forall_inv Hb). repeat split; auto; try lia; apply H0 || apply H1.
Qed.

Lemma splice_wf : forall m off v, mobid_wf m -> (off + length v <= 32)%nat -> Forall is_byte v ->
  mobid_wf (splice m off v).
Proof.
  intros m off v [Hl Hb] Hv Hbv. unfold splice. split.
  - rewrite !app_length, firstn_length, skipn_length. lia.
  - rewrite !Forall_app. auto using Forall_firstn', Forall_skipn'.
Qed.

Lemma mf_set_ok : forall f m v, mobid_wf m -> mf_value f v ->
  exists m', mf_set f m v = Ok m' /\ mobid_wf m' /\ mf_get f m' = v /\
    forall g, mf_disjoint f g -> mf_get g m' = mf_get g m.
Proof.
  intros f m v Hwf Hv. pose proof Hwf as [Hl Hb].
  assert (forall m' : mobid, mf_set f m v = Ok m' -> mobid_wf m' -> mf_get f m' = v ->
    (forall g, mf_disjoint f g -> mf_get g m' = mf_get g m) ->
    exists m', mf_set f m v = Ok m' /\ mobid_wf m' /\ mf_get f m' = v /\
    forall g, mf_disjoint f g -> mf_get g m' = mf_get g m) as K by eauto.
  destruct f; cbn [mf_value] in Hv;
    try (destruct Hv as (x & -> & Hx)); try (destruct Hv as [Hvl Hvb]).
  - eapply K; [cbn [mf_set]; now apply m_set_label_ok|apply splice_wf; auto; lia| |].
    + clear Hb Hwf K Hvb. explode m Hl. explode v Hvl. reflexivity.
    + intros g (Hg1 & Hg2 & Hg3). clear Hb Hwf K Hvb. explode m Hl. explode v Hvl.
      destruct g; try reflexivity; congruence.
  - eapply K; [cbn [mf_set]; apply m_set_byte_ok; now apply is_byte_255
              |apply splice_wf; cbn; auto; try lia; constructor; auto; now apply is_byte_255| |].
    + clear Hb Hwf K. explode m Hl. reflexivity.
    + intros g (Hg1 & Hg2 & Hg3). clear Hb Hwf K. explode m Hl.
      destruct g; try reflexivity; congruence.
  - eapply K; [cbn [mf_set]; apply m_set_byte_ok; now apply is_byte_255
              |apply splice_wf; cbn; auto; try lia; constructor; auto; now apply is_byte_255| |].
    + clear Hb Hwf K. explode m Hl. reflexivity.
    + intros g (Hg1 & Hg2 & Hg3). clear Hb Hwf K. explode m Hl.
      destruct g; try reflexivity; congruence.
  - eapply K; [cbn [mf_set]; apply m_set_byte_ok; now apply is_byte_255
              |apply splice_wf; cbn; auto; try lia; constructor; auto; now apply is_byte_255| |].
    + clear Hb Hwf K. explode m Hl. reflexivity.
    + intros g (Hg1 & Hg2 & Hg3). clear Hb Hwf K. explode m Hl.
      destruct g; try reflexivity; congruence.
  - eapply K; [cbn [mf_set]; apply m_set_byte_ok; now apply is_byte_255
              |apply splice_wf; cbn; auto; try lia; constructor; auto; now apply is_byte_255| |].
    + clear Hb Hwf K. explode m Hl. reflexivity.
    + intros g (Hg1 & Hg2 & Hg3). clear Hb Hwf K. explode m Hl.
      destruct g; try reflexivity; congruence.
  - eapply K; [reflexivity
      |apply splice_wf; auto; unfold uuid_bytes_le;
       [rewrite uuid_swap_length; auto; lia|now apply uuid_swap_bytes]| |].
    + clear Hb Hwf K Hvb. explode m Hl. explode v Hvl. reflexivity.
    + intros g (Hg1 & Hg2 & Hg3). clear Hb Hwf K Hvb. explode m Hl. explode v Hvl.
      destruct g; try reflexivity; try congruence; exfalso; apply Hg2; auto.
  - assert (0 <= x < pow256 4) as Hr by (unfold pow256; cbn; lia).
    destruct (le4 x Hr) as (a & b & c & d & E & B1 & B2 & B3 & B4 & Ex).
    eapply K; [cbn [mf_set]; unfold m_set_Data1; now apply set_uint_val
              |apply splice_wf; rewrite ?E; cbn; auto; lia| |]; rewrite E.
    + clear Hb Hwf K E. explode m Hl. unfold mf_get, m_Data1, unpack_u32le_from.
      cbn [splice firstn skipn app Nat.add length byte_at nth].
      unfold splice, byte_at. cbn [firstn skipn app Nat.add length nth].
      rewrite !Z.shiftl_mul_pow2 by lia.
      change (2 ^ 8) with 256. change (2 ^ 16) with 65536. change (2 ^ 24) with 16777216.
      now rewrite Ex.
    + intros g (Hg1 & Hg2 & Hg3). clear Hb Hwf K E. explode m Hl.
      destruct g; try reflexivity; try congruence; exfalso; apply Hg3; auto.
  - assert (0 <= x < pow256 2) as Hr by (unfold pow256; cbn; lia).
    destruct (le2 x Hr) as (a & b & E & B1 & B2 & Ex).
    eapply K; [cbn [mf_set]; unfold m_set_Data2; now apply set_uint_val
              |apply splice_wf; rewrite ?E; cbn; auto; lia| |]; rewrite E.
    + clear Hb Hwf K E. explode m Hl. unfold mf_get, m_Data2, unpack_u16le_from.
      unfold splice, byte_at. cbn [firstn skipn app Nat.add length nth].
      rewrite !Z.shiftl_mul_pow2 by lia. change (2 ^ 8) with 256. now rewrite Ex.
    + intros g (Hg1 & Hg2 & Hg3). clear Hb Hwf K E. explode m Hl.
      destruct g; try reflexivity; try congruence; exfalso; apply Hg3; auto.
  - assert (0 <= x < pow256 2) as Hr by (unfold pow256; cbn; lia).
    destruct (le2 x Hr) as (a & b & E & B1 & B2 & Ex).
    eapply K; [cbn [mf_set]; unfold m_set_Data3; now apply set_uint_val
              |apply splice_wf; rewrite ?E; cbn; auto; lia| |]; rewrite E.
    + clear Hb Hwf K E. explode m Hl. unfold mf_get, m_Data3, unpack_u16le_from.
      unfold splice, byte_at. cbn [firstn skipn app Nat.add length nth].
      rewrite !Z.shiftl_mul_pow2 by lia. change (2 ^ 8) with 256. now rewrite Ex.
    + intros g (Hg1 & Hg2 & Hg3). clear Hb Hwf K E. explode m Hl.
      destruct g; try reflexivity; try congruence; exfalso; apply Hg3; auto.
  - eapply K; [cbn [mf_set]; now apply m_set_Data4_ok|apply splice_wf; auto; lia| |].
    + clear Hb Hwf K Hvb. explode m Hl. explode v Hvl. reflexivity.
    + intros g (Hg1 & Hg2 & Hg3). clear Hb Hwf K Hvb. explode m Hl. explode v Hvl.
      destruct g; try reflexivity; try congruence; exfalso; apply Hg3; auto.
Qed.

(** The dictionary form rebuilds the mob ID, whatever was there before. *)
Lemma dict_roundtrip : forall m0 m, mobid_wf m0 -> mobid_wf m ->
  m_from_dict m0 (m_to_dict m) = Ok m.
Proof.
  intros m0 m [Hl0 Hb0] [Hl Hb]. unfold m_from_dict, m_to_dict.
  cbn [md_length md_instanceHigh md_instanceMid md_instanceLow md_Data1 md_Data2 md_Data3
       md_Data4 md_SMPTELabel].
  unfold m_set_length, m_set_instanceHigh, m_set_instanceMid, m_set_instanceLow.
  rewrite m_set_byte_ok by (apply (byte_at_byte m); auto). cbn [rbind].
  rewrite m_set_byte_ok by (apply (byte_at_byte m); auto). cbn [rbind].
  rewrite m_set_byte_ok by (apply (byte_at_byte m); auto). cbn [rbind].
  rewrite m_set_byte_ok by (apply (byte_at_byte m); auto). cbn [rbind].
  rewrite dec_slice_u32 by auto. unfold m_Data2, m_Data3.
  rewrite !dec_slice_u16 by lia. cbn [Nat.add]. unfold m_set_Data1, m_set_Data2, m_set_Data3.
  rewrite set_uint_ok; [|now rewrite rev_length, slice_length by lia|apply Forall_rev; now apply slice_bytes].
  cbn [rbind].
  rewrite set_uint_ok; [|now rewrite rev_length, slice_length by lia|apply Forall_rev; now apply slice_bytes].
  cbn [rbind].
  rewrite set_uint_ok; [|now rewrite rev_length, slice_length by lia|apply Forall_rev; now apply slice_bytes].
  cbn [rbind].
  rewrite m_set_Data4_ok; [|apply slice_length; lia|now apply slice_bytes]. cbn [rbind].
  rewrite m_set_label_ok; [|apply slice_length; lia|now apply slice_bytes].
  rewrite !rev_involutive. clear Hb Hb0. explode m0 Hl0. explode m Hl. reflexivity.
Qed.

(** A fresh mob ID: the fixed label and the given UUID. *)
Lemma unique_mobid_ok : forall u, uuid_wf u -> exists m,
  unique_mobid u = Ok m /\ mobid_wf m /\ m_material m = u /\ m_label m = unique_label.
Proof.
  intros u [Hl Hb]. eexists. split; [reflexivity|]. split; [|split].
  - split.
    + explode u Hl. reflexivity.
    + unfold m_set_material. apply Forall_app. split; [|apply Forall_app; split].
      * apply Forall_forall. intros x Hx. cbn in Hx.
        repeat (destruct Hx as [<-|Hx]; [unfold is_byte; lia|]). destruct Hx.
      * apply uuid_swap_bytes; auto.
      * unfold uuid_bytes_le. rewrite uuid_swap_length by auto.
        apply Forall_forall. intros x Hx. cbn in Hx. destruct Hx.
  - explode u Hl. reflexivity.
  - explode u Hl. reflexivity.
Qed.
