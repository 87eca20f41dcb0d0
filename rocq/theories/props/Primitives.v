(** Properties C01, C02, C03, C06, C07, C08, C09, C10 and C49. *)
From Coq Require Import ZArith List Bool Lia.
From Verif Require Import Base IoCtx RoundTrip Text TextProofs MobId MobIdProofs UrnProofs
  PrimProofs FieldProofs.
Import ListNotations.
Open Scope Z_scope.

(** ** C01 *)

(** A value in range is stored in the field's width, as the base-256 digits of its two's
    complement in the order asked for, and reading gives it back with what followed. *)
Theorem C01_integer_round_trip : forall k bo v rest, ik_min k <= v <= ik_max k ->
  exists bs, ik_write k bo v = Ok bs /\ length bs = ik_size k /\ Forall is_byte bs /\
    place_value bo bs = v mod 256 ^ Z.of_nat (ik_size k) /\
    ik_read k bo (bs ++ rest) = Ok (v, rest).
Proof.
  intros k bo v rest H. destruct (ik_in_range k bo v H) as (bs & E & Hl & Hb & Hp).
  exists bs. repeat split; auto. now apply ik_roundtrip.
Qed.
Print Assumptions C01_integer_round_trip.

(** A value out of range is refused. *)
Theorem C01_out_of_range_refused : forall k bo v, ~ ik_min k <= v <= ik_max k ->
  ik_write k bo v = Err StructError.
Proof. exact ik_out_of_range. Qed.
Print Assumptions C01_out_of_range_refused.

Example C01_example :
  ik_write KS16 BE (-2) = Ok [255; 254] /\ ik_write KS16 LE (-2) = Ok [254; 255] /\
  ik_read KS16 BE [255; 254; 7] = Ok (-2, [7]) /\ ik_write KU16 LE 65536 = Err StructError.
Proof. repeat split. Qed.

(** ** C02 *)

Theorem C02_text_round_trip : forall bo s rest,
  Forall mac_char s -> no_outer_nul s -> len s < 65535 ->
  exists bs, wstr bo s = Ok bs /\ rstr bo (bs ++ rest) = Ok (s, rest).
Proof.
  intros bo s rest H1 H2 H3. destruct (wstr_ok bo s H1 ltac:(lia)) as [bs E].
  exists bs. split; auto. now apply rstr_roundtrip.
Qed.
Print Assumptions C02_text_round_trip.

(** The stored form: the number of characters, then a byte for each, the one Mac Roman gives it. *)
Theorem C02_text_stored_as_mac_roman : forall bo s bs n, s <> [] -> Forall2 mac_pair s bs ->
  wu16 bo (len s) = Ok n -> wstr bo s = Ok (n ++ bs).
Proof.
  intros bo s bs n Hs H Hn. rewrite (wstr_text bo s bs Hs (mac_encode_pairs _ _ H)), Hn. reflexivity.
Qed.
Print Assumptions C02_text_stored_as_mac_roman.

(** Every byte stands for a character, and no two bytes for the same one. *)
Theorem C02_every_byte_has_its_character : forall b, 0 <= b < 256 ->
  exists c, mac_pair c b /\ forall b', mac_pair c b' -> b' = b.
Proof.
  intros b Hb. exists (mac_dec1 b).
  assert (mac_enc1 (mac_dec1 b) = Some b) as E.
  { assert (forallb (fun b => match mac_enc1 (mac_dec1 b) with Some x => x =? b | None => false end)
      (map Z.of_nat (seq 0 256)) = true) as Q by (vm_compute; reflexivity).
    rewrite forallb_forall in Q. specialize (Q b).
    assert (In b (map Z.of_nat (seq 0 256))) as I.
    { apply in_map_iff. exists (Z.to_nat b). rewrite in_seq. lia. }
    apply Q in I. destruct (mac_enc1 (mac_dec1 b)) as [x|]; [|discriminate]. apply Z.eqb_eq in I. now subst. }
  split; [now apply mac_enc_pair|]. intros b' H. apply mac_pair_enc in H. congruence.
Qed.
Print Assumptions C02_every_byte_has_its_character.

Theorem C02_foreign_character_refused : forall bo s, ~ Forall mac_char s ->
  wstr bo s = Err UnicodeErr.
Proof. exact wstr_unencodable. Qed.
Print Assumptions C02_foreign_character_refused.

Theorem C02_too_long_refused : forall bo s, Forall mac_char s -> 65535 < len s ->
  wstr bo s = Err StructError.
Proof. exact wstr_too_long. Qed.
Print Assumptions C02_too_long_refused.

(** 65535 characters are written and read as the empty text; the characters are left in
    the way of whatever follows. *)
Theorem C02_length_65535_lost : forall bo s rest, Forall mac_char s -> len s = 65535 ->
  exists bs body, wstr bo s = Ok bs /\ len body = 65535 /\
    rstr bo (bs ++ rest) = Ok ([], body ++ rest).
Proof. exact wstr_65535. Qed.
Print Assumptions C02_length_65535_lost.

(** "Ä b" and a text with a character Mac Roman lacks. *)
Example C02_example :
  Forall mac_char [196; 32; 98] /\ no_outer_nul [196; 32; 98] /\
  wstr LE [196; 32; 98] = Ok [3; 0; 128; 32; 98] /\ ~ Forall mac_char [0x4E00].
Proof.
  split; [|split; [|split]].
  - apply Forall_forall. intros x [<-|[<-|[<-|[]]]]; apply mac_char_table; vm_compute; tauto.
  - split; cbn; lia.
  - reflexivity.
  - intros H. apply Forall_inv in H. apply mac_char_table in H.
    assert (index_of 0x4E00 mac_table 0 = None) as E by reflexivity.
    apply index_of_none in E. contradiction.
Qed.

(** ** C03 *)

Theorem C03_utf8_round_trip : forall bo s rest,
  Forall scalar s -> no_outer_nul s -> utf8_size s < 65533 ->
  exists bs, wstr_enc bo Utf8 s = Ok bs /\ rstr_enc bo Utf8 (bs ++ rest) = Ok (s, rest).
Proof.
  intros bo s rest H1 H2 H3. destruct (wutf8_ok bo s H1 ltac:(lia)) as [bs E].
  exists bs. split; auto. now apply utf8_roundtrip.
Qed.
Print Assumptions C03_utf8_round_trip.

(** An ASCII letter, a CJK character and one beyond the first plane. *)
Example C03_example :
  Forall scalar [97; 0x4E2D; 0x1F600] /\
  wstr_enc LE Utf8 [97; 0x4E2D; 0x1F600]
    = Ok [10; 0; 0; 0; 97; 0xE4; 0xB8; 0xAD; 0xF0; 0x9F; 0x98; 0x80].
Proof.
  split; [|reflexivity]. apply Forall_forall.
  intros x [<-|[<-|[<-|[]]]]; unfold scalar; lia.
Qed.

(** ** C06 *)

(** Tagged and raw form, each order. The UUID is a value without a byte order: the same [u]
    can be written in an order other than the one it was read in. *)
Theorem C06_uuid_tagged_round_trip : forall bo u rest, uuid_wf u ->
  exists bs, wuuid bo u = Ok bs /\ ruuid bo (bs ++ rest) = Ok (u, rest).
Proof. exact uuid_tagged. Qed.
Print Assumptions C06_uuid_tagged_round_trip.

Theorem C06_uuid_raw_round_trip : forall bo u rest, uuid_wf u ->
  exists bs, wrawuuid bo u = Ok bs /\ rrawuuid bo (bs ++ rest) = Ok (u, rest).
Proof. exact uuid_raw. Qed.
Print Assumptions C06_uuid_raw_round_trip.

Example C06_example :
  let u := [0; 1; 2; 3; 4; 5; 6; 7; 8; 9; 10; 11; 12; 13; 14; 15] in
  uuid_wf u /\ wrawuuid LE u = Ok [3; 2; 1; 0; 5; 4; 7; 6; 8; 9; 10; 11; 12; 13; 14; 15]
  /\ wrawuuid BE u = Ok u.
Proof.
  split; [split; [reflexivity|]|split; reflexivity].
  apply Forall_forall. intros x Hx. cbn in Hx.
  repeat (destruct Hx as [<-|Hx]; [unfold is_byte; lia|]). destruct Hx.
Qed.

(** ** C07 *)

Theorem C07_mobid_round_trip : forall bo m rest, mobid_wf m ->
  exists bs, wmobid bo m = Ok bs /\ rmobid bo (bs ++ rest) = Ok (m, rest).
Proof. exact mobid_wire. Qed.
Print Assumptions C07_mobid_round_trip.

Example C07_example : mobid_wf (m_of_int 0x060a2b340101010501010f2013000000abcdef) /\
  exists bs, wmobid LE (m_of_int 5) = Ok bs /\ len bs = 49.
Proof. split; [apply m_of_int_wf|eexists; split; vm_compute; reflexivity]. Qed.

(** ** C08 *)

Theorem C08_equality_is_integer_equality : forall a b, mobid_wf a -> mobid_wf b ->
  (m_eqb a b = true <-> a = b) /\ (a = b <-> m_int a = m_int b).
Proof.
  intros a b Ha Hb. split; [apply m_eqb_eq|]. split; [now intros ->|now apply m_int_inj].
Qed.
Print Assumptions C08_equality_is_integer_equality.

(** The comparison operators are a total order compatible with equality. *)
Theorem C08_total_order : forall a b c, mobid_wf a -> mobid_wf b -> mobid_wf c ->
  m_leb a a = true /\
  (m_leb a b = true -> m_leb b c = true -> m_leb a c = true) /\
  (m_leb a b = true -> m_leb b a = true -> m_eqb a b = true) /\
  (m_leb a b = true \/ m_leb b a = true) /\
  (m_ltb a b = true <-> m_leb a b = true /\ m_eqb a b = false) /\
  m_gtb a b = m_ltb b a /\ m_geb a b = m_leb b a.
Proof.
  intros a b c Ha Hb Hc. unfold m_leb, m_ltb, m_gtb, m_geb.
  rewrite !Z.leb_le, !Z.ltb_lt, Z.gtb_ltb, Z.geb_leb, m_eqb_eq.
  repeat split; try lia; intros; auto.
  - apply m_int_inj; auto. lia.
  - destruct (m_eqb a b) eqn:E; auto. apply m_eqb_eq in E. subst. lia.
  - destruct H as [H1 H2]. assert (m_int a <> m_int b); [|lia].
    intros E. apply m_int_inj in E; auto. apply m_eqb_eq in E. congruence.
Qed.
Print Assumptions C08_total_order.

Theorem C08_hash_respects_equality : forall h a b, m_eqb a b = true -> m_hash h a = m_hash h b.
Proof. intros h a b H. apply m_eqb_eq in H. now subst. Qed.
Print Assumptions C08_hash_respects_equality.

Theorem C08_integer_form : forall m, mobid_wf m ->
  0 <= m_int m < 2 ^ 256 /\ m_of_int (m_int m) = m.
Proof. intros m H. split; [now apply m_int_range|now apply m_of_int_int]. Qed.
Print Assumptions C08_integer_form.

Theorem C08_integer_assignment_wraps : forall v,
  mobid_wf (m_of_int v) /\ m_int (m_of_int v) = v mod 2 ^ 256.
Proof. intros v. split; [apply m_of_int_wf|apply m_int_of_int]. Qed.
Print Assumptions C08_integer_assignment_wraps.

Example C08_example :
  mobid_wf (m_of_int 1) /\ mobid_wf (m_of_int 256) /\ m_ltb (m_of_int 1) (m_of_int 256) = true /\
  m_eqb (m_of_int (2 ^ 256 + 1)) (m_of_int 1) = true.
Proof. repeat split; try apply m_of_int_wf; vm_compute; reflexivity. Qed.

(** ** C09 *)

Theorem C09_urn_names_the_mobid : forall m, mobid_wf m -> ~ urn_clash m ->
  m_of_urn (m_urn m) = Ok m.
Proof. exact urn_roundtrip. Qed.
Print Assumptions C09_urn_names_the_mobid.

Theorem C09_urn_injective : forall a b, mobid_wf a -> mobid_wf b ->
  ~ urn_clash a -> ~ urn_clash b -> m_urn a = m_urn b -> a = b.
Proof. exact urn_injective. Qed.
Print Assumptions C09_urn_injective.

(** The excepted mob IDs really come back as another one. *)
Theorem C09_clash_gives_another_mobid : forall m, mobid_wf m -> urn_clash m ->
  exists m', m_of_urn (m_urn m) = Ok m' /\ m' <> m.
Proof. exact urn_clash_differs. Qed.
Print Assumptions C09_clash_gives_another_mobid.

(** Witness: the unrestricted claim is false of the code. *)
Definition clash_example : mobid :=
  [0x06; 0x0a; 0x2b; 0x34; 1; 1; 1; 5; 1; 1; 0x0f; 0; 0x13; 0; 0; 0;
   0x34; 0x2b; 0x0e; 0x06; 0x7f; 0x7f; 0x2a; 0x80; 1; 2; 3; 4; 5; 6; 7; 8].

Theorem C09_unrestricted_refuted : exists m, mobid_wf m /\ urn_clash m /\
  m_of_urn (m_urn m) <> Ok m.
Proof.
  exists clash_example.
  assert (mobid_wf clash_example) as Hwf.
  { split; [reflexivity|]. apply Forall_forall. intros x Hx. cbn in Hx.
    repeat (destruct Hx as [<-|Hx]; [unfold is_byte; lia|]). destruct Hx. }
  assert (urn_clash clash_example) as Hc by (repeat split; reflexivity).
  split; [exact Hwf|]. split; [exact Hc|].
  destruct (urn_clash_differs _ Hwf Hc) as (m' & -> & Hne). congruence.
Qed.
Print Assumptions C09_unrestricted_refuted.

Example C09_example : let m := m_of_int 0x060a2b340101010501010f2013000000 in
  mobid_wf m /\ ~ urn_clash m /\ len (m_urn m) = 15 + 64 + 7.
Proof.
  cbv zeta. split; [apply m_of_int_wf|]. split; [|vm_compute; reflexivity].
  intros (_ & _ & H & _). vm_compute in H. discriminate H.
Qed.

(** ** C10 *)

Theorem C10_field_assignment : forall f m v, mobid_wf m -> mf_value f v ->
  exists m', mf_set f m v = Ok m' /\ mobid_wf m' /\ mf_get f m' = v /\
    forall g, mf_disjoint f g -> mf_get g m' = mf_get g m.
Proof. exact mf_set_ok. Qed.
Print Assumptions C10_field_assignment.

Theorem C10_dictionary_rebuilds : forall m0 m, mobid_wf m0 -> mobid_wf m ->
  m_from_dict m0 (m_to_dict m) = Ok m.
Proof. exact dict_roundtrip. Qed.
Print Assumptions C10_dictionary_rebuilds.

Theorem C10_fresh_mobid : forall u, uuid_wf u -> exists m,
  unique_mobid u = Ok m /\ mobid_wf m /\ m_material m = u /\ m_label m = unique_label.
Proof. exact unique_mobid_ok. Qed.
Print Assumptions C10_fresh_mobid.

Example C10_example : mf_value FData2 [0xBEEF] /\ mf_disjoint FData2 FData3 /\
  mf_disjoint FData2 FLabel /\ ~ mf_disjoint FData2 FMaterial /\
  mf_set FData2 mobid_zero [0xBEEF] = Ok (splice mobid_zero 20 [0xEF; 0xBE]).
Proof.
  unfold mf_disjoint. cbn [mf_part_of_material]. repeat split; try discriminate;
    try (intros [H1 H2]; discriminate).
  - exists 0xBEEF. split; auto. lia.
  - intros (_ & _ & H). apply H. auto.
Qed.

(** ** C49 *)

Theorem C49_bytes_int_bytes : forall b bo, Forall is_byte b ->
  bytes_from_int (int_from_bytes b bo) (len b) bo = b.
Proof. exact helper_bytes_int. Qed.
Print Assumptions C49_bytes_int_bytes.

Theorem C49_int_bytes_int : forall n v bo, 0 <= n ->
  int_from_bytes (bytes_from_int v n bo) bo = v mod 256 ^ n.
Proof. exact helper_int_bytes. Qed.
Print Assumptions C49_int_bytes_int.

Theorem C49_orders_are_mirrors : forall b v n,
  int_from_bytes b BE = int_from_bytes (rev b) LE /\
  bytes_from_int v n BE = rev (bytes_from_int v n LE).
Proof. intros. split; [apply helper_mirror|apply helper_mirror_bytes]. Qed.
Print Assumptions C49_orders_are_mirrors.

Theorem C49_result_is_bytes : forall v n bo,
  len (bytes_from_int v n bo) = Z.max 0 n /\ Forall is_byte (bytes_from_int v n bo).
Proof. intros. split; [apply helper_length|apply helper_bytes]. Qed.
Print Assumptions C49_result_is_bytes.

Example C49_example : int_from_bytes [1; 2] BE = 258 /\ bytes_from_int 258 2 LE = [2; 1].
Proof. split; reflexivity. Qed.
