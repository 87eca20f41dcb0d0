(** Facts about integers, text, UUIDs and mob IDs in the form the property theorems use. *)
From Coq Require Import ZArith List Bool Lia.
From Verif Require Import Base IoCtx RoundTrip Text TextProofs MobId MobIdProofs UrnProofs.
Import ListNotations.
Open Scope Z_scope.

(** ** Integer fields *)

(** The integer fields of the format. *)
Inductive int_kind := KU8 | KS8 | KU16 | KS16 | KU32 | KS32 | KU64 | KS64.

Definition ik_write (k : int_kind) (bo : border) (v : Z) : writer :=
  match k with
  | KU8 => wu8 v | KS8 => ws8 v | KU16 => wu16 bo v | KS16 => ws16 bo v
  | KU32 => wu32 bo v | KS32 => ws32 bo v | KU64 => wu64 bo v | KS64 => ws64 bo v
  end.

Definition ik_read (k : int_kind) (bo : border) : reader Z :=
  match k with
  | KU8 => ru8 | KS8 => rs8 | KU16 => ru16 bo | KS16 => rs16 bo
  | KU32 => ru32 bo | KS32 => rs32 bo | KU64 => ru64 bo | KS64 => rs64 bo
  end.

(** Width in bytes, least and greatest value. *)
Definition ik_size (k : int_kind) : nat :=
  match k with KU8 | KS8 => 1 | KU16 | KS16 => 2 | KU32 | KS32 => 4 | KU64 | KS64 => 8 end.

Definition ik_min (k : int_kind) : Z :=
  match k with
  | KU8 | KU16 | KU32 | KU64 => 0
  | KS8 => -128 | KS16 => -32768 | KS32 => -2147483648 | KS64 => -9223372036854775808
  end.

Definition ik_max (k : int_kind) : Z :=
  match k with
  | KU8 => 255 | KU16 => 65535 | KU32 => 4294967295 | KU64 => 18446744073709551615
  | KS8 => 127 | KS16 => 32767 | KS32 => 2147483647 | KS64 => 9223372036854775807
  end.

(** Place value of the bytes of a field. *)
Fixpoint place_value_le (bs : bytes) : Z :=
  match bs with [] => 0 | b :: bs' => b + 256 * place_value_le bs' end.

Definition place_value (bo : border) (bs : bytes) : Z :=
  match bo with LE => place_value_le bs | BE => place_value_le (rev bs) end.

Lemma place_value_dec : forall bo bs, place_value bo bs = dec bo bs.
Proof.
  assert (forall bs, place_value_le bs = le_dec bs) as H.
  { induction bs as [|x bs IH]; cbn [place_value_le le_dec]; auto; now rewrite IH. }
  intros [] bs; apply H.
Qed.

Lemma wunsigned_spec : forall bo n v,
  (0 <= v < pow256 n -> wunsigned bo n v = Ok (enc bo n v)) /\
  (~ 0 <= v < pow256 n -> wunsigned bo n v = Err StructError).
Proof.
  intros bo n v. unfold wunsigned.
  destruct (Z.leb_spec 0 v); destruct (Z.ltb_spec v (pow256 n)); cbn [andb];
    split; intros; auto; lia.
Qed.

Lemma wsigned_spec : forall bo n v,
  (- (pow256 n / 2) <= v < pow256 n / 2 -> wsigned bo n v = Ok (enc bo n (v mod pow256 n))) /\
  (~ - (pow256 n / 2) <= v < pow256 n / 2 -> wsigned bo n v = Err StructError).
Proof.
  intros bo n v. unfold wsigned.
  destruct (Z.leb_spec (- (pow256 n / 2)) v); destruct (Z.ltb_spec v (pow256 n / 2)); cbn [andb];
    split; intros; auto; lia.
Qed.

Lemma dec_one : forall bo x, dec bo [x] = x.
Proof. intros [] x; unfold dec; cbn [rev app le_dec]; lia. Qed.

Lemma ik_in_range : forall k bo v, ik_min k <= v <= ik_max k ->
  exists bs, ik_write k bo v = Ok bs /\ length bs = ik_size k /\ Forall is_byte bs /\
    place_value bo bs = v mod 256 ^ Z.of_nat (ik_size k).
Proof.
  assert (forall bo n v, 0 <= v < pow256 n -> exists bs, wunsigned bo n v = Ok bs /\
    length bs = n /\ Forall is_byte bs /\ place_value bo bs = v mod pow256 n) as HU.
  { intros bo n v Hv. exists (enc bo n v). rewrite (proj1 (wunsigned_spec bo n v)) by auto.
    rewrite enc_length, place_value_dec, dec_enc. auto using enc_bytes. }
  assert (forall bo n v, - (pow256 n / 2) <= v < pow256 n / 2 -> exists bs, wsigned bo n v = Ok bs /\
    length bs = n /\ Forall is_byte bs /\ place_value bo bs = v mod pow256 n) as HS.
  { intros bo n v Hv. exists (enc bo n (v mod pow256 n)).
    rewrite (proj1 (wsigned_spec bo n v)) by auto.
    rewrite enc_length, place_value_dec, dec_enc, Z.mod_mod by (pose proof (pow256_pos n); lia).
    auto using enc_bytes. }
  assert (forall bo bs, length bs = 1%nat -> place_value bo bs = place_value LE bs) as H1.
  { intros [] bs Hl; auto. destruct bs as [|x [|]]; try discriminate. reflexivity. }
  intros [] bo v Hv; cbn [ik_min ik_max ik_size ik_write] in *;
    try (apply HU; unfold pow256; cbn; lia);
    try (apply HS; unfold pow256; cbn; lia).
  - destruct (HU LE 1%nat v) as (bs & E & Hl & Hb & Hp); [unfold pow256; cbn; lia|].
    exists bs. rewrite H1 by auto. auto.
  - destruct (HS LE 1%nat v) as (bs & E & Hl & Hb & Hp); [unfold pow256; cbn; lia|].
    exists bs. rewrite H1 by auto. auto.
Qed.

Lemma ik_out_of_range : forall k bo v, ~ ik_min k <= v <= ik_max k ->
  ik_write k bo v = Err StructError.
Proof.
  intros [] bo v Hv; cbn [ik_min ik_max ik_write] in *;
    first [ apply wunsigned_spec | apply wsigned_spec ]; unfold pow256; cbn; lia.
Qed.

Lemma rt_ik : forall P k bo v, rt P (ik_read k bo) (ik_write k bo v) v.
Proof. intros P [] bo v; cbn [ik_read ik_write]; auto with rt. Qed.

Lemma ik_roundtrip : forall k bo v bs rest, ik_write k bo v = Ok bs ->
  ik_read k bo (bs ++ rest) = Ok (v, rest).
Proof. intros k bo v bs rest H. apply (rt_ik anyr k bo v); auto. exact I. Qed.

(** ** Text *)

(** The characters of Mac Roman beyond ASCII with their bytes, in the order of their code
    points. *)
Definition mac_high : list (Z * Z) :=
  [(160, 202); (161, 193); (162, 162); (163, 163); (165, 180); (167, 164); (168, 172); (169, 169);
   (170, 187); (171, 199); (172, 194); (174, 168); (175, 248); (176, 161); (177, 177); (180, 171);
   (181, 181); (182, 166); (183, 225); (184, 252); (186, 188); (187, 200); (191, 192); (192, 203);
   (193, 231); (194, 229); (195, 204); (196, 128); (197, 129); (198, 174); (199, 130); (200, 233);
   (201, 131); (202, 230); (203, 232); (204, 237); (205, 234); (206, 235); (207, 236); (209, 132);
   (210, 241); (211, 238); (212, 239); (213, 205); (214, 133); (216, 175); (217, 244); (218, 242);
   (219, 243); (220, 134); (223, 167); (224, 136); (225, 135); (226, 137); (227, 139); (228, 138);
   (229, 140); (230, 190); (231, 141); (232, 143); (233, 142); (234, 144); (235, 145); (236, 147);
   (237, 146); (238, 148); (239, 149); (241, 150); (242, 152); (243, 151); (244, 153); (245, 155);
   (246, 154); (247, 214); (248, 191); (249, 157); (250, 156); (251, 158); (252, 159); (255, 216);
   (305, 245); (338, 206); (339, 207); (376, 217); (402, 196); (710, 246); (711, 255); (728, 249);
   (729, 250); (730, 251); (731, 254); (732, 247); (733, 253); (937, 189); (960, 185); (8211, 208);
   (8212, 209); (8216, 212); (8217, 213); (8218, 226); (8220, 210); (8221, 211); (8222, 227); (8224,
   160); (8225, 224); (8226, 165); (8230, 201); (8240, 228); (8249, 220); (8250, 221); (8260, 218);
   (8364, 219); (8482, 170); (8706, 182); (8710, 198); (8719, 184); (8721, 183); (8730, 195); (8734,
   176); (8747, 186); (8776, 197); (8800, 173); (8804, 178); (8805, 179); (9674, 215); (63743, 240);
   (64257, 222); (64258, 223)].

(** The characters of Mac Roman and their bytes. *)
Definition mac_pair (c b : Z) : Prop := (0 <= c < 128 /\ b = c) \/ In (c, b) mac_high.
Definition mac_char (c : Z) : Prop := exists b, mac_pair c b.

Lemma mac_pair_enc : forall c b, mac_pair c b -> mac_enc1 c = Some b.
Proof.
  intros c b [[H ->]|H].
  - assert (forallb (fun c => match mac_enc1 c with Some b => b =? c | None => false end)
      (map Z.of_nat (seq 0 128)) = true) as Q by (vm_compute; reflexivity).
    rewrite forallb_forall in Q. specialize (Q c).
    destruct (mac_enc1 c) as [b|].
    + apply f_equal. apply Z.eqb_eq, Q. apply in_map_iff. exists (Z.to_nat c). rewrite in_seq. lia.
    + discriminate Q. apply in_map_iff. exists (Z.to_nat c). rewrite in_seq. lia.
  - assert (forallb (fun p => match mac_enc1 (fst p) with Some x => x =? snd p | None => false end)
      mac_high = true) as Q by (vm_compute; reflexivity).
    rewrite forallb_forall in Q. specialize (Q _ H). cbn [fst snd] in Q.
    destruct (mac_enc1 c) as [x|]; [|discriminate]. apply Z.eqb_eq in Q. now subst.
Qed.

Lemma mac_enc_pair : forall c b, mac_enc1 c = Some b -> mac_pair c b.
Proof.
  intros c b H. apply mac_enc1_dec in H as [E Hb].
  assert (forallb (fun b => ((0 <=? mac_dec1 b) && (mac_dec1 b <? 128) && (b =? mac_dec1 b))
      || existsb (fun p => (fst p =? mac_dec1 b) && (snd p =? b)) mac_high)
      (map Z.of_nat (seq 0 256)) = true) as Q by (vm_compute; reflexivity).
  rewrite forallb_forall in Q. specialize (Q b). rewrite E in Q.
  assert (In b (map Z.of_nat (seq 0 256))) as I.
  { apply in_map_iff. exists (Z.to_nat b). rewrite in_seq. unfold is_byte in *. lia. }
  apply Q, orb_prop in I as [I|I].
  - left. lia.
  - right. apply existsb_exists in I as ([x y] & Hi & He). cbn [fst snd] in He.
    assert (x = c) by lia. assert (y = b) by lia. now subst.
Qed.

Lemma mac_char_table : forall c, mac_char c <-> In c mac_table.
Proof.
  intros c. split.
  - intros [b H]. apply mac_pair_enc, mac_enc1_dec in H as [<- Hb]. unfold mac_dec1. apply nth_In.
    change (length mac_table) with 256%nat. lia.
  - intros H. destruct (mac_enc1 c) as [b|] eqn:E.
    + exists b. now apply mac_enc_pair.
    + exfalso. revert E H. unfold mac_enc1. generalize mac_table 0. intros l. induction l as [|x l IH]; intros k E H; [exact H|].
      cbn [index_of] in E. destruct (Z.eqb_spec x c); [discriminate|]. destruct H as [H|H]; [auto|]. eapply IH; eauto.
Qed.

Lemma index_of_none : forall l c k, index_of c l k = None <-> ~ In c l.
Proof.
  induction l as [|x l IH]; intros c k; cbn [index_of In].
  - split; auto.
  - destruct (Z.eqb_spec x c) as [->|Hne].
    + split; [discriminate|]. intros H. exfalso. auto.
    + rewrite IH. tauto.
Qed.

Lemma mac_encode_some : forall s, Forall mac_char s -> exists bs, mac_encode s = Ok bs.
Proof.
  induction 1 as [|c s Hc Hs [bs IH]]; [now exists []|]. cbn [mac_encode].
  destruct (mac_enc1 c) as [b|] eqn:E.
  - rewrite IH. eauto.
  - destruct Hc as [b H]. apply mac_pair_enc in H. congruence.
Qed.

Lemma mac_encode_none : forall s, ~ Forall mac_char s -> mac_encode s = Err UnicodeErr.
Proof.
  induction s as [|c s IH]; intros H; [exfalso; auto|]. cbn [mac_encode].
  destruct (mac_enc1 c) as [b|] eqn:E; auto.
  rewrite IH; auto. intros Hs. apply H. constructor; auto.
  exists b. now apply mac_enc_pair.
Qed.

Lemma mac_encode_pairs : forall s bs, Forall2 mac_pair s bs -> mac_encode s = Ok bs.
Proof.
  induction 1 as [|c b s bs H _ IH]; [reflexivity|]. cbn [mac_encode].
  now rewrite (mac_pair_enc _ _ H), IH.
Qed.

Lemma wstr_text : forall bo s bs0, s <> [] -> mac_encode s = Ok bs0 ->
  wstr bo s = wu16 bo (len s) +++ wbytes bs0.
Proof.
  intros bo s bs0 Hne He. unfold wstr, wstr_enc. destruct s as [|c s]; [congruence|].
  unfold encode. rewrite He. apply mac_encode_dec in He as (_ & Hl & _).
  cbv zeta. unfold len. now rewrite Hl.
Qed.

Lemma wstr_ok : forall bo s, Forall mac_char s -> len s <= 65535 -> exists bs, wstr bo s = Ok bs.
Proof.
  intros bo s Hs Hl. destruct s as [|c s].
  - exists (enc bo 2 0). reflexivity.
  - destruct (mac_encode_some _ Hs) as [bs0 E].
    rewrite (wstr_text bo _ bs0) by (congruence || auto).
    unfold wu16. rewrite (proj1 (wunsigned_spec bo 2 (len (c :: s)))).
    + cbn. eauto.
    + unfold pow256. cbn [Z.of_nat Pos.of_succ_nat Pos.succ]. unfold len in *. lia.
Qed.

Lemma wstr_too_long : forall bo s, Forall mac_char s -> 65535 < len s -> wstr bo s = Err StructError.
Proof.
  intros bo s Hs Hl. destruct (mac_encode_some _ Hs) as [bs0 E].
  assert (s <> []) by (intros ->; cbn in Hl; lia).
  rewrite (wstr_text bo _ bs0) by auto.
  unfold wu16. rewrite (proj2 (wunsigned_spec bo 2 (len s))); [reflexivity|].
  unfold pow256. cbn [Z.of_nat Pos.of_succ_nat Pos.succ]. change (256 ^ 2) with 65536. lia.
Qed.

Lemma wstr_unencodable : forall bo s, ~ Forall mac_char s -> wstr bo s = Err UnicodeErr.
Proof.
  intros bo s Hs. unfold wstr, wstr_enc. destruct s as [|c s]; [exfalso; auto|].
  unfold encode. now rewrite mac_encode_none.
Qed.

Lemma rstr_roundtrip : forall bo s bs rest, no_outer_nul s -> len s < 65535 ->
  wstr bo s = Ok bs -> rstr bo (bs ++ rest) = Ok (s, rest).
Proof. intros bo s bs rest H1 H2 Hw. apply (rt_str anyr bo s); auto. split; auto. exact I. Qed.

Lemma wstr_65535 : forall bo s rest, Forall mac_char s -> len s = 65535 ->
  exists bs body, wstr bo s = Ok bs /\ len body = 65535 /\ rstr bo (bs ++ rest) = Ok ([], body ++ rest).
Proof.
  intros bo s rest Hs Hl. destruct (mac_encode_some _ Hs) as [bs0 E].
  assert (s <> []) as Hne by (intros ->; cbn in Hl; lia).
  exists (enc bo 2 65535 ++ bs0), bs0.
  rewrite (wstr_text bo _ bs0), Hl by auto. split; [reflexivity|]. split.
  - apply mac_encode_dec in E as (_ & El & _). unfold len in *. now rewrite El.
  - unfold rstr, rstr_enc, bind.
    rewrite <- app_assoc, (rt_u16 anyr bo 65535 (enc bo 2 65535)); [reflexivity| |exact I].
    reflexivity.
Qed.

(** Unicode scalar values. *)
Definition scalar (c : Z) : Prop := 0 <= c < 0xD800 \/ 0xE000 <= c < 0x110000.

Lemma utf8_enc1_some : forall c, scalar c <-> exists b, utf8_enc1 c = Some b.
Proof.
  intros c. unfold scalar, utf8_enc1.
  destruct (Z.ltb_spec c 0); [split; [lia|intros [b H0]; discriminate]|].
  destruct (Z.ltb_spec c 128); [split; [eauto|lia]|].
  destruct (Z.ltb_spec c 2048); [split; [eauto|lia]|].
  destruct (Z.leb_spec 55296 c); destruct (Z.ltb_spec c 57344); cbn [andb];
    try (split; [lia|intros [b H9]; discriminate]);
  (destruct (Z.ltb_spec c 65536); [split; [eauto|lia]|]);
  (destruct (Z.ltb_spec c 1114112); [split; [eauto|lia]|split; [lia|intros [b H9]; discriminate]]).
Qed.

Lemma utf8_encode_some : forall s, Forall scalar s -> exists bs, utf8_encode s = Ok bs.
Proof.
  induction 1 as [|c s Hc Hs [bs IH]]; [now exists []|]. cbn [utf8_encode].
  apply utf8_enc1_some in Hc as [b ->]. rewrite IH. eauto.
Qed.

Lemma wutf8_ok : forall bo s, Forall scalar s -> utf8_size s < 65534 ->
  exists bs, wstr_enc bo Utf8 s = Ok bs.
Proof.
  intros bo s Hs Hl. destruct (utf8_encode_some _ Hs) as [bs0 E].
  unfold wstr_enc. destruct s as [|c s]; [exists (enc bo 2 0); reflexivity|].
  unfold encode. rewrite E. cbv zeta. unfold wu16.
  apply utf8_encode_size in E. unfold len in *. cbn [length].
  rewrite (proj1 (wunsigned_spec bo 2 _)); [cbn; eauto|].
  unfold pow256. cbn [Z.of_nat Pos.of_succ_nat Pos.succ]. change (256 ^ 2) with 65536. lia.
Qed.

Lemma utf8_roundtrip : forall bo s bs rest, no_outer_nul s -> utf8_size s < 65533 ->
  wstr_enc bo Utf8 s = Ok bs -> rstr_enc bo Utf8 (bs ++ rest) = Ok (s, rest).
Proof. intros bo s bs rest H1 H2 Hw. apply (rt_utf8 anyr bo s); auto. split; auto. exact I. Qed.

(** ** Helper functions *)

Lemma helper_bytes_int : forall b bo, Forall is_byte b ->
  bytes_from_int (int_from_bytes b bo) (len b) bo = b.
Proof.
  intros b bo H. rewrite int_from_bytes_dec, bytes_from_int_enc, len_nat. now apply enc_dec.
Qed.

Lemma helper_int_bytes : forall n v bo, 0 <= n ->
  int_from_bytes (bytes_from_int v n bo) bo = v mod 256 ^ n.
Proof.
  intros n v bo H. rewrite int_from_bytes_dec, bytes_from_int_enc, dec_enc.
  unfold pow256. now rewrite Z2Nat.id by lia.
Qed.

Lemma helper_mirror : forall b, int_from_bytes b BE = int_from_bytes (rev b) LE.
Proof. intros b. now rewrite !int_from_bytes_dec. Qed.

Lemma helper_mirror_bytes : forall v n, bytes_from_int v n BE = rev (bytes_from_int v n LE).
Proof. intros v n. now rewrite !bytes_from_int_enc. Qed.

Lemma helper_length : forall v n bo, len (bytes_from_int v n bo) = Z.max 0 n.
Proof. intros v n bo. rewrite bytes_from_int_enc. unfold len. rewrite enc_length. lia. Qed.

Lemma helper_bytes : forall v n bo, Forall is_byte (bytes_from_int v n bo).
Proof. intros v n bo. rewrite bytes_from_int_enc. apply enc_bytes. Qed.

(** ** UUIDs and mob IDs *)

Lemma wuuid_some : forall bo u, uuid_wf u -> exists bs, wuuid bo u = Ok bs.
Proof.
  intros bo u [Hl Hb]. unfold wuuid.
  assert (forall n i j, (j <= 16)%nat -> (i <= j)%nat -> (j - i)%nat = n ->
    exists bs, wunsigned bo n (dec BE (slice u i j)) = Ok bs) as H.
  { intros n i j H1 H2 H3. rewrite (proj1 (wunsigned_spec bo n _)); eauto.
    pose proof (dec_range BE (slice u i j) (slice_bytes _ _ _ Hb)) as Hr.
    rewrite slice_length, H3 in Hr by lia. exact Hr. }
  destruct (H 4%nat 0%nat 4%nat) as [b1 E1]; try lia.
  destruct (H 2%nat 4%nat 6%nat) as [b2 E2]; try lia.
  destruct (H 2%nat 6%nat 8%nat) as [b3 E3]; try lia.
  unfold wu32, wu16, time_low, time_mid, time_hi_version. rewrite E1, E2, E3.
  cbn. eauto.
Qed.

Lemma wlist_u8_some : forall l, Forall is_byte l -> exists bs, wlist wu8 l = Ok bs.
Proof.
  induction 1 as [|x l Hx Hl [bs IH]]; [now exists []|]. cbn [wlist]. rewrite IH.
  unfold wu8. rewrite (proj1 (wunsigned_spec LE 1 x)); [cbn; eauto|exact Hx].
Qed.

Lemma wu8_some : forall x, is_byte x -> exists bs, wu8 x = Ok bs.
Proof.
  intros x Hx. unfold wu8. rewrite (proj1 (wunsigned_spec LE 1 x)); eauto.
Qed.

Lemma wmobid_some : forall bo m, mobid_wf m -> exists bs, wmobid bo m = Ok bs.
Proof.
  intros bo m Hwf. pose proof Hwf as [Hl Hb]. unfold wmobid.
  destruct (wlist_u8_some (m_label m)) as [b0 E0]; [now apply slice_bytes|].
  destruct (wu8_some (m_length m)) as [b1 E1]; [now apply byte_at_byte|].
  destruct (wu8_some (m_instanceHigh m)) as [b2 E2]; [now apply byte_at_byte|].
  destruct (wu8_some (m_instanceMid m)) as [b3 E3]; [now apply byte_at_byte|].
  destruct (wu8_some (m_instanceLow m)) as [b4 E4]; [now apply byte_at_byte|].
  destruct (wuuid_some bo (m_material m)) as [b5 E5]; [now apply material_wf|].
  rewrite E0, E1, E2, E3, E4, E5. destruct bo; cbn; eauto.
Qed.

Lemma uuid_tagged : forall bo u rest, uuid_wf u ->
  exists bs, wuuid bo u = Ok bs /\ ruuid bo (bs ++ rest) = Ok (u, rest).
Proof.
  intros bo u rest H. destruct (wuuid_some bo u H) as [bs E]. exists bs. split; auto.
  apply (rt_uuid anyr bo u H); auto. exact I.
Qed.

Lemma uuid_raw : forall bo u rest, uuid_wf u ->
  exists bs, wrawuuid bo u = Ok bs /\ rrawuuid bo (bs ++ rest) = Ok (u, rest).
Proof.
  intros bo u rest H. eexists. split; [reflexivity|].
  apply (rt_rawuuid anyr bo u H); auto. exact I.
Qed.

Lemma mobid_wire : forall bo m rest, mobid_wf m ->
  exists bs, wmobid bo m = Ok bs /\ rmobid bo (bs ++ rest) = Ok (m, rest).
Proof.
  intros bo m rest H. destruct (wmobid_some bo m H) as [bs E]. exists bs. split; auto.
  apply (rt_mobid anyr bo m H); auto. exact I.
Qed.

(** ** Fields of a mob ID *)

Lemma urn_injective : forall a b, mobid_wf a -> mobid_wf b -> ~ urn_clash a -> ~ urn_clash b ->
  m_urn a = m_urn b -> a = b.
Proof.
  intros a b Ha Hb Hca Hcb H. pose proof (urn_roundtrip a Ha Hca) as E1.
  pose proof (urn_roundtrip b Hb Hcb) as E2. rewrite H in E1. congruence.
Qed.

Lemma urn_clash_differs : forall m, mobid_wf m -> urn_clash m ->
  exists m', m_of_urn (m_urn m) = Ok m' /\ m' <> m.
Proof.
  intros m Hwf Hc. pose proof Hwf as [Hl Hb]. unfold m_of_urn.
  rewrite urn_parse_print by (auto; reflexivity). eexists. split; [reflexivity|].
  destruct Hc as (H1 & H2 & H3 & H4).
  intros E. assert (half_swapped (m_label m) (m_Data4 m) = true) as H5; [|congruence].
  unfold of_text_order, text_order in E. rewrite H1 in E. revert E.
  assert (Forall is_byte m) as Hb' by exact Hb. clear H1 Hwf Hb. explode m Hl.
  unfold m_Data1, m_Data2, unpack_u32le_from, unpack_u16le_from, byte_at in *.
  cbn [nth Nat.add] in *. rewrite !Z.shiftl_mul_pow2 in * by lia.
  change (2 ^ 8) with 256 in *. change (2 ^ 16) with 65536 in *. change (2 ^ 24) with 16777216 in *.
  do 16 (apply Forall_inv_tail in Hb').
  pose proof (Forall_inv Hb') as B0. apply Forall_inv_tail in Hb'.
  pose proof (Forall_inv Hb') as B1. apply Forall_inv_tail in Hb'.
  pose proof (Forall_inv Hb') as B2. apply Forall_inv_tail in Hb'.
  pose proof (Forall_inv Hb') as B3. apply Forall_inv_tail in Hb'.
  pose proof (Forall_inv Hb') as B4. apply Forall_inv_tail in Hb'.
  pose proof (Forall_inv Hb') as B5. apply Forall_inv_tail in Hb'. clear Hb'.
  unfold is_byte in *.
  repeat match goal with
  | H : ?a + ?b * 256 = 32639 |- _ =>
    assert (a = 127 /\ b = 127) as [-> ->] by lia; clear H
  | H : ?a + ?b * 256 + ?c * 65536 + ?d * 16777216 = _ |- _ =>
    assert (a = 52 /\ b = 43 /\ c = 14 /\ d = 6) as (-> & -> & -> & ->) by lia; clear H
  end.
  subst. unfold half_swapped, slice, m_label, m_Data4, byte_at, slice.
  cbn [skipn firstn Nat.sub rev app nth Z.eqb Pos.eqb andb].
  intros E. injection E. intros. subst. reflexivity.
Qed.
