(** The URN text of a mob ID and its parser. *)
From Coq Require Import ZArith List Bool Lia.
From Verif Require Import Base IoCtx RoundTrip MobId MobIdProofs.
Import ListNotations.
Open Scope Z_scope.

(** ** Hexadecimal text *)

Definition is_hexc (c : Z) : Prop := 48 <= c <= 57 \/ 97 <= c <= 102.

Lemma hexdigit_hexc : forall d, 0 <= d < 16 -> is_hexc (hexdigit d).
Proof. intros d H. unfold hexdigit, is_hexc. destruct (Z.ltb_spec d 10); lia. Qed.

Lemma hexval_digit : forall d, 0 <= d < 16 -> hexval (hexdigit d) = Some d.
Proof.
  intros d H. unfold hexdigit. destruct (Z.ltb_spec d 10); unfold hexval.
  - destruct (Z.leb_spec 48 (48 + d)); [|lia]. destruct (Z.leb_spec (48 + d) 57); [|lia].
    cbn [andb]. f_equal. lia.
  - destruct (Z.leb_spec 48 (87 + d)); [|lia]. destruct (Z.leb_spec (87 + d) 57); [lia|].
    destruct (Z.leb_spec 97 (87 + d)); [|lia]. destruct (Z.leb_spec (87 + d) 102); [|lia].
    cbn [andb]. f_equal. lia.
Qed.

Lemma hexn2 : forall v, hexn 2 v = [hexdigit (v / 16 mod 16); hexdigit (v mod 16)].
Proof. reflexivity. Qed.

Lemma hex2s_cons : forall x l,
  hex2s (x :: l) = hexdigit (x / 16 mod 16) :: hexdigit (x mod 16) :: hex2s l.
Proof. reflexivity. Qed.

Lemma hex2s_app : forall a b, hex2s (a ++ b) = hex2s a ++ hex2s b.
Proof. intros. unfold hex2s. now rewrite map_app, concat_app. Qed.

Lemma hexn_mod : forall n v, hexn n v = hexn n (v mod 16 ^ Z.of_nat n).
Proof.
  induction n as [|n IH]; intros v; cbn [hexn]; auto.
  assert (0 < 16 ^ Z.of_nat n) by (apply Z.pow_pos_nonneg; lia).
  rewrite Nat2Z.inj_succ, Z.pow_succ_r by lia.
  f_equal.
  - rewrite IH. symmetry. rewrite IH. f_equal.
    rewrite Z.rem_mul_r by lia.
    replace (v mod 16 + 16 * ((v / 16) mod 16 ^ Z.of_nat n))
      with (v mod 16 + (v / 16) mod 16 ^ Z.of_nat n * 16) by lia.
    rewrite Z.div_add by lia. rewrite (Z.div_small (v mod 16)) by (apply Z.mod_pos_bound; lia).
    rewrite Z.add_0_l, Z.mod_mod by lia. reflexivity.
  - f_equal. f_equal. rewrite Z.rem_mul_r by lia.
    replace (v mod 16 + 16 * ((v / 16) mod 16 ^ Z.of_nat n))
      with (v mod 16 + (v / 16) mod 16 ^ Z.of_nat n * 16) by lia.
    rewrite Z_mod_plus_full, Z.mod_mod by lia. reflexivity.
Qed.

Lemma dec_be_snoc : forall l x, dec BE (l ++ [x]) = dec BE l * 256 + x.
Proof. intros l x. unfold dec. rewrite rev_app_distr. cbn [rev app le_dec]. lia. Qed.

Lemma hexn_dec : forall l n, Forall is_byte l -> n = (2 * length l)%nat ->
  hexn n (dec BE l) = hex2s l.
Proof.
  induction l as [|x l IH] using rev_ind; intros n H ->; [reflexivity|].
  apply Forall_app in H as [Hl Hx]. apply Forall_inv in Hx. unfold is_byte in Hx.
  rewrite app_length. cbn [length].
  replace (2 * (length l + 1))%nat with (S (S (2 * length l)))%nat by lia.
  cbn [hexn]. rewrite dec_be_snoc, hex2s_app, <- (IH _ Hl eq_refl).
  rewrite Z.div_div by lia. change (16 * 16) with 256.
  rewrite Z.div_add_l, (Z.div_small x), Z.add_0_r by lia.
  rewrite <- app_assoc. f_equal.
  replace (dec BE l * 256 + x) with (x + dec BE l * 16 * 16) by lia.
  rewrite Z.div_add, !Z_mod_plus_full by lia. reflexivity.
Qed.

Lemma hex2s_hexc : forall l, Forall is_hexc (hex2s l).
Proof.
  induction l as [|x l IH]; [constructor|]. rewrite hex2s_cons.
  do 2 (constructor; [apply hexdigit_hexc; apply Z.mod_pos_bound; lia|]). exact IH.
Qed.

Lemma hex2s_length : forall l, length (hex2s l) = (2 * length l)%nat.
Proof. induction l; [reflexivity|]. rewrite hex2s_cons. cbn [length]. lia. Qed.

Lemma skipn_hex2s : forall k l, skipn (2 * k) (hex2s l) = hex2s (skipn k l).
Proof.
  induction k as [|k IH]; intros l; [reflexivity|].
  replace (2 * S k)%nat with (S (S (2 * k))) by lia.
  destruct l as [|x l]; [reflexivity|]. rewrite hex2s_cons. cbn [skipn]. apply IH.
Qed.

Lemma firstn_hex2s : forall k l, firstn (2 * k) (hex2s l) = hex2s (firstn k l).
Proof.
  induction k as [|k IH]; intros l; [reflexivity|].
  replace (2 * S k)%nat with (S (S (2 * k))) by lia.
  destruct l as [|x l]; [reflexivity|]. rewrite hex2s_cons. cbn [firstn].
  rewrite IH, hex2s_cons. reflexivity.
Qed.

Lemma slice_hex2s : forall a b l, slice (hex2s l) (2 * a) (2 * b) = hex2s (slice l a b).
Proof.
  intros a b l. unfold slice. rewrite skipn_hex2s.
  replace (2 * b - 2 * a)%nat with (2 * (b - a))%nat by lia. apply firstn_hex2s.
Qed.

Lemma int16_from_hex2s : forall l acc, Forall is_byte l ->
  int16_from acc (hex2s l) = Ok (acc * pow256 (length l) + dec BE l).
Proof.
  induction l as [|x l IH]; intros acc H.
  - cbn. unfold pow256. cbn. f_equal. lia.
  - pose proof (Forall_inv H) as Hx. apply Forall_inv_tail in H. unfold is_byte in Hx.
    rewrite hex2s_cons. cbn [int16_from length].
    rewrite !hexval_digit by (apply Z.mod_pos_bound; lia).
    rewrite IH by auto. f_equal. rewrite pow256_S.
    unfold dec. cbn [rev]. rewrite le_dec_app, rev_length. cbn [le_dec].
    assert (x / 16 mod 16 = x / 16) as ->.
    { apply Z.mod_small. split; [apply Z.div_pos; lia|apply Z.div_lt_upper_bound; lia]. }
    pose proof (Z.div_mod x 16 ltac:(lia)). nia.
Qed.

Lemma int16_hex2s : forall l, Forall is_byte l -> l <> [] -> int16 (hex2s l) = Ok (dec BE l).
Proof.
  intros l H Hne. unfold int16. destruct l as [|x l]; [congruence|].
  rewrite hex2s_cons at 1. rewrite int16_from_hex2s by auto. f_equal.
Qed.

Lemma hexbytes_hex2s : forall n l, Forall is_byte l -> (n <= length l)%nat ->
  hexbytes n (hex2s l) = Ok (firstn n l).
Proof.
  induction n as [|n IH]; intros l H Hn; [reflexivity|].
  destruct l as [|x l]; [cbn in Hn; lia|]. cbn [hexbytes length] in *.
  pose proof (Forall_inv H) as Hx. apply Forall_inv_tail in H.
  change (firstn 2 (hex2s (x :: l))) with (hex2s [x]).
  rewrite int16_hex2s by (auto; congruence). cbn [rbind].
  change (skipn 2 (hex2s (x :: l))) with (hex2s l).
  rewrite IH by (auto; lia). cbn [rbind firstn]. f_equal. f_equal.
  unfold dec. cbn [rev app le_dec]. lia.
Qed.

(** ** Removing the decoration *)

Lemma remove_1 : forall a s, remove_all [a] s = filter (fun c => negb (c =? a)) s.
Proof.
  intros a s. unfold remove_all. induction s as [|c s IH]; [reflexivity|].
  cbn [remove_all_from is_prefix length Nat.sub filter]. rewrite IH.
  rewrite (Z.eqb_sym a c). destruct (c =? a); reflexivity.
Qed.

Lemma remove_absent : forall x y item s, In y item -> ~ In y s ->
  remove_all (x :: item) s = s.
Proof.
  intros x y item s Hy. unfold remove_all.
  assert (forall s, ~ In y s -> is_prefix item s = false) as Hp.
  { clear s. revert Hy. induction item as [|z item IH]; intros Hy s Hs; [destruct Hy|].
    destruct s as [|c s]; [reflexivity|]. cbn [is_prefix].
    destruct (Z.eqb_spec z c) as [->|]; [|reflexivity]. cbn [andb].
    destruct Hy as [->|Hy]; [exfalso; apply Hs; now left|].
    apply IH; auto. intros Hi. apply Hs. now right. }
  induction s as [|c s IH]; intros Hs; [reflexivity|].
  cbn [remove_all_from is_prefix]. rewrite Hp by (intros Hi; apply Hs; now right).
  rewrite andb_false_r. f_equal. apply IH. intros Hi. apply Hs. now right.
Qed.

Lemma remove_prefix : forall s, ~ In 117 s -> remove_all urn_prefix (urn_prefix ++ s) = s.
Proof.
  intros s Hs. unfold remove_all, urn_prefix. cbn [app remove_all_from is_prefix length Nat.sub].
  cbn [Z.eqb Pos.eqb andb]. clear - Hs.
  induction s as [|c s IH]; [reflexivity|].
  cbn [remove_all_from]. cbn [is_prefix].
  destruct (Z.eqb_spec 117 c) as [<-|]; [exfalso; apply Hs; now left|].
  cbn [andb]. f_equal. apply IH. intros Hi. apply Hs. now right.
Qed.

(** What [m_set_urn] makes of its argument before looking at digits. *)
Definition normalize (value : list Z) : list Z :=
  remove_all [48; 120] (remove_all [45] (remove_all [46]
    (remove_all urn_prefix (map lower1 value)))).

(** ** The parser on 64 digits *)

(** The mob ID named by 32 bytes in text order. *)
Definition of_text_order (tb : bytes) : mobid :=
  slice tb 0 16 ++
  if half_swapped (slice tb 0 12) (slice tb 16 22)
  then rev (slice tb 24 28) ++ rev (slice tb 28 30) ++ rev (slice tb 30 32) ++ slice tb 16 24
  else rev (slice tb 16 20) ++ rev (slice tb 20 22) ++ rev (slice tb 22 24) ++ slice tb 24 32.

Lemma set_uint_ok : forall off n m l, length l = n -> Forall is_byte l ->
  m_set_uint off n m (dec BE l) = Ok (splice m off (rev l)).
Proof.
  intros off n m l Hl Hb. unfold m_set_uint, wunsigned.
  pose proof (dec_range BE l Hb) as Hr. rewrite Hl in Hr.
  destruct (Z.leb_spec 0 (dec BE l)); [|lia].
  destruct (Z.ltb_spec (dec BE l) (pow256 n)); [|lia]. cbn [andb].
  rewrite (enc_dec_be LE) by auto. reflexivity.
Qed.

Lemma m_set_Data4_ok : forall m v, length v = 8%nat -> Forall is_byte v ->
  m_set_Data4 m v = Ok (splice m 24 v).
Proof.
  intros m v Hl Hb. unfold m_set_Data4, len. rewrite Hl, rt_forallb_label by auto. reflexivity.
Qed.

Lemma dec_be_1 : forall x, dec BE [x] = x.
Proof. intros x. unfold dec. cbn [rev app le_dec]. lia. Qed.

(** Rewrites with an equation after computing its numerals. *)
Ltac lit H :=
  let E := fresh in pose proof H as E; cbn [Nat.mul Nat.add] in E; rewrite ?E; clear E.

Lemma m_set_urn_digits : forall m value tb,
  length m = 32%nat -> length tb = 32%nat -> Forall is_byte tb ->
  normalize value = hex2s tb -> m_set_urn m value = Ok (of_text_order tb).
Proof.
  intros m value tb Hm Ht Hb Hn. unfold m_set_urn. fold (normalize value). rewrite Hn.
  cbv zeta.
  unfold len. rewrite hex2s_length, Ht. cbn [negb Z.eqb Z.of_nat Nat.mul Nat.add Pos.of_succ_nat].
  assert (forall i j, (i < j <= 32)%nat ->
    int16 (slice (hex2s tb) (2 * i) (2 * j)) = Ok (dec BE (slice tb i j))) as Hint.
  { intros i j Hij. rewrite slice_hex2s. apply int16_hex2s; [now apply slice_bytes|].
    intros E. apply (f_equal (@length Z)) in E. rewrite slice_length in E by lia. cbn in E. lia. }
  assert (forall i n, (i + n <= 32)%nat ->
    hexbytes n (skipn (2 * i) (hex2s tb)) = Ok (slice tb i (i + n))) as Hhex.
  { intros i n Hin. rewrite skipn_hex2s. rewrite hexbytes_hex2s.
    - unfold slice. do 2 f_equal. lia.
    - now apply Forall_skipn'.
    - rewrite skipn_length. lia. }
  match goal with |- context [negb ?x] => change x with true end. cbn [negb].
  pose proof (Hhex 0%nat 12%nat ltac:(lia)) as E. cbn [Nat.mul Nat.add skipn] in E.
  rewrite E. clear E. cbn [rbind].
  rewrite m_set_label_ok; [|apply slice_length; lia|now apply slice_bytes]. cbn [rbind].
  lit (Hint 12%nat 13%nat ltac:(lia)). lit (Hint 13%nat 14%nat ltac:(lia)).
  lit (Hint 14%nat 15%nat ltac:(lia)). lit (Hint 15%nat 16%nat ltac:(lia)).
  cbn [rbind]. unfold m_set_length, m_set_instanceHigh, m_set_instanceMid, m_set_instanceLow.
  assert (forall i, (i < 32)%nat -> dec BE (slice tb i (S i)) = byte_at tb i) as Hone.
  { intros i Hi. clear - Ht Hi.
    assert (slice tb i (S i) = [byte_at tb i]) as ->.
    { unfold slice. replace (S i - i)%nat with 1%nat by lia. unfold byte_at.
      revert i Hi. rewrite <- Ht. clear Ht. induction tb as [|x tb IH]; intros i Hi; [cbn in Hi; lia|].
      destruct i as [|i]; [reflexivity|]. cbn [skipn nth]. apply IH. cbn [length] in Hi. lia. }
    apply dec_be_1. }
  rewrite !Hone by lia.
  do 4 (rewrite m_set_byte_ok by (apply byte_at_byte; exact Hb); cbn [rbind]).
  lit (Hhex 16%nat 6%nat ltac:(lia)). lit (Hhex 16%nat 8%nat ltac:(lia)).
  lit (Hhex 24%nat 8%nat ltac:(lia)).
  lit (Hint 24%nat 28%nat ltac:(lia)). lit (Hint 28%nat 30%nat ltac:(lia)).
  lit (Hint 30%nat 32%nat ltac:(lia)). lit (Hint 16%nat 20%nat ltac:(lia)).
  lit (Hint 20%nat 22%nat ltac:(lia)). lit (Hint 22%nat 24%nat ltac:(lia)).
  cbn [rbind Nat.add]. unfold of_text_order.
  destruct (half_swapped (slice tb 0 12) (slice tb 16 22)).
  - rewrite m_set_Data4_ok; [|apply slice_length; lia|now apply slice_bytes]. cbn [rbind].
    unfold m_set_Data1, m_set_Data2, m_set_Data3.
    do 3 (rewrite set_uint_ok; [|apply slice_length; lia|now apply slice_bytes]; cbn [rbind]).
    clear Hn Hb Hint Hhex Hone. explode m Hm. explode tb Ht. reflexivity.
  - unfold m_set_Data1, m_set_Data2, m_set_Data3.
    do 3 (rewrite set_uint_ok; [|apply slice_length; lia|now apply slice_bytes]; cbn [rbind]).
    rewrite m_set_Data4_ok; [|apply slice_length; lia|now apply slice_bytes].
    clear Hn Hb Hint Hhex Hone. explode m Hm. explode tb Ht. reflexivity.
Qed.

(** ** The printer *)

(** The bytes of a mob ID in the order the text shows them. *)
Definition text_order (m : mobid) : bytes :=
  slice m 0 16 ++
  let d := rev (slice m 16 20) ++ rev (slice m 20 22) ++ rev (slice m 22 24) in
  if half_swapped (m_label m) (m_Data4 m) then slice m 24 32 ++ d else d ++ slice m 24 32.

Lemma dec_slice_u32 : forall m, length m = 32%nat -> m_Data1 m = dec BE (rev (slice m 16 20)).
Proof.
  intros m H. unfold m_Data1, unpack_u32le_from, dec. rewrite rev_involutive.
  explode m H. unfold slice, byte_at. cbn [skipn firstn Nat.sub nth Nat.add le_dec].
  rewrite !Z.shiftl_mul_pow2 by lia.
  change (2 ^ 8) with 256. change (2 ^ 16) with 65536. change (2 ^ 24) with 16777216. lia.
Qed.

Lemma dec_slice_u16 : forall m i, (i + 2 <= length m)%nat ->
  unpack_u16le_from m i = dec BE (rev (slice m i (i + 2))).
Proof.
  intros m i H. unfold unpack_u16le_from, dec. rewrite rev_involutive.
  assert (slice m i (i + 2) = [byte_at m i; byte_at m (i + 1)]) as ->.
  { unfold slice. replace (i + 2 - i)%nat with 2%nat by lia. unfold byte_at. revert i H.
    induction m as [|x m IH]; intros i H; [cbn in H; lia|]. destruct i as [|i].
    - destruct m; [cbn in H; lia|]. reflexivity.
    - cbn [skipn nth Nat.add]. apply IH. cbn [length] in H. lia. }
  cbn [le_dec]. rewrite Z.shiftl_mul_pow2 by lia. change (2 ^ 8) with 256. lia.
Qed.

Definition nodot (s : list Z) : list Z := filter (fun c => negb (c =? 46)) s.

Lemma nodot_hexc : forall s, Forall is_hexc s -> nodot s = s.
Proof.
  induction 1 as [|c s Hc Hs IH]; [reflexivity|]. unfold nodot in *. cbn [filter].
  destruct (Z.eqb_spec c 46); [unfold is_hexc in Hc; lia|]. cbn [negb]. now rewrite IH.
Qed.

Lemma nodot_app : forall a b, nodot (a ++ b) = nodot a ++ nodot b.
Proof. intros. apply filter_app. Qed.

(** The text without its prefix consists of hexadecimal digits and dots. *)
Definition is_urnc (c : Z) : Prop := is_hexc c \/ c = 46.

Lemma hexc_urnc : forall s, Forall is_hexc s -> Forall is_urnc s.
Proof. intros s H. eapply Forall_impl; [|exact H]. now left. Qed.

Lemma dot_urnc : Forall is_urnc dot.
Proof. constructor; [now right|constructor]. Qed.

Lemma hexn_hexc : forall n v, Forall is_hexc (hexn n v).
Proof.
  induction n; intros v; cbn [hexn]; [constructor|]. apply Forall_app. split; auto.
  constructor; [|constructor]. apply hexdigit_hexc. apply Z.mod_pos_bound. lia.
Qed.

Lemma urnc_not : forall s x, Forall is_urnc s -> ~ is_urnc x -> ~ In x s.
Proof. intros s x H Hx Hi. rewrite Forall_forall in H. auto. Qed.

Lemma urn_shape : forall m, mobid_wf m -> exists s,
  m_urn m = urn_prefix ++ s /\ Forall is_urnc s /\ nodot s = hex2s (text_order m).
Proof.
  intros m [Hl Hb]. unfold m_urn, urn_head, text_order. cbv zeta.
  destruct (half_swapped (m_label m) (m_Data4 m)).
  - eexists. rewrite <- !app_assoc. split; [reflexivity|]. split.
    + rewrite !Forall_app.
      repeat split; auto using dot_urnc, hexc_urnc, hex2s_hexc, hexn_hexc.
    + rewrite !nodot_app.
      rewrite !(nodot_hexc (hex2s _)) by apply hex2s_hexc.
      rewrite !(nodot_hexc (hexn _ _)) by apply hexn_hexc.
      change (nodot dot) with (@nil Z). cbn [app].
      rewrite dec_slice_u32 by auto. unfold m_Data2, m_Data3.
      rewrite !dec_slice_u16 by lia. cbn [Nat.add].
      rewrite !hexn_dec;
        try (rewrite rev_length, slice_length by lia; reflexivity);
        try (apply Forall_rev; now apply slice_bytes).
      rewrite !hex2s_app. clear Hb. explode m Hl. reflexivity.
  - eexists. rewrite <- !app_assoc. split; [reflexivity|]. split.
    + rewrite !Forall_app.
      repeat split; auto using dot_urnc, hexc_urnc, hex2s_hexc, hexn_hexc.
    + rewrite !nodot_app.
      rewrite !(nodot_hexc (hex2s _)) by apply hex2s_hexc.
      rewrite !(nodot_hexc (hexn _ _)) by apply hexn_hexc.
      change (nodot dot) with (@nil Z). cbn [app].
      rewrite dec_slice_u32 by auto. unfold m_Data2, m_Data3.
      rewrite !dec_slice_u16 by lia. cbn [Nat.add].
      rewrite !hexn_dec;
        try (rewrite rev_length, slice_length by lia; reflexivity);
        try (apply Forall_rev; now apply slice_bytes).
      rewrite !hex2s_app. clear Hb. explode m Hl. reflexivity.
Qed.

Lemma lower_urnc : forall s, Forall is_urnc s -> map lower1 s = s.
Proof.
  induction 1 as [|c s Hc Hs IH]; [reflexivity|]. cbn [map]. rewrite IH. f_equal.
  unfold lower1. destruct (Z.leb_spec 65 c); destruct (Z.leb_spec c 90); cbn [andb]; auto.
  unfold is_urnc, is_hexc in Hc. lia.
Qed.

Lemma normalize_urn : forall m, mobid_wf m -> normalize (m_urn m) = hex2s (text_order m).
Proof.
  intros m H. destruct (urn_shape m H) as (s & -> & Hs & Hd). unfold normalize.
  rewrite map_app, (lower_urnc s Hs). change (map lower1 urn_prefix) with urn_prefix.
  rewrite remove_prefix by (apply urnc_not; auto; unfold is_urnc, is_hexc; lia).
  rewrite !remove_1. unfold nodot in Hd. rewrite Hd.
  pose proof (hex2s_hexc (text_order m)) as Hh.
  assert (filter (fun c => negb (c =? 45)) (hex2s (text_order m)) = hex2s (text_order m)) as ->.
  { clear Hd. induction Hh as [|c l Hc Hl IH]; [reflexivity|]. cbn [filter].
    destruct (Z.eqb_spec c 45); [unfold is_hexc in Hc; lia|]. cbn [negb]. now rewrite IH. }
  apply remove_absent with (y := 120); [now left|].
  intros Hi. rewrite Forall_forall in Hh. apply Hh in Hi. unfold is_hexc in Hi. lia.
Qed.

Lemma text_order_length : forall m, length m = 32%nat -> length (text_order m) = 32%nat.
Proof.
  intros m H. unfold text_order. cbv zeta.
  destruct (half_swapped _ _); explode m H; reflexivity.
Qed.

Lemma text_order_bytes : forall m, Forall is_byte m -> Forall is_byte (text_order m).
Proof.
  intros m H. unfold text_order. cbv zeta.
  destruct (half_swapped _ _); rewrite !Forall_app;
    repeat split; try apply Forall_rev; now apply slice_bytes.
Qed.

Lemma urn_parse_print : forall m0 m, length m0 = 32%nat -> mobid_wf m ->
  m_set_urn m0 (m_urn m) = Ok (of_text_order (text_order m)).
Proof.
  intros m0 m H0 H. pose proof H as [Hl Hb]. apply m_set_urn_digits; auto.
  - now apply text_order_length.
  - now apply text_order_bytes.
  - now apply normalize_urn.
Qed.

(** Mob IDs whose text is read in the other layout. *)
Definition urn_clash (m : mobid) : Prop :=
  half_swapped (m_label m) (m_Data4 m) = false /\
  byte_at m 11 = 0 /\ m_Data1 m = 0x060E2B34 /\ m_Data2 m = 0x7F7F.

Lemma half_swapped_text : forall m, mobid_wf m ->
  half_swapped (m_label m) (m_Data4 m) = false ->
  half_swapped (slice (text_order m) 0 12) (slice (text_order m) 16 22) = true ->
  urn_clash m.
Proof.
  intros m [Hl Hb] H1 H2. unfold urn_clash. split; [exact H1|].
  unfold text_order in H2. rewrite H1 in H2. clear H1 Hb. explode m Hl.
  unfold half_swapped, slice, byte_at in H2.
  cbn [skipn firstn Nat.sub rev app nth] in H2.
  repeat (apply andb_true_iff in H2 as [H2 ?]).
  repeat match goal with H : (_ =? _) = true |- _ => apply Z.eqb_eq in H end.
  subst. repeat split; reflexivity.
Qed.

Lemma of_text_order_id : forall m, mobid_wf m -> ~ urn_clash m -> of_text_order (text_order m) = m.
Proof.
  intros m H Hc. pose proof H as [Hl Hb]. unfold of_text_order.
  destruct (half_swapped (m_label m) (m_Data4 m)) eqn:E.
  - assert (half_swapped (slice (text_order m) 0 12) (slice (text_order m) 16 22) = true) as ->.
    { unfold text_order. rewrite E.
      transitivity (half_swapped (m_label m) (m_Data4 m)); [|exact E].
      unfold half_swapped. clear Hc E H Hb. explode m Hl. reflexivity. }
    unfold text_order. rewrite E. clear Hc E H Hb. explode m Hl. reflexivity.
  - destruct (half_swapped (slice (text_order m) 0 12) (slice (text_order m) 16 22)) eqn:E2.
    + exfalso. apply Hc. now apply half_swapped_text.
    + unfold text_order. rewrite E. clear Hc E E2 H Hb. explode m Hl. reflexivity.
Qed.

Lemma urn_roundtrip : forall m, mobid_wf m -> ~ urn_clash m -> m_of_urn (m_urn m) = Ok m.
Proof.
  intros m H Hc. unfold m_of_urn. rewrite urn_parse_print; auto.
  now rewrite of_text_order_id.
Qed.
