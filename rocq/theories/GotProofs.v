(** What comes out of the primitive readers: numbers in the range of their width, texts that can be
    written again, UUIDs of sixteen bytes, exact lengths. *)
From Coq Require Import ZArith List Bool Lia.
From Verif Require Import Base IoCtx Text Exp10 MobId Storable Attributes Components TrackGroups
  Misc Essence BinModel RoundTrip TextProofs LocProofs Fits RefsProofs.
Import ListNotations.
Open Scope Z_scope.

Lemma res_weaken : forall A (P Q : A -> Prop) (r : reader A), res P r -> (forall a, P a -> Q a) -> res Q r.
Proof. intros A P Q r H I b v rest Hb E. destruct (H _ _ _ Hb E) as [p q]. split; [apply I; exact p|exact q]. Qed.

(** ** Numbers *)

Lemma res_take : forall n, res (fun v => length v = n /\ Forall is_byte v) (take n).
Proof.
  intros n b v rest Hb E. unfold take in E. destruct (Nat.ltb_spec (length b) n); [discriminate|].
  injection E as <- <-. rewrite <- (firstn_skipn n b) in Hb. apply Forall_app in Hb as [H1 H2].
  split; [split; [apply firstn_length_le; lia|exact H1]|exact H2].
Qed.

Lemma res_unsigned : forall bo n, res (fun v => 0 <= v < pow256 n) (runsigned bo n).
Proof.
  intros bo n. unfold runsigned. eapply res_bind; [apply res_take|]. intros a [L B].
  apply res_ret. rewrite <- L. now apply dec_range.
Qed.

Lemma res_signed : forall bo n, (0 < n)%nat ->
  res (fun v => - (pow256 n / 2) <= v < pow256 n / 2) (rsigned bo n).
Proof.
  intros bo n Hn. unfold rsigned. eapply res_bind; [apply res_take|]. intros a [L B].
  apply res_ret. pose proof (dec_range bo a B) as R. rewrite L in R. pose proof (pow256_even n Hn).
  cbv zeta. destruct (Z.ltb_spec (dec bo a) (pow256 n / 2)); lia.
Qed.

Ltac num_un n := eapply res_weaken; [apply (res_unsigned _ n)|];
  let a := fresh in let H := fresh in intros a H; cbv beta in H; let p := eval vm_compute in (pow256 n) in
  change (pow256 n) with p in H; hnf; lia.
Ltac num_si n := eapply res_weaken; [apply (res_signed _ n); lia|];
  let a := fresh in let H := fresh in intros a H; cbv beta in H; let p := eval vm_compute in (pow256 n / 2) in
  change (pow256 n / 2) with p in H; hnf; lia.

Lemma got_u8 : res fits_u8 ru8. Proof. num_un 1%nat. Qed.
Lemma got_s8 : res fits_s8 rs8. Proof. num_si 1%nat. Qed.
Lemma got_u16 : forall bo, res fits_u16 (ru16 bo). Proof. intros. num_un 2%nat. Qed.
Lemma got_s16 : forall bo, res fits_s16 (rs16 bo). Proof. intros. num_si 2%nat. Qed.
Lemma got_u32 : forall bo, res fits_u32 (ru32 bo). Proof. intros. num_un 4%nat. Qed.
Lemma got_s32 : forall bo, res fits_s32 (rs32 bo). Proof. intros. num_si 4%nat. Qed.
Lemma got_u64 : forall bo, res fits_u64 (ru64 bo). Proof. intros. num_un 8%nat. Qed.
Lemma got_s64 : forall bo, res fits_s64 (rs64 bo). Proof. intros. num_si 8%nat. Qed.
Lemma got_double : res fits_double rdouble. Proof. num_un 8%nat. Qed.
Lemma got_date : forall bo, res fits_date (rdate bo). Proof. intros. num_un 4%nat. Qed.

Lemma got_rect : forall bo, res fits_rect (rrect bo).
Proof.
  intros. unfold rrect. eapply res_bind; [apply got_s16|]. intros.
  eapply res_bind; [apply res_any; loc|]. intros. do 4 (eapply res_bind; [apply got_s16|]; intros).
  apply res_ret. unfold fits_rect. cbn [rc0 rc1 rc2 rc3]. auto.
Qed.

Lemma got_rgb : forall bo, res fits_rgb (rrgb bo).
Proof.
  intros. unfold rrgb. eapply res_bind; [apply got_s16|]. intros.
  eapply res_bind; [apply res_any; loc|]. intros. do 3 (eapply res_bind; [apply got_u16|]; intros).
  apply res_ret. unfold fits_rgb. cbn [rgb_r rgb_g rgb_b]. auto.
Qed.

(** None, or a chunk number. *)
Definition ref_in (x : Z) : Prop := 0 <= x < 2 ^ 32.

Lemma got_ref : forall i, res ref_in (rref i).
Proof.
  intros i. unfold rref. eapply res_bind; [apply got_u32|]. intros x Hx.
  destruct (ref_valid i x); [|apply res_fail]. apply res_ret. unfold fits_u32, ref_in in *. lia.
Qed.

(** ** Bytes *)

Lemma got_fread : forall n, res (fun v => Forall is_byte v /\ (0 <= n -> len v <= n)) (fread n).
Proof.
  intros n b v rest Hb E. unfold fread in E. destruct (Z.ltb_spec n 0).
  - injection E as <- <-. split; [split; [exact Hb|lia]|constructor].
  - cbv zeta in E. injection E as <- <-.
    rewrite <- (firstn_skipn (Z.to_nat (Z.min n (len b))) b) in Hb. apply Forall_app in Hb as [H1 H2].
    split; [split; [exact H1|]|exact H2]. intros _. unfold len. rewrite firstn_length.
    unfold len. lia.
Qed.

Lemma got_rassert : forall c, res (fun _ => c = true) (rassert c).
Proof. intros [|]; [now apply res_ret|apply res_fail]. Qed.

(** A reader that cannot do without a byte. *)
Definition needs {A} (r : reader A) : Prop := exists e, r [] = Err e.

Lemma needs_bind : forall A B (r : reader A) (k : A -> reader B), needs r -> needs (bind r k).
Proof. intros A B r k [e E]. exists e. unfold bind. now rewrite E. Qed.

Lemma needs_tag : forall t, needs (rtag t). Proof. intros. eexists. reflexivity. Qed.
Lemma needs_u8 : needs ru8. Proof. eexists. reflexivity. Qed.
Lemma needs_u32 : forall bo, needs (ru32 bo). Proof. intros. eexists. reflexivity. Qed.
Lemma needs_s32 : forall bo, needs (rs32 bo). Proof. intros. eexists. reflexivity. Qed.
Lemma needs_s16 : forall bo, needs (rs16 bo). Proof. intros. eexists. reflexivity. Qed.
Lemma needs_ext : forall S (h : Z -> S -> reader S) s, needs (iter_ext h s).
Proof. intros. eexists. reflexivity. Qed.

(** If something has to follow, the bytes read are as many as asked for. *)
Lemma got_fread_then : forall B (Q : B -> Prop) n (k : bytes -> reader B), (forall v, needs (k v)) ->
  (forall v, Forall is_byte v /\ 0 <= n /\ len v = n -> res Q (k v)) -> res Q (bind (fread n) k).
Proof.
  intros B Q n k N H b v rest Hb E. unfold bind in E.
  destruct (fread n b) as [[a b']|e] eqn:F; [|discriminate].
  destruct (got_fread n b a b' Hb F) as [[Ha _] Hb'].
  assert (b' <> []) as Hne.
  { intros ->. destruct (N a) as [e N']. rewrite N' in E. discriminate. }
  assert (0 <= n /\ len a = n) as Hn.
  { unfold fread in F. destruct (Z.ltb_spec n 0).
    - injection F as <- <-. congruence.
    - cbv zeta in F. injection F as <- <-. split; [lia|]. unfold len in *. rewrite firstn_length.
      destruct (Z.min_spec n (Z.of_nat (length b))) as [[? ->]|[? Em]]; [lia|].
      rewrite Em, Nat2Z.id in Hne. rewrite skipn_all in Hne. congruence. }
  exact (H a (conj Ha Hn) b' v rest Hb' E).
Qed.

Lemma got_fourcc_then : forall B (Q : B -> Prop) bo (k : bytes -> reader B), (forall v, needs (k v)) ->
  (forall v, len v = 4 -> res Q (k v)) -> res Q (bind (rfourcc bo) k).
Proof.
  intros B Q bo k N H. intros b v rest Hb E.
  assert (res Q (bind (fread 4) (fun b => k (match bo with LE => rev b | BE => b end)))) as G.
  { apply got_fread_then; [intros; apply N|]. intros w (_ & _ & L). apply H.
    destruct bo; [|exact L]. unfold len in *. now rewrite rev_length. }
  apply (G b v rest Hb). unfold bind, rfourcc in *. unfold bind in E.
  destruct (fread 4 b) as [[a b']|e]; [|exact E]. exact E.
Qed.

(** ** Texts *)

Lemma lstrip0_hd : forall b, hd 1 (lstrip0 b) <> 0.
Proof. induction b as [|x b IH]; cbn [lstrip0 hd]; [lia|]. destruct x; cbn [hd]; [exact IH|lia|lia]. Qed.

Lemma lstrip0_suffix : forall b, exists p, b = p ++ lstrip0 b.
Proof.
  induction b as [|x b [p IH]]; [now exists []|]. cbn [lstrip0].
  destruct x; [exists (0 :: p); cbn [app]; now rewrite <- IH|now exists []|now exists []].
Qed.

Lemma strip0_spec : forall b, exists p q, b = p ++ strip0 b ++ q.
Proof.
  intros b. unfold strip0. destruct (lstrip0_suffix b) as [p E].
  destruct (lstrip0_suffix (rev (lstrip0 b))) as [q F].
  exists p, (rev q). rewrite <- rev_app_distr, <- F, rev_involutive. exact E.
Qed.

Lemma strip0_outer : forall b, no_outer_nul (strip0 b).
Proof.
  intros b. split.
  - unfold strip0. destruct (lstrip0_suffix (rev (lstrip0 b))) as [q F].
    pose proof (lstrip0_hd b) as H.
    destruct (rev (lstrip0 (rev (lstrip0 b)))) as [|x l] eqn:E; [cbn; lia|].
    rewrite <- (rev_involutive (lstrip0 b)), F, rev_app_distr, E in H. exact H.
  - unfold strip0. rewrite <- hd_rev_last, rev_involutive. apply lstrip0_hd.
Qed.

Lemma strip0_len : forall b, len (strip0 b) <= len b.
Proof.
  intros b. destruct (strip0_spec b) as (p & q & E). rewrite E at 2. unfold len.
  rewrite !app_length. lia.
Qed.

Lemma strip0_bytes : forall b, Forall is_byte b -> Forall is_byte (strip0 b).
Proof.
  intros b H. destruct (strip0_spec b) as (p & q & E). rewrite E in H.
  apply Forall_app in H as [_ H]. now apply Forall_app in H as [H _].
Qed.

Lemma mac_dec1_in : forall x, is_byte x -> In (mac_dec1 x) mac_table.
Proof. intros x [H1 H2]. apply nth_In. change (length mac_table) with 256%nat. lia. Qed.

Lemma mac_dec1_zero : forall x, is_byte x -> mac_dec1 x = 0 -> x = 0.
Proof.
  assert (forallb (fun k => implb (mac_dec1 (Z.of_nat k) =? 0) (Z.of_nat k =? 0)) (seq 0 256) = true) as H
    by (vm_compute; reflexivity).
  rewrite forallb_forall in H. intros x [H1 H2] E. specialize (H (Z.to_nat x)).
  rewrite Z2Nat.id in H by lia. rewrite E in H. cbn [Z.eqb implb] in H. apply Z.eqb_eq. apply H.
  apply in_seq. lia.
Qed.

Lemma last_map : forall A B (f : A -> B) l d e, l <> [] -> last (map f l) e = f (last l d).
Proof.
  intros A B f l d e H. induction l as [|x l IH]; [congruence|]. destruct l as [|y l]; [reflexivity|].
  cbn [map] in *. change (last (f x :: f y :: map f l) e) with (last (f y :: map f l) e).
  change (last (x :: y :: l) d) with (last (y :: l) d). apply IH. discriminate.
Qed.

Lemma last_in : forall A (l : list A) d, l <> [] -> In (last l d) l.
Proof.
  intros A l d H. induction l as [|x l IH]; [congruence|]. destruct l as [|y l]; [now left|].
  right. apply IH. discriminate.
Qed.

Lemma mac_outer : forall b, Forall is_byte b -> no_outer_nul b -> no_outer_nul (map mac_dec1 b).
Proof.
  intros b Hb [H1 H2]. destruct b as [|x b]; [split; cbn; lia|]. split.
  - cbn [map hd] in *. intros E. apply H1. apply mac_dec1_zero; [now inversion Hb|exact E].
  - rewrite (last_map _ _ mac_dec1 (x :: b) 1 1) by discriminate. intros E. apply H2.
    apply mac_dec1_zero; [|exact E]. rewrite Forall_forall in Hb. apply Hb. apply last_in. discriminate.
Qed.

(** A text as [read_string] gives it. *)
Definition str_got (s : str) : Prop := fits_str s /\ str_ok s.

Lemma str_got_nil : str_got [].
Proof. split; [split; [constructor|unfold len; cbn; lia]|split; [split; cbn; lia|unfold len; cbn; lia]]. Qed.

Lemma got_str : forall bo, res str_got (rstr bo).
Proof.
  intros bo. unfold rstr, rstr_enc. eapply res_bind; [apply got_u16|]. intros n [Hn _].
  destruct (Z.leb_spec 65535 n); [apply res_ret, str_got_nil|].
  eapply res_bind; [apply got_fread|]. intros b [Hb Hl]. specialize (Hl Hn). cbn [decode].
  unfold mac_decode. apply res_ret. pose proof (strip0_bytes b Hb) as Sb.
  pose proof (strip0_len b) as Sl.
  assert (len (map mac_dec1 (strip0 b)) = len (strip0 b)) as L by (unfold len; now rewrite map_length).
  split; [split|split].
  - apply Forall_forall. intros c Hc. apply in_map_iff in Hc as (x & <- & Hx).
    apply mac_dec1_in. rewrite Forall_forall in Sb. now apply Sb.
  - lia.
  - apply mac_outer; [exact Sb|apply strip0_outer].
  - lia.
Qed.

(** Decoding then encoding. *)
Lemma utf8_dec1 : forall fuel b s, Forall is_byte b -> utf8_decode_fuel fuel b = Ok s ->
  utf8_encode s = Ok b.
Proof.
  induction fuel as [|fuel IH]; intros b s Hb H; [discriminate|]. cbn [utf8_decode_fuel] in H.
  destruct b as [|b0 r0]; [injection H as <-; reflexivity|].
  inversion Hb as [|? ? B0 R0]; subst. unfold is_byte in B0.
  assert (forall c e r, Forall is_byte r -> utf8_enc1 c = Some e ->
    match utf8_decode_fuel fuel r with Ok s => Ok (c :: s) | Err x => Err x end = Ok s ->
    utf8_encode s = Ok (e ++ r)) as go.
  { intros c e r Hr He E. destruct (utf8_decode_fuel fuel r) as [t|x] eqn:Et; [|discriminate].
    injection E as <-. cbn [utf8_encode]. rewrite He, (IH r t Hr Et). reflexivity. }
  destruct (Z.ltb_spec b0 128).
  { apply (go b0 [b0] r0 R0); [|exact H]. unfold utf8_enc1.
    destruct (Z.ltb_spec b0 0); [lia|]. destruct (Z.ltb_spec b0 128); [reflexivity|lia]. }
  destruct (Z.ltb_spec b0 194); [discriminate|].
  destruct (Z.ltb_spec b0 224).
  { destruct r0 as [|b1 r1]; [discriminate|]. inversion R0 as [|? ? B1 R1]; subst.
    destruct (is_cont b1) eqn:C1; [|discriminate]. unfold is_cont in C1.
    apply andb_true_iff in C1 as [C1 D1]. apply Z.leb_le in C1. apply Z.ltb_lt in D1.
    apply (go ((b0 - 192) * 64 + (b1 - 128)) [b0; b1] r1 R1); [|exact H]. unfold utf8_enc1.
    remember (b0 - 192) as h eqn:Eh. remember (b1 - 128) as l eqn:El.
    assert ((h * 64 + l) / 64 = h) as -> by (symmetry; apply (Z.div_unique _ _ h l); lia).
    assert ((h * 64 + l) mod 64 = l) as -> by (symmetry; apply (Z.mod_unique _ _ h l); lia).
    destruct (Z.ltb_spec (h * 64 + l) 0); [lia|]. destruct (Z.ltb_spec (h * 64 + l) 128); [lia|].
    destruct (Z.ltb_spec (h * 64 + l) 2048); [|lia]. do 2 f_equal; [lia|f_equal; lia]. }
  destruct (Z.ltb_spec b0 240).
  { destruct r0 as [|b1 [|b2 r2]]; [discriminate|discriminate|].
    inversion R0 as [|? ? B1 R1]; subst. inversion R1 as [|? ? B2 R2]; subst. cbv zeta in H.
    match type of H with (if ?t then _ else _) = _ => destruct t eqn:C; [|discriminate] end.
    apply andb_true_iff in C as [C Sg]. apply andb_true_iff in C as [C Lo].
    apply andb_true_iff in C as [C1 C2]. unfold is_cont in C1, C2.
    apply andb_true_iff in C1 as [C1 D1], C2 as [C2 D2].
    apply Z.leb_le in C1, C2, Lo. apply Z.ltb_lt in D1, D2. apply negb_true_iff in Sg.
    refine (go _ [b0; b1; b2] r2 R2 _ H). unfold utf8_enc1. rewrite Sg. clear H IH go.
    remember (b0 - 224) as h eqn:Eh. remember (b1 - 128) as m eqn:Em. remember (b2 - 128) as l eqn:El.
    assert ((h * 4096 + m * 64 + l) / 4096 = h) as ->
      by (symmetry; apply (Z.div_unique _ _ h (m * 64 + l)); lia).
    assert ((h * 4096 + m * 64 + l) / 64 = h * 64 + m) as ->
      by (symmetry; apply (Z.div_unique _ _ _ l); lia).
    assert ((h * 64 + m) mod 64 = m) as -> by (symmetry; apply (Z.mod_unique _ _ h m); lia).
    assert ((h * 4096 + m * 64 + l) mod 64 = l) as ->
      by (symmetry; apply (Z.mod_unique _ _ (h * 64 + m) l); lia).
    destruct (Z.ltb_spec (h * 4096 + m * 64 + l) 0); [lia|].
    destruct (Z.ltb_spec (h * 4096 + m * 64 + l) 128); [lia|].
    destruct (Z.ltb_spec (h * 4096 + m * 64 + l) 2048); [lia|].
    destruct (Z.ltb_spec (h * 4096 + m * 64 + l) 65536); [|lia].
    do 2 f_equal; [lia|]. f_equal; [lia|]. f_equal. lia. }
  destruct (Z.ltb_spec b0 245); [|discriminate].
  destruct r0 as [|b1 [|b2 [|b3 r3]]]; [discriminate|discriminate|discriminate|].
  inversion R0 as [|? ? B1 R1]; subst. inversion R1 as [|? ? B2 R2]; subst.
  inversion R2 as [|? ? B3 R3]; subst. cbv zeta in H.
  match type of H with (if ?t then _ else _) = _ => destruct t eqn:C; [|discriminate] end.
  apply andb_true_iff in C as [C Hi]. apply andb_true_iff in C as [C Lo].
  apply andb_true_iff in C as [C C3]. apply andb_true_iff in C as [C1 C2]. unfold is_cont in C1, C2, C3.
  apply andb_true_iff in C1 as [C1 D1], C2 as [C2 D2], C3 as [C3 D3].
  apply Z.leb_le in C1, C2, C3, Lo. apply Z.ltb_lt in D1, D2, D3, Hi.
  refine (go _ [b0; b1; b2; b3] r3 R3 _ H). unfold utf8_enc1. clear H IH go.
  remember (b0 - 240) as h eqn:Eh. remember (b1 - 128) as m eqn:Em. remember (b2 - 128) as k eqn:Ek.
  remember (b3 - 128) as l eqn:El.
  assert ((h * 262144 + m * 4096 + k * 64 + l) / 262144 = h) as ->
    by (symmetry; apply (Z.div_unique _ _ h (m * 4096 + k * 64 + l)); lia).
  assert ((h * 262144 + m * 4096 + k * 64 + l) / 4096 = h * 64 + m) as ->
    by (symmetry; apply (Z.div_unique _ _ _ (k * 64 + l)); lia).
  assert ((h * 262144 + m * 4096 + k * 64 + l) / 64 = h * 4096 + m * 64 + k) as ->
    by (symmetry; apply (Z.div_unique _ _ _ l); lia).
  assert ((h * 64 + m) mod 64 = m) as -> by (symmetry; apply (Z.mod_unique _ _ h m); lia).
  assert ((h * 4096 + m * 64 + k) mod 64 = k) as -> by (symmetry; apply (Z.mod_unique _ _ (h * 64 + m) k); lia).
  assert ((h * 262144 + m * 4096 + k * 64 + l) mod 64 = l) as ->
    by (symmetry; apply (Z.mod_unique _ _ (h * 4096 + m * 64 + k) l); lia).
  remember (h * 262144 + m * 4096 + k * 64 + l) as c eqn:Ec.
  destruct (Z.ltb_spec c 0); [lia|]. destruct (Z.ltb_spec c 128); [lia|].
  destruct (Z.ltb_spec c 2048); [lia|].
  destruct ((55296 <=? c) && (c <? 57344)) eqn:Sg.
  { apply andb_true_iff in Sg as [_ Sg]. apply Z.ltb_lt in Sg. lia. }
  destruct (Z.ltb_spec c 65536); [lia|]. destruct (Z.ltb_spec c 1114112); [|lia].
  do 2 f_equal; [lia|]. f_equal; [lia|]. f_equal; [lia|]. f_equal. lia.
Qed.

Lemma utf8_encode_range : forall s b, utf8_encode s = Ok b ->
  Forall (fun c => 0 <= c < 0xD800 \/ 0xE000 <= c < 0x110000) s.
Proof.
  induction s as [|c s IH]; intros b H; [constructor|]. cbn [utf8_encode] in H.
  destruct (utf8_enc1 c) as [e|] eqn:E; [|discriminate].
  destruct (utf8_encode s) as [bs|] eqn:Es; [|discriminate]. constructor; [|now apply (IH bs)].
  unfold utf8_enc1 in E.
  destruct (Z.ltb_spec c 0); [discriminate|].
  destruct (Z.ltb_spec c 128); [lia|]. destruct (Z.ltb_spec c 2048); [lia|].
  destruct ((55296 <=? c) && (c <? 57344)) eqn:Sg; [discriminate|].
  apply andb_false_iff in Sg. rewrite Z.leb_gt, Z.ltb_ge in Sg.
  destruct (Z.ltb_spec c 65536); [lia|]. destruct (Z.ltb_spec c 1114112); [lia|discriminate].
Qed.

Lemma utf8_encode_app : forall s t b, utf8_encode (s ++ t) = Ok b ->
  exists x y, utf8_encode s = Ok x /\ utf8_encode t = Ok y /\ b = x ++ y.
Proof.
  induction s as [|c s IH]; intros t b H; cbn [app utf8_encode] in *; [exists [], b; auto|].
  destruct (utf8_enc1 c) as [e|]; [|discriminate].
  destruct (utf8_encode (s ++ t)) as [bs|] eqn:Es; [|discriminate]. injection H as <-.
  destruct (IH t bs Es) as (x & y & -> & Ey & ->). exists (e ++ x), y. split; [reflexivity|].
  split; [exact Ey|]. apply app_assoc.
Qed.

Lemma utf8_outer_back : forall s b, utf8_encode s = Ok b -> no_outer_nul b -> no_outer_nul s.
Proof.
  intros s b H [H1 H2]. split.
  - destruct s as [|c s]; [cbn; lia|]. cbn [hd]. intros ->. apply H1. cbn [utf8_encode] in H.
    change (utf8_enc1 0) with (Some [0]) in H. destruct (utf8_encode s); [|discriminate].
    injection H as <-. reflexivity.
  - destruct s as [|c s] using rev_ind; [cbn; lia|]. rewrite last_last. intros ->. apply H2.
    apply utf8_encode_app in H as (x & y & _ & Ey & ->). injection Ey as <-. now rewrite last_last.
Qed.

(** A UTF-8 text as [read_string] gives it. *)
Definition utf8_got (n : Z) (s : str) : Prop :=
  Forall (fun c => 0 <= c < 0xD800 \/ 0xE000 <= c < 0x110000) s /\ no_outer_nul s /\ utf8_size s <= n.

Lemma utf8_got_strip : forall b s, Forall is_byte b -> utf8_decode (strip0 b) = Ok s ->
  utf8_got (len b) s.
Proof.
  intros b s Hb E. apply utf8_dec1 in E; [|now apply strip0_bytes].
  split; [now apply utf8_encode_range with (1 := E)|].
  split; [exact (utf8_outer_back _ _ E (strip0_outer b))|].
  rewrite <- (utf8_encode_size _ _ E). apply strip0_len.
Qed.

Lemma got_utf8 : forall bo, res (utf8_got 65534) (rstr_enc bo Utf8).
Proof.
  intros bo. unfold rstr_enc. eapply res_bind; [apply got_u16|]. intros n [Hn _].
  destruct (Z.leb_spec 65535 n).
  { apply res_ret. split; [constructor|]. split; [split; cbn; lia|cbn; lia]. }
  eapply res_bind; [apply got_fread|]. intros b [Hb Hl]. specialize (Hl Hn). cbn [decode].
  destruct (utf8_decode (strip0 b)) as [s|e] eqn:E; [|apply res_fail]. apply res_ret.
  destruct (utf8_got_strip b s Hb E) as (A & B & C). split; [exact A|]. split; [exact B|]. lia.
Qed.

(** ** UUIDs and mob IDs *)

Lemma swap_wf : forall b, uuid_wf b -> uuid_wf (uuid_swap b).
Proof.
  intros b [L B]. do 16 (destruct b as [|? b]; [discriminate L|]). destruct b; [|discriminate L].
  split; [reflexivity|]. unfold uuid_swap, slice. cbn.
  repeat match goal with H : Forall is_byte (_ :: _) |- _ => inversion H; clear H; subst end.
  repeat (apply Forall_cons; [assumption|]). constructor.
Qed.

Lemma res_of_result : forall A (Q : A -> Prop) x, (forall a, x = Ok a -> Q a) -> res Q (of_result x).
Proof. intros A Q [a|e] H; [apply res_ret; auto|apply res_fail]. Qed.

Lemma uuid_of_wf : forall (bo : border) b u, Forall is_byte b ->
  match bo with LE => uuid_of_bytes_le b | BE => uuid_of_bytes b end = Ok u -> uuid_wf u.
Proof.
  intros bo b u Hb E. assert (uuid_wf b \/ len b <> 16) as [W|N].
  { destruct (Z.eq_dec (len b) 16) as [L|]; [left; split; [unfold len in L; lia|exact Hb]|now right]. }
  - destruct bo; unfold uuid_of_bytes_le, uuid_of_bytes in E; destruct (len b =? 16); try discriminate;
      injection E as <-; [now apply swap_wf|exact W].
  - apply Z.eqb_neq in N. destruct bo; unfold uuid_of_bytes_le, uuid_of_bytes in E; rewrite N in E; discriminate.
Qed.

Lemma got_rawuuid : forall bo, res uuid_wf (rrawuuid bo).
Proof.
  intros bo. unfold rrawuuid. eapply res_bind; [apply got_fread|]. intros b [Hb _].
  apply res_of_result. intros u E. apply (uuid_of_wf bo b u Hb). destruct bo; exact E.
Qed.

Lemma got_uuid : forall bo, res uuid_wf (ruuid bo).
Proof.
  intros bo. unfold ruuid.
  eapply res_bind; [apply res_any; loc|]. intros _ _. eapply res_bind; [apply got_fread|]. intros d1 [B1 _].
  eapply res_bind; [apply res_any; loc|]. intros _ _. eapply res_bind; [apply got_fread|]. intros d2 [B2 _].
  eapply res_bind; [apply res_any; loc|]. intros _ _. eapply res_bind; [apply got_fread|]. intros d3 [B3 _].
  eapply res_bind; [apply res_any; loc|]. intros _ _. eapply res_bind; [apply res_any; loc|]. intros n _.
  eapply res_bind; [apply res_any; loc|]. intros _ _. eapply res_bind; [apply got_fread|]. intros d4 [B4 _].
  apply res_of_result. intros u E. apply (uuid_of_wf bo (d1 ++ d2 ++ d3 ++ d4) u).
  - rewrite !Forall_app. auto.
  - destruct bo; exact E.
Qed.

Lemma splice_wf : forall m off v, mobid_wf m -> Forall is_byte v -> (off + length v <= 32)%nat ->
  mobid_wf (splice m off v).
Proof.
  intros m off v [L B] Hv Ho. unfold splice. split.
  - rewrite !app_length, firstn_length, skipn_length, L. lia.
  - rewrite !Forall_app. split; [|split; [exact Hv|]].
    + rewrite <- (firstn_skipn off m) in B. now apply Forall_app in B as [B1 _].
    + rewrite <- (firstn_skipn (off + length v) m) in B. now apply Forall_app in B as [_ B2].
Qed.

Lemma set_byte_wf : forall k m v m', (k < 32)%nat -> mobid_wf m -> m_set_byte k m v = Ok m' -> mobid_wf m'.
Proof.
  intros k m v m' Hk W E. unfold m_set_byte, byte_ok in E.
  destruct ((0 <=? v) && (v <? 256)) eqn:C; [|discriminate]. injection E as <-.
  apply andb_true_iff in C as [C D]. apply Z.leb_le in C. apply Z.ltb_lt in D.
  apply splice_wf; [exact W|repeat constructor; unfold is_byte; lia|cbn [length]; lia].
Qed.

Lemma set_label_wf : forall m v m', mobid_wf m -> m_set_label m v = Ok m' -> mobid_wf m'.
Proof.
  intros m v m' W E. unfold m_set_label in E.
  destruct ((len v =? 12) && forallb byte_ok v) eqn:C; [|discriminate]. injection E as <-.
  apply andb_true_iff in C as [C D]. apply Z.eqb_eq in C. unfold len in C.
  apply splice_wf; [exact W| |lia]. rewrite forallb_forall in D. apply Forall_forall. intros x Hx.
  specialize (D x Hx). unfold byte_ok in D. apply andb_true_iff in D as [D1 D2].
  apply Z.leb_le in D1. apply Z.ltb_lt in D2. unfold is_byte. lia.
Qed.

Lemma got_mobid : forall bo, res mobid_wf (rmobid bo).
Proof.
  intros bo. unfold rmobid.
  do 4 (eapply res_bind; [apply res_any; loc|]; intros).
  eapply (res_bind _ _ mobid_wf).
  { apply res_of_result. intros m E. apply (set_label_wf mobid_zero _ m) in E; [exact E|].
    split; [reflexivity|]. unfold mobid_zero. apply Forall_forall. intros x Hx.
    apply repeat_spec in Hx. subst. unfold is_byte. lia. }
  intros m Hm. 
  do 2 (eapply res_bind; [apply res_any; loc|]; intros).
  eapply (res_bind _ _ mobid_wf); [apply res_of_result; intros ? E; eapply (set_byte_wf 12); eauto; lia|].
  intros.
  do 2 (eapply res_bind; [apply res_any; loc|]; intros).
  eapply (res_bind _ _ mobid_wf); [apply res_of_result; intros ? E; eapply (set_byte_wf 13); eauto; lia|].
  intros.
  do 2 (eapply res_bind; [apply res_any; loc|]; intros).
  eapply (res_bind _ _ mobid_wf); [apply res_of_result; intros ? E; eapply (set_byte_wf 14); eauto; lia|].
  intros.
  do 2 (eapply res_bind; [apply res_any; loc|]; intros).
  eapply (res_bind _ _ mobid_wf); [apply res_of_result; intros ? E; eapply (set_byte_wf 15); eauto; lia|].
  intros m' Hm'. eapply res_bind; [apply got_uuid|]. intros u Hu. apply res_ret.
  apply swap_wf in Hu. destruct Hu as [L B]. apply splice_wf; [exact Hm'|exact B|].
  unfold uuid_bytes_le. rewrite L. lia.
Qed.

(** ** Loops *)

Lemma got_rlist : forall A (Q : A -> Prop) n r, res Q r ->
  res (fun l => Forall Q l /\ length l = n) (rlist n r).
Proof.
  intros A Q n r H. induction n; cbn [rlist]; [apply res_ret; split; [constructor|reflexivity]|].
  eapply res_bind; [exact H|]. intros a Ha. eapply res_bind; [exact IHn|].
  intros l [Hl L]. apply res_ret. split; [now constructor|]. cbn [length]. now rewrite L.
Qed.

Lemma got_rflag : forall A (Q : A -> Prop) fl b r, res Q r -> res (opt_ok Q) (rflag fl b r).
Proof.
  intros A Q fl b r H. unfold rflag. destruct (Z.testbit fl b); [|now apply res_ret].
  eapply res_bind; [exact H|]. intros a Ha. now apply res_ret.
Qed.

(** ** Optional sections whose last bytes may be cut short *)

(** As [res], only if bytes are left over. *)
Definition resn {A} (Q : A -> Prop) (r : reader A) : Prop :=
  forall b v rest, Forall is_byte b -> r b = Ok (v, rest) -> Forall is_byte rest /\ (rest <> [] -> Q v).

Lemma resn_res : forall A (Q : A -> Prop) r, res Q r -> resn Q r.
Proof. intros A Q r H b v rest Hb E. destruct (H _ _ _ Hb E). auto. Qed.

(** A byte has to follow the sections. *)
Lemma res_iter_resn : forall S (Q : S -> Prop) h s,
  (forall tag s, Q s -> resn Q (h tag s)) -> Q s -> res Q (iter_ext h s).
Proof.
  intros S Q h s Hh Hs b v rest Hb E. unfold iter_ext in E.
  remember (Datatypes.S (length b)) as n eqn:En. clear En.
  assert (b <> [] -> Q s) as Hs' by auto. clear Hs. revert s b Hs' Hb E.
  induction n; intros s b Hs Hb E; [discriminate|]. cbn [ext_loop] in E.
  destruct b as [|x b1]; [discriminate|]. assert (Q s) as Qs by (apply Hs; discriminate). destruct (x =? 1).
  - destruct b1 as [|tag b2]; [discriminate|].
    destruct (h tag s b2) as [[s' b3]|e] eqn:Eh; [|discriminate].
    inversion Hb; subst. inversion H2; subst.
    destruct (Hh tag s Qs _ _ _ H4 Eh) as [Hb3 Hs']. eapply IHn; eauto.
  - injection E as <- <-. now split.
Qed.
