(** Round-trip lemmas for the primitives and the rules to compose them. *)
From Coq Require Import ZArith List Bool Lia.
From Verif Require Import Base IoCtx.
Import ListNotations.
Open Scope Z_scope.

(** ** Integers *)

Lemma pow256_pos : forall n, 0 < pow256 n.
Proof. intros n. unfold pow256. apply Z.pow_pos_nonneg; lia. Qed.

Lemma pow256_S : forall n, pow256 (S n) = 256 * pow256 n.
Proof.
  intros n. unfold pow256. rewrite Nat2Z.inj_succ, Z.pow_succ_r by lia. reflexivity.
Qed.

Lemma le_enc_length : forall n v, length (le_enc n v) = n.
Proof. induction n; intros; cbn [le_enc length]; auto. Qed.

Lemma enc_length : forall bo n v, length (enc bo n v) = n.
Proof. intros [] n v; unfold enc; rewrite ?rev_length; apply le_enc_length. Qed.

Lemma le_dec_enc : forall n v, le_dec (le_enc n v) = v mod pow256 n.
Proof.
  induction n; intros v; cbn [le_enc le_dec].
  - unfold pow256. cbn. now rewrite Z.mod_1_r.
  - rewrite IHn, pow256_S. pose proof (pow256_pos n).
    rewrite Z.rem_mul_r by lia. reflexivity.
Qed.

Lemma dec_enc : forall bo n v, dec bo (enc bo n v) = v mod pow256 n.
Proof. intros [] n v; unfold dec, enc; rewrite ?rev_involutive; apply le_dec_enc. Qed.

Lemma le_enc_bytes : forall n v, Forall is_byte (le_enc n v).
Proof.
  induction n; intros v; cbn [le_enc]; constructor; auto.
  unfold is_byte. apply Z.mod_pos_bound. lia.
Qed.

Lemma enc_bytes : forall bo n v, Forall is_byte (enc bo n v).
Proof. intros [] n v; unfold enc; [|apply Forall_rev]; apply le_enc_bytes. Qed.

Lemma le_dec_range : forall b, Forall is_byte b -> 0 <= le_dec b < pow256 (length b).
Proof.
  induction 1; cbn [le_dec length].
  - unfold pow256. cbn. lia.
  - rewrite pow256_S. unfold is_byte in H. pose proof (pow256_pos (length l)). nia.
Qed.

Lemma dec_range : forall bo b, Forall is_byte b -> 0 <= dec bo b < pow256 (length b).
Proof.
  intros [] b H; unfold dec.
  - now apply le_dec_range.
  - rewrite <- rev_length. apply le_dec_range. now apply Forall_rev.
Qed.

Lemma le_enc_dec : forall b, Forall is_byte b -> le_enc (length b) (le_dec b) = b.
Proof.
  induction 1 as [|x b Hx Hb IH]; cbn [length le_enc le_dec]; auto.
  unfold is_byte in Hx.
  f_equal.
  - replace (x + 256 * le_dec b) with (x + le_dec b * 256) by lia.
    rewrite Z_mod_plus_full. apply Z.mod_small. lia.
  - replace (x + 256 * le_dec b) with (x + le_dec b * 256) by lia.
    rewrite Z.div_add by lia. rewrite Z.div_small by lia. exact IH.
Qed.

Lemma enc_dec : forall bo b, Forall is_byte b -> enc bo (length b) (dec bo b) = b.
Proof.
  intros [] b H; unfold enc, dec.
  - now apply le_enc_dec.
  - rewrite <- (rev_length b), le_enc_dec by now apply Forall_rev. apply rev_involutive.
Qed.

Lemma take_app : forall b rest n, length b = n -> take n (b ++ rest) = Ok (b, rest).
Proof.
  intros b rest n H. unfold take. rewrite app_length.
  destruct (Nat.ltb_spec (length b + length rest) n); [lia|].
  subst n. f_equal. f_equal.
  - rewrite firstn_app, Nat.sub_diag, firstn_all, firstn_O, app_nil_r. reflexivity.
  - rewrite skipn_app, Nat.sub_diag, skipn_all. reflexivity.
Qed.

Lemma Ok_inj : forall A (a b : A), Ok a = Ok b -> a = b.
Proof. intros A a b H. now injection H. Qed.

(** ** The round-trip judgement *)

(** [rt P r w v]: whatever the writer [w] produced, followed by bytes satisfying [P], the
    reader [r] returns [v] and leaves exactly what followed. *)
Definition rt {A} (P : bytes -> Prop) (r : reader A) (w : writer) (v : A) : Prop :=
  forall bs rest, w = Ok bs -> P rest -> r (bs ++ rest) = Ok (v, rest).

Definition anyr (_ : bytes) : Prop := True.

(** What may follow an optional-section loop: a byte that is not the section mark. *)
Definition endr (rest : bytes) : Prop :=
  match rest with [] => False | x :: _ => x <> 1 end.

Lemma wcat_ok : forall a b bs, a +++ b = Ok bs ->
  exists x y, a = Ok x /\ b = Ok y /\ bs = x ++ y.
Proof.
  intros [x|e] b bs; cbn; [|discriminate]. destruct b as [y|e]; [|discriminate].
  intros H. injection H as <-. eauto.
Qed.

Lemma rt_bind : forall A B (P Q : bytes -> Prop) (r : reader A) (k : A -> reader B) w1 w2 a b,
  rt Q r w1 a -> rt P (k a) w2 b ->
  (forall bs rest, w2 = Ok bs -> P rest -> Q (bs ++ rest)) ->
  rt P (bind r k) (w1 +++ w2) b.
Proof.
  intros A B P Q r k w1 w2 a b H1 H2 HQ bs rest Hw HP.
  apply wcat_ok in Hw as (x & y & -> & -> & ->).
  unfold bind. rewrite <- app_assoc, (H1 x (y ++ rest)); auto.
Qed.

Lemma rt_bind_last : forall A B (P : bytes -> Prop) (r : reader A) (k : A -> reader B) w a b,
  rt P r w a -> (forall rest, k a rest = Ok (b, rest)) -> rt P (bind r k) w b.
Proof.
  intros A B P r k w a b H1 H2 bs rest Hw HP.
  unfold bind. rewrite (H1 bs rest); auto.
Qed.

(** A reader step that consumes nothing, before the writer's next step. *)
Lemma rt_bind_pure : forall A B (P : bytes -> Prop) (r : reader A) (k : A -> reader B) w a b,
  (forall rest, r rest = Ok (a, rest)) -> rt P (k a) w b -> rt P (bind r k) w b.
Proof.
  intros A B P r k w a b H1 H2 bs rest Hw HP.
  unfold bind. rewrite H1. auto.
Qed.

Lemma rt_ret : forall A (P : bytes -> Prop) (v : A), rt P (ret v) wnil v.
Proof. intros A P v bs rest H _. injection H as <-. reflexivity. Qed.

Lemma rt_weaken : forall A (P Q : bytes -> Prop) (r : reader A) w v,
  rt P r w v -> (forall x, Q x -> P x) -> rt Q r w v.
Proof. intros A P Q r w v H HPQ bs rest Hw HQ. apply H; auto. Qed.

Lemma rt_any : forall A (P : bytes -> Prop) (r : reader A) w v, rt anyr r w v -> rt P r w v.
Proof. intros. eapply rt_weaken; eauto. intros; exact I. Qed.

Lemma rt_eqv : forall A (P : bytes -> Prop) (r : reader A) w v v',
  rt P r w v -> v = v' -> rt P r w v'.
Proof. intros; subst; auto. Qed.

Lemma rt_err : forall A (P : bytes -> Prop) (r : reader A) e (v : A), rt P r (Err e) v.
Proof. intros A P r e v bs rest H. discriminate H. Qed.

(** ** Primitives *)

Lemma rt_unsigned : forall P bo n v, rt P (runsigned bo n) (wunsigned bo n v) v.
Proof.
  intros P bo n v bs rest H _. unfold wunsigned in H.
  destruct (Z.leb_spec 0 v); destruct (Z.ltb_spec v (pow256 n)); cbn in H; try discriminate.
  injection H as <-. unfold runsigned, bind.
  rewrite take_app by apply enc_length.
  unfold ret. rewrite dec_enc, Z.mod_small by lia. reflexivity.
Qed.

Lemma pow256_even : forall n, (0 < n)%nat -> pow256 n = 2 * (pow256 n / 2).
Proof.
  intros [|n] H; [lia|]. rewrite pow256_S.
  replace (256 * pow256 n) with ((128 * pow256 n) * 2) by lia.
  rewrite Z.div_mul by lia. lia.
Qed.

Lemma rt_signed : forall P bo n v, (0 < n)%nat -> rt P (rsigned bo n) (wsigned bo n v) v.
Proof.
  intros P bo n v Hn bs rest H _. unfold wsigned in H.
  pose proof (pow256_even n Hn) as He. pose proof (pow256_pos n) as Hp.
  set (h := pow256 n / 2) in *.
  destruct (Z.leb_spec (- h) v); destruct (Z.ltb_spec v h);
    cbn in H; try discriminate.
  injection H as <-. unfold rsigned, bind.
  rewrite take_app by apply enc_length.
  unfold ret. cbv zeta. fold h. rewrite dec_enc, Z.mod_mod by lia.
  f_equal. f_equal.
  destruct (Z_lt_le_dec v 0).
  - assert (v mod pow256 n = v + pow256 n) as ->.
    { symmetry. apply Z.mod_unique with (q := -1); lia. }
    destruct (Z.ltb_spec (v + pow256 n) h); lia.
  - rewrite Z.mod_small by lia. destruct (Z.ltb_spec v h); lia.
Qed.

Lemma rt_u8 : forall P v, rt P ru8 (wu8 v) v.
Proof. intros. apply rt_unsigned. Qed.
Lemma rt_u16 : forall P bo v, rt P (ru16 bo) (wu16 bo v) v.
Proof. intros. apply rt_unsigned. Qed.
Lemma rt_u32 : forall P bo v, rt P (ru32 bo) (wu32 bo v) v.
Proof. intros. apply rt_unsigned. Qed.
Lemma rt_u64 : forall P bo v, rt P (ru64 bo) (wu64 bo v) v.
Proof. intros. apply rt_unsigned. Qed.
Lemma rt_s8 : forall P v, rt P rs8 (ws8 v) v.
Proof. intros. apply rt_signed. lia. Qed.
Lemma rt_s16 : forall P bo v, rt P (rs16 bo) (ws16 bo v) v.
Proof. intros. apply rt_signed. lia. Qed.
Lemma rt_s32 : forall P bo v, rt P (rs32 bo) (ws32 bo v) v.
Proof. intros. apply rt_signed. lia. Qed.
Lemma rt_s64 : forall P bo v, rt P (rs64 bo) (ws64 bo v) v.
Proof. intros. apply rt_signed. lia. Qed.
Lemma rt_double : forall P v, rt P rdouble (wdouble v) v.
Proof. intros. apply rt_unsigned. Qed.
Lemma rt_date : forall P bo v, rt P (rdate bo) (wdate bo v) v.
Proof. intros. apply rt_unsigned. Qed.

Lemma rt_tag : forall P t, rt P (rtag t) (wu8 t) tt.
Proof.
  intros P t. unfold rtag. eapply rt_bind_last; [apply rt_u8|].
  intros rest. now rewrite Z.eqb_refl.
Qed.

Lemma rt_bool : forall P v, rt P rbool (wbool v) v.
Proof.
  intros P v. unfold rbool, wbool.
  destruct v; (eapply rt_bind_last; [apply rt_u8|reflexivity]).
Qed.

Lemma rt_rect : forall P bo v, rt P (rrect bo) (wrect bo v) v.
Proof.
  intros P bo [a b c d]. unfold rrect, wrect. cbn [rc0 rc1 rc2 rc3].
  eapply rt_bind; [apply (rt_s16 anyr)| |intros; exact I].
  eapply rt_bind_pure; [reflexivity|].
  do 3 (eapply rt_bind; [apply (rt_s16 anyr)| |intros; exact I]).
  eapply rt_bind_last; [apply rt_s16|reflexivity].
Qed.

Lemma rt_rgb : forall P bo v, rt P (rrgb bo) (wrgb bo v) v.
Proof.
  intros P bo [r g b]. unfold rrgb, wrgb. cbn [rgb_r rgb_g rgb_b].
  eapply rt_bind; [apply (rt_s16 anyr)| |intros; exact I].
  eapply rt_bind_pure; [reflexivity|].
  do 2 (eapply rt_bind; [apply (rt_u16 anyr)| |intros; exact I]).
  eapply rt_bind_last; [apply rt_u16|reflexivity].
Qed.

Lemma fread_app : forall b rest n, n = len b -> fread n (b ++ rest) = Ok (b, rest).
Proof.
  intros b rest n ->. unfold fread, len.
  destruct (Z.ltb_spec (Z.of_nat (length b)) 0); [lia|].
  rewrite app_length, Z.min_l by lia. rewrite Nat2Z.id.
  f_equal. f_equal.
  - rewrite firstn_app, Nat.sub_diag, firstn_all, firstn_O, app_nil_r. reflexivity.
  - rewrite skipn_app, Nat.sub_diag, skipn_all. reflexivity.
Qed.

Lemma rt_bytes : forall P n b, n = len b -> rt P (fread n) (wbytes b) b.
Proof. intros P n b Hn bs rest H _. injection H as <-. now apply fread_app. Qed.

(** ** Lists *)

Lemma rt_list : forall A B (P : bytes -> Prop) (r : reader B) (w : A -> writer) (f : A -> B) l n,
  n = length l ->
  (forall x, In x l -> rt anyr r (w x) (f x)) ->
  rt P (rlist n r) (wlist w l) (map f l).
Proof.
  intros A B P r w f l n -> H. apply rt_any. revert H.
  induction l as [|x l IH]; intros H; cbn [length rlist wlist map].
  - apply rt_ret.
  - eapply rt_bind; [apply H; now left| |intros; exact I].
    eapply rt_bind_last; [apply IH; intros; apply H; now right|reflexivity].
Qed.

Lemma rt_list_id : forall A (P : bytes -> Prop) (r : reader A) (w : A -> writer) l n,
  n = length l ->
  (forall x, In x l -> rt anyr r (w x) x) ->
  rt P (rlist n r) (wlist w l) l.
Proof.
  intros A P r w l n Hn H. eapply rt_eqv; [eapply rt_list with (f := fun x => x); eauto|].
  apply map_id.
Qed.

Lemma len_nat : forall A (l : list A), Z.to_nat (len l) = length l.
Proof. intros. unfold len. apply Nat2Z.id. Qed.

Lemma rt_mapm : forall A B C (P : bytes -> Prop) (r : A -> reader B) (w : C -> writer)
    (xs : list A) (ys : list C) (f : A -> C -> B),
  length xs = length ys ->
  (forall x y, In (x, y) (combine xs ys) -> rt anyr (r x) (w y) (f x y)) ->
  rt P (rmapm r xs) (wlist w ys) (map (fun p => f (fst p) (snd p)) (combine xs ys)).
Proof.
  intros A B C P r w xs ys f Hl H. apply rt_any. revert ys Hl H.
  induction xs as [|x xs IH]; intros [|y ys] Hl H; cbn [rmapm wlist combine map] in *;
    try discriminate Hl.
  - apply rt_ret.
  - eapply rt_bind; [apply H; now left| |intros; exact I].
    eapply rt_bind_last;
      [apply IH; [now injection Hl|intros; apply H; now right]|reflexivity].
Qed.

(** ** Optional sections *)

Definition rtx {S} (h : Z -> S -> reader S) (s : S) (w : writer) (s' : S) : Prop :=
  forall bs rest fuel, w = Ok bs -> endr rest -> (length bs + length rest < fuel)%nat ->
  ext_loop fuel h s (bs ++ rest) = Ok (s', rest).

Lemma rtx_nil : forall S (h : Z -> S -> reader S) s, rtx h s wnil s.
Proof.
  intros S h s bs rest fuel H He Hf. injection H as <-.
  destruct fuel as [|fuel]; [cbn in Hf; lia|].
  destruct rest as [|x rest]; [destruct He|]. cbn in *.
  destruct (Z.eqb_spec x 1); [contradiction|reflexivity].
Qed.

Lemma wu8_ok : forall v bs, wu8 v = Ok bs -> bs = [v] /\ 0 <= v < 256.
Proof.
  intros v bs H. unfold wu8, wunsigned in H.
  destruct (Z.leb_spec 0 v); destruct (Z.ltb_spec v (pow256 1)); cbn in H; try discriminate.
  injection H as <-. unfold pow256 in *. cbn in *. rewrite Z.mod_small by lia. split; auto.
Qed.

Lemma rtx_cons : forall S (h : Z -> S -> reader S) s s1 s' tag w w2,
  rt anyr (h tag s) w s1 -> rtx h s1 w2 s' -> rtx h s (wext tag w +++ w2) s'.
Proof.
  intros S h s s1 s' tag w w2 H1 H2 bs rest fuel Hw He Hf.
  apply wcat_ok in Hw as (x & y & Hx & Hy & ->).
  unfold wext in Hx.
  apply wcat_ok in Hx as (x0 & x1 & Hx0 & Hx1 & ->).
  apply wcat_ok in Hx1 as (x2 & x3 & Hx2 & Hx3 & ->).
  apply wu8_ok in Hx0 as [-> _]. apply wu8_ok in Hx2 as [-> _].
  destruct fuel as [|fuel]; [cbn in Hf; lia|].
  cbn [app ext_loop]. rewrite Z.eqb_refl.
  rewrite <- app_assoc, (H1 x3 (y ++ rest) Hx3 I).
  apply H2; auto. cbn in Hf. rewrite !app_length in Hf. lia.
Qed.

Lemma rtx_last : forall S (h : Z -> S -> reader S) s s1 tag w,
  rt anyr (h tag s) w s1 -> rtx h s (wext tag w) s1.
Proof.
  intros S h s s1 tag w H bs rest fuel Hw.
  assert (wext tag w +++ wnil = Ok bs) as Hw'.
  { rewrite Hw. cbn. now rewrite app_nil_r. }
  revert Hw'. generalize bs rest fuel. fold (rtx h s (wext tag w +++ wnil) s1).
  eapply rtx_cons; eauto using rtx_nil.
Qed.

Lemma rtx_opt : forall S (h : Z -> S -> reader S) A (o : option A) (wv : A -> writer) tag s s1 s' w2,
  (forall v, o = Some v -> rt anyr (h tag s) (wv v) s1) ->
  (o = None -> s1 = s) ->
  rtx h s1 w2 s' ->
  rtx h s (wopt o (fun v => wext tag (wv v)) +++ w2) s'.
Proof.
  intros S h A o wv tag s s1 s' w2 H1 H2 H3. destruct o as [v|]; cbn [wopt].
  - eapply rtx_cons; eauto.
  - rewrite <- (H2 eq_refl). unfold wnil. intros bs rest fuel Hw.
    apply wcat_ok in Hw as (x & y & Hx & Hy & ->). injection Hx as <-. now apply H3.
Qed.

Lemma rtx_opt_last : forall S (h : Z -> S -> reader S) A (o : option A) (wv : A -> writer) tag s s1,
  (forall v, o = Some v -> rt anyr (h tag s) (wv v) s1) ->
  (o = None -> s1 = s) ->
  rtx h s (wopt o (fun v => wext tag (wv v))) s1.
Proof.
  intros S h A o wv tag s s1 H1 H2. destruct o as [v|]; cbn [wopt].
  - eapply rtx_last; eauto.
  - rewrite <- (H2 eq_refl). apply rtx_nil.
Qed.

Lemma rt_ext : forall S (h : Z -> S -> reader S) s w s',
  rtx h s w s' -> rt endr (iter_ext h s) w s'.
Proof.
  intros S h s w s' H bs rest Hw He. unfold iter_ext. apply H; auto.
  rewrite app_length. lia.
Qed.

Lemma endr_u8 : forall t w bs rest, t <> 1 -> wu8 t +++ w = Ok bs -> endr (bs ++ rest).
Proof.
  intros t w bs rest Ht Hw. apply wcat_ok in Hw as (x & y & Hx & _ & ->).
  apply wu8_ok in Hx as [-> _]. exact Ht.
Qed.

Lemma endr_u8_last : forall t bs rest, t <> 1 -> wu8 t = Ok bs -> endr (bs ++ rest).
Proof. intros t bs rest Ht Hw. apply wu8_ok in Hw as [-> _]. exact Ht. Qed.

(** ** References *)

(** The chunk number a reference is stored as. *)
Definition reff (c : octx) (r : Z) : Z :=
  if r =? 0 then 0 else match orefs c r with Some x => x | None => 0 end.

(** The reader's context fits the writer's: same byte order, and every chunk number the
    writer can store (0 included) passes the reader's reference check. *)
Definition compat (i : ictx) (c : octx) : Prop :=
  ibo i = obo c /\ ref_valid i 0 = true /\
  forall r x, orefs c r = Some x -> ref_valid i x = true.

Lemma rt_ref : forall P i c r, compat i c -> rt P (rref i) (wref c r) (reff c r).
Proof.
  intros P i c r (Hbo & H0 & Hx). unfold rref, wref, reff. rewrite Hbo.
  destruct (r =? 0).
  - eapply rt_bind_last; [apply rt_u32|]. intros rest. now rewrite H0.
  - destruct (orefs c r) as [x|] eqn:E.
    + eapply rt_bind_last; [apply rt_u32|]. intros rest. now rewrite (Hx r x E).
    + intros bs rest Hw. discriminate Hw.
Qed.

(** ** Proof search *)

Create HintDb rt discriminated.
#[export] Hint Resolve rt_u8 rt_s8 rt_u16 rt_s16 rt_u32 rt_s32 rt_u64 rt_s64 rt_double rt_date
  rt_tag rt_bool rt_rect rt_rgb : rt.

(** What follows a base class's optional sections is the next part's tag byte. *)
Ltac rt_end :=
  first
    [ intros; exact I
    | intros ? ? ?Hw ?HP; first
        [ eapply endr_u8; [|exact Hw]; discriminate
        | eapply endr_u8_last; [|exact Hw]; discriminate ]
    | intros ? ? ?Hw ?HP; injection Hw as <-; exact HP ].

(** One sequencing step. *)
Ltac rt_prim := solve [ eauto 4 with rt ].

Ltac rt_step :=
  first
    [ eapply rt_bind; [ rt_prim | | rt_end ]
    | eapply rt_bind_pure; [ intros; reflexivity | ] ].

Ltac rt_fin := eapply rt_bind_last; [ rt_prim | intros; try reflexivity ].
