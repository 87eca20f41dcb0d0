(** Round trips of the two string encodings. *)
From Coq Require Import ZArith List Bool Lia.
From Verif Require Import Base IoCtx RoundTrip Text.
From Verif Require Export Storable.
Import ListNotations.
Open Scope Z_scope.

(** ** Mac Roman *)

Lemma index_of_spec : forall l c k j, index_of c l k = Some j ->
  k <= j < k + len l /\ nth (Z.to_nat (j - k)) l 0 = c.
Proof.
  induction l as [|x l IH]; intros c k j H; cbn [index_of] in H; [discriminate|].
  destruct (Z.eqb_spec x c) as [->|Hne].
  - injection H as <-. unfold len. cbn [length]. rewrite Z.sub_diag. cbn. split; [lia|auto].
  - apply IH in H as [H1 H2]. unfold len in *. cbn [length]. split; [lia|].
    replace (Z.to_nat (j - k)) with (S (Z.to_nat (j - (k + 1)))) by lia. exact H2.
Qed.

Lemma mac_enc1_dec : forall c b, mac_enc1 c = Some b -> mac_dec1 b = c /\ 0 <= b < 256.
Proof.
  intros c b H. apply index_of_spec in H as [H1 H2]. unfold mac_dec1.
  rewrite Z.sub_0_r in H2. split; auto.
Qed.

Lemma mac_enc1_zero : forall c b, mac_enc1 c = Some b -> (b = 0 <-> c = 0).
Proof.
  intros c b H. pose proof (mac_enc1_dec c b H) as [H1 _]. split; intros ->.
  - rewrite <- H1. reflexivity.
  - injection H as <-. reflexivity.
Qed.

Lemma mac_encode_dec : forall s bs, mac_encode s = Ok bs ->
  map mac_dec1 bs = s /\ length bs = length s /\ Forall is_byte bs.
Proof.
  induction s as [|c s IH]; intros bs H; cbn [mac_encode] in H.
  - injection H as <-. auto.
  - destruct (mac_enc1 c) as [b|] eqn:E; [|discriminate].
    destruct (mac_encode s) as [bs'|e]; [|discriminate]. injection H as <-.
    destruct (IH bs' eq_refl) as (H1 & H2 & H3). apply mac_enc1_dec in E as [H4 H5].
    cbn [map length]. rewrite H1, H2, H4. auto.
Qed.

(** ** Stripping *)

Lemma lstrip0_id : forall b, hd 1 b <> 0 -> lstrip0 b = b.
Proof. intros [|x b] H; cbn in *; auto. destruct x; congruence. Qed.

Lemma hd_rev_last : forall (b : list Z) d, hd d (rev b) = last b d.
Proof.
  intros b d. destruct b as [|x b] using rev_ind; auto.
  rewrite rev_app_distr, last_last. reflexivity.
Qed.

Lemma strip0_id : forall b, no_outer_nul b -> strip0 b = b.
Proof.
  intros b [H1 H2]. unfold strip0. rewrite (lstrip0_id b H1).
  rewrite lstrip0_id by now rewrite hd_rev_last. apply rev_involutive.
Qed.

Lemma mac_encode_outer : forall s bs, mac_encode s = Ok bs -> no_outer_nul s -> no_outer_nul bs.
Proof.
  intros s bs H [H1 H2]. split.
  - destruct s as [|c s]; cbn [mac_encode] in H.
    + injection H as <-. cbn. lia.
    + destruct (mac_enc1 c) as [b|] eqn:E; [|discriminate].
      destruct (mac_encode s); [|discriminate]. injection H as <-. cbn [hd last] in *.
      apply mac_enc1_zero in E. tauto.
  - clear H1. revert bs H H2. induction s as [|c s IH]; intros bs H H2; cbn [mac_encode] in H.
    + injection H as <-. cbn. lia.
    + destruct (mac_enc1 c) as [b|] eqn:E; [|discriminate].
      destruct (mac_encode s) as [bs'|] eqn:Es; [|discriminate]. injection H as <-.
      destruct s as [|c' s].
      * cbn [mac_encode] in Es. injection Es as <-. cbn [hd last] in *. apply mac_enc1_zero in E. tauto.
      * assert (last (c' :: s) 1 <> 0) as Hl by exact H2.
        specialize (IH bs' eq_refl Hl). destruct bs' as [|b' bs'].
        -- apply mac_encode_dec in Es as (_ & Hlen & _). discriminate Hlen.
        -- exact IH.
Qed.

Lemma rt_str : forall P bo s, str_ok s -> rt P (rstr bo) (wstr bo s) s.
Proof.
  intros P bo s [Hn Hl]. unfold rstr, wstr, rstr_enc, wstr_enc.
  destruct s as [|c s].
  - eapply rt_bind_last; [apply rt_u16|]. intros rest. cbn. unfold bind, fread, len.
    destruct rest; cbn; reflexivity.
  - remember (c :: s) as s0 eqn:E0. unfold encode.
    destruct (mac_encode s0) as [bs|e] eqn:Ee; [|apply rt_err].
    destruct (mac_encode_dec _ _ Ee) as (Hd & Hlen & _).
    unfold len in *. cbv zeta.
    eapply rt_bind; [apply (rt_u16 anyr)| |intros; exact I].
    rewrite Hlen. destruct (Z.leb_spec 65535 (Z.of_nat (length s0))); [lia|].
    eapply rt_bind_last; [apply rt_bytes; unfold len; now rewrite Hlen|].
    intros rest. rewrite strip0_id by (eapply mac_encode_outer; eauto).
    cbn. now rewrite Hd.
Qed.

Lemma rt_name : forall P bo s, str_ok s -> rt P (rstr bo) (wname bo s) s.
Proof.
  intros P bo s H. destruct s as [|c s]; [|now apply rt_str].
  unfold wname, rstr, rstr_enc. eapply rt_bind_last; [apply rt_u16|reflexivity].
Qed.

(** ** UTF-8 *)

Lemma utf8_enc1_nonempty : forall c b, utf8_enc1 c = Some b -> (0 < length b)%nat.
Proof.
  intros c b H. unfold utf8_enc1 in H.
  repeat match type of H with (if ?x then _ else _) = _ => destruct x end;
    try discriminate; injection H as <-; cbn; lia.
Qed.

Ltac zdm c :=
  pose proof (Z.div_mod c 64 ltac:(lia));
  pose proof (Z.mod_pos_bound c 64 ltac:(lia)).

Ltac ltb_all :=
  repeat match goal with
    | |- context [?a <? ?b] => destruct (Z.ltb_spec a b); try lia
    | |- context [?a <=? ?b] => destruct (Z.leb_spec a b); try lia
  end.

Lemma utf8_dec_enc1 : forall c b rest fuel, utf8_enc1 c = Some b ->
  utf8_decode_fuel (S fuel) (b ++ rest) =
  match utf8_decode_fuel fuel rest with Ok s => Ok (c :: s) | Err e => Err e end.
Proof.
  intros c b rest fuel H. unfold utf8_enc1 in H.
  destruct (Z.ltb_spec c 0); [discriminate|].
  destruct (Z.ltb_spec c 128).
  { injection H as <-. cbn [app utf8_decode_fuel].
    destruct (Z.ltb_spec c 128); [|lia]. reflexivity. }
  destruct (Z.ltb_spec c 2048).
  { zdm c.
    assert (2 <= c / 64 < 32) as Hq.
    { split; [apply Z.div_le_lower_bound; lia|apply Z.div_lt_upper_bound; lia]. }
    remember (192 + c / 64) as b0 eqn:E0. remember (128 + c mod 64) as b1 eqn:E1.
    injection H as <-. cbn [app utf8_decode_fuel].
    replace ((b0 - 192) * 64 + (b1 - 128)) with c by lia.
    unfold is_cont. ltb_all. reflexivity. }
  destruct ((55296 <=? c) && (c <? 57344)) eqn:Esur; [discriminate|].
  assert (4096 = 64 * 64) as E4096 by reflexivity.
  destruct (Z.ltb_spec c 65536).
  { zdm c. zdm (c / 64).
    assert (c / 4096 = c / 64 / 64) as Ed by (rewrite E4096, Z.div_div; lia).
    rewrite Ed in H.
    assert (32 <= c / 64 < 1024) as Hq.
    { split; [apply Z.div_le_lower_bound; lia|apply Z.div_lt_upper_bound; lia]. }
    assert (0 <= c / 64 / 64 < 16) as Hq2.
    { split; [apply Z.div_le_lower_bound; lia|apply Z.div_lt_upper_bound; lia]. }
    remember (224 + c / 64 / 64) as b0 eqn:E0.
    remember (128 + (c / 64) mod 64) as b1 eqn:E1.
    remember (128 + c mod 64) as b2 eqn:E2.
    injection H as <-. cbn [app utf8_decode_fuel]. cbv zeta.
    replace ((b0 - 224) * 4096 + (b1 - 128) * 64 + (b2 - 128)) with c by lia.
    rewrite Esur. unfold is_cont. ltb_all. reflexivity. }
  destruct (Z.ltb_spec c 1114112); [|discriminate].
  zdm c. zdm (c / 64). zdm (c / 64 / 64).
  assert (c / 4096 = c / 64 / 64) as Ed by (rewrite E4096, Z.div_div; lia).
  assert (c / 262144 = c / 64 / 64 / 64) as Ed2 by (rewrite !Z.div_div by lia; reflexivity).
  rewrite Ed2, Ed in H.
  assert (1024 <= c / 64 < 17408) as Hq.
  { split; [apply Z.div_le_lower_bound; lia|apply Z.div_lt_upper_bound; lia]. }
  assert (16 <= c / 64 / 64 < 272) as Hq2.
  { split; [apply Z.div_le_lower_bound; lia|apply Z.div_lt_upper_bound; lia]. }
  assert (0 <= c / 64 / 64 / 64 < 5) as Hq3.
  { split; [apply Z.div_le_lower_bound; lia|apply Z.div_lt_upper_bound; lia]. }
  remember (240 + c / 64 / 64 / 64) as b0 eqn:E0.
  remember (128 + (c / 64 / 64) mod 64) as b1 eqn:E1.
  remember (128 + (c / 64) mod 64) as b2 eqn:E2.
  remember (128 + c mod 64) as b3 eqn:E3.
  injection H as <-. cbn [app utf8_decode_fuel]. cbv zeta.
  replace ((b0 - 240) * 262144 + (b1 - 128) * 4096 + (b2 - 128) * 64 + (b3 - 128)) with c by lia.
  unfold is_cont. ltb_all. reflexivity.
Qed.

Lemma utf8_decode_encode : forall s bs fuel, utf8_encode s = Ok bs ->
  (length bs < fuel)%nat -> utf8_decode_fuel fuel bs = Ok s.
Proof.
  induction s as [|c s IH]; intros bs fuel H Hf; cbn [utf8_encode] in H.
  - injection H as <-. destruct fuel; [lia|]. reflexivity.
  - destruct (utf8_enc1 c) as [b|] eqn:E; [|discriminate].
    destruct (utf8_encode s) as [bs'|]; [|discriminate]. injection H as <-.
    destruct fuel as [|fuel]; [lia|].
    rewrite (utf8_dec_enc1 _ _ _ _ E). apply utf8_enc1_nonempty in E.
    rewrite app_length in Hf. rewrite IH; auto. lia.
Qed.

Ltac some_inj H :=
  match type of H with Some ?l = Some ?b => assert (b = l) as -> by congruence end.

Lemma utf8_enc1_nul : forall c b, utf8_enc1 c = Some b ->
  (c <> 0 -> hd 1 b <> 0 /\ last b 1 <> 0) .
Proof.
  intros c b H Hc. unfold utf8_enc1 in H.
  destruct (Z.ltb_spec c 0); [discriminate|].
  destruct (Z.ltb_spec c 128); [some_inj H; cbn; lia|].
  assert (0 <= c / 64) by (apply Z.div_le_lower_bound; lia).
  assert (0 <= c / 4096) by (apply Z.div_le_lower_bound; lia).
  assert (0 <= c / 262144) by (apply Z.div_le_lower_bound; lia).
  pose proof (Z.mod_pos_bound c 64 ltac:(lia)).
  destruct (Z.ltb_spec c 2048); [some_inj H; cbn [hd last]; lia|].
  destruct ((55296 <=? c) && (c <? 57344)); [discriminate|].
  destruct (Z.ltb_spec c 65536); [some_inj H; cbn [hd last]; lia|].
  destruct (Z.ltb_spec c 1114112); [|discriminate].
  some_inj H. cbn [hd last]. lia.
Qed.

Lemma last_app_ne : forall (a b : list Z) d, b <> [] -> last (a ++ b) d = last b d.
Proof.
  intros a b d H. induction a as [|x a IH]; auto. cbn [app].
  destruct (a ++ b) eqn:E.
  - apply app_eq_nil in E as [_ ->]. congruence.
  - rewrite <- IH. reflexivity.
Qed.

Lemma utf8_encode_outer : forall s bs, utf8_encode s = Ok bs -> no_outer_nul s -> no_outer_nul bs.
Proof.
  intros s bs H [H1 H2]. split.
  - destruct s as [|c s]; cbn [utf8_encode] in H.
    + injection H as <-. cbn. lia.
    + destruct (utf8_enc1 c) as [b|] eqn:E; [|discriminate].
      destruct (utf8_encode s); [|discriminate]. injection H as <-. cbn in H1.
      pose proof (utf8_enc1_nonempty _ _ E). apply utf8_enc1_nul in E as [E _]; auto.
      destruct b; [cbn in *; lia|]. exact E.
  - clear H1. revert bs H H2. induction s as [|c s IH]; intros bs H H2; cbn [utf8_encode] in H.
    + injection H as <-. cbn. lia.
    + destruct (utf8_enc1 c) as [b|] eqn:E; [|discriminate].
      destruct (utf8_encode s) as [bs'|] eqn:Es; [|discriminate]. injection H as <-.
      destruct s as [|c' s].
      * cbn [utf8_encode] in Es. injection Es as <-. rewrite app_nil_r. cbn in H2.
        apply utf8_enc1_nul in E; tauto.
      * assert (last (c' :: s) 1 <> 0) as Hl by exact H2.
        specialize (IH bs' eq_refl Hl). destruct bs' as [|b' bs'].
        -- cbn [utf8_encode] in Es. destruct (utf8_enc1 c') as [b0|] eqn:E0; [|discriminate].
           destruct (utf8_encode s); [|discriminate]. injection Es as Es.
           apply utf8_enc1_nonempty in E0. apply app_eq_nil in Es as [-> _]. cbn in E0. lia.
        -- rewrite last_app_ne by congruence. exact IH.
Qed.

Lemma utf8_encode_size : forall s bs, utf8_encode s = Ok bs -> len bs = utf8_size s.
Proof.
  induction s as [|c s IH]; intros bs H; cbn [utf8_encode] in H.
  - injection H as <-. reflexivity.
  - destruct (utf8_enc1 c) as [b|] eqn:E; [|discriminate].
    destruct (utf8_encode s) as [bs'|]; [|discriminate]. injection H as <-.
    cbn [utf8_size fold_right]. fold (utf8_size s). rewrite <- (IH bs' eq_refl).
    unfold len. rewrite app_length, Nat2Z.inj_add, Z.add_comm. f_equal.
    unfold utf8_enc1 in E.
    destruct (Z.ltb_spec c 0); [discriminate|].
    destruct (Z.ltb_spec c 128); [injection E as <-; reflexivity|].
    destruct (Z.ltb_spec c 2048); [injection E as <-; reflexivity|].
    destruct ((55296 <=? c) && (c <? 57344)); [discriminate|].
    destruct (Z.ltb_spec c 65536); [injection E as <-; reflexivity|].
    destruct (Z.ltb_spec c 1114112); [injection E as <-; reflexivity|discriminate].
Qed.

Lemma strip0_prefix : forall b, no_outer_nul b -> strip0 (0 :: 0 :: b) = b.
Proof. intros b H. unfold strip0. cbn [lstrip0]. now apply strip0_id. Qed.

Lemma rt_utf8 : forall P bo s, utf8_ok s -> rt P (rstr_enc bo Utf8) (wstr_enc bo Utf8 s) s.
Proof.
  intros P bo s [Hn Hl]. unfold rstr_enc, wstr_enc.
  destruct s as [|c s].
  - eapply rt_bind_last; [apply rt_u16|]. intros rest. cbn. unfold bind, fread, len.
    destruct rest; cbn; reflexivity.
  - remember (c :: s) as s0 eqn:E0. unfold encode.
    destruct (utf8_encode s0) as [bs|e] eqn:Ee; [|apply rt_err].
    pose proof (utf8_encode_size _ _ Ee) as Hs. cbv zeta.
    eapply rt_bind; [apply (rt_u16 anyr)| |intros; exact I].
    assert (len (0 :: 0 :: bs) = 2 + utf8_size s0) as Hlen.
    { rewrite <- Hs. unfold len. cbn [length]. lia. }
    rewrite Hlen. destruct (Z.leb_spec 65535 (2 + utf8_size s0)); [lia|].
    eapply rt_bind_last; [apply rt_bytes; now rewrite Hlen|].
    intros rest. rewrite strip0_prefix by (eapply utf8_encode_outer; eauto).
    unfold decode, utf8_decode. rewrite (utf8_decode_encode _ _ _ Ee) by lia. reflexivity.
Qed.

#[export] Hint Resolve rt_str rt_name rt_utf8 : rt.
