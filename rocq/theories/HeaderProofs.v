(** The header of a file: what is written, what is read back, what a cut header gives. *)
From Coq Require Import ZArith List Bool Lia.
From Verif Require Import Base IoCtx RoundTrip Text TextProofs Storable ClassTac Dates Objects LocProofs
  FileModel.
Import ListNotations.
Open Scope Z_scope.

(** ** The text of the save time *)

Definition digit_ok (c : Z) : Prop := 32 <= c <= 58.

Lemma digits_length : forall n v, length (digits n v) = n.
Proof. induction n; intros v; cbn [digits]; [reflexivity|]. rewrite app_length, IHn. cbn. lia. Qed.

Lemma digits_ok : forall n v, Forall digit_ok (digits n v).
Proof.
  induction n; intros v; cbn [digits]; [constructor|]. apply Forall_app. split; [apply IHn|].
  constructor; [|constructor]. unfold digit_ok. pose proof (Z.mod_pos_bound v 10). lia.
Qed.

Lemma save_text_ok : forall d, Forall digit_ok (save_text d) /\ length (save_text d) = 19%nat.
Proof.
  intros d. unfold save_text. destruct (civil (d / 86400)) as [[y m] day]. cbv zeta. split.
  - assert (forall c, digit_ok c -> Forall digit_ok [c]) as One by (intros c Hc; exact (Forall_cons c Hc (Forall_nil _))).
    rewrite !Forall_app.
    repeat match goal with |- _ /\ _ => split end; try apply digits_ok; apply One; unfold digit_ok; lia.
  - rewrite !app_length, !digits_length. reflexivity.
Qed.

Lemma ascii_mac : forall c, 0 <= c < 128 -> mac_enc1 c = Some c.
Proof.
  assert (forallb (fun c => match mac_enc1 c with Some b => b =? c | None => false end)
            (map Z.of_nat (seq 0 128)) = true) as H by (vm_compute; reflexivity).
  rewrite forallb_forall in H. intros c Hc.
  specialize (H c). destruct (mac_enc1 c) as [b|].
  - f_equal. apply Z.eqb_eq. apply H. apply in_map_iff. exists (Z.to_nat c).
    split; [lia|]. apply in_seq. lia.
  - discriminate H. apply in_map_iff. exists (Z.to_nat c). split; [lia|]. apply in_seq. lia.
Qed.

Lemma ascii_encode : forall s, Forall digit_ok s -> mac_encode s = Ok s.
Proof.
  induction 1 as [|c s Hc Hs IH]; [reflexivity|]. cbn [mac_encode].
  unfold digit_ok in Hc. rewrite ascii_mac by lia. now rewrite IH.
Qed.

Lemma save_text_str_ok : forall d, str_ok (save_text d).
Proof.
  intros d. destruct (save_text_ok d) as [H L]. split.
  - assert (forall x, In x (save_text d) -> x <> 0) as N.
    { rewrite Forall_forall in H. intros x Hx. specialize (H x Hx). unfold digit_ok in H. lia. }
    destruct (save_text d) as [|c s] eqn:E; [discriminate L|]. split.
    + cbn [hd]. apply N. now left.
    + apply N. rewrite <- (app_nil_l (c :: s)). destruct (exists_last (l := c :: s)) as (p & x & ->); [discriminate|].
      cbn [app]. rewrite last_last. apply in_or_app. right. now left.
  - unfold len. rewrite L. reflexivity.
Qed.

Lemma wstr_ascii : forall bo s, Forall digit_ok s -> s <> [] -> len s < 65536 ->
  wstr bo s = Ok (enc bo 2 (len s) ++ s).
Proof.
  intros bo s Hs Hn Hl. unfold wstr, wstr_enc. destruct s as [|c s]; [congruence|].
  remember (c :: s) as l eqn:E. unfold encode. rewrite (ascii_encode l Hs).
  unfold wu16, wunsigned. assert (0 <= len l) by (unfold len; lia).
  destruct (Z.leb_spec 0 (len l)); [|lia]. change (pow256 2) with 65536.
  destruct (Z.ltb_spec (len l) 65536); [reflexivity|lia].
Qed.

(** ** What is written *)

Lemma run_writers_all : forall l b, run_writers l = (b, None) ->
  exists bs, l = map Ok bs /\ b = map Append bs.
Proof.
  induction l as [|w l IH]; intros b H; cbn [run_writers] in H.
  - injection H as <-. exists []. now split.
  - destruct w as [x|e]; [|discriminate]. destruct (run_writers l) as [o s].
    injection H as <- ->. destruct (IH o eq_refl) as (bs & -> & ->). exists (x :: bs). now split.
Qed.

Lemma run_writers_ok : forall bs, run_writers (map Ok bs) = (map Append bs, None).
Proof. induction bs as [|b bs IH]; [reflexivity|]. cbn [map run_writers]. now rewrite IH. Qed.

(** All writers of a prefix that succeed, and the bytes added up to the first that does not. *)
Lemma run_writers_appends : forall l o s, run_writers l = (o, s) -> exists bs, o = map Append bs.
Proof.
  induction l as [|w l IH]; intros o s H; cbn [run_writers] in H.
  - injection H as <- <-. now exists [].
  - destruct w as [x|e].
    + destruct (run_writers l) as [o' s']. injection H as <- <-.
      destruct (IH o' s' eq_refl) as [bs ->]. now exists (x :: bs).
    + injection H as <- <-. now exists [].
Qed.

Lemma wcat_map_ok : forall bs, fold_right wcat wnil (map Ok bs) = Ok (concat bs).
Proof. induction bs as [|b bs IH]; [reflexivity|]. cbn [map fold_right concat]. now rewrite IH. Qed.

Definition head_pre (bo : border) (d : document) : bytes :=
  order_mark bo ++ magic ++ (match bo with LE => rev cc_OBJD | BE => cc_OBJD end) ++
  (enc bo 2 7 ++ doc_name) ++ [4] ++ (enc bo 2 19 ++ save_text (dc_saved d)).

Lemma head_before_ok : forall z bo d,
  exists bs, head_before z bo d = map Ok bs /\ concat bs = head_pre bo d.
Proof.
  intros z bo d. destruct (save_text_ok (dc_saved d)) as [Hd Hl]. unfold head_before, wbytes.
  exists [order_mark bo; magic; match bo with LE => rev cc_OBJD | BE => cc_OBJD end;
    enc bo 2 7 ++ doc_name; [4]; enc bo 2 19 ++ save_text (dc_saved d)].
  split; [|unfold head_pre; cbn [concat]; now rewrite ?app_nil_r].
  cbn [map]. rewrite (wstr_ascii bo (save_text (dc_saved d))); [|exact Hd|intros E; rewrite E in Hl; discriminate Hl|unfold len; lia].
  unfold len. rewrite Hl. change (Z.of_nat 19) with 19. destruct bo; reflexivity.
Qed.

Lemma head_pre_length : forall bo d, length (head_pre bo d) = 43%nat.
Proof.
  intros bo d. destruct (save_text_ok (dc_saved d)) as [_ H]. unfold head_pre.
  rewrite !app_length, H, !enc_length. destruct bo; reflexivity.
Qed.

(** The header with the counts [n] and [r]. *)
Definition version_bytes (v : bytes) : bytes :=
  firstn 30 v ++ repeat 32 (30 - length (firstn 30 v)).

Lemma version_length : forall v, length (version_bytes v) = 30%nat.
Proof.
  intros v. unfold version_bytes. rewrite app_length, repeat_length, firstn_length. lia.
Qed.

Definition head_post (bo : border) (stamp : Z) (v : bytes) : bytes :=
  enc bo 4 (match bo with LE => mark_II | BE => mark_MM end) ++ enc bo 4 stamp ++ enc bo 4 0 ++
  (match bo with LE => rev cc_ATob | BE => cc_ATob end) ++
  (match bo with LE => rev cc_ATve | BE => cc_ATve end) ++
  enc bo 2 30 ++ version_bytes v ++ repeat 0 16.

Lemma head_post_length : forall bo s v, length (head_post bo s v) = 68%nat.
Proof.
  intros bo s v. unfold head_post. rewrite !app_length, version_length, !enc_length, repeat_length.
  destruct bo; reflexivity.
Qed.

Lemma wunsigned_ok : forall bo n v b, wunsigned bo n v = Ok b -> 0 <= v < pow256 n /\ b = enc bo n v.
Proof.
  intros bo n v b H. unfold wunsigned in H.
  destruct (Z.leb_spec 0 v); [|discriminate]. destruct (Z.ltb_spec v (pow256 n)); [|discriminate].
  cbn [andb] in H. injection H as <-. auto.
Qed.

Lemma wunsigned_in : forall bo n v, 0 <= v < pow256 n -> wunsigned bo n v = Ok (enc bo n v).
Proof.
  intros bo n v H. unfold wunsigned. destruct (Z.leb_spec 0 v); [|lia].
  destruct (Z.ltb_spec v (pow256 n)); [reflexivity|lia].
Qed.

(** When the rest of the header can be written. *)
Definition head_fits (z : zone) (d : document) (v : bytes) : Prop :=
  mac_encode (dc_version d) = Ok v /\ 0 <= to_timestamp z (dc_saved d) < 2 ^ 32.

Lemma head_after_ok : forall z bo d o, run_writers (head_after z bo d) = (o, None) ->
  exists v, head_fits z d v.
Proof.
  intros z bo d o H. apply run_writers_all in H as (bs & H & _). unfold head_after in H.
  cbn [app] in H. destruct bs as [|b1 [|b2 bs]]; try discriminate H. cbn [map] in H.
  apply (f_equal (@tl writer)) in H. cbn [tl] in H.
  pose proof (f_equal (@hd_error writer) H) as H2. cbn [hd_error] in H2. injection H2 as H2.
  apply (f_equal (@tl writer)) in H. cbn [tl] in H. unfold wdatetime, wu32 in H2. apply wunsigned_ok in H2 as [H2 _].
  destruct (mac_encode (dc_version d)) as [v|e] eqn:E.
  - exists v. split; [exact E|exact H2].
  - exfalso. destruct bs as [|b3 [|b4 [|b5 [|b6 bs]]]]; discriminate H.
Qed.

Lemma head_after_intro : forall z bo d v, head_fits z d v ->
  exists bs, head_after z bo d = map Ok bs /\ concat bs = head_post bo (to_timestamp z (dc_saved d)) v.
Proof.
  intros z bo d v [Hv Hs]. unfold head_after. rewrite Hv. cbn [app].
  exists [enc bo 4 (match bo with LE => mark_II | BE => mark_MM end);
    enc bo 4 (to_timestamp z (dc_saved d)); enc bo 4 0;
    (match bo with LE => rev cc_ATob | BE => cc_ATob end);
    (match bo with LE => rev cc_ATve | BE => cc_ATve end);
    enc bo 2 30; firstn 30 v; repeat 32 (30 - length (firstn 30 v)); repeat 0 16].
  split.
  - unfold wdatetime, wu32. rewrite (wunsigned_in bo 4 (to_timestamp z (dc_saved d))) by exact Hs.
    destruct bo; reflexivity.
  - unfold head_post, version_bytes. cbn [concat]. now rewrite <- !app_assoc, app_nil_r.
Qed.

(** ** What is read *)

Lemma dec_enc_small : forall bo n v, 0 <= v < pow256 n -> dec bo (enc bo n v) = v.
Proof. intros. rewrite dec_enc. now apply Z.mod_small. Qed.

Lemma runsigned_enc : forall bo n v rest, 0 <= v < pow256 n ->
  runsigned bo n (enc bo n v ++ rest) = Ok (v, rest).
Proof.
  intros bo n v rest H. unfold runsigned, bind, ret.
  rewrite take_app by apply enc_length. now rewrite dec_enc_small.
Qed.

Lemma zlist_eqb_refl : forall l, zlist_eqb l l = true.
Proof. induction l as [|x l IH]; [reflexivity|]. cbn [zlist_eqb]. now rewrite Z.eqb_refl, IH. Qed.

Lemma zlist_eqb_eq : forall a b, zlist_eqb a b = true -> a = b.
Proof.
  induction a as [|x a IH]; intros [|y b] H; try discriminate; [reflexivity|].
  cbn [zlist_eqb] in H. apply andb_true_iff in H as [H1 H2]. apply Z.eqb_eq in H1 as ->.
  f_equal. now apply IH.
Qed.

Lemma bind_step : forall A B (r : reader A) (k : A -> reader B) b v rest,
  r b = Ok (v, rest) -> bind r k b = k v rest.
Proof. intros A B r k b v rest H. unfold bind. now rewrite H. Qed.

Lemma rstr_ascii : forall bo s rest, Forall digit_ok s -> s <> [] -> str_ok s ->
  rstr bo ((enc bo 2 (len s) ++ s) ++ rest) = Ok (s, rest).
Proof.
  intros bo s rest Hd Hn Hs. apply (rt_str anyr bo s Hs); [|exact I].
  apply wstr_ascii; [exact Hd|exact Hn|]. destruct Hs. lia.
Qed.

Lemma rfourcc_bytes : forall bo cc rest, length cc = 4%nat ->
  rfourcc bo ((match bo with LE => rev cc | BE => cc end) ++ rest) = Ok (cc, rest).
Proof.
  intros bo cc rest H. apply (rt_fourcc anyr bo cc); [|exact I]. unfold wfourcc, len. rewrite H.
  reflexivity.
Qed.

Lemma rhead_ok : forall bo d n r rest, 0 <= n < 2 ^ 32 -> 0 <= r < 2 ^ 32 ->
  rhead (head_pre bo d ++ enc bo 4 n ++ enc bo 4 r ++ rest) =
  Ok ({| hd_bo := bo; hd_text := save_text (dc_saved d); hd_count := n; hd_root := r |}, rest).
Proof.
  intros bo d n r rest Hn Hr. destruct (save_text_ok (dc_saved d)) as [Hd Hl].
  unfold rhead, head_pre. rewrite <- !app_assoc.
  erewrite bind_step by (apply fread_app; destruct bo; reflexivity).
  assert ((if zlist_eqb (order_mark bo) (order_mark LE) then @ret border LE
           else if zlist_eqb (order_mark bo) (order_mark BE) then ret BE else fail ValueErr) = ret bo)
    as -> by (destruct bo; reflexivity).
  erewrite bind_step by reflexivity.
  erewrite bind_step by (apply fread_app; reflexivity).
  rewrite zlist_eqb_refl. erewrite bind_step by reflexivity.
  erewrite bind_step by (apply rfourcc_bytes; reflexivity).
  rewrite zlist_eqb_refl. erewrite bind_step by reflexivity.
  rewrite (app_assoc (enc bo 2 7)).
  erewrite bind_step.
  2:{ apply (rt_str anyr bo doc_name); [|destruct bo; reflexivity|exact I].
      split; [split; discriminate|reflexivity]. }
  rewrite zlist_eqb_refl. erewrite bind_step by reflexivity.
  erewrite bind_step by reflexivity. cbn [Z.eqb Pos.eqb rassert].
  change (dec LE [4]) with 4. rewrite Z.eqb_refl. erewrite bind_step by reflexivity.
  rewrite (app_assoc (enc bo 2 19)).
  replace 19 with (len (save_text (dc_saved d))) by (unfold len; rewrite Hl; reflexivity).
  erewrite bind_step.
  2:{ apply rstr_ascii; [exact Hd|intros E; rewrite E in Hl; discriminate Hl|apply save_text_str_ok]. }
  erewrite bind_step by (apply runsigned_enc; exact Hn).
  erewrite bind_step by (apply runsigned_enc; exact Hr). reflexivity.
Qed.

(** The version as it is read: blanks added, outer NULs removed. *)
Definition version_read (v : bytes) : str := map mac_dec1 (strip0 (version_bytes v)).

Lemma rhead_rest_ok : forall bo stamp v rest, 0 <= stamp < 2 ^ 32 ->
  rhead_rest bo (head_post bo stamp v ++ rest) = Ok ((stamp, version_read v), rest).
Proof.
  intros bo stamp v rest Hs. unfold rhead_rest, head_post. rewrite <- !app_assoc.
  erewrite bind_step by (apply runsigned_enc; destruct bo; vm_compute; split; congruence).
  assert ((((match bo with LE => mark_II | BE => mark_MM end) =? mark_II) ||
           ((match bo with LE => mark_II | BE => mark_MM end) =? mark_MM)) = true)
    as -> by (destruct bo; reflexivity).
  erewrite bind_step by reflexivity.
  erewrite bind_step by (apply runsigned_enc; exact Hs).
  erewrite bind_step by (apply fread_app; unfold len; rewrite enc_length; reflexivity).
  erewrite bind_step by (apply rfourcc_bytes; reflexivity).
  rewrite zlist_eqb_refl. erewrite bind_step by reflexivity.
  erewrite bind_step by (apply rfourcc_bytes; reflexivity).
  rewrite zlist_eqb_refl. erewrite bind_step by reflexivity.
  erewrite bind_step.
  2:{ unfold rstr, rstr_enc. erewrite bind_step by (apply runsigned_enc; split; reflexivity || lia).
      change (65535 <=? 30) with false. cbv iota.
      erewrite bind_step by (apply fread_app; unfold len; rewrite version_length; reflexivity).
      reflexivity. }
  erewrite bind_step by (apply fread_app; unfold len; rewrite repeat_length; reflexivity).
  reflexivity.
Qed.

(** ** Cut headers *)

Lemma closed_head_end : forall bo txt n, closed (r <- ru32 bo ;;
  ret {| hd_bo := bo; hd_text := txt; hd_count := n; hd_root := r |}).
Proof.
  intros bo txt n. split; [|eexists; reflexivity].
  intros b w rest H s. unfold ru32, runsigned, bind, take in *.
  destruct (Nat.ltb_spec (length b) 4) as [|L]; [discriminate|].
  rewrite app_length. destruct (Nat.ltb_spec (length b + length s) 4) as [|L2]; [lia|].
  rewrite firstn_app, skipn_app. replace (4 - length b)%nat with 0%nat by lia.
  rewrite firstn_O, app_nil_r. cbn [skipn]. unfold ret in *. apply Ok_inj in H.
  injection H as <- <-. reflexivity.
Qed.

Lemma closed_head : closed rhead.
Proof.
  unfold rhead.
  repeat first [apply closed_head_end | apply closed_bind; [loc|intro]].
Qed.

(** A cut file: whatever header is found in it is the header of the whole. *)
Lemma rhead_cut : forall p q h rest, rhead p = Ok (h, rest) -> rhead (p ++ q) = Ok (h, rest ++ q).
Proof. intros p q h rest H. now apply closed_head. Qed.
