(** Lemmas about lookups between objects. *)
From Coq Require Import ZArith String List Bool Lia Sorted.
From Verif Require Import Base IoCtx RoundTrip Text MobId Attributes Components TrackGroups BinModel Objects ObjSpec ObjProofs ObjTheory
  Fits Dates FileModel FileSpec HeaderProofs TableProofs SaveProofs LocProofs GotProofs Opened ResaveSpec ResaveTheory Names NamesSpec NamesProofs Lookups LookupSpec.
Import ListNotations.
Open Scope Z_scope.

Lemma zlist_eqb_eq : forall a b, zlist_eqb a b = true <-> a = b.
Proof.
  induction a as [|x a IH]; intros [|y b]; cbn [zlist_eqb]; split; intros H; try discriminate; try reflexivity.
  - apply andb_prop in H as [H1 H2]. apply Z.eqb_eq in H1. apply IH in H2. congruence.
  - injection H as -> ->. rewrite Z.eqb_refl. now apply IH.
Qed.

Lemma media_kind_inj : forall a b, media_kind a = media_kind b -> a = b.
Proof.
  intros a b H.
  destruct (kind_cases a) as [[Ea ->]|[(s & Ia & Ea)|(Ea & _ & _)]], (kind_cases b) as [[Eb ->]|[(s' & Ib & Eb)|(Eb & _ & _)]];
    try rewrite Ea in H; try rewrite Eb in H; try discriminate; try reflexivity.
  - injection H as H. apply txt_inj in H as ->. exact (kinds_distinct _ _ _ Ia Ib).
  - injection H as H. exfalso. symmetry in H. revert H. exact (unknown_kind _ _ _ Ia).
  - injection H as H. exfalso. revert H. exact (unknown_kind _ _ _ Ib).
  - injection H as H. now apply percent_d_inj.
Qed.

Lemma same_kind_eq : forall a b, same_kind a b = true <-> a = b.
Proof.
  intros [a|] [b|]; cbn [same_kind]; split; intros H; try discriminate; try reflexivity.
  - apply str_eqb_eq in H. now subst.
  - injection H as ->. now apply str_eqb_eq.
Qed.

Lemma object_kind_number : forall o, object_kind o = media_kind (kind_number o).
Proof. intros o. unfold object_kind, kind_number. destruct (component_in _ _); reflexivity. Qed.

(** ** Mobs *)

Lemma item_mob_id_ok : forall get a id, item_mob_id get a = Ok id <-> has_mob_id get a id.
Proof.
  intros get a id. unfold item_mob_id, has_mob_id. destruct (Z.eqb_spec a 0) as [->|N].
  - split; [discriminate|intros [F _]; now destruct F].
  - split.
    + destruct (get a) as [[k v]|e]; [|discriminate]. destruct k; try discriminate.
      destruct (cmpo_mob_id v) as [i|] eqn:E; [|discriminate]. intros H. injection H as ->. eauto.
    + intros (_ & c & -> & ->). reflexivity.
Qed.

Lemma find_mob_ok : forall get id items found,
  Forall (fun it => exists i, has_mob_id get (item_mob it) i) items ->
  exists r, find_mob get id items found = Ok r /\
    match r with
    | Some a => (exists p it q, items = p ++ it :: q /\ item_mob it = a /\ has_mob_id get (item_mob it) id /\
                  Forall (fun y => ~ has_mob_id get (item_mob y) id) q) \/
                (found = Some a /\ Forall (fun y => ~ has_mob_id get (item_mob y) id) items)
    | None => found = None /\ Forall (fun y => ~ has_mob_id get (item_mob y) id) items
    end.
Proof.
  intros get id. induction items as [|it items IH]; intros found F.
  - exists found. split; [reflexivity|]. destruct found; auto.
  - inversion F as [|? ? (i & Hi) F']; subst. cbn [find_mob].
    rewrite (proj2 (item_mob_id_ok get (item_mob it) i) Hi).
    destruct (IH (if zlist_eqb i id then Some (item_mob it) else found) F') as (r & E & M). exists r. split; [exact E|].
    destruct (zlist_eqb i id) eqn:Q.
    + apply zlist_eqb_eq in Q as ->. destruct r as [a|].
      * left. destruct M as [(p & x & q & -> & Ea & Hx & Hq)|[Ea Hq]].
        -- exists (it :: p), x, q. auto.
        -- injection Ea as <-. exists [], it, items. auto.
      * destruct M as [Ff _]. discriminate.
    + assert (~ has_mob_id get (item_mob it) id) as N.
      { intros G. apply item_mob_id_ok in G. rewrite (proj2 (item_mob_id_ok _ _ _) Hi) in G. injection G as ->.
        assert (zlist_eqb id id = true) by now apply zlist_eqb_eq. congruence. }
      destruct r as [a|].
      * destruct M as [(p & x & q & -> & Ea & Hx & Hq)|[Ea Hq]]; [left; exists (it :: p), x, q; auto|right; auto].
      * destruct M as [-> Hq]. auto.
Qed.

Lemma is_bin_items : forall content items, is_bin content items <-> bin_items content = Ok items.
Proof.
  intros content items. unfold is_bin, bin_items. split.
  - intros [(b & -> & <-)|(b & -> & <-)]; reflexivity.
  - destruct content as [[k v]|]; [|discriminate]. destruct k; try discriminate; intros H; injection H as <-; eauto.
Qed.

(** ** Tracks *)

Lemma find_track_ok : forall get s ts k, tracks_whole get ts ->
  exists r, find_track get s ts k = Ok (option_map (fun j => (k + j)%nat) r) /\ first_with (shows get s) ts r.
Proof.
  intros get s. induction ts as [|t ts IH]; intros k W.
  - exists None. split; [reflexivity|constructor].
  - inversion W as [|? ? (Hi & c & Hc & Ho) W']; subst. cbn [find_track].
    assert (forall N : ~ shows get s t, exists r, find_track get s ts (S k) = Ok (option_map (fun j => (k + j)%nat) r) /\
      first_with (shows get s) (t :: ts) r) as Skip.
    { intros N. destruct (IH (S k) W') as (r & E & M). exists (option_map S r). split.
      - rewrite E. destruct r as [j|]; [cbn [option_map]; do 2 f_equal; lia|reflexivity].
      - destruct r as [j|]; cbn [option_map first_with] in *.
        + destruct M as (p & x & q & -> & <- & Hx & Hp). exists (t :: p), x, q. auto.
        + auto. }
    destruct (trak_index t) as [i|] eqn:Ei; [|congruence].
    destruct (Z.eqb_spec i (sclp_track_id s)) as [->|N]; cbn [negb].
    2: { apply Skip. intros [G _]. congruence. }
    rewrite Hc. destruct (Z.eqb_spec c 0) as [->|Nc].
    { apply Skip. intros (_ & c & o & G & Nz & _). rewrite Hc in G. injection G as <-. contradiction. }
    destruct Ho as [F|[o Ho]]; [contradiction|]. rewrite Ho, object_kind_number.
    change (media_kind (cpnt_media_kind_id (clip_component (sclp_clip s)))) with (media_kind (kind_number (Obj K_SCLP s))).
    destruct (same_kind _ _) eqn:Q.
    + exists (Some 0%nat). split; [cbn [option_map]; do 2 f_equal; lia|].
      exists [], t, ts. split; [reflexivity|]. split; [reflexivity|]. split; [|constructor].
      split; [exact Ei|]. exists c, o. apply same_kind_eq, media_kind_inj in Q. auto.
    + apply Skip. intros (_ & c' & o' & G & _ & Go & Ge). rewrite Hc in G. injection G as <-. rewrite Ho in Go. injection Go as <-.
      rewrite Ge in Q. assert (same_kind (media_kind (kind_number (Obj K_SCLP s))) (media_kind (kind_number (Obj K_SCLP s))) = true)
        by now apply same_kind_eq. congruence.
Qed.

(** ** Lookups and renumbering *)

Section Moved.
Variables get get' : store.
Variable f : Z -> Z.
Variable P : Z -> Prop.
Hypothesis moved : forall a, P a -> a <> 0 -> exists o, get a = Ok o /\ get' (f a) = Ok (obj_map f o).
Hypothesis zero : forall a, P a -> (f a = 0 <-> a = 0).

Lemma moved_id : forall a, P a -> item_mob_id get' (f a) = item_mob_id get a.
Proof.
  intros a Pa. unfold item_mob_id. pose proof (zero a Pa) as Z0.
  destruct (Z.eqb_spec (f a) 0) as [E|N'], (Z.eqb_spec a 0) as [N|N]; try tauto.
  destruct (moved a Pa N) as (o & -> & ->). destruct o as [k v]. destruct k; reflexivity.
Qed.

Lemma moved_find : forall id items found, Forall (fun it => P (item_mob it)) items ->
  find_mob get' id (map (bin_item_map f) items) (option_map f found) =
  match find_mob get id items found with Ok r => Ok (option_map f r) | Err e => Err e end.
Proof.
  intros id. induction items as [|it items IH]; intros found F; [reflexivity|].
  inversion F as [|? ? F1 F2]; subst. cbn [map find_mob]. change (item_mob (bin_item_map f it)) with (f (item_mob it)).
  rewrite moved_id by exact F1. destruct (item_mob_id get (item_mob it)) as [i|e]; [|reflexivity].
  rewrite <- (IH _ F2). destruct (zlist_eqb i id); reflexivity.
Qed.

Lemma moved_kind : forall o, object_kind (obj_map f o) = object_kind o.
Proof. intros [k v]. destruct k; reflexivity. Qed.

Lemma moved_track : forall s ts k, Forall (fun t => forall c, trak_component t = Some c -> P c) ts ->
  find_track get' (source_clip_map f s) (map (track_map f) ts) k = find_track get s ts k.
Proof.
  intros s. induction ts as [|t ts IH]; intros k F; [reflexivity|].
  inversion F as [|? ? F1 F2]; subst. cbn [map find_track].
  change (trak_index (track_map f t)) with (trak_index t).
  change (trak_component (track_map f t)) with (option_map f (trak_component t)).
  change (sclp_track_id (source_clip_map f s)) with (sclp_track_id s).
  change (cpnt_media_kind_id (clip_component (sclp_clip (source_clip_map f s)))) with (cpnt_media_kind_id (clip_component (sclp_clip s))).
  destruct (trak_index t) as [i|]; [|reflexivity]. destruct (negb (i =? sclp_track_id s)); [now apply IH|].
  destruct (trak_component t) as [c|]; [|reflexivity]. cbn [option_map].
  pose proof (zero c (F1 c eq_refl)) as Z0. destruct (Z.eqb_spec (f c) 0) as [E|N'], (Z.eqb_spec c 0) as [N|N]; try tauto.
  - now apply IH.
  - destruct (moved c (F1 c eq_refl) N) as (o & -> & ->). rewrite moved_kind.
    destruct (same_kind _ _); [reflexivity|now apply IH].
Qed.

Lemma moved_mob : forall content s,
  (forall items, bin_items content = Ok items -> Forall (fun it => P (item_mob it)) items) ->
  clip_mob get' (option_map (obj_map f) content) (source_clip_map f s) =
  match clip_mob get content s with Ok r => Ok (option_map f r) | Err e => Err e end.
Proof.
  intros content s H. unfold clip_mob. change (sclp_mob_id (source_clip_map f s)) with (sclp_mob_id s).
  destruct (sclp_mob_id s) as [id|]; [|reflexivity].
  assert (bin_items (option_map (obj_map f) content) =
    match bin_items content with Ok items => Ok (map (bin_item_map f) items) | Err e => Err e end) as ->.
  { destruct content as [[k v]|]; [|reflexivity]. destruct k; reflexivity. }
  destruct (bin_items content) as [items|e]; [|reflexivity]. exact (moved_find id items None (H items eq_refl)).
Qed.

Lemma found_listed : forall id items found a, find_mob get id items found = Ok (Some a) ->
  found = Some a \/ exists it, In it items /\ item_mob it = a /\ a <> 0.
Proof.
  intros id. induction items as [|it items IH]; intros found a H; cbn [find_mob] in H.
  - injection H as ->. now left.
  - destruct (item_mob_id get (item_mob it)) as [i|e] eqn:E; [|discriminate].
    destruct (IH _ _ H) as [F|(x & Hx & Ex)]; [|right; exists x; split; [now right|exact Ex]].
    destruct (zlist_eqb i id); [|now left]. injection F as <-. right. exists it. split; [now left|]. split; [reflexivity|].
    apply item_mob_id_ok in E. apply E.
Qed.

Lemma moved_clip_track : forall content s,
  (forall items, bin_items content = Ok items -> Forall (fun it => P (item_mob it)) items) ->
  (forall a c t x, P a -> a <> 0 -> get a = Ok (Obj K_CMPO c) -> In t (trkg_tracks (cmpo_group c)) -> trak_component t = Some x -> P x) ->
  clip_track get' (option_map (obj_map f) content) (source_clip_map f s) =
  match clip_track get content s with Ok r => Ok (option_map (fun p => (f (fst p), snd p)) r) | Err e => Err e end.
Proof.
  intros content s H Ht. unfold clip_track. rewrite moved_mob by exact H.
  destruct (clip_mob get content s) as [[a|]|e] eqn:M; try reflexivity. cbn [option_map].
  assert (P a /\ a <> 0) as [Pa Na].
  { unfold clip_mob in M. destruct (sclp_mob_id s) as [id|]; [|discriminate].
    destruct (bin_items content) as [items|e]; [|discriminate]. apply found_listed in M as [F|(it & Hi & <- & N)]; [discriminate|].
    split; [|exact N]. specialize (H items eq_refl). rewrite Forall_forall in H. now apply H. }
  destruct (moved a Pa Na) as (o & Eo & ->). rewrite Eo.
  assert (mob_tracks (obj_map f o) = match mob_tracks o with Ok ts => Ok (map (track_map f) ts) | Err e => Err e end) as ->.
  { destruct o as [k v]. destruct k; reflexivity. }
  destruct (mob_tracks o) as [ts|e] eqn:Et; [|reflexivity]. rewrite moved_track.
  - destruct (find_track get s ts 0) as [[k|]|e]; reflexivity.
  - apply Forall_forall. intros t Hi x Hx. destruct o as [k v]. destruct k; try discriminate. injection Et as <-.
    exact (Ht a v t x Pa Na Eo Hi Hx).
Qed.
End Moved.

(** ** Classes *)

Lemma range_app : forall n i, range_from i (S n) = range_from i n ++ [i + Z.of_nat n].
Proof.
  induction n as [|n IH]; intros i; [cbn; f_equal; lia|].
  change (range_from i (S (S n))) with (i :: range_from (i + 1) (S n)). rewrite IH. cbn [range_from app]. do 3 f_equal. lia.
Qed.

Lemma listed_in : forall ids cc, listed ids cc = true <-> In cc ids.
Proof.
  intros ids cc. unfold listed. rewrite existsb_exists. split.
  - intros (x & H & E). apply zlist_eqb_eq in E. now subst.
  - intros H. exists cc. split; [exact H|now apply zlist_eqb_eq].
Qed.

Lemma iter_from_ok : forall d ids l cs, rmap (read_chunk d) l = Ok cs ->
  (forall i c, In (i, c) (combine l cs) -> In (ck_id c) ids -> exists o, read_object d i = Ok o) ->
  exists os, iter_from d ids l = Ok os /\
    Forall2 (fun ic o => read_object d (fst ic) = Ok o) (filter (fun ic => listed ids (ck_id (snd ic))) (combine l cs)) os.
Proof.
  intros d ids. induction l as [|i l IH]; intros cs H R; cbn [rmap] in H.
  - injection H as <-. exists []. split; [reflexivity|constructor].
  - destruct (read_chunk d i) as [c|e] eqn:E; [|discriminate]. destruct (rmap (read_chunk d) l) as [cs'|e]; [|discriminate].
    injection H as <-. destruct (IH cs' eq_refl) as (os & Eo & F).
    { intros j c' Hj. apply R. now right. }
    cbn [iter_from combine filter snd]. rewrite E. destruct (listed ids (ck_id c)) eqn:L.
    + destruct (R i c (or_introl eq_refl) (proj1 (listed_in _ _) L)) as [o Ho]. rewrite Ho, Eo.
      exists (o :: os). split; [reflexivity|]. constructor; [exact Ho|exact F].
    + eauto.
Qed.

Lemma read_object_class : forall d i o, read_object d i = Ok (Some o) ->
  exists c, read_chunk d i = Ok c /\ ck_id c = class_id (okind o).
Proof.
  intros d i o H. unfold read_object in H. unfold read_chunk. destruct (i =? 0); [discriminate|].
  destruct (position d i) as [pos|e]; [|discriminate].
  destruct (rchunk_head (hd_bo (of_head d)) (skipn (Z.to_nat pos) (of_file d))) as [[[cc size] b]|e]; [|discriminate].
  destruct (len (firstn (Z.to_nat size) b) =? size); [|discriminate].
  destruct (robject (of_ictx d) cc (firstn (Z.to_nat size) b)) as [o'|e] eqn:R; [|discriminate]. injection H as ->.
  eexists. split; [reflexivity|]. cbn [ck_id]. apply robject_ok in R as (K & _). now apply kind_of_some.
Qed.

(** ** Chunks as text *)

Lemma digit_ok : forall n, 0 <= n < 16 -> digit_value (hex_digit n) = n.
Proof.
  intros n H. unfold digit_value, hex_digit. destruct (Z.ltb_spec n 10).
  - destruct (Z.leb_spec (48 + n) 57); lia.
  - destruct (Z.leb_spec (87 + n) 57); lia.
Qed.

Lemma unhex_hexlify : forall b, Forall is_byte b -> unhex (hexlify b) = b.
Proof.
  induction b as [|x b IH]; intros H; [reflexivity|]. inversion H as [|? ? Hx Hb]; subst. unfold is_byte in Hx.
  unfold hexlify. cbn [flat_map app]. fold (hexlify b). cbn [unhex]. rewrite IH by exact Hb.
  assert (0 <= x / 16 < 16) as D by (split; [apply Z.div_pos; lia|apply Z.div_lt_upper_bound; lia]).
  pose proof (Z.mod_pos_bound x 16 ltac:(lia)) as M. rewrite !digit_ok by assumption. f_equal.
  rewrite <- Z.div_mod by lia. reflexivity.
Qed.

Lemma loc_rhead : loc rhead.
Proof. unfold rhead. loc. Qed.

Lemma loc_rhead_rest : forall bo, loc (rhead_rest bo).
Proof. intros bo. unfold rhead_rest. loc. Qed.

Lemma scan_nonneg : forall n bo file pos l, Forall is_byte file -> 0 <= pos -> scan n bo file pos = Ok l -> Forall (fun p => 0 <= p) l.
Proof.
  induction n as [|n IH]; intros bo file pos l Hf Hp H; cbn [scan] in H; [injection H as <-; constructor|].
  destruct ((_c <- fread 4 ;; ru32 bo) (skipn (Z.to_nat pos) file)) as [[size r]|e] eqn:E; [|discriminate].
  apply bind_ok in E as (x & b & E1 & E2). pose proof (got_fread 4 _ _ _ (is_byte_skipn _ _ Hf) E1) as [_ Hb].
  pose proof (got_u32 bo _ _ _ Hb E2) as [Hs _]. unfold fits_u32 in Hs.
  destruct (scan n bo file (pos + 8 + size)) as [l'|e] eqn:E; [|discriminate]. injection H as <-.
  constructor; [exact Hp|]. apply (IH bo file (pos + 8 + size)); [exact Hf|lia|exact E].
Qed.

Lemma position_nonneg : forall file d i pos, Forall is_byte file -> open_table file = Ok d -> position d i = Ok pos -> 0 <= pos.
Proof.
  intros file d i pos Hf H P. destruct (open_table_inv _ _ H) as [_ S].
  assert (0 <= of_start d) as S0.
  { unfold open_table in H. destruct (rhead file) as [[h b1]|e] eqn:E1; [|discriminate].
    destruct (rhead_rest (hd_bo h) b1) as [[[st ver] b2]|e] eqn:E2; [|discriminate].
    destruct (scan _ _ _ _) in H; [|discriminate]. injection H as <-. cbn [of_start].
    apply loc_rhead in E1 as [[p1 ->] _]. apply loc_rhead_rest in E2 as [[p2 ->] _].
    unfold len. rewrite !app_length. lia. }
  apply scan_nonneg in S; [|exact Hf|exact S0]. unfold position in P.
  destruct (nth_error (of_positions d) _) as [q|] eqn:N; [|discriminate]. injection P as <-.
  rewrite Forall_forall in S. apply S. exact (nth_error_In _ _ N).
Qed.

Lemma chunk_hex_little : forall file d i c, Forall is_byte file -> open_table file = Ok d -> hd_bo (of_head d) = LE ->
  i <> 0 -> read_chunk d i = Ok c ->
  unhex (chunk_hex d c) = firstn (8 + Z.to_nat (ck_size c)) (skipn (Z.to_nat (ck_pos c - 8)) file).
Proof.
  intros file d i c Hf T Hl Hi H. destruct (open_table_inv _ _ T) as [Ef _].
  unfold read_chunk in H. destruct (Z.eqb_spec i 0); [contradiction|].
  destruct (position d i) as [pos|e] eqn:Ep; [|discriminate]. pose proof (position_nonneg _ _ _ _ Hf T Ep) as P0.
  destruct (rchunk_head (hd_bo (of_head d)) (skipn (Z.to_nat pos) (of_file d))) as [[[cc size] b]|e] eqn:Er; [|discriminate].
  injection H as <-. unfold chunk_hex, chunk_data. cbn [ck_id ck_size ck_pos]. rewrite Ef in *.
  rewrite Hl in Er. unfold rchunk_head in Er. apply bind_ok in Er as (x & b' & E1 & E2). unfold ret in E2.
  assert (cc = rev (firstn 4 x) /\ size = dec LE (skipn 4 x)) as [-> ->] by (split; congruence). clear E2.
  unfold take in E1. destruct (Nat.ltb_spec (length (skipn (Z.to_nat pos) file)) 8) as [|L]; [discriminate|].
  assert (x = firstn 8 (skipn (Z.to_nat pos) file)) as -> by congruence. clear E1.
  replace (Z.to_nat (pos + 8 - 8)) with (Z.to_nat pos) by lia.
  replace (Z.to_nat (pos + 8)) with (8 + Z.to_nat pos)%nat by lia.
  assert (forall n m (l : bytes), skipn (n + m) l = skipn n (skipn m l)) as SS.
  { intros n0 m l. revert n0 l. induction m as [|m IH]; intros n0 l; [now rewrite Nat.add_0_r|].
    rewrite Nat.add_succ_r. destruct l as [|x l]; [now rewrite !skipn_nil|]. cbn [skipn]. apply IH. }
  rewrite SS. set (q := skipn (Z.to_nat pos) file) in *.
  assert (Forall is_byte q) as Hq by (apply is_byte_skipn; exact Hf).
  assert (length (skipn 4 (firstn 8 q)) = 4%nat) as L4 by (rewrite skipn_length, firstn_length; lia).
  assert (enc LE 4 (dec LE (skipn 4 (firstn 8 q))) = skipn 4 (firstn 8 q)) as ->.
  { unfold dec, enc. rewrite <- L4 at 1. apply le_enc_dec, is_byte_skipn, is_byte_firstn, Hq. }
  rewrite rev_involutive, app_assoc, firstn_skipn. set (k := Z.to_nat _).
  assert (firstn 8 q ++ firstn k (skipn 8 q) = firstn (8 + k) q) as ->.
  { rewrite <- (firstn_skipn 8 q) at 3. rewrite firstn_app, firstn_firstn, firstn_length. rewrite Nat.min_r by lia.
    f_equal. f_equal. lia. }
  apply unhex_hexlify, is_byte_firstn, Hq.
Qed.

Lemma saved_from : forall d t ids order, (forall a, In a order -> exists nd, dc_heap d a = Ok nd /\
    read_object t (number order a) = Ok (Some (obj_map (number order) (nd_obj nd)))) -> NoDup order ->
  forall s p, order = p ++ s ->
  exists os, iter_from t ids (range_from (len p + 1) (length s)) = Ok os /\
    Forall2 (fun a o => exists nd, dc_heap d a = Ok nd /\ o = Some (obj_map (number order) (nd_obj nd))) (filter (wanted d ids) s) os.
Proof.
  intros d t ids order R ND. induction s as [|a s IH]; intros p E; [exists []; split; [reflexivity|constructor]|].
  destruct (IH (p ++ [a])) as (os & Eo & F); [now rewrite <- app_assoc|].
  rewrite len_app in Eo. change (len [a]) with 1 in Eo.
  destruct (R a) as (nd & En & Ro); [rewrite E; apply in_app_iff; right; now left|].
  assert (number order a = len p + 1) as Na.
  { rewrite E. apply number_new. rewrite E in ND. apply NoDup_remove_2 in ND. intros G. apply ND, in_app_iff. now left. }
  rewrite Na in Ro. destruct (read_object_class _ _ _ Ro) as (c & Ec & Ek).
  cbn [length range_from iter_from filter]. rewrite Ec, Ek, Ro, Eo. unfold wanted at 1. rewrite En.
  replace (okind (obj_map (number order) (nd_obj nd))) with (okind (nd_obj nd)) by (destruct (nd_obj nd); reflexivity).
  destruct (listed ids (class_id (okind (nd_obj nd)))) eqn:L.
  - apply listed_in in L. destruct (in_dec (list_eq_dec Z.eq_dec) _ ids) as [_|N]; [|contradiction]. exists (Some (obj_map (number order) (nd_obj nd)) :: os). split; [reflexivity|]. constructor; [|exact F]. exists nd. auto.
  - destruct (in_dec (list_eq_dec Z.eq_dec) _ ids) as [I|_]; [apply listed_in in I; congruence|]. eauto.
Qed.

Lemma rmap_all : forall A B (f : A -> result B) l, (forall x, In x l -> exists y, f x = Ok y) -> exists r, rmap f l = Ok r.
Proof.
  intros A B f. induction l as [|x l IH]; intros H; [eexists; reflexivity|]. cbn [rmap].
  destruct (H x (or_introl eq_refl)) as [y ->]. destruct IH as [r ->]; [intros z Hz; apply H; now right|]. eexists. reflexivity.
Qed.

Lemma combine_range : forall (cs : list chunk) b i c, In (i, c) (combine (range_from b (length cs)) cs) <->
  b <= i /\ nth_error cs (Z.to_nat (i - b)) = Some c.
Proof.
  induction cs as [|x cs IH]; intros b i c; cbn [length range_from combine In].
  - split; [intros []|]. intros [_ H]. destruct (Z.to_nat _); discriminate.
  - rewrite IH. split.
    + intros [E|[L E]].
      * injection E as -> ->. rewrite Z.sub_diag. split; [lia|reflexivity].
      * split; [lia|]. replace (Z.to_nat (i - b)) with (S (Z.to_nat (i - (b + 1)))) by lia. exact E.
    + intros [L E]. destruct (Z.eq_dec i b) as [->|N].
      * left. rewrite Z.sub_diag in E. cbn in E. congruence.
      * right. split; [lia|]. replace (Z.to_nat (i - b)) with (S (Z.to_nat (i - (b + 1)))) in E by lia. exact E.
Qed.

Lemma filter_range : forall (f : Z * chunk -> bool) (cs : list chunk) b,
  Forall (fun i => b <= i) (map fst (filter f (combine (range_from b (length cs)) cs))) /\
  Sorted.StronglySorted Z.lt (map fst (filter f (combine (range_from b (length cs)) cs))).
Proof.
  intros f. induction cs as [|x cs IH]; intros b; cbn [length range_from combine filter map].
  - split; constructor.
  - destruct (IH (b + 1)) as [F S].
    assert (Forall (fun i => b < i) (map fst (filter f (combine (range_from (b + 1) (length cs)) cs)))) as F'
      by (eapply Forall_impl; [|exact F]; cbv beta; intros; lia).
    destruct (f (b, x)); cbn [map fst].
    + split; [constructor; [lia|]; eapply Forall_impl; [|exact F]; cbv beta; intros; lia|]. constructor; assumption.
    + split; [eapply Forall_impl; [|exact F]; cbv beta; intros; lia|exact S].
Qed.

Lemma hexlify_digits : forall b, Forall is_byte b -> Forall (fun x => 48 <= x <= 57 \/ 97 <= x <= 102) (hexlify b).
Proof.
  assert (forall n, 0 <= n < 16 -> 48 <= hex_digit n <= 57 \/ 97 <= hex_digit n <= 102) as D.
  { intros n H. unfold hex_digit. destruct (Z.ltb_spec n 10); lia. }
  induction b as [|x b IH]; intros H; [constructor|]. inversion H as [|? ? Hx Hb]; subst. unfold is_byte in Hx.
  unfold hexlify. cbn [flat_map app]. constructor; [|constructor; [|exact (IH Hb)]]; apply D.
  - split; [apply Z.div_pos; lia|apply Z.div_lt_upper_bound; lia].
  - apply Z.mod_pos_bound. lia.
Qed.

Lemma head_code : forall bo b cc size rest, Forall is_byte b -> rchunk_head bo b = Ok ((cc, size), rest) -> Forall is_byte cc.
Proof.
  intros bo b cc size rest Hb H. unfold rchunk_head in H. apply bind_ok in H as (x & b' & E1 & E2). unfold ret in E2.
  assert (cc = match bo with LE => rev (firstn 4 x) | BE => firstn 4 x end) as -> by (injection E2; auto).
  unfold take in E1. destruct (Nat.ltb _ _) in E1; [discriminate|]. injection E1 as <- _.
  assert (Forall is_byte (firstn 4 (firstn 8 b))) as F by (apply is_byte_firstn, is_byte_firstn, Hb).
  destruct bo; [now apply Forall_rev|exact F].
Qed.

(** As many chunks as objects. *)
Lemma saved_count : forall lim z bo d o t order, walks_refs d -> ids_distinct d -> save lim z bo d = (o, None) ->
  open_table (run_ops o) = Ok t -> NoDup order -> (forall x, In x order <-> in_doc d x) -> length (of_positions t) = length order.
Proof.
  intros lim z bo d o t order W I H T ND Io.
  destruct (completed lim z bo d o W I H) as (order' & v & ss & ND' & Io' & _ & _ & Hv & Hn & S & E & _).
  pose proof (completed_table bo d order' z v ss Hv Hn S) as T'. rewrite <- E in T'. rewrite T in T'. injection T' as ->.
  cbn [of_positions table]. rewrite offsets_length.
  assert (length ss = length order') as -> by (clear - S; induction S; cbn [length]; [reflexivity|now f_equal]).
  apply Nat.le_antisymm; apply NoDup_incl_length; try assumption; intros x Hx; [apply Io, Io', Hx|apply Io', Io, Hx].
Qed.

(** ** Media kinds in the file *)

Lemma wref_four : forall c r b, wref c r = Ok b -> length b = 4%nat.
Proof.
  intros c r b H. unfold wref in H. assert (forall x, wu32 (obo c) x = Ok b -> length b = 4%nat) as G.
  { intros x E. apply wunsigned_ok in E as [_ ->]. apply enc_length. }
  destruct (r =? 0); [exact (G _ H)|]. destruct (orefs c r); [exact (G _ H)|discriminate].
Qed.

(** What is written has a media kind at its eleventh byte. *)
Definition kind_at (c : octx) (k : Z) (w : writer) : Prop := forall b, w = Ok b ->
  exists p x q, b = p ++ x ++ q /\ length p = 10%nat /\ ws16 (obo c) k = Ok x.

Lemma kind_at_cat : forall c k w w', kind_at c k w -> kind_at c k (w +++ w').
Proof.
  intros c k w w' H b E. apply wcat_ok in E as (b1 & b2 & E1 & _ & ->). destruct (H b1 E1) as (p & x & q & -> & L & W).
  exists p, x, (q ++ b2). rewrite <- !app_assoc. auto.
Qed.

Lemma kind_at_component : forall c o, kind_at c (cpnt_media_kind_id o) (wcomponent c o).
Proof.
  intros c o b H. unfold wcomponent in H.
  apply wcat_ok in H as (x1 & r1 & H1 & H & ->). apply wcat_ok in H as (x2 & r2 & H2 & H & ->).
  apply wcat_ok in H as (x3 & r3 & H3 & H & ->). apply wcat_ok in H as (x4 & r4 & H4 & H & ->).
  apply wcat_ok in H as (x5 & r5 & H5 & _ & ->).
  injection H1 as <-. injection H2 as <-. apply wref_four in H3. apply wref_four in H4.
  exists ([2] ++ [3] ++ x3 ++ x4), x5, r5. rewrite <- !app_assoc. split; [reflexivity|].
  split; [rewrite !app_length, H3, H4; reflexivity|exact H5].
Qed.

Ltac kind_at := repeat first [exact (kind_at_component _ _) | apply kind_at_cat].

Lemma kind_at_clip : forall c o, kind_at c (cpnt_media_kind_id (clip_component o)) (wclip c o).
Proof. intros. unfold wclip. kind_at. Qed.
Lemma kind_at_group : forall c o, kind_at c (cpnt_media_kind_id (trkg_component o)) (wtrack_group c o).
Proof. intros. unfold wtrack_group. kind_at. Qed.
Lemma kind_at_effect : forall c o, kind_at c (cpnt_media_kind_id (trkg_component (tkfx_group o))) (wtrack_effect_base c o).
Proof. intros. unfold wtrack_effect_base. apply kind_at_cat, kind_at_group. Qed.
Lemma kind_at_warp : forall c o, kind_at c (cpnt_media_kind_id (trkg_component (warp_group o))) (wtime_warp c o).
Proof. intros. unfold wtime_warp. apply kind_at_cat, kind_at_group. Qed.

Lemma kind_at_object : forall o k c, component_in (okind o) (oval o) = Some k -> kind_at c (cpnt_media_kind_id k) (wbody c o).
Proof.
  intros [k v] cp c Hc. cbn [okind oval] in Hc. destruct k; try discriminate Hc; injection Hc as <-;
    unfold wbody; cbn [okind oval class_of C_write];
    first [apply kind_at_group | unfold wsequence, wsource_clip, wtimecode, wedgecode, wtrack_ref, wparam_clip, wcontrol_clip, wfiller,
      wtrack_effect, wpan_volume_effect, waudio_suite_effect, wequalizer_multi_band, wcapture_mask, wstrobe_effect, wmotion_effect,
      wrepeat_effect, wessence_group, wtransition_effect, wselector, wcomposition; apply kind_at_cat;
      first [apply kind_at_component | apply kind_at_clip | apply kind_at_group | apply kind_at_effect | apply kind_at_warp]].
Qed.

Lemma kind_stored : forall o k c b, component_in (okind o) (oval o) = Some k -> wbody c o = Ok b ->
  exists q, rs16 (obo c) (skipn 10 b) = Ok (cpnt_media_kind_id k, q).
Proof.
  intros o k c b Hk Hw. destruct (kind_at_object o k c Hk b Hw) as (p & x & q & -> & L & W). exists q.
  rewrite skipn_app, L. replace (skipn 10 p) with (@nil Z) by (symmetry; apply skipn_all2; lia).
  exact (rt_s16 (fun _ => True) (obo c) _ _ _ W I).
Qed.

Lemma component_code : forall o, In (class_id (okind o)) component_codes <-> component_in (okind o) (oval o) <> None.
Proof.
  intros [k v]. cbn [okind oval]. destruct k; split; intros H.
  all: try discriminate.
  all: try (exfalso; vm_compute in H; repeat destruct H as [H|H]; try discriminate H; exact H).
  all: try (exfalso; now apply H).
  all: vm_compute; tauto.
Qed.
