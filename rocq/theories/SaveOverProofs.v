(** Lemmas about saves step by step. *)
From Coq Require Import ZArith List Bool Lia.
From Verif Require Import Base IoCtx RoundTrip Text Dates Objects ObjSpec ObjProofs ObjTheory FileModel FileSpec HeaderProofs SaveProofs
  TableProofs MoveProofs Opened ResaveSpec Edited EditSpec SaveOver.
Import ListNotations.
Open Scope Z_scope.

Definition streams (lim : nat) (bo : border) (self : Z) (v : view) :=
  fix streams (ks : list Z) (done : list fop) (m : mapping) (n : Z) : list fop * option exn * mapping * Z :=
          match ks with
          | [] => (done, None, m, n)
          | k :: ks' =>
            match stream lim bo self v k done m n with
            | (done1, Some e, m1, n1) => (done1, Some e, m1, n1)
            | (done1, None, m1, n1) => streams ks' done1 m1 n1
            end
          end.

Lemma streams_cons : forall lim bo self v k ks done m n, streams lim bo self v (k :: ks) done m n =
  match stream lim bo self v k done m n with
  | (done1, Some e, m1, n1) => (done1, Some e, m1, n1)
  | (done1, None, m1, n1) => streams lim bo self v ks done1 m1 n1
  end.
Proof. reflexivity. Qed.

Lemma stream_S : forall lim bo self v a done m n, stream (S lim) bo self v a done m n =
    match v done a with
    | Err e => (done, Some e, m, n)
    | Ok nd =>
      let '(done1, s, m1, n1) := streams lim bo self v (nd_kids nd) done m n in
      match s with
      | Some e => (done1, Some e, m1, n1)
      | None =>
        match m1 (nd_id nd) with
        | Some _ => (done1, None, m1, n1)
        | None =>
          let m2 := fun i => if i =? nd_id nd then Some (n1 + 1) else m1 i in
          let '(o, s) := run_writers (write_object bo self (v done1) m2 nd) in (done1 ++ o, s, m2, n1 + 1)
        end
      end
    end.
Proof. reflexivity. Qed.

Lemma wbody_local : forall c c' o, obo c' = obo c -> (forall r, In r (obj_refs o) -> r <> 0 -> orefs c' r = orefs c r) ->
  wbody c' o = wbody c o.
Proof.
  intros c c' o Hb Hr.
  rewrite <- (move_refs c' c' (fun x => x) o eq_refl (fun r _ => eq_refl)).
  apply (move_refs c c' (fun x => x) o Hb). intros r Hi. unfold wref. rewrite Hb.
  destruct (Z.eqb_spec r 0) as [|N]; [reflexivity|]. now rewrite (Hr r Hi N).
Qed.

(** ** The walk first and the writing after it, or in turns *)

Section Turns.
Variables (bo : border) (self : Z) (v : view) (h : heap) (U : Z -> Prop).
Hypothesis sees : forall done a, U a -> v done a = h a.
Hypothesis closed : forall a nd, U a -> h a = Ok nd -> (forall k, In k (nd_kids nd) -> U k) /\
  (forall r, In r (obj_refs (nd_obj nd)) -> r <> 0 -> U r).

Lemma loop_app : forall l1 l2 m n, save_loop bo self h (l1 ++ l2) m n =
  match save_loop bo self h l1 m n with
  | (o, Some e, m1, n1) => (o, Some e, m1, n1)
  | (o, None, m1, n1) => let '(o', s, m2, n2) := save_loop bo self h l2 m1 n1 in (o ++ o', s, m2, n2)
  end.
Proof.
  induction l1 as [|a l1 IH]; intros l2 m n; cbn [app save_loop].
  - now destruct (save_loop bo self h l2 m n) as [[[? ?] ?] ?].
  - destruct (h a) as [nd|e]; [|reflexivity]. destruct (m (nd_id nd)); [apply IH|].
    destruct (run_writers _) as [o [e|]]; [reflexivity|]. rewrite IH.
    destruct (save_loop bo self h l1 _ (n + 1)) as [[[o1 [e|]] m1] n1]; [reflexivity|].
    destruct (save_loop bo self h l2 m1 n1) as [[[o2 s2] m2] n2]. now rewrite app_assoc.
Qed.

Definition in_turn (w : list Z * option exn) (done : list fop) (m : mapping) (n : Z) : list fop * option exn * mapping * Z :=
  let '(o, s, m', n') := save_loop bo self h (fst w) m n in
  (done ++ o, match s with Some e => Some e | None => snd w end, m', n').

Lemma turns : forall lim a done m n, U a -> stream lim bo self v a done m n = in_turn (walk lim h a) done m n.
Proof.
  induction lim as [|lim IH]; intros a done m n Ha.
  { unfold in_turn. cbn [stream walk fst snd save_loop]. now rewrite app_nil_r. }
  rewrite stream_S, walk_S, (sees done a Ha). destruct (h a) as [nd|e] eqn:E.
  2:{ unfold in_turn. cbn [fst snd save_loop]. now rewrite app_nil_r. }
  destruct (closed a nd Ha E) as [Kids Refs].
  assert (forall ks done m n, (forall k, In k ks -> U k) -> streams lim bo self v ks done m n = in_turn (walks lim h ks) done m n) as Hs.
  { clear done m n. induction ks as [|k ks IHk]; intros done m n Hk.
    { unfold in_turn. cbn [streams walks fst snd save_loop]. now rewrite app_nil_r. }
    rewrite streams_cons, walks_cons, IH by (apply Hk; now left).
    unfold in_turn at 1. destruct (walk lim h k) as [l ws]. cbn [fst snd].
    destruct (save_loop bo self h l m n) as [[[o s] m1] n1] eqn:El.
    destruct s as [e|].
    { destruct ws as [e'|]; [unfold in_turn; cbn [fst snd]; now rewrite El|].
      destruct (walks lim h ks) as [l' s']. unfold in_turn. cbn [fst snd]. now rewrite loop_app, El. }
    destruct ws as [e'|]; [unfold in_turn; cbn [fst snd]; now rewrite El|].
    rewrite IHk by (intros x Hx; apply Hk; now right).
    unfold in_turn. destruct (walks lim h ks) as [l' s']. cbn [fst snd]. rewrite loop_app, El.
    destruct (save_loop bo self h l' m1 n1) as [[[o' s2] m2] n2]. now rewrite app_assoc. }
  rewrite Hs by exact Kids. unfold in_turn at 1. destruct (walks lim h (nd_kids nd)) as [l ws]. cbn [fst snd].
  destruct (save_loop bo self h l m n) as [[[o s] m1] n1] eqn:El.
  destruct s as [e|].
  { destruct ws as [e'|]; unfold in_turn; cbn [fst snd]; [now rewrite El|]. now rewrite loop_app, El. }
  destruct ws as [e'|]; unfold in_turn; cbn [fst snd]; [now rewrite El|].
  rewrite loop_app, El. cbn [save_loop]. rewrite E. destruct (m1 (nd_id nd)) as [x|] eqn:Em.
  { now rewrite app_nil_r. }
  cbv zeta.
  assert (forall d2 m2, write_object bo self (v d2) m2 nd = write_object bo self h m2 nd) as Hw.
  { intros d2 m2. unfold write_object. rewrite (wbody_local (save_octx bo h m2) (save_octx bo (v d2) m2)); [reflexivity|reflexivity|].
    intros r Hr Nr. cbn [save_octx orefs]. now rewrite (sees d2 r (Refs r Hr Nr)). }
  rewrite Hw. destruct (run_writers _) as [o' [e|]]; rewrite <- app_assoc; [reflexivity|]. now rewrite app_nil_r.
Qed.
End Turns.

Lemma over_same : forall lim z bo d v (U : Z -> Prop), (dc_content d <> 0 -> U (dc_content d)) ->
  (forall done a, U a -> v done a = dc_heap d a) ->
  (forall a nd, U a -> dc_heap d a = Ok nd -> (forall k, In k (nd_kids nd) -> U k) /\
     (forall r, In r (obj_refs (nd_obj nd)) -> r <> 0 -> U r)) ->
  save_over lim z bo d v = save lim z bo d.
Proof.
  intros lim z bo d v U Hc Hs Hk. unfold save_over, save, write. cbn [ss_doc new_session].
  destruct (run_writers (head_before z bo d)) as [o1 [e|]]; [reflexivity|].
  destruct (run_writers (head_counts bo ++ head_after z bo d)) as [o2 [e|]]; [reflexivity|].
  cbn [ss_map ss_next]. destruct (Z.eqb_spec (dc_content d) 0) as [Z0|N0].
  { cbn [save_loop]. destruct (save_counts bo (len (run_ops o1)) 0) as [o4 s4]. cbn [fst]. now rewrite app_nil_l, <- app_assoc. }
  rewrite (turns bo (dc_self d) v (dc_heap d) U Hs Hk) by (now apply Hc). unfold in_turn.
  destruct (walk lim (dc_heap d) (dc_content d)) as [l ws]. cbn [fst snd].
  destruct (save_loop _ _ _ l _ _) as [[[o3 s3] m] n]. destruct s3 as [e|]; [now rewrite <- app_assoc|].
  destruct ws as [e|]; [now rewrite <- app_assoc|].
  destruct (save_counts bo (len (run_ops o1)) n) as [o4 s4]. cbn [fst]. now rewrite <- !app_assoc.
Qed.

(** ** Steps of a save that ends in an exception *)

Lemma stream_appends : forall lim bo self v a done m n done' s m' n', stream lim bo self v a done m n = (done', s, m', n') ->
  exists bs, done' = done ++ map Append bs.
Proof.
  induction lim as [|lim IH]; intros bo self v a done m n done' s m' n' H.
  { cbn [stream] in H. injection H as <- _ _ _. exists []. now rewrite app_nil_r. }
  rewrite stream_S in H. destruct (v done a) as [nd|e].
  2:{ injection H as <- _ _ _. exists []. now rewrite app_nil_r. }
  assert (forall ks done m n done' s m' n', streams lim bo self v ks done m n = (done', s, m', n') ->
    exists bs, done' = done ++ map Append bs) as Hs.
  { clear - IH. induction ks as [|k ks IHk]; intros done m n done' s m' n' H.
    { cbn [streams] in H. injection H as <- _ _ _. exists []. now rewrite app_nil_r. }
    rewrite streams_cons in H. destruct (stream lim bo self v k done m n) as [[[d1 [e|]] m1] n1] eqn:E; apply IH in E as [b1 ->].
    - injection H as <- _ _ _. eauto.
    - apply IHk in H as [b2 ->]. exists (b1 ++ b2). now rewrite map_app, app_assoc. }
  destruct (streams lim bo self v (nd_kids nd) done m n) as [[[d1 s1] m1] n1] eqn:E. apply Hs in E as [b1 ->].
  destruct s1 as [e|]; [injection H as <- _ _ _; eauto|].
  destruct (m1 (nd_id nd)); [injection H as <- _ _ _; eauto|].
  cbv zeta in H. destruct (run_writers _) as [o s2] eqn:Er. apply run_writers_appends in Er as [b2 ->].
  injection H as <- _ _ _. exists (b1 ++ b2). now rewrite map_app, app_assoc.
Qed.

Lemma over_failed : forall lim z bo d v o e, save_over lim z bo d v = (o, Some e) -> shows_nothing (run_ops o).
Proof.
  intros lim z bo d v o e H. unfold save_over in H.
  destruct (head_run z bo d) as (b1 & E1 & C1). rewrite E1 in H.
  destruct (run_writers (head_counts bo ++ head_after z bo d)) as [o2 s2] eqn:E2.
  apply head_counts_run in E2 as (o2' & E2 & ->).
  pose proof (run_writers_appends _ _ _ E2) as [b2 ->].
  assert (forall bs, shows_nothing (run_ops ((map Append b1 ++ Append (enc bo 4 0) :: Append (enc bo 4 0) :: map Append b2) ++ map Append bs))) as Fail.
  { intros bs. replace ((map Append b1 ++ _) ++ map Append bs) with (map Append (b1 ++ enc bo 4 0 :: enc bo 4 0 :: b2 ++ bs)).
    2:{ rewrite map_app. cbn [map]. rewrite map_app, <- app_assoc. reflexivity. }
    rewrite run_ops_map. apply (cut_no_root bo d _ [] (concat b2 ++ concat bs)).
    rewrite app_nil_r, concat_app. cbn [concat]. rewrite concat_app, C1. unfold head_zero. now rewrite <- !app_assoc. }
  destruct s2 as [e2|].
  { injection H as <- _. specialize (Fail []). now rewrite app_nil_r in Fail. }
  destruct (dc_content d =? 0).
  - unfold save_counts in H. destruct (wu32 bo 0) as [b|e4] eqn:Ew; [discriminate|].
    injection H as <- _. apply (Fail []).
  - destruct (stream _ _ _ _ _ _ _ _) as [[[o3 s3] m] n] eqn:E3. apply stream_appends in E3 as [b3 ->].
    destruct s3 as [e3|]; [injection H as <- _; apply Fail|].
    unfold save_counts in H. destruct (wu32 bo n) as [b|e4]; [discriminate|].
    injection H as <- _. rewrite app_nil_r. apply Fail.
Qed.

(** ** A file saved over itself *)

Lemma Forall_skipn : forall A (P : A -> Prop) n l, Forall P l -> Forall P (skipn n l).
Proof. intros A P n l H. rewrite <- (firstn_skipn n l) in H. now apply Forall_app in H as [_ H]. Qed.

Lemma Forall_firstn : forall A (P : A -> Prop) n l, Forall P l -> Forall P (firstn n l).
Proof. intros A P n l H. rewrite <- (firstn_skipn n l) in H. now apply Forall_app in H as [H _]. Qed.

Lemma scan_from : forall n bo file pos l, Forall is_byte file -> scan n bo file pos = Ok l -> Forall (fun p => pos <= p) l.
Proof.
  induction n as [|n IH]; intros bo file pos l Hf H; cbn [scan] in H; [now injection H as <-|].
  destruct ((_c <- fread 4 ;; ru32 bo) (skipn (Z.to_nat pos) file)) as [[size rest]|e] eqn:E; [|discriminate].
  destruct (scan n bo file (pos + 8 + size)) as [l'|e] eqn:E'; [|discriminate]. injection H as <-.
  constructor; [lia|]. apply IH in E'; [|exact Hf].
  assert (0 <= size) as Hs.
  { unfold bind, fread, ru32, runsigned, bind, take in E.
    change (4 <? 0) with false in E. cbv iota in E.
    destruct (length (skipn _ (skipn _ _)) <? 4)%nat; [discriminate|]. unfold ret in E. apply Ok_inj in E. apply (f_equal fst) in E. cbn [fst] in E. rewrite <- E.
    apply dec_nonneg. apply Forall_firstn. apply Forall_skipn. apply Forall_skipn. exact Hf. }
  eapply Forall_impl; [|exact E']. intros p Hp. cbv beta in Hp. lia.
Qed.

Lemma position_from : forall file t i p, Forall is_byte file -> open_table file = Ok t -> position t i = Ok p -> of_start t <= p.
Proof.
  intros file t i p Hf Ho Hp. apply open_table_inv in Ho as [_ Es]. apply scan_from in Es; [|exact Hf].
  unfold position in Hp. destruct (nth_error (of_positions t) (Z.to_nat (i - 1))) as [q|] eqn:E; [|discriminate].
  injection Hp as <-. rewrite Forall_forall in Es. apply Es. now apply nth_error_In in E.
Qed.

(** Reading where nothing is. *)
Lemma nothing_there : forall t i b, (forall p, position t i = Ok p -> len b <= p) -> i <> 0 ->
  exists e, read_object (with_bytes t b) i = Err e.
Proof.
  intros t i b Hb Hi. unfold read_object. destruct (Z.eqb_spec i 0); [contradiction|].
  change (position (with_bytes t b) i) with (position t i).
  destruct (position t i) as [p|e] eqn:Ep; [|eauto]. specialize (Hb p eq_refl).
  cbn [of_file of_head with_bytes]. rewrite skipn_all2 by (unfold len in Hb; lia).
  unfold rchunk_head, bind, take. cbn [length Nat.ltb Nat.leb]. eauto.
Qed.

Lemma stream_lost : forall lim bo self v a nd done m n, v done a = Ok nd -> nd_kids nd <> [] ->
  (forall k, In k (nd_kids nd) -> k <> a -> exists e, v done k = Err e) ->
  exists e, stream lim bo self v a done m n = (done, Some e, m, n).
Proof.
  induction lim as [|lim IH]; intros bo self v a nd done m n Ea Kn Lost; [cbn [stream]; eauto|].
  rewrite stream_S, Ea. destruct (nd_kids nd) as [|k ks] eqn:Ek; [contradiction|].
  rewrite streams_cons.
  assert (exists e, stream lim bo self v k done m n = (done, Some e, m, n)) as [e ->]; [|eauto].
  destruct (Z.eq_dec k a) as [->|Nk].
  - apply (IH bo self v a nd done m n Ea); rewrite Ek; [discriminate|exact Lost].
  - destruct (Lost k (or_introl eq_refl) Nk) as [e Ee]. destruct lim as [|lim]; [cbn [stream]; eauto|].
    rewrite stream_S, Ee. eauto.
Qed.

Lemma header_size : forall z bo d o1 o2, run_writers (head_before z bo d) = (o1, None) ->
  run_writers (head_counts bo ++ head_after z bo d) = (o2, None) -> len (run_ops (o1 ++ o2)) = 119.
Proof.
  intros z bo d o1 o2 E1 E2. destruct (head_run z bo d) as (b1 & E1' & C1). rewrite E1' in E1. injection E1 as <-.
  apply head_counts_run in E2 as (o2' & E2 & ->).
  pose proof (head_after_ok _ _ _ _ E2) as [v Hv].
  destruct (head_after_intro z bo d v Hv) as (b2 & Eh & Ch). rewrite Eh, run_writers_ok in E2. injection E2 as <-.
  replace (map Append b1 ++ _) with (map Append (b1 ++ enc bo 4 0 :: enc bo 4 0 :: b2)) by (rewrite map_app; reflexivity).
  rewrite run_ops_map, concat_app. cbn [concat]. rewrite C1, Ch.
  pose proof (saved_hdr_length bo d 0 (to_timestamp z (dc_saved d)) v) as L. unfold saved_hdr in L.
  unfold len. rewrite L. reflexivity.
Qed.

Definition wlen (w : writer) : Z := match w with Ok b => len b | Err _ => 0 end.

Lemma run_writers_len : forall l o s, run_writers l = (o, s) -> len (run_ops o) <= fold_right Z.add 0 (map wlen l).
Proof.
  assert (forall l, 0 <= fold_right Z.add 0 (map wlen l)) as Pos.
  { induction l as [|w l IH]; cbn [map fold_right]; [lia|]. unfold wlen at 1. destruct w as [b|e]; [pose proof (len_nonneg _ b)|]; lia. }
  induction l as [|w l IH]; intros o s H; cbn [run_writers] in H.
  { injection H as <- _. cbn. lia. }
  cbn [map fold_right]. destruct w as [b|e].
  2:{ injection H as <- _. specialize (Pos l). unfold wlen at 1. change (len (run_ops [])) with 0. lia. }
  destruct (run_writers l) as [o' s'] eqn:E. injection H as <- _. specialize (IH o' s' eq_refl).
  apply run_writers_appends in E as [bs ->]. change (Append b :: map Append bs) with (map Append (b :: bs)).
  rewrite run_ops_map in *. cbn [concat wlen]. unfold len in *. rewrite app_length. lia.
Qed.

Lemma head_after_short : forall z bo d o s, run_writers (head_after z bo d) = (o, s) -> len (run_ops o) <= 68.
Proof.
  intros z bo d o s H. apply run_writers_len in H.
  enough (fold_right Z.add 0 (map wlen (head_after z bo d)) <= 68) by lia. clear.
  assert (forall n, wlen (wu32 bo n) <= 4) as W4.
  { intros n. unfold wlen, wu32. destruct (wunsigned bo 4 n) as [b|e] eqn:E; [|lia].
    apply wunsigned_ok in E as [_ ->]. unfold len. rewrite enc_length. lia. }
  assert (forall c, length c = 4%nat -> wlen (wfourcc bo c) <= 4) as Wc.
  { intros c L. unfold wfourcc. unfold len at 1. rewrite L. change (Z.of_nat 4 =? 4) with true. unfold wassert, wbytes, wcat, wlen.
    unfold wnil. cbn [app]. unfold len. destruct bo; rewrite ?rev_length, L; cbn; lia. }
  unfold head_after. rewrite map_app, fold_right_app. cbn [map fold_right].
  pose proof (W4 (match bo with LE => mark_II | BE => mark_MM end)) as A.
  pose proof (W4 (to_timestamp z (dc_saved d))) as B. pose proof (W4 0) as C.
  pose proof (Wc cc_ATob eq_refl) as D. pose proof (Wc cc_ATve eq_refl) as E.
  unfold wdatetime.
  assert (fold_right Z.add 0 (map wlen match mac_encode (dc_version d) with
    | Err e => [Err e]
    | Ok v => [ wu16 bo 30; wbytes (firstn 30 v); wbytes (repeat 32 (30 - length (firstn 30 v))); wbytes (repeat 0 16) ] end) <= 48) as F.
  { destruct (mac_encode (dc_version d)) as [v|e]; cbn [map fold_right]; [|cbn; lia].
    assert (wlen (wu16 bo 30) = 2) as -> by (destruct bo; reflexivity).
    unfold wbytes, wlen, len. rewrite !repeat_length. pose proof (firstn_le_length 30 v). lia. }
  lia.
Qed.

Lemma lost : forall t s shown lim z bo self kids version saved ob r, (forall i p, position t i = Ok p -> 119 <= p) ->
  follows kids -> ed_content s <> 0 -> ed_live s (ed_content s) = Some ob -> In r (obj_refs ob) -> r <> 0 ->
  (forall a, In a (obj_refs ob) -> a <> 0 -> a <> ed_content s -> ed_live s a = None) ->
  exists o e, save_over lim z bo (edit_doc s self kids version saved) (seen s (itself t shown) self kids) = (o, Some e) /\
    len (run_ops o) <= 119 /\ shows_nothing (run_ops o).
Proof.
  intros t s shown lim z bo self kids version saved ob r Hp Fo N0 Live Hr Nr Gone.
  set (d := edit_doc s self kids version saved). set (v := seen s (itself t shown) self kids).
  assert (exists o e, save_over lim z bo d v = (o, Some e) /\ len (run_ops o) <= 119) as (o & e & H & L).
  2:{ exists o, e. split; [exact H|]. split; [exact L|]. exact (over_failed _ _ _ _ _ _ _ H). }
  unfold save_over. destruct (head_run z bo d) as (b1 & E1 & C1).
  assert (len (concat b1) = 43) as L1 by (unfold len; rewrite C1, head_pre_length; reflexivity).
  destruct (run_writers (head_before z bo d)) as [o1 s1] eqn:E1'. injection E1 as -> ->.
  destruct (run_writers (head_counts bo ++ head_after z bo d)) as [o2 [e2|]] eqn:E2.
  - exists (map Append b1 ++ o2), e2. split; [reflexivity|].
    apply head_counts_run in E2 as (o2' & E2 & ->).
    replace (map Append b1 ++ _) with (map Append (b1 ++ [enc bo 4 0; enc bo 4 0]) ++ o2') by (rewrite map_app, <- app_assoc; reflexivity).
    pose proof (head_after_short _ _ _ _ _ E2) as L2.
    pose proof (run_writers_appends _ _ _ E2) as [b2 ->]. rewrite run_ops_map in L2.
    rewrite <- map_app, run_ops_map, !concat_app. cbn [concat]. unfold len in *. rewrite !app_length, !enc_length. cbn [length]. lia.
  - pose proof (header_size _ _ _ _ _ E1' E2) as L. cbn [dc_content d edit_doc].
    destruct (Z.eqb_spec (ed_content s) 0) as [|_]; [contradiction|].
    destruct (stream_lost lim bo (dc_self d) v (ed_content s)
      {| nd_doc := self; nd_id := ed_content s; nd_obj := ob; nd_kids := kids (ed_content s) ob |}
      (map Append b1 ++ o2) (fun _ => None) 0) as [e E].
    + unfold v, seen, edit_heap, fetch. cbn [ed_live]. rewrite Live. reflexivity.
    + cbn [nd_kids]. intros Ek. pose proof (proj2 (Fo (ed_content s) ob r) (conj Hr Nr)) as F. rewrite Ek in F. contradiction.
    + cbn [nd_kids]. intros k Hk Nk. apply Fo in Hk as [Hk N].
      unfold v, seen, edit_heap, fetch. cbn [ed_live ed_file]. rewrite (Gone k Hk N Nk). unfold from_file, itself.
      destruct (nothing_there t k (firstn (shown (map Append b1 ++ o2)) (run_ops (map Append b1 ++ o2)))) as [e Ee]; [|exact N|].
      * intros p Ep. apply Hp in Ep. unfold len in *. rewrite firstn_length. lia.
      * rewrite Ee. cbn [snd]. eauto.
    + rewrite E. exists (map Append b1 ++ o2), e. split; [reflexivity|]. rewrite L. lia.
Qed.

Lemma offsets_from : forall l pos, 0 <= pos -> Forall (fun p => pos <= p) (offsets pos l).
Proof.
  induction l as [|s l IH]; intros pos Hp; cbn [offsets]; constructor; [lia|].
  pose proof (len_nonneg _ (snd s)).
  eapply Forall_impl; [|apply IH; lia]. intros p H'. cbv beta in H'. lia.
Qed.

Lemma saved_positions : forall lim z bo d o t, walks_refs d -> ids_distinct d -> save lim z bo d = (o, None) ->
  open_table (run_ops o) = Ok t -> forall i p, position t i = Ok p -> 119 <= p.
Proof.
  intros lim z bo d o t W I H T i p Ep.
  destruct (completed lim z bo d o W I H) as (order & v & ss & ND & Io & _ & _ & Hv & Hl & S & E & _).
  rewrite E, (completed_table bo d order z v ss Hv Hl S) in T. injection T as <-.
  unfold position in Ep. cbn [of_positions table] in Ep.
  destruct (nth_error _ _) as [q|] eqn:En; [|discriminate]. injection Ep as <-. apply nth_error_In in En.
  assert (0 <= len (saved_hdr bo d (len order) (to_timestamp z (dc_saved d)) v)) as L0 by apply len_nonneg.
  pose proof (offsets_from ss _ L0) as F. rewrite Forall_forall in F. apply F in En.
  unfold len in En at 1. rewrite saved_hdr_length in En. lia.
Qed.
