(** Objects and chunks: consequences of ObjProofs.v for objects of any class. *)
From Coq Require Import ZArith List Bool Lia Eqdep_dec.
From Verif Require Import Base IoCtx TrackGroups Essence RoundTrip FitsProofs Saved OrderProofs
  LocProofs RefsProofs Objects ObjSpec ObjProofs Fits FitRefsProofs.
Import ListNotations.
Open Scope Z_scope.

Lemma obj_eta : forall o, Obj (okind o) (oval o) = o.
Proof. intros []. reflexivity. Qed.

(** Without the table check every reading context of the same byte order is compatible. *)
Lemma compat_unchecked : forall c, compat {| ibo := obo c; inobj := None |} c.
Proof. intros c. repeat split. Qed.

(** ** Writing and reading one object *)

Lemma obj_rt : forall i c o, compat i c -> obj_ok o ->
  rt anyr (rbody i (okind o)) (wbody c o) (obj_map (reff c) o).
Proof.
  intros i c [k v] Hc [Hk Hok] bs rest Hw _. cbn [okind oval] in *.
  unfold rbody, bind. rewrite (class_rt k i c v Hk Hc Hok bs rest Hw I). reflexivity.
Qed.

Lemma obj_fit : forall c o, obj_ok o -> ((exists data, wbody c o = Ok data) <-> obj_fits c o).
Proof. intros c [k v] [Hk Hok]. exact (class_fit k c v Hk Hok). Qed.

Lemma robject_saved : forall i c o data, compat i c -> obj_ok o -> wbody c o = Ok data ->
  robject i (class_id (okind o)) data = Ok (obj_map (reff c) o).
Proof.
  intros i c o data Hc Hok Hw. unfold robject. rewrite kind_of_class_id.
  pose proof (obj_rt i c o Hc Hok data [] Hw I) as H. rewrite app_nil_r in H. now rewrite H.
Qed.

Lemma map_id_obj : forall o, closes (okind o) = true -> obj_whole o -> obj_map (fun x => x) o = o.
Proof.
  intros [k v] Hk Hw. unfold obj_map. cbn [okind oval] in *. f_equal.
  destruct (class_saves_all k Hk) as (_ & H & _). now apply H.
Qed.

Lemma refs_map_obj : forall f o, closes (okind o) = true ->
  obj_refs (obj_map f o) = map f (obj_refs o).
Proof.
  intros f [k v] Hk. unfold obj_map, obj_refs. cbn [okind oval] in *.
  destruct (class_saves_all k Hk) as (_ & _ & H). apply H.
Qed.

(** ** Chunks *)

Lemma wchunk_ok : forall c o b, wchunk c o = Ok b -> exists data,
  wbody c o = Ok data /\ last data 0 = 3 /\ 0 <= len data < 2 ^ 32 /\
  b = (match obo c with LE => rev (class_id (okind o)) | BE => class_id (okind o) end)
      ++ enc (obo c) 4 (len data) ++ data.
Proof.
  intros c o b H. unfold wchunk in H. destruct (wbody c o) as [data|e]; [|discriminate].
  exists data. split; [reflexivity|].
  apply wcat_ok in H as (x & y & Hx & H & ->).
  unfold wassert in Hx. destruct (Z.eqb_spec (last data 0) 3) as [E|]; [|discriminate].
  apply Ok_inj in Hx as <-. split; [exact E|].
  apply wcat_ok in H as (x & z & Hx & H & ->). unfold wfourcc in Hx.
  assert (len (class_id (okind o)) = 4) as L4 by (unfold len; now rewrite class_id_len).
  rewrite L4 in Hx. cbn in Hx. apply Ok_inj in Hx.
  apply wcat_ok in H as (y & d & Hy & H & ->). apply Ok_inj in H as <-.
  unfold wu32, wunsigned in Hy. destruct (_ && _) eqn:B; [|discriminate].
  apply Ok_inj in Hy as <-. apply andb_prop in B as [B1 B2].
  apply Z.leb_le in B1. apply Z.ltb_lt in B2. unfold pow256 in B2. change (256 ^ Z.of_nat 4) with (2 ^ 32) in B2.
  split; [lia|]. rewrite <- Hx. reflexivity.
Qed.

Lemma wchunk_intro : forall c o data, wbody c o = Ok data -> last data 0 = 3 -> len data < 2 ^ 32 ->
  wchunk c o = Ok ((match obo c with LE => rev (class_id (okind o)) | BE => class_id (okind o) end)
      ++ enc (obo c) 4 (len data) ++ data).
Proof.
  intros c o data Hw Hl Hn. unfold wchunk. rewrite Hw, Hl. cbn [Z.eqb wassert].
  unfold wfourcc. assert (len (class_id (okind o)) = 4) as -> by (unfold len; now rewrite class_id_len).
  unfold wu32, wunsigned. change (pow256 4) with (2 ^ 32).
  destruct (_ && _) eqn:B.
  - reflexivity.
  - apply andb_false_iff in B as [B|B].
    + apply Z.leb_gt in B. unfold len in B. lia.
    + apply Z.ltb_ge in B. lia.
Qed.

Lemma ends3_last : forall c o data, closes (okind o) = true -> wbody c o = Ok data -> last data 0 = 3.
Proof.
  intros c o data Hk Hw. destruct (ends3_body c o Hk data Hw) as [p ->]. apply last_last.
Qed.

(** ** Both byte orders *)

(** The last byte is the closing byte in one order exactly if it is in the other; for the classes
    that have a closing byte. *)
Lemma weq_chunk : forall c c' o, closes (okind o) = true -> (forall r, orefs c r = orefs c' r) ->
  weq (wchunk c o) (wchunk c' o).
Proof.
  intros c c' o Hk Hr. pose proof (weq_body c c' o Hr) as H. unfold wchunk.
  destruct (wbody c o) as [d|e] eqn:E, (wbody c' o) as [d'|e'] eqn:E'; cbn [weq wlen] in H;
    unfold weq in H; cbn [wlen] in H; try discriminate; [|unfold weq; cbn [wlen]; congruence].
  rewrite (ends3_last c o d Hk E), (ends3_last c' o d' Hk E'). apply Ok_inj in H.
  apply weq_cat; [apply weq_refl|]. apply weq_cat; [apply weq_fourcc|].
  unfold len. rewrite H. apply weq_cat; [apply weq_u32|now apply weq_bytes].
Qed.

(** ** Cut and lengthened chunks *)

Lemma rbody_closed : forall i k, k <> K_TRKG -> closed (rbody i k).
Proof.
  intros i k Hk.
  assert (closed (C_read (class_of k) i)) as [H1 H2].
  { destruct (closes k) eqn:E; [now apply closed_read|].
    destruct k; try discriminate E; [apply closed_data|congruence]. }
  unfold rbody. split.
  - intros b v rest E s. apply bind_ok in E as (a & b' & E1 & E2). unfold bind.
    rewrite (H1 _ _ _ E1 s). unfold ret in *. apply Ok_inj in E2. injection E2 as <- <-. reflexivity.
  - destruct H2 as [e E]. exists e. unfold bind. now rewrite E.
Qed.

Lemma robject_ok : forall i cc d o, robject i cc d = Ok o ->
  kind_of cc = Some (okind o) /\ okind o <> K_TRKG /\ rbody i (okind o) d = Ok (o, []).
Proof.
  intros i cc d o H. unfold robject in H. destruct (kind_of cc) as [k|]; [|discriminate].
  destruct (rbody i k d) as [[v rest]|e] eqn:E; [|discriminate].
  destruct rest; [|discriminate]. apply Ok_inj in H as ->.
  assert (okind o = k) as <-.
  { unfold rbody in E. apply bind_ok in E as (a & b & _ & E). unfold ret in E.
    apply Ok_inj in E. injection E as <- _. reflexivity. }
  split; [reflexivity|]. split; [|exact E]. intros K. rewrite K in E.
  unfold rbody in E. cbn [class_of C_read] in E. apply bind_ok in E as (a & b & E1 & E2).
  apply group_rest in E1. unfold ret in E2. congruence.
Qed.

Lemma robject_longer : forall i cc d o s, robject i cc d = Ok o -> s <> [] ->
  robject i cc (d ++ s) = Err AssertionErr.
Proof.
  intros i cc d o s H Hs. apply robject_ok in H as (K & N & E).
  unfold robject. rewrite K. destruct (rbody_closed i _ N) as [H1 _].
  rewrite (H1 _ _ _ E s). cbn [app]. destruct s; [congruence|reflexivity].
Qed.

Lemma robject_shorter : forall i cc p q o, robject i cc (p ++ q) = Ok o -> q <> [] ->
  exists e, robject i cc p = Err e.
Proof.
  intros i cc p q o H Hq. destruct (robject i cc p) as [o'|e] eqn:E; [|eauto].
  rewrite (robject_longer _ _ _ _ q E Hq) in H. discriminate.
Qed.

(** ** References *)

Lemma robject_refs : forall i cc d o, Forall is_byte d -> robject i cc d = Ok o ->
  refs_ok i (obj_refs o).
Proof.
  intros i cc d o Hd H. apply robject_ok in H as (_ & _ & E).
  unfold rbody in E. apply bind_ok in E as (v & b & E1 & E2). unfold ret in E2.
  apply Ok_inj in E2.
  destruct (res_read (okind o) i d v b Hd E1) as [Q _]. injection E2 as E2 _.
  unfold obj_refs. rewrite <- E2. exact Q.
Qed.

(** ** Different objects *)

(** A left inverse of [f] on a list. *)
Fixpoint inv_on (f : Z -> Z) (l : list Z) (y : Z) : Z :=
  match l with [] => y | x :: l' => if f x =? y then x else inv_on f l' y end.

Lemma inv_on_ok : forall f l, (forall a b, In a l -> In b l -> f a = f b -> a = b) ->
  forall x, In x l -> inv_on f l (f x) = x.
Proof.
  intros f l. induction l as [|a l IH]; intros H x Hx; [destruct Hx|]. cbn [inv_on].
  destruct (Z.eqb_spec (f a) (f x)) as [E|N].
  - apply H; [now left|exact Hx|exact E].
  - destruct Hx as [->|Hx]; [congruence|]. apply IH; [|exact Hx].
    intros u v Hu Hv. apply H; now right.
Qed.

Lemma obj_map_inj : forall f a b, obj_ok a -> obj_ok b -> obj_whole a -> obj_whole b ->
  (forall x y, In x (obj_refs a ++ obj_refs b) -> In y (obj_refs a ++ obj_refs b) ->
     f x = f y -> x = y) ->
  obj_map f a = obj_map f b -> a = b.
Proof.
  intros f a b [Ka Oa] [Kb Ob] Wa Wb Hf E.
  set (l := obj_refs a ++ obj_refs b) in *.
  rewrite <- (map_id_obj a Ka Wa), <- (map_id_obj b Kb Wb).
  rewrite (map_ext_obj (fun x => x) (fun x => inv_on f l (f x)) a),
          (map_ext_obj (fun x => x) (fun x => inv_on f l (f x)) b).
  - rewrite <- (map_map_obj f (inv_on f l) a), <- (map_map_obj f (inv_on f l) b), E. reflexivity.
  - intros r Hr. symmetry. apply inv_on_ok; [exact Hf|]. apply in_or_app. now right.
  - intros r Hr. symmetry. apply inv_on_ok; [exact Hf|]. apply in_or_app. now left.
Qed.

Lemma app_inj_len : forall A (a b c d : list A), length a = length c -> a ++ b = c ++ d ->
  a = c /\ b = d.
Proof.
  intros A a. induction a as [|x a IH]; intros b [|y c] d L H; try discriminate L.
  - now split.
  - cbn [app] in H. injection H as -> H. injection L as L.
    destruct (IH b c d L H) as [-> ->]. now split.
Qed.

Lemma wchunk_inj : forall c a b bs, obj_ok a -> obj_ok b -> obj_whole a -> obj_whole b ->
  (forall x y, In x (obj_refs a ++ obj_refs b) -> In y (obj_refs a ++ obj_refs b) ->
     reff c x = reff c y -> x = y) ->
  wchunk c a = Ok bs -> wchunk c b = Ok bs -> a = b.
Proof.
  intros c a b bs Oa Ob Wa Wb Hf Ha Hb.
  apply wchunk_ok in Ha as (da & Da & _ & _ & Ea). apply wchunk_ok in Hb as (db & Db & _ & _ & Eb).
  rewrite Ea in Eb.
  assert (okind a = okind b /\ da = db) as [K ->].
  { apply app_inj_len in Eb as [K Eb].
    - apply app_inj_len in Eb as [_ Eb]; [|now rewrite !enc_length]. split; [|exact Eb].
      destruct (obo c).
      + apply class_id_inj. rewrite <- (rev_involutive (class_id (okind a))), K.
        apply rev_involutive.
      + now apply class_id_inj.
    - destruct (obo c); rewrite ?rev_length, !class_id_len; reflexivity. }
  apply (obj_map_inj (reff c)); try assumption.
  pose proof (robject_saved _ c a db (compat_unchecked c) Oa Da) as Ra.
  pose proof (robject_saved _ c b db (compat_unchecked c) Ob Db) as Rb.
  rewrite K in Ra. congruence.
Qed.

(** ** What is written has its references stored *)

Lemma written_refs : forall c o data, obj_ok o -> wbody c o = Ok data ->
  forall r, In r (obj_refs o) -> r = 0 \/ exists x, orefs c r = Some x.
Proof.
  intros c o data Hok Hw r Hr.
  assert (obj_fits c o) as Hf by (apply (obj_fit c o Hok); eauto).
  destruct (fsp_obj c c o (proj1 Hok) Hf) as [F _]. unfold refs_fit in F.
  rewrite Forall_forall in F. destruct (F r Hr) as [->|(x & Hx & _)]; eauto.
Qed.

Lemma wchunk_inj_stored : forall c a b bs, obj_ok a -> obj_ok b -> obj_whole a -> obj_whole b ->
  (forall r, In r (obj_refs a ++ obj_refs b) -> orefs c r <> Some 0) ->
  (forall r r' x, orefs c r = Some x -> orefs c r' = Some x -> r = r') ->
  wchunk c a = Ok bs -> wchunk c b = Ok bs -> a = b.
Proof.
  intros c a b bs Oa Ob Wa Wb H0 Hi Ha Hb.
  apply (wchunk_inj c a b bs); try assumption.
  apply wchunk_ok in Ha as (da & Da & _). apply wchunk_ok in Hb as (db & Db & _).
  assert (forall r, In r (obj_refs a ++ obj_refs b) -> r = 0 \/ exists x, orefs c r = Some x) as Hs.
  { intros r Hr. apply in_app_or in Hr as [Hr|Hr]; [exact (written_refs c a da Oa Da r Hr)|].
    exact (written_refs c b db Ob Db r Hr). }
  intros x y Hx Hy E. unfold reff in E.
  destruct (Hs x Hx) as [->|[u Hu]], (Hs y Hy) as [->|[v Hv]]; [reflexivity| | |].
  - cbn [Z.eqb] in E. destruct (Z.eqb_spec y 0) as [->|N]; [reflexivity|]. rewrite Hv in E.
    exfalso. apply (H0 y Hy). congruence.
  - cbn [Z.eqb] in E. destruct (Z.eqb_spec x 0) as [->|N]; [reflexivity|]. rewrite Hu in E.
    exfalso. apply (H0 x Hx). congruence.
  - destruct (Z.eqb_spec x 0) as [->|Nx], (Z.eqb_spec y 0) as [->|Ny]; [reflexivity| | |].
    + rewrite Hv in E. exfalso. apply (H0 y Hy). congruence.
    + rewrite Hu in E. exfalso. apply (H0 x Hx). congruence.
    + rewrite Hu, Hv in E. apply (Hi x y u); congruence.
Qed.
