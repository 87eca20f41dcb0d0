(** Lemmas for C69. *)
From Coq Require Import ZArith List Bool Lia.
From Verif Require Import Base IoCtx RoundTrip Attributes Components Objects ObjSpec ObjProofs ObjTheory FileModel FileSpec SaveProofs
  MoveProofs BothOrders ChainSpec Samples SavedProofs SampleDocs MovedSpec.
Import ListNotations.
Open Scope Z_scope.

Section Moved.
Variables (f : Z -> Z) (d d' : document).
Hypothesis Mo : moved f d d'.
Hypothesis W : walks_refs d.

Lemma mo_kids : forall a nd k, in_doc d a -> dc_heap d a = Ok nd -> In k (nd_kids nd) -> in_doc d k.
Proof.
  intros a nd k Ha E Hk. destruct Ha as [Nc R]. split; [exact Nc|]. apply reach_step with a; [exact R|].
  exists nd. split; [exact E|]. now apply (W a nd (conj Nc R) E).
Qed.

Lemma mo_refs : forall a nd r, in_doc d a -> dc_heap d a = Ok nd -> In r (obj_refs (nd_obj nd)) -> r <> 0 -> in_doc d r.
Proof.
  intros a nd k [Nc R] E Hk N. split; [exact Nc|]. apply reach_step with a; [exact R|]. exists nd. auto.
Qed.

Lemma mo_walk : forall lim a, in_doc d a ->
  walk lim (dc_heap d') (f a) = (map f (fst (walk lim (dc_heap d) a)), snd (walk lim (dc_heap d) a)).
Proof.
  induction lim as [|lim IH]; intros a Ha; [reflexivity|]. rewrite !walk_S.
  pose proof (mo_same _ _ _ Mo a Ha) as S. unfold same_at in S.
  destruct (dc_heap d a) as [nd|e] eqn:E, (dc_heap d' (f a)) as [nd'|e']; try contradiction; [|now subst].
  destruct S as (_ & -> & _).
  assert (forall ks, (forall k, In k ks -> in_doc d k) ->
    walks lim (dc_heap d') (map f ks) = (map f (fst (walks lim (dc_heap d) ks)), snd (walks lim (dc_heap d) ks))) as G.
  { induction ks as [|k ks IHk]; intros Hk; [reflexivity|]. cbn [map]. rewrite !walks_cons.
    rewrite IH by (apply Hk; now left). destruct (walk lim (dc_heap d) k) as [l [e|]]; cbn [fst snd]; [reflexivity|].
    rewrite IHk by (intros; apply Hk; now right). destruct (walks lim (dc_heap d) ks) as [l' s']. cbn [fst snd].
    now rewrite map_app. }
  rewrite G by (intros k Hk; now apply (mo_kids a nd)).
  destruct (walks lim (dc_heap d) (nd_kids nd)) as [l [e|]]; cbn [fst snd]; [reflexivity|]. now rewrite map_app.
Qed.

Definition mapped (m m' : mapping) : Prop := forall a nd nd', in_doc d a -> dc_heap d a = Ok nd -> dc_heap d' (f a) = Ok nd' ->
  m' (nd_id nd') = m (nd_id nd).

Lemma mo_write : forall bo m m' a nd nd', mapped m m' -> in_doc d a -> dc_heap d a = Ok nd -> dc_heap d' (f a) = Ok nd' ->
  write_object bo (dc_self d') (dc_heap d') m' nd' = write_object bo (dc_self d) (dc_heap d) m nd.
Proof.
  intros bo m m' a nd nd' P Ha E E'. pose proof (mo_same _ _ _ Mo a Ha) as S. unfold same_at in S. rewrite E, E' in S.
  destruct S as (O & _ & Dc). unfold write_object.
  destruct (Z.eqb_spec (nd_doc nd') (dc_self d')) as [D'|N'], (Z.eqb_spec (nd_doc nd) (dc_self d)) as [D|N]; try tauto.
  rewrite O. rewrite (move_refs (save_octx bo (dc_heap d) m)); [destruct (nd_obj nd); reflexivity|reflexivity|].
  intros r Hr. unfold wref, save_octx. cbn [obo orefs]. destruct (Z.eqb_spec r 0) as [->|N].
  - now rewrite (mo_none _ _ _ Mo).
  - pose proof (mo_refs a nd r Ha E Hr N) as Hu.
    destruct (Z.eqb_spec (f r) 0) as [F|_]; [now apply (mo_some _ _ _ Mo) in F|].
    pose proof (mo_same _ _ _ Mo r Hu) as S. unfold same_at in S.
    destruct (dc_heap d r) as [nr|e] eqn:Er, (dc_heap d' (f r)) as [nr'|e'] eqn:Er'; try contradiction; [|reflexivity].
    now rewrite (P r nr nr' Hu Er Er').
Qed.

Lemma mo_loop : forall bo l m m' n, (forall x, In x l -> in_doc d x) -> mapped m m' ->
  let '(o, s, _, k) := save_loop bo (dc_self d) (dc_heap d) l m n in
  let '(o', s', _, k') := save_loop bo (dc_self d') (dc_heap d') (map f l) m' n in
  o' = o /\ s' = s /\ k' = k.
Proof.
  intros bo l. induction l as [|a l IH]; intros m m' n Hl P; cbn [map save_loop]; [auto|].
  assert (in_doc d a) as Ha by (apply Hl; now left). pose proof (mo_same _ _ _ Mo a Ha) as S. unfold same_at in S.
  destruct (dc_heap d a) as [nd|e] eqn:E, (dc_heap d' (f a)) as [nd'|e'] eqn:E'; try contradiction; [|now subst].
  rewrite (P a nd nd' Ha E E').
  destruct (m (nd_id nd)) as [x|] eqn:Em; [apply IH; [intros; apply Hl; now right|exact P]|].
  set (m1 := fun i => if i =? nd_id nd then Some (n + 1) else m i).
  set (m1' := fun i => if i =? nd_id nd' then Some (n + 1) else m' i).
  assert (mapped m1 m1') as P1.
  { intros b nb nb' Hb Eb Eb'. unfold m1, m1'.
    pose proof (mo_ids _ _ _ Mo b a nb nd nb' nd' Hb Ha Eb E Eb' E') as I.
    destruct (Z.eqb_spec (nd_id nb') (nd_id nd')), (Z.eqb_spec (nd_id nb) (nd_id nd)); try tauto.
    exact (P b nb nb' Hb Eb Eb'). }
  rewrite (mo_write bo m1 m1' a nd nd' P1 Ha E E').
  destruct (run_writers (write_object bo (dc_self d) (dc_heap d) m1 nd)) as [o1 [e|]]; [auto|].
  specialize (IH m1 m1' (n + 1) (fun x Hx => Hl x (or_intror Hx)) P1).
  destruct (save_loop bo (dc_self d) (dc_heap d) l m1 (n + 1)) as [[[o2 s2] mm2] k2].
  destruct (save_loop bo (dc_self d') (dc_heap d') (map f l) m1' (n + 1)) as [[[o2' s2'] mm2'] k2'].
  destruct IH as (-> & -> & ->). auto.
Qed.

Lemma mo_save : forall lim z bo, save lim z bo d' = save lim z bo d.
Proof.
  intros lim z bo. unfold save, write, new_session. cbn [ss_doc ss_map ss_next].
  assert (head_before z bo d' = head_before z bo d) as -> by (unfold head_before; now rewrite (mo_saved _ _ _ Mo)).
  assert (head_after z bo d' = head_after z bo d) as ->
    by (unfold head_after; now rewrite (mo_saved _ _ _ Mo), (mo_version _ _ _ Mo)).
  destruct (run_writers (head_before z bo d)) as [o1 [e|]]; [reflexivity|].
  destruct (run_writers (head_counts bo ++ head_after z bo d)) as [o2 [e|]]; [reflexivity|].
  assert (exists l ws, (if dc_content d =? 0 then ([], None) else walk lim (dc_heap d) (dc_content d)) = (l, ws) /\
    (if dc_content d' =? 0 then ([], None) else walk lim (dc_heap d') (dc_content d')) = (map f l, ws) /\
    forall x, In x l -> in_doc d x) as (l & ws & -> & -> & Hl).
  { rewrite (mo_content _ _ _ Mo). destruct (Z.eqb_spec (dc_content d) 0) as [E0|N].
    - rewrite E0, (mo_none _ _ _ Mo). exists [], None. split; [reflexivity|]. split; [reflexivity|intros x []].
    - assert (in_doc d (dc_content d)) as Hc by (split; [exact N|constructor]).
      destruct (Z.eqb_spec (f (dc_content d)) 0) as [F|_]; [now apply (mo_some _ _ _ Mo) in F|].
      rewrite (mo_walk lim _ Hc).
      pose proof (walk_inside (dc_heap d) (in_doc d) mo_kids lim _ Hc) as Wi.
      destruct (walk lim (dc_heap d) (dc_content d)) as [l ws]. exists l, ws. auto. }
  pose proof (mo_loop bo l (fun _ => None) (fun _ => None) 0 Hl (fun _ _ _ _ _ _ => eq_refl)) as L.
  destruct (save_loop bo (dc_self d) (dc_heap d) l (fun _ => None) 0) as [[[o s] m] k].
  destruct (save_loop bo (dc_self d') (dc_heap d') (map f l) (fun _ => None) 0) as [[[o' s'] m'] k'].
  destruct L as (-> & -> & ->). destruct s; [reflexivity|]. destruct ws; [reflexivity|].
  destruct (save_counts bo (len (run_ops o1)) k); reflexivity.
Qed.
End Moved.

(** ** Looking alike *)

Lemma alike_sym : forall n p q a b, alike n p q a b -> alike n q p b a.
Proof.
  induction n as [|n IH]; intros p q a b H; cbn [alike] in *; [exact I|].
  destruct H as [[-> ->]|(Na & Nb & o & o' & Ho & Ho' & E & F)]; [now left|right].
  split; [exact Nb|]. split; [exact Na|]. exists o', o. split; [exact Ho'|]. split; [exact Ho|]. split; [now symmetry|].
  clear - F IH. induction F; constructor; auto.
Qed.

Lemma alike_trans : forall n p q r a b c, alike n p q a b -> alike n q r b c -> alike n p r a c.
Proof.
  induction n as [|n IH]; intros p q r a b c H G; cbn [alike] in *; [exact I|].
  destruct H as [[-> ->]|(Na & Nb & o & o' & Ho & Ho' & E & F)], G as [[E1 ->]|(Nb' & Nc & o1 & o2 & Ho1 & Ho2 & E' & F')];
    try contradiction; [now left|right].
  split; [exact Na|]. split; [exact Nc|]. rewrite Ho' in Ho1. injection Ho1 as <-.
  exists o, o2. split; [exact Ho|]. split; [exact Ho2|]. split; [congruence|].
  clear - F F' IH. revert F'. generalize (obj_refs o2). induction F as [|x y l l' A F IHF]; intros k F'; inversion F'; subst; constructor; eauto.
Qed.

Lemma folds_alike : forall f d' d, folds f d' d -> all_ok d' -> forall n b, b = 0 \/ in_doc d' b ->
  alike n (in_document d') (in_document d) b (f b).
Proof.
  intros f d' d F A. induction n as [|n IH]; intros b Hb; [exact Logic.I|]. cbn [alike].
  destruct Hb as [->|Hb]; [left; split; [reflexivity|exact (fo_none _ _ _ F)]|]. right.
  split; [now apply in_doc_not0 in Hb|]. split; [exact (fo_some _ _ _ F b Hb)|].
  destruct (fo_same _ _ _ F b Hb) as (nd' & nd & E' & E & O). exists (nd_obj nd'), (nd_obj nd).
  split; [unfold in_document; now rewrite E'|]. split; [unfold in_document; now rewrite E|].
  rewrite O. split; [now rewrite map_map_obj|]. rewrite refs_map_obj by exact (proj1 (A b nd' Hb E')).
  assert (forall r, In r (obj_refs (nd_obj nd')) -> r = 0 \/ in_doc d' r) as G.
  { intros r Hr. destruct (Z.eq_dec r 0) as [->|Nr]; [now left|]. right. apply (in_doc_step d' b r Hb). exists nd'. auto. }
  clear - IH G. induction (obj_refs (nd_obj nd')) as [|r l IHl]; cbn [map]; constructor.
  - apply IH, G. now left.
  - apply IHl. intros x Hx. apply G. now right.
Qed.

(** ** Samples *)

(** A document with its objects at twice the addresses, other instance ids, and another identity. *)
Definition doubled (d : document) : document :=
  {| dc_self := dc_self d + 1; dc_content := 2 * dc_content d; dc_version := dc_version d; dc_saved := dc_saved d;
     dc_heap := fun b => match dc_heap d (b / 2) with
       | Ok nd => Ok {| nd_doc := nd_doc nd + 1; nd_id := 5 - nd_id nd; nd_obj := obj_map (Z.mul 2) (nd_obj nd);
                        nd_kids := map (Z.mul 2) (nd_kids nd) |}
       | Err e => Err e end |}.

Lemma doubled_moved : forall d, moved (Z.mul 2) d (doubled d).
Proof.
  intros d. assert (forall a, 2 * a / 2 = a) as H by (intros a; rewrite Z.mul_comm; now apply Z.div_mul).
  constructor; try reflexivity.
  - intros a Ha F. apply in_doc_not0 in Ha. lia.
  - intros a _. unfold same_at, doubled. cbn [dc_heap dc_self]. rewrite H. destruct (dc_heap d a) as [nd|e]; [|reflexivity].
    cbn [nd_obj nd_kids nd_doc]. split; [reflexivity|]. split; [reflexivity|]. split; intros; lia.
  - intros a b na nb na' nb' _ _ Ea Eb. unfold doubled. cbn [dc_heap]. rewrite !H, Ea, Eb. intros Ea' Eb'.
    apply (f_equal (fun r => match r with Ok nd => nd_id nd | Err _ => 0 end)) in Ea', Eb'. cbn [nd_id] in Ea', Eb'.
    rewrite <- Ea', <- Eb'. split; intros; lia.
Qed.

(** The small document copied: what it shares is there twice. *)
Definition unshared_mem : list (Z * obj) :=
  [(140, Obj K_ATTR [([78], AInt (-3))]); (130, Obj K_ATTR [([75], ARef 140); ([83], AStr [233])]);
   (141, Obj K_ATTR [([78], AInt (-3))]); (131, Obj K_ATTR [([75], ARef 141); ([83], AStr [233])]);
   (107, small_filler); (108, small_filler);
   (109, Obj K_SCLP {| sclp_clip := {| clip_component := plain_component 131; clip_length := 50 |};
      sclp_track_id := 1; sclp_start_time := 5; sclp_mob_id := sclp_mob_id sample_source_clip |});
   (105, Obj K_SEQU {| sequ_component := plain_component 130; sequ_components := [107; 109; 108] |})].
Definition unshared_doc : document := doc_of unshared_mem 105.
Definition copied_from (b : Z) : Z :=
  if b =? 140 then 40 else if b =? 141 then 40 else if b =? 130 then 30 else if b =? 131 then 30 else
  if b =? 107 then 7 else if b =? 108 then 7 else if b =? 109 then 9 else if b =? 105 then 5 else 0.

Lemma unshared_ok : Forall (fun p => obj_ok (snd p)) unshared_mem.
Proof.
  unfold unshared_mem. repeat (apply Forall_cons; [cbn [snd]; split; [reflexivity|]|]); [..|apply Forall_nil];
    cbn [ok_of okind oval small_filler]; sample_ok.
Qed.

Lemma unshared_folds : folds copied_from unshared_doc small_doc.
Proof.
  assert (In 105 (map fst unshared_mem)) as Hr by (vm_compute; tauto).
  assert (in_order [] unshared_mem = true) as Ho by (vm_compute; reflexivity).
  constructor; [reflexivity|reflexivity| |].
  - intros b Hb. apply (listed_in unshared_mem 105 Hr Ho) in Hb. cbn [unshared_mem map fst In] in Hb.
    repeat (destruct Hb as [<-|Hb]; [discriminate|]). destruct Hb.
  - intros b Hb. apply (listed_in unshared_mem 105 Hr Ho) in Hb. cbn [unshared_mem map fst In] in Hb.
    repeat (destruct Hb as [<-|Hb]; [eexists; eexists; split; [reflexivity|]; split; reflexivity|]). destruct Hb.
Qed.
