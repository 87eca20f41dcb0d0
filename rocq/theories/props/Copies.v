(** C40, C41: copies of objects. *)
From Coq Require Import ZArith List Bool Lia.
From Verif Require Import Base Copy CopySpec CopyProofs CopyEnds CopyTree CopyTheory.
Import ListNotations.
Open Scope Z_scope.

(** A document (1) with an object of class 5 holding an attribute dictionary, a reference list with
    the same object twice, a [bytearray], a list with a list and an object in it, and a number. Class
    5 sets properties 2 and 9 when made. *)
Definition sample_things : list (Z * thing) :=
  [(10, TObject 1 5 [(1, VRef 11); (2, VRef 12); (3, VRef 13); (4, VRef 14); (5, VInt 7)]);
   (11, TAttrs 1 [(1, VText 3); (2, VRef 15); (3, VRef 16)]);
   (12, TRefList 1 8 (Some 10) [VRef 16; VRef 16]);
   (13, TBlob 99);
   (14, TList [VRef 17; VRef 16; VInt 2]);
   (15, TBlob 98);
   (16, TObject 1 6 [(1, VInt 1)]);
   (17, TList [VInt 1]);
   (18, TRefList 1 8 None [VRef 16; VNone]);
   (19, TObject 1 6 [(1, VRef 19)])].
Definition sample_store : store := {| s_mem := get sample_things; s_new := 20 |}.
Definition sample_classes (c : Z) : option class :=
  if c =? 5 then Some {| c_noargs := true; c_defaults := [(2, DNew (fun root => TRefList root 8 None [])); (9, DValue (VInt 0))] |}
  else if c =? 6 then Some {| c_noargs := true; c_defaults := [] |}
  else if c =? 7 then Some {| c_noargs := false; c_defaults := [] |}
  else None.
Definition sample_copy := copy 100 sample_classes 2 sample_store 10.

Lemma sample_sound : sound sample_classes sample_store.
Proof.
  assert (forall l x, (forall y, ~ In (VRef y) l) -> s_mem sample_store x = Some (TList l) -> data_only (s_mem sample_store) x) as Leaf.
  { intros l x N E b t L Eb O. destruct (leads_first _ _ _ L) as [<-|(t' & E' & c & I)].
    - rewrite E in Eb. injection Eb as <-. exact O.
    - rewrite E in E'. injection E' as <-. exact (N c I). }
  constructor.
  - intros a t _ E. apply get_in in E. cbn [sample_things In] in E.
    repeat (destruct E as [E|E]; [injection E as <- <-|]); try contradiction; cbn [values map snd fst In]; (split; [|try exact I; repeat (apply NoDup_cons; [cbn [In]; lia|]); apply NoDup_nil]);
      intros b H; repeat (destruct H as [H|H]; [first [discriminate H|injection H as <-; split; [reflexivity|eexists; reflexivity]]|]); try contradiction H.
  - intros a l b _ E I. apply get_in in E. cbn [sample_things In] in E.
    repeat (destruct E as [E|E]; [try discriminate; injection E as <- <-|]); try contradiction; cbn [In] in I;
      repeat (destruct I as [I|I]; [try discriminate; injection I as <-|]); try contradiction.
    + right. apply (Leaf [VInt 1]); [|reflexivity]. cbn [In]. intros y [K|[]]. discriminate.
    + left. repeat eexists.
  - intros c i k d Ec I. unfold sample_classes in Ec.
    destruct (c =? 5); [injection Ec as <-|destruct (c =? 6); [injection Ec as <-|destruct (c =? 7); [injection Ec as <-|discriminate]]]; cbn [c_defaults In] in I; try contradiction.
    destruct I as [I|[I|[]]]; injection I as <- <-; [intros root; split; [reflexivity|intros b []]|discriminate].
Qed.

(** C40: a copy is equal to its original, to any depth. *)
Theorem C40_equal : forall lim cl root s a s' b, sound cl s -> a < s_new s -> copy lim cl root s a = (s', Ok b) ->
  forall n, equal n (s_mem s') (VRef a) (VRef b).
Proof. intros lim cl root s a s' b So Ha H. now destruct (copied _ _ _ _ _ _ _ So Ha H) as (_ & _ & _ & Q & _). Qed.

(** Everything that could be changed in the original document is as it was, whether the copy
    succeeds or not, and even if nothing is in order. *)
Theorem C40_original : forall lim cl root s a s' r, copy lim cl root s a = (s', r) -> forall z, z < s_new s -> s_mem s' z = s_mem s z.
Proof. intros lim cl root s a s' r H. exact (proj1 (proj1 (copy_keeps lim cl root s a s' r H))). Qed.

(** The objects, reference lists and dictionaries reached from the copy are new and of the document
    it was made for. *)
Theorem C40_document : forall lim cl root s a s' b, sound cl s -> a < s_new s -> copy lim cl root s a = (s', Ok b) ->
  forall x t, leads (s_mem s') b x -> s_mem s' x = Some t -> object_like t -> s_new s <= x /\ belongs root t.
Proof.
  intros lim cl root s a s' b So Ha H x t L E O. destruct (copied _ _ _ _ _ _ _ So Ha H) as (-> & Lt & St & _).
  destruct (reached cl root s s' (s_new s) So St ltac:(lia) x L) as [Hx|(Hx & _ & Dx)].
  - split; [lia|]. destruct St as (_ & _ & S3). destruct (S3 x Hx) as (t' & E' & B & _). rewrite E in E'. injection E' as <-. exact B.
  - destruct St as (S1 & _). rewrite S1 in E by exact Hx. exfalso. exact (Dx x t (leads_self _ _) E O).
Qed.

(** Each new thing is referred to from one place: something with two references to it in the
    original is copied twice. *)
Theorem C40_twice : forall lim cl root s a s' b, sound cl s -> a < s_new s -> copy lim cl root s a = (s', Ok b) ->
  forall x y tx ty i j z, s_new s <= x -> s_new s <= y -> s_mem s' x = Some tx -> s_mem s' y = Some ty -> x < s_new s' -> y < s_new s' ->
  nth_error (values tx) i = Some (VRef z) -> nth_error (values ty) j = Some (VRef z) -> s_new s <= z -> x = y /\ i = j.
Proof.
  intros lim cl root s a s' b [O Pl D] Ha H x y tx ty i j z Hx Hy Ex Ey Lx Ly Ni Nj Hz.
  destruct (copy_tree cl root (s_new s) (s_mem s) O) with (lim := lim) (s := s) (a := a) (s' := s') (b := b) as ((_ & On) & _); auto.
  - intros c k0 k d Ec I. specialize (D c k0 k d Ec I). destruct d as [v|t].
    + intros q ->. apply (D q eq_refl).
    + intros q Iq. destruct (D root) as [_ K]. apply (K q Iq).
  - split; [lia|auto].
  - exact (On x y tx ty i j z ltac:(lia) ltac:(lia) Ex Ey Ni Nj Hz).
Qed.

(** The properties of a copied object are those of the original and those its class sets. *)
Theorem C40_properties : forall lim cl root s a s' b r c p, sound cl s -> a < s_new s -> copy lim cl root s a = (s', Ok b) ->
  s_mem s a = Some (TObject r c p) ->
  exists i p', cl c = Some i /\ s_mem s' b = Some (TObject root c p') /\
  forall k, In k (map fst p') <-> In k (map fst p) \/ In k (map fst (c_defaults i)).
Proof.
  intros lim cl root s a s' b r c p So Ha H Ea. destruct (copied _ _ _ _ _ _ _ So Ha H) as (_ & _ & _ & _ & R).
  unfold result_of in R. rewrite Ea in R. destruct R as (i & p1 & Ec & Kd & ws & Ln & Em & _). exists i. eexists. split; [exact Ec|]. split; [exact Em|].
  assert (forall (l p0 : list (Z * value)) k, In k (map fst (sets p0 l)) <-> In k (map fst p0) \/ In k (map fst l)) as Sk.
  { induction l as [|[k' w] l IH]; intros p0 k; cbn [sets fold_left map fst In snd]; [tauto|]. fold (sets (set p0 k' w) l). rewrite IH, set_keys. intuition. }
  intros k. rewrite Sk, (proj1 (combine_keys _ _ (map fst p) ws ltac:(rewrite map_length; lia))), Kd. tauto.
Qed.

(** So a copy can have properties its original lacks. *)
Theorem C40_more_refuted : exists lim cl root s a s' b r c p p', sound cl s /\ a < s_new s /\ copy lim cl root s a = (s', Ok b) /\
  s_mem s a = Some (TObject r c p) /\ s_mem s' b = Some (TObject root c p') /\ exists k, In k (map fst p') /\ ~ In k (map fst p).
Proof.
  exists 100%nat, sample_classes, 2, sample_store, 10. destruct (copy 100 sample_classes 2 sample_store 10) as [s' r] eqn:E.
  assert (r = Ok 20) as -> by (apply (f_equal snd) in E; vm_compute in E; now symmetry).
  destruct (s_mem s' 20) as [t|] eqn:Et; [|exfalso; apply (f_equal (fun x => s_mem (fst x) 20)) in E; cbn [fst] in E; rewrite Et in E; vm_compute in E; discriminate].
  pose proof (f_equal (fun x => s_mem (fst x) 20) E) as E2. cbn [fst] in E2. rewrite Et in E2. vm_compute in E2. injection E2 as <-.
  exists s', 20. do 4 eexists. split; [exact sample_sound|]. split; [reflexivity|]. split; [reflexivity|]. split; [reflexivity|]. split; [exact Et|].
  exists 9. cbn. split; [auto|]. intuition discriminate.
Qed.

(** The parent of a copied reference list is the copy, if it had one. *)
Theorem C40_owner : forall lim cl root s a s' b r c p k x r' c' par l, sound cl s -> a < s_new s -> copy lim cl root s a = (s', Ok b) ->
  s_mem s a = Some (TObject r c p) -> get p k = Some (VRef x) -> s_mem s x = Some (TRefList r' c' par l) ->
  exists p' y l', s_mem s' b = Some (TObject root c p') /\ get p' k = Some (VRef y) /\
  s_mem s' y = Some (TRefList root c' (match par with Some _ => Some b | None => None end) l').
Proof.
  intros lim cl root s a s' b r c p k x r' c' par l So Ha H Ea G Ex.
  destruct (copied_property _ _ _ _ _ _ _ _ _ _ _ _ So Ha H Ea G) as (p' & w & Em & Gw & Po). cbn [post_property] in Po. rewrite Ex in Po.
  destruct Po as (y & ws & -> & _ & Ey). exists p', y, ws. auto.
Qed.

(** Copying succeeds, for all large enough limits, exactly if there is no endless chain of things to
    copy and nothing in the chain prevents it. *)
Theorem C40_when : forall cl root s a, in_order (s_mem s) (s_new s) -> a < s_new s ->
  (exists lim s' b, copy lim cl root s a = (s', Ok b)) <->
  ends (s_mem s) a /\ forall y, needs_all (s_mem s) a y -> copyable cl (s_mem s) y.
Proof.
  intros cl root s a O Ha. assert (like (s_new s) (s_mem s) s) as L by (split; [lia|auto]). split.
  - intros (lim & s' & b & H). apply (copy_sometimes cl root (s_new s) (s_mem s) O lim a Ha). exists s, s', b. auto.
  - intros [E C]. destruct (copy_always cl root (s_new s) (s_mem s) O a E Ha C) as [n N]. destruct (N n (Nat.le_refl n) s L) as (s' & b & H). eauto.
Qed.

Theorem C40_limit : forall cl root s a lim s' b, in_order (s_mem s) (s_new s) -> a < s_new s -> copy lim cl root s a = (s', Ok b) ->
  exists n, forall lim', (n <= lim')%nat -> exists s1 b1, copy lim' cl root s a = (s1, Ok b1).
Proof.
  intros cl root s a lim s' b O Ha H. assert (like (s_new s) (s_mem s) s) as L by (split; [lia|auto]).
  destruct (copy_sometimes cl root (s_new s) (s_mem s) O lim a Ha) as [E C]; [exists s, s', b; auto|].
  destruct (copy_always cl root (s_new s) (s_mem s) O a E Ha C) as [n N]. exists n. intros lim' Hl. exact (N lim' Hl s L).
Qed.

(** An object that leads back to itself cannot be copied. *)
Theorem C40_circle : forall cl root s a x lim s' b, in_order (s_mem s) (s_new s) -> a < s_new s -> needs_all (s_mem s) a x ->
  (exists y, needs (s_mem s) x y /\ needs_all (s_mem s) y x) -> copy lim cl root s a <> (s', Ok b).
Proof.
  intros cl root s a x lim s' b O Ha Nx (y & Ny & Nb) H.
  destruct (proj1 (C40_when cl root s a O Ha)) as [E _]; [eauto|]. clear - E Nx Ny Nb.
  assert (forall u v, needs_all (s_mem s) u v -> ends (s_mem s) u -> ends (s_mem s) v) as Down.
  { intros u v N E'. induction N as [|v w N IH St]; [exact E'|]. destruct IH as [K]. exact (K w St). }
  pose proof (Down a x Nx E) as Ex. clear E Nx. revert y Ny Nb. induction Ex as [x Hx IH]. intros y Ny Nb.
  inversion Nb as [|z ? Nz St]; subst.
  - exact (IH x Ny x Ny (needs_self _ _)).
  - assert (exists y', needs (s_mem s) y y' /\ needs_all (s_mem s) y' y) as (y' & N1 & N2).
    { clear - Nz St Ny Nb.
      assert (forall u v, needs_all (s_mem s) u v -> forall w, needs (s_mem s) v w -> exists u', needs (s_mem s) u u' /\ needs_all (s_mem s) u' w) as Sh.
      { intros u v N. induction N as [|v w N IH St']; intros q Sq; [exists q; split; [exact Sq|constructor]|].
        destruct (IH w St') as (u' & A & B). exists u'. split; [exact A|]. econstructor; eauto. }
      destruct (Sh y x Nb y Ny) as (u' & A & B). eauto. }
    exact (IH y Ny y' N1 N2).
Qed.

(** A reference list with None in it cannot be copied, nor an attribute dictionary with one. *)
Theorem C40_none : forall cl root s a lim s' b r c par l p, in_order (s_mem s) (s_new s) -> a < s_new s ->
  (s_mem s a = Some (TRefList r c par l) /\ In VNone l) \/ (s_mem s a = Some (TAttrs r p) /\ In VNone (map snd p)) -> copy lim cl root s a <> (s', Ok b).
Proof.
  intros cl root s a lim s' b r c par l p O Ha N H.
  destruct (proj1 (C40_when cl root s a O Ha)) as [_ C]; [eauto|]. specialize (C a (needs_self _ _)). unfold copyable in C.
  destruct N as [[E I]|[E I]]; rewrite E in C; specialize (C _ I); [destruct C as (y & t & K & _); discriminate|exact C].
Qed.

Example C40_example : snd sample_copy = Ok 20 /\
  map (s_mem (fst sample_copy)) [20; 21; 22; 23; 24; 25; 26; 27; 28; 29; 30] =
  [Some (TObject 2 5 [(2, VRef 25); (9, VInt 0); (1, VRef 22); (3, VRef 13); (4, VRef 28); (5, VInt 7)]);
   Some (TRefList 2 8 None []);
   Some (TAttrs 2 [(1, VText 3); (2, VRef 23); (3, VRef 24)]);
   Some (TBlob 98);
   Some (TObject 2 6 [(1, VInt 1)]);
   Some (TRefList 2 8 (Some 20) [VRef 26; VRef 27]);
   Some (TObject 2 6 [(1, VInt 1)]);
   Some (TObject 2 6 [(1, VInt 1)]);
   Some (TList [VRef 17; VRef 29; VInt 2]);
   Some (TObject 2 6 [(1, VInt 1)]);
   None] /\
  snd (copy 100 sample_classes 2 sample_store 18) = Err AttributeErr /\
  snd (copy 100 sample_classes 2 sample_store 19) = Err OutOfFuel.
Proof. vm_compute. auto. Qed.

(** C41: what is object-like and reached from the copy is not reached from the original. *)
Theorem C41_apart : forall lim cl root s a s' b, sound cl s -> a < s_new s -> copy lim cl root s a = (s', Ok b) ->
  forall x t, leads (s_mem s') b x -> s_mem s' x = Some t -> object_like t -> ~ leads (s_mem s') a x.
Proof.
  intros lim cl root s a s' b So Ha H x t L E O La.
  destruct (C40_document _ _ _ _ _ _ _ So Ha H x t L E O) as [Hx _].
  pose proof (reached_old cl s s' So (C40_original _ _ _ _ _ _ _ H) a x Ha La). lia.
Qed.

(** A [bytearray], mob ID or other data in a property is the very same in the copy. *)
Theorem C41_data : forall lim cl root s a s' b r c p k x t, sound cl s -> a < s_new s -> copy lim cl root s a = (s', Ok b) ->
  s_mem s a = Some (TObject r c p) -> get p k = Some (VRef x) -> s_mem s x = Some t -> (exists d, t = TBlob d \/ t = TOther d) ->
  exists p', s_mem s' b = Some (TObject root c p') /\ get p' k = Some (VRef x).
Proof.
  intros lim cl root s a s' b r c p k x t So Ha H Ea G Ex (d & Ht).
  destruct (copied_property _ _ _ _ _ _ _ _ _ _ _ _ So Ha H Ea G) as (p' & w & Em & Gw & Po). cbn [post_property] in Po. rewrite Ex in Po.
  exists p'. split; [exact Em|]. rewrite Gw. destruct Ht as [-> | ->]; now rewrite Po.
Qed.

(** A list in a property is a new list, with new objects in it; what else can be changed in it is
    the very same. *)
Theorem C41_lists : forall lim cl root s a s' b r c p k x l, sound cl s -> a < s_new s -> copy lim cl root s a = (s', Ok b) ->
  s_mem s a = Some (TObject r c p) -> get p k = Some (VRef x) -> s_mem s x = Some (TList l) ->
  exists p' y l', s_mem s' b = Some (TObject root c p') /\ get p' k = Some (VRef y) /\ s_new s <= y /\ s_mem s' y = Some (TList l') /\
  length l' = length l /\
  forall i z t, nth_error l i = Some (VRef z) -> s_mem s z = Some t ->
  match t with TObject _ _ _ => exists z', nth_error l' i = Some (VRef z') /\ s_new s <= z' | _ => nth_error l' i = Some (VRef z) end.
Proof.
  intros lim cl root s a s' b r c p k x l So Ha H Ea G Ex.
  destruct (copied_property _ _ _ _ _ _ _ _ _ _ _ _ So Ha H Ea G) as (p' & w & Em & Gw & Po). cbn [post_property] in Po. rewrite Ex in Po.
  destruct Po as (y & ws & -> & Hy & Ey & F). exists p', y, ws. split; [exact Em|]. split; [exact Gw|]. split; [exact Hy|]. split; [exact Ey|].
  split; [symmetry; exact (Forall2_len _ _ _ _ _ F)|]. intros i z t N Ez. destruct (nth_Forall2 _ _ _ _ _ F i _ N) as (w & Nw & Pw).
  cbn [post_entry] in Pw. rewrite Ez in Pw. destruct t; try (now rewrite Nw, Pw). destruct Pw as (z' & -> & Hz). exists z'. auto.
Qed.

(** All that can be changed in an attribute dictionary is new in its copy, its [bytearray]s too. *)
Theorem C41_attributes : forall lim cl root s a s' b r p, sound cl s -> a < s_new s -> copy lim cl root s a = (s', Ok b) ->
  s_mem s a = Some (TAttrs r p) ->
  exists p', s_mem s' b = Some (TAttrs root p') /\ map fst p' = map fst p /\ forall k x, In (k, VRef x) p' -> s_new s <= x.
Proof.
  intros lim cl root s a s' b r p So Ha H Ea. destruct (copied _ _ _ _ _ _ _ So Ha H) as (_ & _ & _ & _ & R).
  unfold result_of in R. rewrite Ea in R. destruct R as (ws & Em & F). pose proof (Forall2_len _ _ _ _ _ F) as Ln. rewrite map_length in Ln.
  destruct (combine_keys _ _ (map fst p) ws ltac:(rewrite map_length; exact Ln)) as [Ck _].
  eexists. split; [exact Em|]. split; [exact Ck|]. intros k x I. apply in_combine_r in I.
  clear - F I. induction F as [|v w l ws [_ Pw] F IH]; [destruct I|]. destruct I as [->|I]; [|auto].
  destruct v; cbn [post_attribute] in Pw; try discriminate Pw. destruct Pw as (y & E & Hy). injection E as ->. exact Hy.
Qed.

(** So the original can be changed through the copy: its [bytearray]s and the lists in its lists. *)
Theorem C41_shared_refuted : exists lim cl root s a s' b x t, sound cl s /\ a < s_new s /\ copy lim cl root s a = (s', Ok b) /\
  leads (s_mem s') a x /\ leads (s_mem s') b x /\ s_mem s' x = Some t /\ (exists l, t = TList l).
Proof.
  exists 100%nat, sample_classes, 2, sample_store, 10. destruct (copy 100 sample_classes 2 sample_store 10) as [s' r] eqn:E.
  assert (r = Ok 20) as -> by (apply (f_equal snd) in E; vm_compute in E; now symmetry).
  assert (forall z t, s_mem (fst (copy 100 sample_classes 2 sample_store 10)) z = t -> s_mem s' z = t) as M by (intros z t; rewrite E; auto).
  exists s', 20, 17. eexists. split; [exact sample_sound|]. split; [reflexivity|]. split; [reflexivity|].
  split; [|split; [|split; [apply M; vm_compute; reflexivity|eexists; reflexivity]]].
  - eapply leads_step with (b := 14); [eapply leads_step with (b := 10); [constructor|apply M; vm_compute; reflexivity|]|apply M; vm_compute; reflexivity|]; cbn; tauto.
  - eapply leads_step with (b := 28); [eapply leads_step with (b := 20); [constructor|apply M; vm_compute; reflexivity|]|apply M; vm_compute; reflexivity|]; cbn; tauto.
Qed.

(** C54: an object or list put in the property table of a class as a default is in every new object
    of the class, of any document ([Bin.home_rect], [Bin.background_color], ...). *)
Theorem C54_shared : forall cl s root1 root2 c i s1 b1 s2 b2 k x, cl c = Some i -> NoDup (map fst (c_defaults i)) -> In (k, DValue (VRef x)) (c_defaults i) ->
  make cl s root1 c = (s1, Ok b1) -> make cl s1 root2 c = (s2, Ok b2) ->
  exists p1 p2, s_mem s2 b1 = Some (TObject root1 c p1) /\ s_mem s2 b2 = Some (TObject root2 c p2) /\ b1 <> b2 /\
  get p1 k = Some (VRef x) /\ get p2 k = Some (VRef x).
Proof.
  intros cl s root1 root2 c i s1 b1 s2 b2 k x Ec ND I M1 M2.
  destruct (made _ _ _ _ _ _ _ M1 Ec ND) as (-> & L1 & p1 & E1 & _ & G1). destruct (made _ _ _ _ _ _ _ M2 Ec ND) as (-> & L2 & p2 & E2 & _ & G2).
  destruct (make_keeps _ _ _ _ _ _ M2) as [[K _] _]. exists p1, p2. split; [rewrite K by lia; exact E1|]. split; [exact E2|]. split; [lia|].
  split; [exact (G1 _ _ I)|exact (G2 _ _ I)].
Qed.

(** Nothing else is: what the [__init__] makes is new each time. *)
Theorem C54_only : forall cl s root1 root2 c i s1 b1 s2 b2 p1 p2 k1 k2 x, cl c = Some i -> NoDup (map fst (c_defaults i)) ->
  make cl s root1 c = (s1, Ok b1) -> make cl s1 root2 c = (s2, Ok b2) ->
  s_mem s2 b1 = Some (TObject root1 c p1) -> s_mem s2 b2 = Some (TObject root2 c p2) ->
  get p1 k1 = Some (VRef x) -> get p2 k2 = Some (VRef x) ->
  In (k1, DValue (VRef x)) (c_defaults i) \/ In (k2, DValue (VRef x)) (c_defaults i).
Proof.
  intros cl s root1 root2 c i s1 b1 s2 b2 p1 p2 k1 k2 x Ec ND M1 M2 F1 F2 H1 H2.
  destruct (made _ _ _ _ _ _ _ M1 Ec ND) as (-> & L1 & q1 & E1 & A1 & G1). destruct (made _ _ _ _ _ _ _ M2 Ec ND) as (-> & L2 & q2 & E2 & A2 & G2).
  destruct (make_keeps _ _ _ _ _ _ M2) as [[K _] _]. rewrite K, E1 in F1 by lia. injection F1 as <-. rewrite E2 in F2. injection F2 as <-.
  assert (In k1 (map fst (c_defaults i))) as I1 by (apply A1; congruence). assert (In k2 (map fst (c_defaults i))) as I2 by (apply A2; congruence).
  apply in_map_iff in I1 as ([k d1] & E & I1). cbn [fst] in E. subst k. apply in_map_iff in I2 as ([k d2] & E & I2). cbn [fst] in E. subst k.
  pose proof (G1 _ _ I1) as J1. pose proof (G2 _ _ I2) as J2. destruct d1 as [v|t]; [left; congruence|]. destruct d2 as [v|t']; [right; congruence|].
  destruct J1 as (y & Y & Hy), J2 as (z & W & Hz). assert (y = x) by congruence. assert (z = x) by congruence. lia.
Qed.

(** A class like [Bin] with a list as a default: changing it in a new object of one document changes
    it in one of another. *)
Definition sample_bin (c : Z) : option class :=
  if c =? 1 then Some {| c_noargs := true; c_defaults := [(1, DValue (VRef 3)); (2, DNew (fun root => TAttrs root []))] |} else None.

Example C54_example :
  let s := {| s_mem := get [(3, TList [VInt 0; VInt 0; VInt 300; VInt 600])]; s_new := 4 |} in
  let s1 := fst (make sample_bin s 1 1) in let s2 := fst (make sample_bin s1 2 1) in
  (s_mem s2 4, s_mem s2 6, s_mem (update s2 3 (add 0 (VInt 9))) 3) =
  (Some (TObject 1 1 [(1, VRef 3); (2, VRef 5)]), Some (TObject 2 1 [(1, VRef 3); (2, VRef 7)]), Some (TList [VInt 0; VInt 0; VInt 300; VInt 600; VInt 9])).
Proof. vm_compute. reflexivity. Qed.

Print Assumptions C40_equal.
Print Assumptions C40_original.
Print Assumptions C40_document.
Print Assumptions C40_twice.
Print Assumptions C40_properties.
Print Assumptions C40_more_refuted.
Print Assumptions C40_owner.
Print Assumptions C40_when.
Print Assumptions C40_limit.
Print Assumptions C40_circle.
Print Assumptions C40_none.
Print Assumptions C41_apart.
Print Assumptions C41_data.
Print Assumptions C41_lists.
Print Assumptions C41_attributes.
Print Assumptions C41_shared_refuted.
Print Assumptions C54_shared.
Print Assumptions C54_only.
