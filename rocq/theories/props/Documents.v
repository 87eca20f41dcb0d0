(** C31, C32, C53: identities, marking and keeping. *)
From Coq Require Import ZArith List Bool Lia.
From Verif Require Import Base DocModel DocSpec DocProofs.
Import ListNotations.
Open Scope Z_scope.

(** A file with three objects: an ordinary one, an attribute dictionary and one that cannot be read. *)
Definition sample_disk (i : Z) : stored :=
  if i =? 1 then {| st_kind := KObject; st_steps := [5; 7]; st_end := None |}
  else if i =? 2 then {| st_kind := KAttributes; st_steps := [3]; st_end := None |}
  else {| st_kind := KObject; st_steps := [1]; st_end := Some AssertionErr |}.

(** C31: an object made after any history has an identity above those of all objects of the file
    and of all objects alive. *)
Theorem C31_identity : forall n d0 h k vs d' a e, starts n d0 -> k <> KHelper -> create (run d0 h) k vs = (d', a, e) ->
  e = None /\ exists i, alive d' a i (last vs 0) /\ n < i /\
  (forall b j u, b <> a -> alive d' b j u -> j < i) /\
  (forall b j u, alive (run d0 h) b j u -> j < i /\ b <> a /\ alive d' b j u).
Proof.
  intros n d0 h k vs d' a e S' K E. destruct (starts_good n d0 S') as (G0 & C0 & _).
  pose proof (good_run h d0 G0) as G. destruct (run_next h d0 G0) as [_ Cn].
  set (d := run d0 h) in *. destruct (create_class d k vs G K) as (d1 & E1 & G1 & Nx & Ct & _ & _ & _ & Cl & O & _).
  rewrite E1 in E. injection E as <- <- <-. split; [reflexivity|]. exists (d_next d + 1).
  assert (forall b j u, alive d b j u -> j < d_next d + 1 /\ b <> d_addr d) as L.
  { intros b j u [k0 Eb]. destruct (g_range d G _ _ (g_cached d G _ _ _ Eb eq_refl)) as [_ R]. pose proof (g_count d G).
    split; [lia|]. apply (g_addr d G) in Eb. lia. }
  pose proof (g_count d G). split; [exists k; exact Cl|]. split; [lia|]. split.
  - intros b j u N [k0 Eb]. rewrite O in Eb by exact N. apply (L b j u). now exists k0.
  - intros b j u A. destruct (L b j u A) as [L1 L2]. split; [exact L1|]. split; [exact L2|]. destruct A as [k0 Eb]. exists k0. now rewrite O.
Qed.

(** Later objects get larger identities, whatever happens in between. *)
Theorem C31_later : forall n d0 h1 h2 k vs k' vs' d1 a1 e1 i1 v1 d2 a2 e2 i2 v2, starts n d0 -> k <> KHelper -> k' <> KHelper ->
  create (run d0 h1) k vs = (d1, a1, e1) -> alive d1 a1 i1 v1 ->
  create (run d0 (h1 ++ Create k vs :: h2)) k' vs' = (d2, a2, e2) -> alive d2 a2 i2 v2 -> i1 < i2.
Proof.
  intros n d0 h1 h2 k vs k' vs' d1 a1 e1 i1 v1 d2 a2 e2 i2 v2 S' K K' E1 A1 E2 A2.
  destruct (starts_good n d0 S') as (G0 & _ & _). pose proof (good_run h1 d0 G0) as G. rewrite run_app in E2.
  change (run (run d0 h1) (Create k vs :: h2)) with (run (doc_step (run d0 h1) (Create k vs)) h2) in E2.
  cbn [doc_step] in E2. rewrite E1 in E2. cbn [fst] in E2. set (d := run d0 h1) in *.
  destruct (create_class d k vs G K) as (d1' & X & G1 & Nx & _ & _ & _ & _ & Cl & _). rewrite X in E1. injection E1 as <- <- <-.
  destruct A1 as [ka Ea]. rewrite Cl in Ea. injection Ea as _ <- _.
  destruct (run_next h2 d1' G1) as [L _]. set (d3 := run d1' h2) in *.
  destruct (create_class d3 k' vs' (good_run h2 d1' G1) K') as (d2' & X2 & _ & _ & _ & _ & _ & _ & Cl2 & _). rewrite X2 in E2. injection E2 as <- <- <-.
  destruct A2 as [kb Eb]. rewrite Cl2 in Eb. injection Eb as _ <- _. lia.
Qed.

(** No two objects alive share an identity, and following it gives the object. *)
Theorem C31_distinct : forall n d0 h a b i u v, starts n d0 -> alive (run d0 h) a i u -> alive (run d0 h) b i v ->
  a = b /\ u = v /\ 0 < i /\ follow (run d0 h) i = (run d0 h, Ok (Some a)).
Proof.
  intros n d0 h a b i u v S' A B. destruct (starts_good n d0 S') as (G0 & _ & _). pose proof (good_run h d0 G0) as G.
  pose proof (alive_follow _ _ _ _ G A) as FA. pose proof (alive_follow _ _ _ _ G B) as FB.
  assert (a = b) as <- by congruence. split; [reflexivity|]. destruct A as [k Ea], B as [k' Eb]. split; [congruence|]. split; [|exact FA].
  apply (g_range _ G i a). eapply g_cached; eauto.
Qed.

(** An object loaded from the file has the index it was loaded from as its identity and, unless it
    was there already, the contents stored there. *)
Theorem C31_loaded : forall n d0 h i d' a, starts n d0 -> follow (run d0 h) i = (d', Ok (Some a)) ->
  exists v, alive d' a i v /\
  ((forall b u, ~ alive (run d0 h) b i u) -> i <= n /\ v = last (st_steps (d_disk d0 i)) 0).
Proof.
  intros n d0 h i d' a S' E. destruct (starts_good n d0 S') as (G0 & C0 & _). pose proof (good_run h d0 G0) as G.
  destruct (run_next h d0 G0) as [_ Cn]. rewrite <- (run_disk h d0 G0). set (d := run d0 h) in *.
  apply follow_cases in E as [(-> & [(_ & X)|(P & b & Cb & X)])|(P & Cb & E)]; [discriminate| | |exact G].
  - injection X as <-. destruct (g_alive d G i a Cb) as ([k x v] & Ea & Ei). cbn [c_id] in Ei. subst x. exists v.
    split; [exists k; exact Ea|]. intros N. exfalso. apply (N a v). now exists k.
  - eapply load_new in E; eauto. destruct E as (_ & _ & _ & _ & _ & _ & _ & _ & -> & L & _ & Cl).
    eexists. split; [eexists; exact Cl|]. intros _. split; [lia|reflexivity].
Qed.

Definition sample_history : list doc_op := [Load 1; Create KObject [4; 9]; Load 2; Load 3; Change ByProperty 1 8; Create KHelper [2]; Forget 3].

Example C31_example :
  let d := run (opened_doc 3 sample_disk) sample_history in
  (d_cells d 1, d_cells d 2, d_cells d 3, snd (fst (create d KRefList [6])), d_cells (fst (fst (create d KRefList [6]))) 6) =
  (Some {| c_kind := KObject; c_id := Some 1; c_val := 8 |}, Some {| c_kind := KObject; c_id := Some 5; c_val := 9 |}, None, 6,
   Some {| c_kind := KRefList; c_id := Some 6; c_val := 6 |}).
Proof. vm_compute. reflexivity. Qed.

(** A file whose references lead beyond its objects: such a reference leads nowhere at first, but
    to an unrelated object once enough objects were made. *)
Theorem C31_dangling_refuted : exists n d0 h i, starts n d0 /\ n < i /\ snd (follow d0 i) = Err IndexErr /\
  exists a, snd (follow (run d0 h) i) = Ok (Some a).
Proof.
  exists 3, (opened_doc 3 sample_disk), [Create KObject [4]], 5. split; [left; split; [lia|eexists; reflexivity]|].
  split; [lia|]. split; [reflexivity|]. exists 1. reflexivity.
Qed.

(** C32: looking marks nothing, failed loads included. *)
Theorem C32_looking : forall n d0 h l, starts n d0 -> Forall looks l -> d_modified (run (run d0 h) l) = d_modified (run d0 h).
Proof. intros n d0 h l S' F. destruct (starts_good n d0 S') as (G0 & _ & _). apply looks_run; [now apply good_run|exact F]. Qed.

Example C32_looking_example : Forall looks [Load 1; Load 3; Load 9; Forget 1; Load 1] /\
  snd (follow (run (opened_doc 3 sample_disk) [Load 1]) 3) = Err AssertionErr.
Proof. split; [repeat constructor|reflexivity]. Qed.

(** A change made in one of the ways that are seen succeeds and marks the object changed and no other. *)
Theorem C32_changing : forall n d0 h w a i u v, starts n d0 -> w <> Unseen -> alive (run d0 h) a i u ->
  exists d', change (run d0 h) w a v = (d', None) /\ alive d' a i v /\ d_modified d' i = Some a /\
  (forall j, j <> i -> d_modified d' j = d_modified (run d0 h) j) /\
  (forall b, b <> a -> d_cells d' b = d_cells (run d0 h) b).
Proof.
  intros n d0 h w a i u v S' W A. destruct (starts_good n d0 S') as (G0 & _ & _). pose proof (good_run h d0 G0) as G. destruct A as [k Ea].
  pose proof (change_marks _ w a v _ i (g_reading _ G) Ea eq_refl W) as E. eexists. split; [exact E|].
  split; [exists k; exact (set_val_val _ a v _ Ea)|]. split; [apply put_same|]. split; [intros j N; now apply put_other|].
  intros b N. apply (s_others _ _ _ (set_val_same (run d0 h) a v) b N).
Qed.

(** An object made is marked from the start. *)
Theorem C32_creating : forall n d0 h k vs d' a e, starts n d0 -> k <> KHelper -> create (run d0 h) k vs = (d', a, e) ->
  exists i, alive d' a i (last vs 0) /\ d_modified d' i = Some a /\ forall j, j <> i -> d_modified d' j = d_modified (run d0 h) j.
Proof.
  intros n d0 h k vs d' a e S' K E. destruct (starts_good n d0 S') as (G0 & _ & _). pose proof (good_run h d0 G0) as G.
  set (d := run d0 h) in *. destruct (create_class d k vs G K) as (d1 & E1 & _ & _ & _ & _ & _ & _ & Cl & _ & M).
  rewrite E1 in E. injection E as <- <- <-. exists (d_next d + 1). split; [exists k; exact Cl|]. split; [rewrite M; apply put_same|].
  intros j N. rewrite M. now apply put_other.
Qed.

(** What was marked is not lost: until it is changed again the object stays, with its contents, and
    following its identity gives it, whoever gives it up meanwhile. *)
Theorem C32_kept : forall n d0 h h' a i v, starts n d0 -> alive (run d0 h) a i v -> d_modified (run d0 h) i = Some a -> Forall (spares a) h' ->
  let d' := run (run d0 h) h' in alive d' a i v /\ d_modified d' i = Some a /\ follow d' i = (d', Ok (Some a)).
Proof.
  intros n d0 h h' a i v S' A M F d'. destruct (starts_good n d0 S') as (G0 & _ & _). pose proof (good_run h d0 G0) as G.
  destruct (kept_run h' _ a i v G A F (or_introl M)) as [A' M']. fold d' in A', M'. split; [exact A'|]. split; [auto|].
  eapply alive_follow; [apply good_run; exact G|exact A'].
Qed.

(** What the set of modified objects says is true: each entry is an object alive with that identity. *)
Theorem C32_entries : forall n d0 h i a, starts n d0 -> d_modified (run d0 h) i = Some a -> exists v, alive (run d0 h) a i v.
Proof.
  intros n d0 h i a S' M. destruct (starts_good n d0 S') as (G0 & _ & _). pose proof (good_run h d0 G0) as G.
  destruct (g_modified _ G i a M) as ([k x v] & Ea & Ei). cbn [c_id] in Ei. subst x. exists v, k. exact Ea.
Qed.

Example C32_example :
  let d := run (opened_doc 3 sample_disk) [Load 1; Load 2; Change ByProperty 1 8] in
  alive d 1 1 8 /\ d_modified d 1 = Some 1 /\ d_modified d 2 = None /\
  Forall (spares 1) [Forget 1; Load 1; Change BySelf 2 4; Create KObject []; Forget 2] /\
  d_cells (run d [Forget 1; Load 1; Change BySelf 2 4; Create KObject []; Forget 2]) 1 = Some {| c_kind := KObject; c_id := Some 1; c_val := 8 |}.
Proof. cbv zeta. split; [exists KObject; reflexivity|]. repeat split; repeat constructor; discriminate. Qed.

(** C53: a change that is not seen succeeds and marks nothing. *)
Theorem C53_unseen : forall n d0 h a i u v, starts n d0 -> alive (run d0 h) a i u ->
  exists d', change (run d0 h) Unseen a v = (d', None) /\ alive d' a i v /\ d_modified d' = d_modified (run d0 h).
Proof.
  intros n d0 h a i u v S' [k Ea]. eexists. split; [reflexivity|]. split; [exists k; exact (set_val_val _ a v _ Ea)|apply set_val_modified].
Qed.

(** It is kept if the object is marked already, or is the document's content and stays that. *)
Theorem C53_kept : forall n d0 h h' a i u v, starts n d0 -> alive (run d0 h) a i u -> Forall (spares a) h' ->
  (d_modified (run d0 h) i = Some a \/ d_content (run d0 h) = Some a /\ Forall keeps_content h') ->
  let d' := run (run d0 h) (Change Unseen a v :: h') in alive d' a i v /\ follow d' i = (d', Ok (Some a)).
Proof.
  intros n d0 h h' a i u v S' A F H d'. destruct (starts_good n d0 S') as (G0 & _ & _). pose proof (good_run h d0 G0) as G.
  set (d := run d0 h) in *. change d' with (run (set_val d a v) h'). clear d'.
  pose proof (good_step d (Change Unseen a v) G) as G1. change (doc_step d (Change Unseen a v)) with (set_val d a v) in G1.
  assert (alive (set_val d a v) a i v) as A1 by (destruct A as [k Ea]; exists k; exact (set_val_val _ a v _ Ea)).
  destruct (kept_run h' (set_val d a v) a i v G1 A1 F) as [A' _].
  { rewrite set_val_modified, (s_content _ _ _ (set_val_same d a v)). exact H. }
  split; [exact A'|]. eapply alive_follow; [apply good_run; exact G1|exact A'].
Qed.

Example C53_example :
  let d := run (opened_doc 3 sample_disk) [Load 1; Content (Some 1)] in
  alive d 1 1 7 /\ d_content d = Some 1 /\ Forall (spares 1) [Forget 1; Load 2] /\ Forall keeps_content [Forget 1; Load 2].
Proof. cbv zeta. split; [exists KObject; reflexivity|]. repeat split; repeat constructor. Qed.

(** Otherwise it can be lost: once nobody holds the object, it is read again as it was stored. *)
Theorem C53_refuted : exists n d0 a v, starts n d0 /\ alive (run d0 [Load 1; Change Unseen a v]) a 1 v /\
  exists d' b u, follow (run d0 [Load 1; Change Unseen a v; Forget a]) 1 = (d', Ok (Some b)) /\ alive d' b 1 u /\ u <> v.
Proof.
  exists 3, (opened_doc 3 sample_disk), 1, 8. split; [left; split; [lia|eexists; reflexivity]|].
  split; [exists KObject; vm_compute; reflexivity|].
  set (r := follow (run (opened_doc 3 sample_disk) [Load 1; Change Unseen 1 8; Forget 1]) 1).
  exists (fst r), 2, 7. split; [|split; [exists KObject; vm_compute; reflexivity|discriminate]].
  assert (snd r = Ok (Some 2)) as <- by (vm_compute; reflexivity). apply surjective_pairing.
Qed.

Print Assumptions C31_identity.
Print Assumptions C31_later.
Print Assumptions C31_distinct.
Print Assumptions C31_loaded.
Print Assumptions C31_dangling_refuted.
Print Assumptions C32_looking.
Print Assumptions C32_changing.
Print Assumptions C32_creating.
Print Assumptions C32_kept.
Print Assumptions C32_entries.
Print Assumptions C53_unseen.
Print Assumptions C53_kept.
Print Assumptions C53_refuted.
