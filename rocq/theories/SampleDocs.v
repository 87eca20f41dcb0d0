(** Documents given as lists of objects, for the concrete cases shown beside the theorems. *)
From Coq Require Import ZArith List Bool Lia.
From Verif Require Import Base IoCtx RoundTrip Text Exp10 MobId Storable Attributes Components Fits Saved
  SavedProofs Samples Dates Objects ObjSpec ObjProofs ObjTheory FileModel FileSpec.
Import ListNotations.
Open Scope Z_scope.

(** An object at each address listed. All belong to document [self]; the instance id is the
    address and 100. *)
Definition lookup (mem : list (Z * obj)) (a : Z) : option obj :=
  match find (fun p => fst p =? a) mem with Some p => Some (snd p) | None => None end.

Definition nonzero (l : list Z) : list Z := filter (fun x => negb (x =? 0)) l.

Definition heap_of (self : Z) (mem : list (Z * obj)) : heap := fun a =>
  match lookup mem a with
  | Some o => Ok {| nd_doc := self; nd_id := a + 100; nd_obj := o; nd_kids := nonzero (obj_refs o) |}
  | None => Err IndexErr
  end.

(** 2001/02/03 04:05:06 and a version. *)
Definition doc_of (mem : list (Z * obj)) (root : Z) : document :=
  {| dc_self := 1; dc_heap := heap_of 1 mem; dc_content := root;
     dc_version := [112; 121; 233]; dc_saved := 981173106 |}.

(** A zone one hour east. *)
Definition cet : zone := {| z_off := fun _ => 3600; z_mk := fun d => d - 3600 |}.

(** Every reference is to an object listed earlier. *)
Fixpoint in_order (seen : list Z) (mem : list (Z * obj)) : bool :=
  match mem with
  | [] => true
  | (a, o) :: mem' =>
    negb (existsb (Z.eqb a) seen) && forallb (fun r => existsb (Z.eqb r) seen) (nonzero (obj_refs o)) &&
    in_order (a :: seen) mem'
  end.

Lemma in_nonzero : forall l b, In b (nonzero l) <-> In b l /\ b <> 0.
Proof.
  intros l b. unfold nonzero. rewrite filter_In. split; intros [H1 H2]; (split; [exact H1|]).
  - intros ->. discriminate H2.
  - destruct (Z.eqb_spec b 0); [contradiction|reflexivity].
Qed.

Lemma lookup_in : forall mem a o, lookup mem a = Some o -> In (a, o) mem.
Proof.
  intros mem a o H. unfold lookup in H. destruct (find _ mem) as [[x y]|] eqn:E; [|discriminate].
  injection H as <-. apply find_some in E as [E1 E2]. cbn [fst snd] in *. apply Z.eqb_eq in E2. now subst.
Qed.

Lemma existsb_in : forall a l, existsb (Z.eqb a) l = true <-> In a l.
Proof.
  intros a l. rewrite existsb_exists. split.
  - intros (x & H & E). apply Z.eqb_eq in E. now subst.
  - intros H. exists a. split; [exact H|apply Z.eqb_refl].
Qed.

Section Listed.
Variable mem : list (Z * obj).
Variable root : Z.
Hypothesis Hroot : In root (map fst mem).
Hypothesis Hord : in_order [] mem = true.
Let d := doc_of mem root.

Lemma listed_walks : walks_refs d.
Proof.
  intros a nd _ E b. unfold d, doc_of, heap_of in E. cbn [dc_heap] in E.
  destruct (lookup mem a); [|discriminate]. injection E as <-. cbn [nd_kids nd_obj]. apply in_nonzero.
Qed.

Lemma listed_ids : ids_distinct d.
Proof.
  intros a b na nb _ _ Ea Eb E. unfold d, doc_of, heap_of in Ea, Eb. cbn [dc_heap] in *.
  destruct (lookup mem a); [|discriminate]. destruct (lookup mem b); [|discriminate].
  injection Ea as <-. injection Eb as <-. cbn [nd_id] in E. lia.
Qed.

Lemma order_split : forall m seen a o, in_order seen m = true -> In (a, o) m ->
  exists p s, m = p ++ (a, o) :: s /\ ~ In a (seen ++ map fst p) /\
    forall r, In r (nonzero (obj_refs o)) -> In r (seen ++ map fst p).
Proof.
  induction m as [|[x y] m IH]; intros seen a o H I; [destruct I|]. cbn [in_order] in H.
  apply andb_prop in H as [H H3]. apply andb_prop in H as [H1 H2].
  destruct I as [E|I].
  - injection E as -> ->. exists [], m. split; [reflexivity|]. cbn [map]. rewrite app_nil_r. split.
    + intros G. apply existsb_in in G. now rewrite G in H1.
    + intros r Hr. rewrite forallb_forall in H2. apply existsb_in. now apply H2.
  - destruct (IH _ _ _ H3 I) as (p & s & -> & N & R). exists ((x, y) :: p), s. split; [reflexivity|].
    cbn [map fst]. assert (forall z, In z ((x :: seen) ++ map fst p) <-> In z (seen ++ x :: map fst p)) as Eq.
    { intros z. cbn [app In]. rewrite !in_app_iff. cbn [In]. tauto. }
    split; [intros G; apply N, Eq, G|]. intros r Hr. apply Eq. auto.
Qed.

Lemma listed_unique : forall a o o', In (a, o) mem -> In (a, o') mem -> o = o'.
Proof.
  intros a o o' H H'. destruct (order_split _ _ _ _ Hord H) as (p & s & E & N & _).
  destruct (order_split _ _ _ _ Hord H') as (p' & s' & E' & N' & _). cbn [app] in *.
  rewrite E in E'. clear - E' N N'. revert p' E' N'. induction p as [|[x y] p IH]; intros [|[x' y'] p'] E N';
    cbn [app] in E.
  - injection E as E _. exact E.
  - injection E as E _ _. exfalso. apply N'. now left.
  - injection E as E _ _. exfalso. apply N. now left.
  - injection E as _ _ E. apply (IH ltac:(intros G; apply N; now right) p' E). intros G. apply N'. now right.
Qed.

Lemma lookup_listed : forall a, In a (map fst mem) -> exists o, lookup mem a = Some o.
Proof.
  intros a H. unfold lookup. destruct (find (fun p => fst p =? a) mem) eqn:E; [eauto|].
  apply in_map_iff in H as ([x y] & <- & H). apply (find_none _ _ E) in H. cbn [fst] in H.
  now rewrite Z.eqb_refl in H.
Qed.

Lemma listed_in : forall a, in_doc d a -> In a (map fst mem).
Proof.
  intros a [_ R]. induction R as [|b c R IH (nd & E & I & N)]; [exact Hroot|].
  unfold d, doc_of, heap_of in E. cbn [dc_heap] in E. destruct (lookup mem b) as [o|] eqn:L; [|discriminate].
  injection E as <-. cbn [nd_obj] in I. apply lookup_in in L.
  destruct (order_split _ _ _ _ Hord L) as (p & s & -> & _ & Hr). cbn [app] in Hr.
  rewrite map_app, in_app_iff. left. apply Hr. now apply in_nonzero.
Qed.

(** The position in the list decreases along references. *)
Lemma listed_down : forall a b, refers (dc_heap d) a b ->
  exists p s o, mem = p ++ (a, o) :: s /\ In b (map fst p) /\ ~ In a (map fst p).
Proof.
  intros a b (nd & E & I & N). unfold d, doc_of, heap_of in E. cbn [dc_heap] in E.
  destruct (lookup mem a) as [o|] eqn:L; [|discriminate]. injection E as <-. cbn [nd_obj] in I.
  apply lookup_in in L. destruct (order_split _ _ _ _ Hord L) as (p & s & E & Na & Hr). cbn [app] in *.
  exists p, s, o. split; [exact E|]. split; [|exact Na]. apply Hr. now apply in_nonzero.
Qed.

Lemma listed_acyclic : acyclic d.
Proof.
  intros a _ (b & K & R).
  assert (forall p s, mem = p ++ s -> In b (map fst p) -> In a (map fst p)) as G.
  { clear K. induction R as [|x y R IH K']; [tauto|]. intros p s E Hb.
    assert (In x (map fst p)) as Hx by (apply (IH p s); auto).
    destruct (listed_down x y K') as (p' & s' & o & E' & Hy & Nx).
    assert (exists q, p = p' ++ q) as [q ->].
    { rewrite E in E'. clear - E' Hx Nx. revert p' E' Nx. induction p as [|[u v] p IH]; intros p' E' Nx; [destruct Hx|].
      destruct p' as [|[u' v'] p']; [exists ((u, v) :: p); reflexivity|].
      cbn [app] in E'. injection E' as -> -> E'. destruct Hx as [Hx|Hx].
      - exfalso. apply Nx. now left.
      - destruct (IH Hx p' E') as [q ->]; [intros G; apply Nx; now right|]. exists q. reflexivity. }
    rewrite map_app, in_app_iff. now left. }
  destruct (listed_down a b K) as (p & s & o & E & Hb & Na). apply Na. exact (G p _ E Hb).
Qed.

Lemma listed_ok : Forall (fun p => obj_ok (snd p)) mem -> all_ok d.
Proof.
  intros H a nd _ E. unfold d, doc_of, heap_of in E. cbn [dc_heap] in E.
  destruct (lookup mem a) as [o|] eqn:L; [|discriminate]. injection E as <-. cbn [nd_obj].
  apply lookup_in in L. rewrite Forall_forall in H. exact (H _ L).
Qed.

(** Written with every reference numbered, every chunk is short enough. *)
Definition small (bo : border) (o : obj) : bool :=
  match wbody (all_numbered bo) o with Ok data => len data <? 2 ^ 32 | Err _ => false end.

Lemma listed_saveable : forall bo, Forall (fun p => obj_ok (snd p)) mem ->
  forallb (fun p => small bo (snd p)) mem = true -> len (map fst mem) < 2 ^ 32 ->
  saveable bo d (map fst mem).
Proof.
  intros bo Hok Hs Hn. split; [exact Hn|]. intros a Ha. pose proof (listed_in a Ha) as I.
  split; [exact I|]. destruct (lookup_listed a I) as [o L].
  exists {| nd_doc := 1; nd_id := a + 100; nd_obj := o; nd_kids := nonzero (obj_refs o) |}.
  unfold d, doc_of, heap_of. cbn [dc_heap dc_self nd_doc nd_obj]. rewrite L.
  apply lookup_in in L. rewrite Forall_forall in Hok. rewrite forallb_forall in Hs.
  pose proof (Hok _ L) as Ok1. pose proof (Hs _ L) as Sm. cbn [snd] in *. unfold small in Sm.
  destruct (wbody (all_numbered bo) o) as [data|e] eqn:W; [|discriminate]. apply Z.ltb_lt in Sm.
  split; [reflexivity|]. split; [reflexivity|]. split; [apply (obj_fit _ _ Ok1); eauto|].
  intros data' E. injection E as <-. exact Sm.
Qed.
End Listed.

(** ** A small document with sharing: a sequence of a filler, a source clip and the filler again;
    the clip and the sequence share their attributes, which refer to further ones. *)
Definition plain_component (attributes : Z) : component := {|
  cpnt_left_bob := 0; cpnt_right_bob := 0; cpnt_media_kind_id := 1; cpnt_edit_rate := sample_rate;
  cpnt_name := [69; 233]; cpnt_effect_id := [70]; cpnt_attributes := attributes;
  cpnt_session_attrs := 0; cpnt_precomputed := 0; cpnt_param_list := None |}.

Definition small_filler : obj :=
  Obj K_FILL {| fill_clip := {| clip_component := plain_component 0; clip_length := 25 |} |}.
Definition small_clip : obj := Obj K_SCLP {|
  sclp_clip := {| clip_component := plain_component 30; clip_length := 50 |};
  sclp_track_id := 1; sclp_start_time := 5; sclp_mob_id := sclp_mob_id sample_source_clip |}.
Definition small_sequence : obj := Obj K_SEQU {|
  sequ_component := plain_component 30; sequ_components := [7; 9; 7] |}.

Definition small_mem : list (Z * obj) :=
  [(40, Obj K_ATTR [([78], AInt (-3))]); (30, Obj K_ATTR [([75], ARef 40); ([83], AStr [233])]);
   (7, small_filler); (9, small_clip); (5, small_sequence)].
Definition small_doc : document := doc_of small_mem 5.

Lemma small_mem_ok : Forall (fun p => obj_ok (snd p)) small_mem.
Proof.
  unfold small_mem. repeat (apply Forall_cons; [cbn [snd]; split; [reflexivity|]|]); [..|apply Forall_nil];
    cbn [ok_of okind oval small_filler small_clip small_sequence]; sample_ok.
Qed.

(** A document of 257 objects: a list of 256 empty attribute objects. *)
Definition many_mem : list (Z * obj) :=
  map (fun a => (a, Obj K_ATTR [])) (range_from 1 256) ++ [(257, Obj K_PRLS (range_from 1 256))].
Definition many_doc : document := doc_of many_mem 257.
Definition many_ops : list fop := fst (save 257 cet LE many_doc).
Definition shown (q : result (opened * option obj)) : option obj :=
  match q with Ok (_, o) => o | Err _ => None end.

Lemma many_ends : snd (save 257 cet LE many_doc) = None.
Proof. vm_compute; reflexivity. Qed.
Lemma many_final : last many_ops (Append []) = Overwrite 47 [1; 1; 0; 0].
Proof. vm_compute; reflexivity. Qed.
Lemma many_shown : shown (open_file (overwrite (run_ops (removelast many_ops)) 47
  (firstn 1 [1; 1; 0; 0]))) = Some (Obj K_ATTR []).
Proof. vm_compute; reflexivity. Qed.

Lemma many_runs : save 257 cet LE many_doc = (many_ops, None).
Proof. rewrite <- many_ends. apply surjective_pairing. Qed.
Lemma many_last : many_ops = removelast many_ops ++ [Overwrite 47 [1; 1; 0; 0]].
Proof.
  rewrite <- many_final. apply app_removelast_last. intros F. pose proof many_final as H.
  rewrite F in H. discriminate H.
Qed.
Lemma many_torn : exists t, open_file (overwrite (run_ops (removelast many_ops)) 47
  (firstn 1 [1; 1; 0; 0])) = Ok (t, Some (Obj K_ATTR [])).
Proof.
  pose proof many_shown as H. destruct (open_file _) as [[t o]|e]; [|discriminate H].
  cbn [shown] in H. subst o. eauto.
Qed.
