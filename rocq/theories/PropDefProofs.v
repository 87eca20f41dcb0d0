(** Lemmas about the properties of classes. *)
From Coq Require Import ZArith String List Bool Lia.
From Verif Require Import Base Objects Ext ExtSpec PropDefs PropDefSpec.
Import ListNotations.
Open Scope string_scope.
Open Scope list_scope.

Lemma mem_in : forall n l, existsb (String.eqb n) l = true <-> In n l.
Proof.
  intros n l. rewrite existsb_exists. split.
  - intros (x & Hx & E). apply String.eqb_eq in E. now subst.
  - intros H. exists n. split; [exact H|apply String.eqb_refl].
Qed.

(** ** Chains *)

Lemma chain_sub : forall r k c, In c (chain r k) -> In c r.
Proof.
  induction r as [|x r IH]; intros k c; [easy|]. cbn [chain]. destruct (String.eqb _ k).
  - intros [->|H]; [now left|]. right. eauto.
  - intros H. right. eauto.
Qed.

Lemma chain_has : forall l r k c n, (forall x, In x r -> In x l) -> In c (chain r k) -> In n (pc_defs c) -> has_property l k n.
Proof.
  intros l. induction r as [|x r IH]; intros k c n Hs Hc Hn; [easy|]. cbn [chain] in Hc.
  destruct (String.eqb_spec (pc_name x) k) as [<-|N].
  - destruct Hc as [->|Hc].
    + apply own_property; [apply Hs; now left|exact Hn].
    + apply inherited_property; [apply Hs; now left|]. eapply IH; eauto. intros y Hy. apply Hs. now right.
  - eapply IH; eauto. intros y Hy. apply Hs. now right.
Qed.

(** Later classes first: names are distinct, parents are earlier. *)
Fixpoint in_order (r : list pyclass) : Prop :=
  match r with
  | [] => True
  | c :: b => ~ In (pc_name c) (map pc_name b) /\ pc_name c <> "" /\ (pc_parent c = "" \/ In (pc_parent c) (map pc_name b)) /\ in_order b
  end.

Fixpoint in_orderb (r : list pyclass) : bool :=
  match r with
  | [] => true
  | c :: b => negb (existsb (String.eqb (pc_name c)) (map pc_name b)) && negb (String.eqb (pc_name c) "") &&
              (String.eqb (pc_parent c) "" || existsb (String.eqb (pc_parent c)) (map pc_name b)) && in_orderb b
  end.

Lemma in_orderb_ok : forall r, in_orderb r = true -> in_order r.
Proof.
  induction r as [|c b IH]; cbn [in_orderb in_order]; [easy|]. intros H.
  apply andb_prop in H as [H H4]. apply andb_prop in H as [H H3]. apply andb_prop in H as [H1 H2].
  split; [|split; [|split; [|now apply IH]]].
  - intros F. apply mem_in in F. now rewrite F in H1.
  - intros F. rewrite F in H2. discriminate.
  - apply orb_prop in H3 as [H3|H3]; [left; now apply String.eqb_eq|right; now apply mem_in].
Qed.

Lemma parent_in : forall r c, in_order r -> In c r -> pc_parent c = "" \/ In (pc_parent c) (map pc_name r).
Proof.
  induction r as [|x b IH]; intros c H; [easy|]. destruct H as (_ & _ & Hp & Ho). intros [<-|Hc]; cbn [map In].
  - tauto.
  - destruct (IH c Ho Hc); tauto.
Qed.

Lemma has_cons : forall x b k n, in_order (x :: b) -> has_property (x :: b) k n ->
  (k = pc_name x /\ (In n (pc_defs x) \/ has_property b (pc_parent x) n)) \/ (In k (map pc_name b) /\ has_property b k n).
Proof.
  intros x b k n O H. destruct O as (Nx & Ne & Px & Ob). induction H as [c n Hc Hn|c n Hc H IH].
  - destruct Hc as [<-|Hc]; [left; tauto|]. right. split; [now apply in_map|now apply own_property].
  - destruct (IH) as [[E _]|[Hk Hb]].
    + exfalso. destruct Hc as [<-|Hc].
      * destruct Px as [Px|Px]; rewrite E in Px; contradiction.
      * destruct (parent_in b c Ob Hc) as [Pc|Pc]; rewrite E in Pc; contradiction.
    + destruct Hc as [<-|Hc]; [left; tauto|]. right. split; [now apply in_map|]. now apply inherited_property.
Qed.

Lemma has_chain : forall r k n, in_order r -> has_property r k n -> exists c, In c (chain r k) /\ In n (pc_defs c).
Proof.
  induction r as [|x b IH]; intros k n O H.
  { induction H as [c n []|c n []]. }
  destruct (has_cons x b k n O H) as [[-> [Hn|Hb]]|[Hk Hb]]; cbn [chain].
  - rewrite String.eqb_refl. exists x. split; [now left|exact Hn].
  - rewrite String.eqb_refl. destruct O as (_ & _ & _ & Ob). destruct (IH _ _ Ob Hb) as (c & Hc & Hn).
    exists c. split; [now right|exact Hn].
  - destruct O as (Nx & _ & _ & Ob). destruct (String.eqb_spec (pc_name x) k) as [<-|N]; [contradiction|]. now apply IH.
Qed.

Lemma has_same : forall l l' k n, (forall x, In x l -> In x l') -> has_property l k n -> has_property l' k n.
Proof.
  intros l l' k n Hs H. induction H; [apply own_property|apply inherited_property]; auto.
Qed.

Lemma defs_has : forall l k n, in_order (rev l) -> (In n (propertydefs l k) <-> has_property l k n).
Proof.
  intros l k n O. unfold propertydefs. rewrite in_concat. split.
  - intros (x & Hx & Hn). apply in_map_iff in Hx as (c & <- & Hc). apply in_rev in Hc.
    apply (chain_has l (rev l) k c n); [intros y Hy; now apply in_rev in Hy|exact Hc|exact Hn].
  - intros H. apply (has_same l (rev l)) in H; [|intros x Hx; now apply in_rev in Hx].
    destruct (has_chain _ _ _ O H) as (c & Hc & Hn). exists (pc_defs c). split; [|exact Hn].
    apply in_map. now apply in_rev in Hc.
Qed.

(** A class of a chain is one the class is derived from. *)
Lemma is_a_chain : forall l r k c, (forall x, In x r -> In x l) -> In c (chain r k) -> is_a l k (pc_name c).
Proof.
  intros l. induction r as [|x r IH]; intros k c Hs Hc; [easy|]. cbn [chain] in Hc.
  destruct (String.eqb_spec (pc_name x) k) as [<-|N].
  - destruct Hc as [->|Hc]; [constructor|]. apply is_derived; [apply Hs; now left|]. apply (IH _ c); [|exact Hc].
    intros y Hy. apply Hs. now right.
  - apply (IH _ c); [|exact Hc]. intros y Hy. apply Hs. now right.
Qed.

Lemma is_a_cons : forall x b k m, in_order (x :: b) -> is_a (x :: b) k m -> k = m \/
  (k = pc_name x /\ is_a b (pc_parent x) m) \/ (In k (map pc_name b) /\ is_a b k m).
Proof.
  intros x b k m O H. destruct O as (Nx & Ne & Px & Ob). induction H as [n|c m Hc H IH]; [now left|]. right.
  destruct IH as [E|[[E _]|[Hk Hb]]].
  - subst m. destruct Hc as [<-|Hc]; [left; split; [reflexivity|constructor]|]. right.
    split; [now apply in_map|]. apply is_derived; [exact Hc|constructor].
  - exfalso. destruct Hc as [<-|Hc].
    + destruct Px as [Px|Px]; rewrite E in Px; contradiction.
    + destruct (parent_in b c Ob Hc) as [Pc|Pc]; rewrite E in Pc; contradiction.
  - destruct Hc as [<-|Hc]; [left; tauto|]. right. split; [now apply in_map|]. now apply is_derived.
Qed.

Lemma chain_self : forall r k, in_order r -> In k (map pc_name r) -> In k (map pc_name (chain r k)).
Proof.
  induction r as [|x b IH]; intros k O H; [easy|]. cbn [chain]. destruct (String.eqb_spec (pc_name x) k) as [E|N].
  - cbn [map In]. now left.
  - destruct O as (_ & _ & _ & Ob). destruct H as [H|H]; [contradiction|]. now apply IH.
Qed.

Lemma chain_is_a : forall r k m, in_order r -> is_a r k m -> In m (map pc_name r) -> In m (map pc_name (chain r k)).
Proof.
  induction r as [|x b IH]; intros k m O H Hm; [easy|].
  destruct (is_a_cons x b k m O H) as [->|[[-> Hb]|[Hk Hb]]].
  - now apply chain_self.
  - cbn [chain]. rewrite String.eqb_refl. cbn [map In]. destruct O as (Nx & Ne & Px & Ob).
    destruct Hm as [Hm|Hm]; [now left|]. right. now apply IH.
  - cbn [chain]. destruct O as (Nx & Ne & Px & Ob). destruct (String.eqb_spec (pc_name x) k) as [E|N]; [subst; contradiction|].
    destruct Hm as [Hm|Hm]; [|now apply IH]. exfalso.
    (* a class of [b] is not derived from [x] *)
    clear H. subst m. clear N. assert (is_a b k (pc_name x) -> In k (map pc_name b) -> In (pc_name x) (map pc_name b)) as A.
    { clear - Ob Ne. intros H. remember (pc_name x) as m. revert Ne. induction H as [n|c m Hc H IH']; intros Ne Hk; [exact Hk|].
      destruct (parent_in b c Ob Hc) as [P|P]; [|now apply IH'].
      exfalso. rewrite P in H. inversion H as [n E|c' m' Hc' H' E E']; [congruence|].
      assert (In (pc_name c') (map pc_name b)) as F by now apply in_map. clear - F E Ob. rewrite E in F.
      induction b as [|y b IHb]; [easy|]. destruct Ob as (_ & Ny & _ & Ob). destruct F as [F|F]; [contradiction|auto]. }
    exact (Nx (A Hb Hk)).
Qed.

(** ** Registering *)

Lemma dict_add_in : forall l n x, In x (dict_add l n) <-> In x l \/ x = n.
Proof.
  intros l n x. unfold dict_add. destruct (existsb (String.eqb n) l) eqn:E.
  - apply mem_in in E. split; [tauto|]. intros [H| ->]; assumption.
  - rewrite in_app_iff. cbn [In]. intuition.
Qed.

Lemma dict_adds_in : forall ns l x, In x (fold_left dict_add ns l) <-> In x l \/ In x ns.
Proof.
  induction ns as [|n ns IH]; intros l x; cbn [fold_left In]; [tauto|]. rewrite IH, dict_add_in. intuition.
Qed.

Lemma register_in : forall l cs ds o x, In x (fold_left (register l) cs ds o) <->
  In x (ds o) \/ exists c, In c cs /\ pc_registered c = true /\ dict_owner l (pc_name c) = o /\ In x (propertydefs l (pc_name c)).
Proof.
  intros l. induction cs as [|c cs IH]; intros ds o x; cbn [fold_left].
  { split; [now left|]. intros [H|(c & [] & _)]. exact H. }
  rewrite IH. clear IH. unfold register. destruct (pc_registered c) eqn:R.
  - destruct (String.eqb_spec o (dict_owner l (pc_name c))) as [->|N].
    + rewrite dict_adds_in. split.
      * intros [[H|H]|(c' & H & H')]; [now left|right; exists c; cbn [In]; auto|right; exists c'; cbn [In]; auto].
      * intros [H|(c' & [<-|H] & H1 & H2 & H3)]; [auto|auto|]. right. exists c'. auto.
    + split.
      * intros [H|(c' & H & H')]; [now left|right; exists c'; cbn [In]; auto].
      * intros [H|(c' & [<-|H] & H1 & H2 & H3)]; [auto|congruence|]. right. exists c'. auto.
  - split.
    + intros [H|(c' & H & H')]; [now left|right; exists c'; cbn [In]; auto].
    + intros [H|(c' & [<-|H] & H1 & H2 & H3)]; [auto|congruence|]. right. exists c'. auto.
Qed.

Lemma registered_in : forall l o x, In x (registered l o) <->
  exists c, In c l /\ pc_registered c = true /\ dict_owner l (pc_name c) = o /\ In x (propertydefs l (pc_name c)).
Proof. intros l o x. unfold registered. rewrite register_in. cbn [In]. tauto. Qed.

(** ** Property data *)

Lemma data_get_set : forall V (d : list (string * V)) n v m, data_get (data_set d n v) m = if String.eqb n m then Some v else data_get d m.
Proof.
  intros V d n v m. induction d as [|[k u] d IH]; cbn [data_set data_get]; [reflexivity|].
  destruct (String.eqb_spec k n) as [->|N]; cbn [data_get].
  - now destruct (String.eqb n m).
  - rewrite IH. destruct (String.eqb_spec k m) as [->|]; [|reflexivity]. destruct (String.eqb_spec n m); [congruence|reflexivity].
Qed.

Lemma data_set_names : forall V (d : list (string * V)) n v,
  (In n (map fst d) -> map fst (data_set d n v) = map fst d) /\
  (~ In n (map fst d) -> map fst (data_set d n v) = map fst d ++ [n]).
Proof.
  intros V d n v. induction d as [|[k u] d [IH1 IH2]]; cbn [data_set map fst In app]; [tauto|].
  destruct (String.eqb_spec k n) as [->|N]; cbn [map fst].
  - split; [reflexivity|tauto].
  - split; intros H; f_equal; [apply IH1|apply IH2]; tauto.
Qed.

Lemma set_stored : forall V l k (d : list (string * V)) n v,
  (exists d', set_attr l k d n v = Stored d') <-> In n (registered l (dict_owner l k)).
Proof.
  intros V l k d n v. rewrite <- mem_in. unfold set_attr.
  destruct (existsb (String.eqb n) (registered l (dict_owner l k))); [split; eauto|]. split; [|discriminate]. intros [d' H].
  destruct (member_of (chain (rev l) k) n) as [[| | |]|]; try discriminate; destruct (forallb pc_slots (chain (rev l) k)); discriminate.
Qed.

(** ** The table *)

Lemma classes_ordered : in_order (rev classes).
Proof. apply in_orderb_ok. vm_compute. reflexivity. Qed.

(** No property has the name of something in the body of its class or of one that is derived from. *)
Lemma not_hidden : forall c n, In c classes -> In n (propertydefs classes (pc_name c)) ->
  member_of (chain (rev classes) (pc_name c)) n = None.
Proof.
  intros c n Hc Hn.
  assert (forallb (fun c => forallb (fun n => match member_of (chain (rev classes) (pc_name c)) n with None => true | _ => false end)
            (propertydefs classes (pc_name c))) classes = true) as T by (vm_compute; reflexivity).
  rewrite forallb_forall in T. specialize (T c Hc). rewrite forallb_forall in T. specialize (T n Hn).
  now destruct (member_of (chain (rev classes) (pc_name c)) n).
Qed.

Lemma member_in : forall c n m, member_of c n = Some m -> exists x, In x c /\ In (n, m) (pc_body x).
Proof.
  induction c as [|x c IH]; intros n m H; cbn [member_of] in H; [discriminate|].
  destruct (find _ (pc_body x)) as [[n' m']|] eqn:E.
  - apply find_some in E as [E1 E2]. cbn [fst] in E2. apply String.eqb_eq in E2 as ->. injection H as <-.
    exists x. split; [now left|exact E1].
  - destruct (IH n m H) as (y & Hy & Hb). exists y. split; [now right|exact Hb].
Qed.

Lemma set_elsewhere : forall c n m, In c classes -> member_of (chain (rev classes) (pc_name c)) n = Some m ->
  m = Settable \/ m = Slot -> In n other_attributes.
Proof.
  intros c n m Hc H Hm. apply member_in in H as (x & Hx & Hb). apply chain_sub in Hx. apply in_rev in Hx.
  assert (forallb (fun c => forallb (fun p => match snd p with Settable | Slot => existsb (String.eqb (fst p)) other_attributes | _ => true end)
            (pc_body c)) classes = true) as T by (vm_compute; reflexivity).
  rewrite forallb_forall in T. specialize (T x Hx). rewrite forallb_forall in T. specialize (T (n, m) Hb). cbn [fst snd] in T.
  apply mem_in. destruct Hm as [-> | ->]; exact T.
Qed.

Definition descriptorb (n : string) : bool := existsb (String.eqb "MediaDescriptor") (map pc_name (chain (rev classes) n)).

Lemma descriptor_is : forall n, descriptorb n = true <-> is_a classes n "MediaDescriptor".
Proof.
  intros n. unfold descriptorb. rewrite mem_in. split.
  - intros H. apply in_map_iff in H as (c & <- & Hc). apply (is_a_chain classes (rev classes)); [|exact Hc].
    intros x Hx. now apply in_rev in Hx.
  - intros H. apply chain_is_a; [apply classes_ordered| |].
    + clear - H. induction H; [constructor|]. apply is_derived; [|assumption]. apply in_rev. now rewrite rev_involutive.
    + apply mem_in. vm_compute. reflexivity.
Qed.

Lemma own_dicts : forall c, In c classes -> pc_registered c = true ->
  dict_owner classes (pc_name c) = if descriptorb (pc_name c) then "MediaDescriptor" else pc_name c.
Proof.
  intros c Hc R.
  assert (forallb (fun c => negb (pc_registered c) || String.eqb (dict_owner classes (pc_name c))
            (if descriptorb (pc_name c) then "MediaDescriptor" else pc_name c)) classes = true) as T by (vm_compute; reflexivity).
  rewrite forallb_forall in T. specialize (T c Hc). apply orb_prop in T as [T|T]; [rewrite R in T; discriminate T|].
  exact (proj1 (String.eqb_eq _ _) T).
Qed.

Lemma has_slots : forall c, In c classes -> pc_registered c = true -> pc_name c <> "ShapeList" ->
  forallb pc_slots (chain (rev classes) (pc_name c)) = true.
Proof.
  intros c Hc R N.
  assert (forallb (fun c => negb (pc_registered c) || String.eqb (pc_name c) "ShapeList" ||
            forallb pc_slots (chain (rev classes) (pc_name c))) classes = true) as T by (vm_compute; reflexivity).
  rewrite forallb_forall in T. specialize (T c Hc). apply orb_prop in T as [T|T]; [|exact T].
  apply orb_prop in T as [T|T]; [rewrite R in T; discriminate T|]. apply String.eqb_eq in T. contradiction.
Qed.

(** ** What the accelerated readers set *)

Lemma vlook_in : forall V (v : list (string * option V)) n x, vlook v n = Some x -> In (n, Some x) v.
Proof.
  induction v as [|[k o] v IH]; intros n x H; cbn [vlook] in H; [discriminate|].
  destruct (String.eqb_spec k n) as [->|]; [destruct o as [y|]|]; try (right; now apply IH). injection H as ->. now left.
Qed.

Definition named (c : string) (ns : list string) : Prop := forallb (fun n => existsb (String.eqb n) (propertydefs classes c)) ns = true.

Lemma named_has : forall c ns n, named c ns -> In n ns -> has_property classes c n.
Proof.
  intros c ns n H Hn. unfold named in H. rewrite forallb_forall in H. specialize (H n Hn). apply mem_in in H.
  apply defs_has; [apply classes_ordered|exact H].
Qed.

Definition children_named (e : string * option vprop) : Prop :=
  match snd e with
  | Some (VMany l) => Forall (fun ch => named (child_class (fst e)) (map fst ch)) l
  | _ => True
  end.

Lemma view_sets : forall c (v : view) p, named c (map fst v) -> Forall children_named v -> alike v p ->
  forall name, lookup p name <> None -> has_property classes c name /\
    forall l, lookup p name = Some (Many l) ->
      Forall (fun ch => forall m, lookup ch m <> None -> has_property classes (child_class name) m) l.
Proof.
  intros c v p N C A name L. specialize (A name). unfold same_prop in A.
  destruct (vlook v name) as [x|] eqn:E.
  2:{ destruct (lookup p name); [contradiction|now contradiction L]. }
  apply vlook_in in E. split.
  { apply named_has with (map fst v); [exact N|]. apply in_map_iff. now exists (name, Some x). }
  intros l El. rewrite El in A. destruct x as [x|l0]; [contradiction|].
  rewrite Forall_forall in C. specialize (C _ E). unfold children_named in C. cbn [fst snd] in C.
  clear - A C. induction A as [|v d l0 l S A IH]; [constructor|]. apply Forall_cons_iff in C as [C1 C2].
  constructor; [|now apply IH]. intros m Hm. specialize (S m). destruct (lookup d m) as [y|]; [|now contradiction Hm].
  apply vlook_in in S. apply named_has with (map fst v); [exact C1|]. apply in_map_iff. now exists (m, Some y).
Qed.

Ltac names_found := vm_compute; reflexivity.
Ltac children_found :=
  lazy delta [sequence_view source_clip_view track_ref_view param_clip_view filler_view clip_view component_view
    parameter_item_view track_effect_view selector_view composition_view track_group_view media_descriptor_view
    media_file_descriptor_view did_descriptor_view cdci_descriptor_view effect_param_list_view opt_ int_ ref_ bool_] beta;
  cbn [app];
  repeat (apply Forall_cons; [unfold children_named; cbn [fst snd];
    first [exact I | match goal with |- context [match ?o with Some _ => _ | None => _ end] => destruct o; exact I end
      | apply Forall_forall; intros ch Hch; apply in_map_iff in Hch as (t & <- & _); vm_compute; reflexivity]|]);
  try apply Forall_nil.

Ltac view_found A := eapply view_sets; [| |exact A]; [names_found|children_found].

Lemma readers_set : forall k x p, agrees k x (Props p) ->
  exists c, class_of_code classes (code_text (class_id k)) = Some c /\
  forall name, lookup p name <> None -> has_property classes (pc_name c) name /\
    forall l, lookup p name = Some (Many l) ->
      Forall (fun ch => forall m, lookup ch m <> None -> has_property classes (child_class name) m) l.
Proof.
  intros k x p H. unfold agrees, agree_by in H.
  destruct k; try contradiction H; destruct H as (p' & E & A); try discriminate E; injection E as <-;
    (eexists; split; [vm_compute; reflexivity|]); cbn [pc_name]; view_found A.
Qed.

Lemma derived_has : forall l k b n, is_a l k b -> has_property l b n -> has_property l k n.
Proof. intros l k b n H. induction H; intros P; [exact P|]. constructor 2; auto. Qed.

Lemma assigned_in : forall k ns n, In (k, ns) assigned -> In n ns -> In n (propertydefs classes k) \/ In n other_attributes.
Proof.
  assert (forallb (fun p => let ps := propertydefs classes (fst p) in
    forallb (fun n => existsb (String.eqb n) ps || existsb (String.eqb n) other_attributes) (snd p)) assigned = true) as T
    by (vm_compute; reflexivity).
  rewrite forallb_forall in T. intros k ns n H I. specialize (T (k, ns) H). cbv zeta in T. rewrite forallb_forall in T.
  specialize (T n I). apply orb_prop in T as [T|T]; [left|right]; apply mem_in; exact T.
Qed.

Lemma data_get_none : forall V (d : list (string * V)) n, data_get d n = None <-> ~ In n (map fst d).
Proof.
  induction d as [|[k v] d IH]; intros n; cbn [data_get map fst In]; [tauto|].
  destruct (String.eqb_spec k n) as [->|N]; [split; [discriminate|intros H; exfalso; apply H; now left]|]. rewrite IH. tauto.
Qed.
