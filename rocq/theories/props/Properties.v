(** C72: the properties of a class are those it defines and those of the class it is derived from:
    they can be set and give back what was set, and other names are refused. The media descriptors
    share one table, so that each takes the properties of all. *)
From Coq Require Import ZArith String List Bool Lia.
From Verif Require Import Base Objects Ext ExtSpec PropDefs PropDefSpec PropDefProofs.
Import ListNotations.
Open Scope string_scope.
Open Scope list_scope.

(** Setting a property of its class: it is stored; getting it then gives the value, references
    followed; the other properties are as before, and so is their order, a new one comes last. *)
Theorem C72_set_get : forall V (deref : V -> V) c n d v, In c classes -> pc_registered c = true -> has_property classes (pc_name c) n ->
  exists d', set_attr classes (pc_name c) d n v = Stored d' /\
    get_attr deref classes (pc_name c) d' n = Value (deref v) /\
    (forall m, m <> n -> get_attr deref classes (pc_name c) d' m = get_attr deref classes (pc_name c) d m) /\
    (forall m u, get_default deref d' m u = if String.eqb n m then deref v else get_default deref d m u) /\
    (In n (map fst d) -> map fst d' = map fst d) /\ (~ In n (map fst d) -> map fst d' = map fst d ++ [n]).
Proof.
  intros V deref c n d v Hc R H. apply defs_has in H; [|apply classes_ordered].
  pose proof (not_hidden c n Hc H) as Nh. exists (data_set d n v). split.
  { unfold set_attr. replace (existsb (String.eqb n) (registered classes (dict_owner classes (pc_name c)))) with true; [reflexivity|].
    symmetry. apply mem_in. apply registered_in. exists c. auto. }
  split; [unfold get_attr; rewrite Nh, data_get_set, String.eqb_refl; reflexivity|].
  split.
  { intros m N. unfold get_attr. rewrite data_get_set. destruct (String.eqb_spec n m); [congruence|reflexivity]. }
  split.
  { intros m u. unfold get_default. rewrite data_get_set. destruct (String.eqb n m); reflexivity. }
  apply data_set_names.
Qed.
Print Assumptions C72_set_get.

(** A property of its class that an object does not have: getting it is an AttributeError, and [get]
    gives the default as it is, a reference not followed. One it has is never missing. *)
Theorem C72_unset : forall V (deref : V -> V) c n d, In c classes -> has_property classes (pc_name c) n ->
  (get_attr deref classes (pc_name c) d n = Missing <-> ~ In n (map fst d)) /\
  (~ In n (map fst d) -> forall u, get_default deref d n u = u) /\
  (In n (map fst d) -> exists v, In (n, v) d /\ get_attr deref classes (pc_name c) d n = Value (deref v) /\
     forall u, get_default deref d n u = deref v).
Proof.
  intros V deref c n d Hc H. apply defs_has in H; [|apply classes_ordered]. pose proof (not_hidden c n Hc H) as Nh.
  unfold get_attr, get_default. rewrite Nh. split; [|split].
  - rewrite <- data_get_none. destruct (data_get d n); split; congruence.
  - intros N u. apply data_get_none in N. now rewrite N.
  - intros I. assert (forall e : list (string * V), In n (map fst e) -> exists v, In (n, v) e /\ data_get e n = Some v) as G.
    { induction e as [|[k v] e IH]; cbn [map fst In data_get]; [tauto|]. intros J. destruct (String.eqb_spec k n) as [->|N].
      - exists v. auto.
      - destruct J as [J|J]; [contradiction|]. destruct (IH J) as (w & Iw & E). exists w. auto. }
    destruct (G d I) as (v & Iv & E). exists v. rewrite E. auto.
Qed.
Print Assumptions C72_unset.

(** What the methods of a class assign on their object is a property of its class and of every class
    derived from it, and is stored; or it is one of the few other attributes. *)
Theorem C72_methods : forall b ns n c, In (b, ns) assigned -> In n ns -> ~ In n other_attributes ->
  In c classes -> pc_registered c = true -> is_a classes (pc_name c) b ->
  has_property classes (pc_name c) n /\
  forall V (d : list (string * V)) v, exists d', set_attr classes (pc_name c) d n v = Stored d'.
Proof.
  intros b ns n c H I O Hc R A. destruct (assigned_in b ns n H I) as [P|P]; [|contradiction].
  assert (has_property classes (pc_name c) n) as Hp
    by (eapply derived_has; [exact A|]; apply defs_has; [apply classes_ordered|exact P]).
  split; [exact Hp|]. intros V d v. destruct (C72_set_get V (fun x => x) c n d v Hc R Hp) as (d' & E & _). exists d'. exact E.
Qed.
Print Assumptions C72_methods.

(** A name that is neither a property of the class nor one of the few other attributes that can be set
    is refused, by all classes but the media descriptors and [ShapeList]. *)
Theorem C72_refused : forall V c n (d : list (string * V)) v, In c classes -> pc_registered c = true ->
  ~ is_a classes (pc_name c) "MediaDescriptor" -> pc_name c <> "ShapeList" ->
  ~ has_property classes (pc_name c) n -> ~ In n other_attributes ->
  set_attr classes (pc_name c) d n v = Refused.
Proof.
  intros V c n d v Hc R D S H O. unfold set_attr.
  destruct (existsb (String.eqb n) (registered classes (dict_owner classes (pc_name c)))) eqn:E.
  { exfalso. apply mem_in in E. apply registered_in in E as (c' & Hc' & R' & E & Hn).
    rewrite (own_dicts c Hc R), (own_dicts c' Hc' R') in E.
    destruct (descriptorb (pc_name c)) eqn:Dc; [now apply descriptor_is in Dc|].
    destruct (descriptorb (pc_name c')) eqn:Dc'.
    - apply D. rewrite <- E. constructor.
    - rewrite E in Hn. apply H. apply defs_has; [apply classes_ordered|exact Hn]. }
  destruct (member_of (chain (rev classes) (pc_name c)) n) as [[| | |]|] eqn:M; try reflexivity.
  - now rewrite (has_slots c Hc R S).
  - exfalso. apply O. apply (set_elsewhere c n Settable Hc M). now left.
  - exfalso. apply O. apply (set_elsewhere c n Slot Hc M). now right.
  - now rewrite (has_slots c Hc R S).
Qed.
Print Assumptions C72_refused.

(** A media descriptor takes exactly the properties of all media descriptors. *)
Theorem C72_descriptors : forall V c n (d : list (string * V)) v, In c classes -> pc_registered c = true ->
  is_a classes (pc_name c) "MediaDescriptor" ->
  ((exists d', set_attr classes (pc_name c) d n v = Stored d') <->
   exists c', In c' classes /\ pc_registered c' = true /\ is_a classes (pc_name c') "MediaDescriptor" /\ has_property classes (pc_name c') n).
Proof.
  intros V c n d v Hc R D. apply descriptor_is in D. rewrite set_stored, registered_in, (own_dicts c Hc R), D. split.
  - intros (c' & Hc' & R' & E & Hn). exists c'. split; [exact Hc'|]. split; [exact R'|].
    split; [|apply defs_has; [apply classes_ordered|exact Hn]].
    rewrite (own_dicts c' Hc' R') in E. destruct (descriptorb (pc_name c')) eqn:Dc'; [exact (proj1 (descriptor_is _) Dc')|].
    rewrite E. constructor.
  - intros (c' & Hc' & R' & Dc' & Hn). exists c'. split; [exact Hc'|]. split; [exact R'|].
    rewrite (own_dicts c' Hc' R'), (proj2 (descriptor_is _) Dc'). split; [reflexivity|].
    apply defs_has; [apply classes_ordered|exact Hn].
Qed.
Print Assumptions C72_descriptors.

(** For any classes at all: what is registered in a table is what the registered classes that use it
    have. *)
Theorem C72_registered : forall l o n, In n (registered l o) <->
  exists c, In c l /\ pc_registered c = true /\ dict_owner l (pc_name c) = o /\ In n (propertydefs l (pc_name c)).
Proof. exact registered_in. Qed.
Print Assumptions C72_registered.

(** Whatever an accelerated reader finds in a chunk that the standard one accepts is a property of the
    class of the chunk, or of the tracks or parameters of its object; so it can be assigned to. *)
Theorem C72_readers : forall k x p, agrees k x (Props p) ->
  exists c, class_of_code classes (code_text (class_id k)) = Some c /\
  forall name, lookup p name <> None -> has_property classes (pc_name c) name /\
    forall l, lookup p name = Some (Many l) ->
      Forall (fun ch => forall m, lookup ch m <> None -> has_property classes (child_class name) m) l.
Proof. exact readers_set. Qed.
Print Assumptions C72_readers.

(** The codes: every class of the model but the attributes, the parameter list and the list of time
    crumbs (which are lists and dictionaries) is one class of the table, and there are no others. *)
Theorem C72_codes :
  (forall k, ~ In k [K_ATTR; K_PRLS; K_TMCS] -> exists c, class_of_code classes (code_text (class_id k)) = Some c /\
     forall c', In c' classes -> pc_registered c' = true -> pc_code c' = code_text (class_id k) -> c' = c) /\
  (forall c, In c classes -> pc_registered c = true -> pc_code c <> "" ->
     exists k, ~ In k [K_ATTR; K_PRLS; K_TMCS] /\ pc_code c = code_text (class_id k)).
Proof.
  split.
  - assert (forall k c, class_of_code classes (code_text (class_id k)) = Some c ->
        length (filter (fun c => pc_registered c && String.eqb (pc_code c) (code_text (class_id k))) classes) = 1%nat ->
        forall c', In c' classes -> pc_registered c' = true -> pc_code c' = code_text (class_id k) -> c' = c) as U.
    { intros k c E L c' Hc' R' Ec'. unfold class_of_code in E. apply find_some in E as [Hc Tc]. apply in_rev in Hc.
      assert (forall x, In x classes -> pc_registered x && String.eqb (pc_code x) (code_text (class_id k)) = true ->
        In x (filter (fun c => pc_registered c && String.eqb (pc_code c) (code_text (class_id k))) classes)) as F
        by (intros; apply filter_In; auto).
      pose proof (F c Hc Tc) as I1. assert (pc_registered c' && String.eqb (pc_code c') (code_text (class_id k)) = true) as T'.
      { rewrite R', Ec'. apply String.eqb_refl. }
      pose proof (F c' Hc' T') as I2. destruct (filter _ classes) as [|a [|b r]]; try discriminate L.
      destruct I1 as [<-|[]]. destruct I2 as [<-|[]]. reflexivity. }
    intros k N. destruct k; try (exfalso; apply N; cbn [In]; tauto);
      (eexists; split; [vm_compute; reflexivity|apply U; vm_compute; reflexivity]).
  - assert (forallb (fun c => negb (pc_registered c) || String.eqb (pc_code c) "" ||
      existsb (fun k => negb (existsb (String.eqb (code_text (class_id k))) ["ATTR"; "PRLS"; "TMCS"]) &&
        String.eqb (pc_code c) (code_text (class_id k))) kinds) classes = true) as T by (vm_compute; reflexivity).
    rewrite forallb_forall in T. intros c Hc R N. specialize (T c Hc).
    apply orb_prop in T as [T|T]; [apply orb_prop in T as [T|T]; [rewrite R in T; discriminate T|apply String.eqb_eq in T; contradiction]|].
    apply existsb_exists in T as (k & _ & T). apply andb_prop in T as [T1 T2]. exists k. split; [|now apply String.eqb_eq].
    intros I. cbn [In] in I. destruct I as [<-|[<-|[<-|[]]]]; vm_compute in T1; discriminate T1.
Qed.
Print Assumptions C72_codes.

(** A tape has no stored width; it can be given one all the same, and has it then. *)
Theorem C72_descriptor_refuted : exists c, In c classes /\ pc_registered c = true /\ pc_name c = "TapeDescriptor" /\
  ~ has_property classes "TapeDescriptor" "stored_width" /\
  set_attr classes "TapeDescriptor" [("mob_kind", 2%Z)] "stored_width" 1920%Z = Stored [("mob_kind", 2%Z); ("stored_width", 1920%Z)] /\
  get_attr (fun v => v) classes "TapeDescriptor" [("mob_kind", 2%Z); ("stored_width", 1920%Z)] "stored_width" = Value 1920%Z.
Proof.
  destruct (find (fun c => String.eqb (pc_name c) "TapeDescriptor") classes) as [c|] eqn:E; [|vm_compute in E; discriminate E].
  exists c. split; [now apply find_some in E|]. vm_compute in E. injection E as <-. split; [reflexivity|]. split; [reflexivity|].
  split; [|split; vm_compute; reflexivity].
  intros H. apply defs_has in H; [|apply classes_ordered]. apply mem_in in H. vm_compute in H. discriminate H.
Qed.
Print Assumptions C72_descriptor_refuted.

(** A misspelt property of a shape list is taken without a word, that of a clip is refused. *)
Theorem C72_shapes_refuted :
  ~ has_property classes "ShapeList" "shape_dta" /\
  set_attr classes "ShapeList" [] "shape_dta" 1%Z = InDict /\ set_attr classes "SourceClip" [] "lenght" 1%Z = Refused.
Proof.
  split; [|split; vm_compute; reflexivity].
  intros H. apply defs_has in H; [|apply classes_ordered]. apply mem_in in H. vm_compute in H. discriminate H.
Qed.
Print Assumptions C72_shapes_refuted.

(** A source clip: the length it has as a clip is set, its name as a component is kept, and so is the
    order; the track it leads to and its methods cannot be set. *)
Example C72_case : exists c, In c classes /\ pc_registered c = true /\ pc_name c = "SourceClip" /\
  has_property classes "SourceClip" "length" /\ ~ is_a classes "SourceClip" "MediaDescriptor" /\
  is_a classes "CDCIDescriptor" "MediaDescriptor" /\ has_property classes "CDCIDescriptor" "mob_kind" /\
  ~ has_property classes "SourceClip" "track" /\
  set_attr classes "SourceClip" [("name", 1%Z); ("length", 5%Z); ("mob_id", 3%Z)] "length" 7%Z
    = Stored [("name", 1%Z); ("length", 7%Z); ("mob_id", 3%Z)] /\
  set_attr classes "SourceClip" [] "track" 7%Z = Refused /\ set_attr classes "SourceClip" [] "read" 7%Z = Refused /\
  set_attr classes "SourceClip" [] "media_kind" 7%Z = RunsSetter /\ set_attr classes "Composition" [] "mob_type" 7%Z = Refused.
Proof.
  destruct (find (fun c => String.eqb (pc_name c) "SourceClip") classes) as [c|] eqn:E; [|vm_compute in E; discriminate E].
  exists c. split; [now apply find_some in E|]. vm_compute in E. injection E as <-. split; [reflexivity|]. split; [reflexivity|].
  split; [apply defs_has; [apply classes_ordered|]; apply mem_in; vm_compute; reflexivity|].
  split; [intros H; apply descriptor_is in H; vm_compute in H; discriminate H|].
  split; [apply descriptor_is; vm_compute; reflexivity|].
  split; [apply defs_has; [apply classes_ordered|]; apply mem_in; vm_compute; reflexivity|].
  split; [intros H; apply defs_has in H; [|apply classes_ordered]; apply mem_in in H; vm_compute in H; discriminate H|].
  repeat (split; [vm_compute; reflexivity|]). vm_compute. reflexivity.
Qed.

(** A marker, derived from a mob reference, takes what the reader of mob references assigns; a mob
    reference without a position has none. *)
Example C72_case_methods : In ("MobRef", ["position"; "mob_id"]) assigned /\ ~ In "position" other_attributes /\
  is_a classes "Marker" "MobRef" /\
  set_attr classes "Marker" [("color", 1%Z)] "position" 4%Z = Stored [("color", 1%Z); ("position", 4%Z)] /\
  get_attr (fun v => v) classes "MobRef" [("mob_id", 1%Z)] "position" = Missing /\
  get_default Z.succ [("mob_id", 1%Z)] "position" 9%Z = 9%Z /\ get_default Z.succ [("mob_id", 1%Z)] "mob_id" 9%Z = 2%Z.
Proof.
  split; [apply (find_some (fun p => String.eqb (fst p) "MobRef") assigned); vm_compute; reflexivity|].
  split; [intros H; apply mem_in in H; vm_compute in H; discriminate H|].
  split.
  { destruct (find (fun c => String.eqb (pc_name c) "Marker") classes) as [c|] eqn:E; [|vm_compute in E; discriminate E].
    pose proof (find_some _ _ E) as [I _]. vm_compute in E. injection E as <-.
    apply (is_derived _ _ "MobRef" I). constructor. }
  repeat (split; [vm_compute; reflexivity|]). vm_compute. reflexivity.
Qed.
