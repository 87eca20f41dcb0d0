(** C33: reference lists. *)
From Coq Require Import ZArith List Bool Lia.
From Verif Require Import Base RefList RefListSpec RefListProofs.
Import ListNotations.
Open Scope Z_scope.

(** A call that succeeds does to what the list shows (its entries loaded) what the call does to an
    ordinary list, and returns what it returns there. [v] is an answer that loads. *)
Theorem C33_effect : forall load l o v, ordinary o = true -> le_answer (list_call load l o) = Ok v ->
  exists a, effect (deref load) o (view load l) (view load (le_list (list_call load l o))) a /\
    match a with Some r => r = Ok v | None => v = None end.
Proof.
  intros load l o v Ho H. unfold view.
  assert (forall i k, py_index (len l) i = Some k -> at_index (len l) i k /\ (k < length l)%nat) as K.
  { intros i k E. apply index_at in E. split; [exact E|]. unfold at_index, len in E. lia. }
  assert (forall i k x, py_index (len l) i = Some k ->
    at_index (len (map (deref load) (firstn k l) ++ x :: map (deref load) (skipn (S k) l))) i (length (map (deref load) (firstn k l)))) as At.
  { intros i k x E. destruct (K i k E) as [A B]. rewrite map_length, firstn_length_le by lia.
    replace (len _) with (len l); [exact A|]. rewrite (split_at l k B) at 1. unfold len. rewrite !app_length. cbn [length]. now rewrite !map_length. }
  destruct o; try discriminate Ho; cbn [list_call] in *; unfold done, failed in *; cbn [le_answer le_list] in *.
  - injection H as <-. exists None. split; [rewrite map_app; constructor|reflexivity].
  - injection H as <-. exists None. split; [rewrite map_app; constructor|reflexivity].
  - injection H as <-. exists None. split; [|reflexivity].
    rewrite map_app. cbn [map]. rewrite <- (firstn_skipn (py_clamp (len l) i) l) at 1. rewrite map_app. constructor.
    rewrite <- map_app, firstn_skipn, len_map, map_length. unfold before_index.
    assert (py_clamp (len l) i <= length l)%nat by (unfold py_clamp, len; destruct (i <? 0); lia).
    rewrite firstn_length_le by assumption. unfold py_clamp. destruct (Z.ltb_spec i 0); unfold len; lia.
  - destruct (py_index (len l) i) as [k|] eqn:E; [|discriminate].
    destruct (deref load (nth k l ENone)) as [w|e] eqn:D; [|discriminate]. cbn [le_answer le_list] in *. injection H as <-.
    exists (Some (Ok w)). split; [|reflexivity]. rewrite map_app. rewrite (split_at l k) at 1 by apply (K i k E). rewrite map_app. cbn [map].
    rewrite D. constructor. now apply At.
  - destruct (py_index (len l) i) as [k|] eqn:E; [|discriminate]. cbn [le_answer le_list] in *.
    exists (Some (Ok v)). split; [|reflexivity]. rewrite (split_at l k) by apply (K i k E). rewrite map_app. cbn [map].
    rewrite H. constructor. now apply At.
  - destruct (py_index (len l) i) as [k|] eqn:E; [|discriminate]. cbn [le_answer le_list] in *. injection H as <-.
    exists None. split; [|reflexivity]. rewrite map_app. cbn [map]. rewrite (split_at l k) at 1 by apply (K i k E). rewrite map_app. cbn [map].
    constructor. now apply At.
  - destruct (py_index (len l) i) as [k|] eqn:E; [|discriminate]. cbn [le_answer le_list] in *. injection H as <-.
    exists None. split; [|reflexivity]. rewrite map_app. rewrite (split_at l k) at 1 by apply (K i k E). rewrite map_app. cbn [map].
    constructor. now apply At.
Qed.
Print Assumptions C33_effect.

(** The calls that fail: an index out of range, as for an ordinary list, and besides that only an
    entry that cannot be loaded. A call that fails for its index changes nothing. *)
Theorem C33_index : forall load l o i, op_index o = Some i -> ~ (- len l <= i < len l) ->
  list_call load l o = failed l IndexErr.
Proof.
  intros load l o i H N. apply index_none in N. destruct o; try discriminate H; injection H as ->; cbn [list_call]; now rewrite N.
Qed.
Print Assumptions C33_index.

Theorem C33_succeeds : forall load l o, ordinary o = true -> (forall i, op_index o = Some i -> - len l <= i < len l) ->
  (forall e, In e l -> exists v, deref load e = Ok v) -> exists v, le_answer (list_call load l o) = Ok v.
Proof.
  intros load l o Ho Hi Hd.
  assert (forall i, - len l <= i < len l -> exists k, py_index (len l) i = Some k /\ (k < length l)%nat) as K.
  { intros i R. destruct (py_index (len l) i) as [k|] eqn:E.
    - exists k. split; [reflexivity|]. apply index_at in E. unfold at_index, len in E. lia.
    - apply index_none in E. contradiction. }
  destruct o; try discriminate Ho; cbn [list_call]; unfold done; cbn [le_answer]; eauto;
    destruct (K _ (Hi _ eq_refl)) as (k & -> & Lk); cbn [le_answer]; eauto;
    destruct (Hd (nth k l ENone) (nth_In _ _ Lk)) as [v Ev]; rewrite Ev; cbn [le_answer]; eauto.
Qed.
Print Assumptions C33_succeeds.

(** Every call that succeeds marks the list's owner, except reading an item; a call that fails does not. *)
Theorem C33_marks : forall load l o, le_marked (list_call load l o) =
  match le_answer (list_call load l o) with Ok _ => match o with LGet _ => false | _ => true end | Err _ => false end.
Proof.
  intros load l o. destruct o; cbn [list_call]; unfold done, failed; try reflexivity;
    try (destruct (py_remove x l); reflexivity);
    destruct (py_index (len l) i) as [k|]; try reflexivity; cbn [le_marked le_answer]; destruct (deref load (nth k l ENone)); reflexivity.
Qed.
Print Assumptions C33_marks.

Example C33_example : let load i := if i <=? 5 then Ok (Some (i * 10)) else Err IndexErr in
  view load [ERef 1 3; EObj 7; ENum 2; ERef 2 0] = [Ok (Some 30); Ok (Some 7); Ok (Some 20); Ok None] /\
  view load (le_list (list_call load [ERef 1 3; EObj 7; ENum 2; ERef 2 0] (LInsert (-1) (EObj 9)))) =
    [Ok (Some 30); Ok (Some 7); Ok (Some 20); Ok (Some 9); Ok None] /\
  le_answer (list_call load [ERef 1 3; EObj 7] (LPop (-2))) = Ok (Some 30) /\
  le_answer (list_call load [ERef 1 3; EObj 7] (LDel 2)) = Err IndexErr.
Proof. repeat split. Qed.

(** [remove] takes out the first entry that is the object, or raises if there is none: for lists
    whose entries are objects. *)
Theorem C33_remove : forall load objs a, let l := map EObj objs in
  (In a objs -> exists p q, objs = p ++ a :: q /\ ~ In a p /\ list_call load l (LRemove (EObj a)) = done (map EObj (p ++ q))) /\
  (~ In a objs -> list_call load l (LRemove (EObj a)) = failed l ValueErr).
Proof.
  intros load objs a. cbv zeta. cbn [list_call].
  assert (forall objs, (In a objs -> exists p q, objs = p ++ a :: q /\ ~ In a p /\ py_remove (EObj a) (map EObj objs) = Some (map EObj (p ++ q))) /\
    (~ In a objs -> py_remove (EObj a) (map EObj objs) = None)) as K.
  { clear objs. induction objs as [|x objs [IH1 IH2]]; cbn [map py_remove entry_eqb].
    - split; [intros []|reflexivity].
    - destruct (Z.eqb_spec x a) as [->|N].
      + split; [|intros C; exfalso; apply C; now left]. intros _. exists [], objs. auto.
      + split.
        * intros [E|I]; [contradiction|]. destruct (IH1 I) as (p & q & -> & Np & ->). exists (x :: p), q.
          split; [reflexivity|]. split; [|reflexivity]. intros [E|J]; contradiction.
        * intros C. rewrite IH2; [reflexivity|]. intros I. apply C. now right. }
  destruct (K objs) as [K1 K2]. split.
  - intros I. destruct (K1 I) as (p & q & E & Np & ->). exists p, q. auto.
  - intros N. now rewrite (K2 N).
Qed.
Print Assumptions C33_remove.

Example C33_remove_example : list_call (fun _ => Ok None) (map EObj [4; 6; 4]) (LRemove (EObj 4)) = done (map EObj [6; 4]).
Proof. reflexivity. Qed.

(** Not so for a list read from a file: an object one gets from the list is not found in it. *)
Theorem C33_remove_refuted : exists load l a, In (Ok (Some a)) (view load l) /\
  list_in (EObj a) l = false /\ list_call load l (LRemove (EObj a)) = failed l ValueErr.
Proof. exists (fun i => Ok (Some (i * 10))), [ERef 1 3], 30. split; [now left|]. split; reflexivity. Qed.
Print Assumptions C33_remove_refuted.

(** [clear], [sort] and [reverse] do nothing to the list. *)
Theorem C33_no_effect : forall load l o, o = LClear \/ o = LSort \/ o = LReverse -> le_list (list_call load l o) = l.
Proof. intros load l o [->|[->| ->]]; reflexivity. Qed.
Print Assumptions C33_no_effect.

Theorem C33_clear_refuted : exists load l, le_list (list_call load l LClear) <> [] /\ le_list (list_call load l LReverse) <> rev l.
Proof. exists (fun _ => Ok None), [EObj 1; EObj 2]. split; discriminate. Qed.
Print Assumptions C33_clear_refuted.

(** [pop] of an entry that cannot be loaded raises, but has taken the entry out, and the owner is
    not marked. *)
Theorem C33_pop_broken_refuted : exists load l e, let r := list_call load l (LPop 0) in
  le_answer r = Err e /\ le_list r <> l /\ le_marked r = false.
Proof. exists (fun _ => Err IndexErr), [ERef 1 99], IndexErr. cbv zeta. repeat split. discriminate. Qed.
Print Assumptions C33_pop_broken_refuted.
