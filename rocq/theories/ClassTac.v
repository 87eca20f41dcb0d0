(** Proof search for the round trips of whole classes. *)
From Coq Require Import ZArith List Bool Lia.
From Verif Require Import Base IoCtx Text Exp10 MobId.
From Verif Require Export Storable RoundTrip TextProofs MobIdProofs.
Import ListNotations.
Open Scope Z_scope.

Lemma rt_exp10 : forall P bo x, exp10_stable x -> rt P (rexp10 bo) (wexp10 bo x) x.
Proof.
  intros P bo x H. unfold rexp10, wexp10. unfold exp10_stable in H.
  destruct (exp10_parts x) as [[m e]|er]; [|apply rt_err].
  eapply rt_bind; [apply (rt_s32 anyr)| |intros; exact I].
  eapply rt_bind_last; [apply rt_s16|]. intros rest. now rewrite H.
Qed.

#[export] Hint Resolve rt_exp10 rt_ref : rt.

(** An assertion of the writer becomes a hypothesis. *)
Lemma rt_wassert : forall A (P : bytes -> Prop) (r : reader A) b w v,
  (b = true -> rt P r w v) -> rt P r (wassert b +++ w) v.
Proof.
  intros A P r b w v H bs rest Hw. apply wcat_ok in Hw as (x & y & Hx & Hy & ->).
  destruct b; [|discriminate Hx]. injection Hx as <-. now apply H.
Qed.

Lemma rt_rassert : forall A (P : bytes -> Prop) (k : unit -> reader A) b w v,
  b = true -> rt P (k tt) w v -> rt P (bind (rassert b) k) w v.
Proof. intros A P k b w v -> H bs rest Hw HP. cbn. now apply H. Qed.

(** A writer step whose failure closes the goal. *)
Lemma rt_werr : forall A (P : bytes -> Prop) (r : reader A) e w v, rt P r (Err e +++ w) v.
Proof. intros A P r e w v bs rest H. discriminate H. Qed.

Lemma rt_assoc : forall A (P : bytes -> Prop) (r : reader A) w1 w2 w3 v,
  rt P r (w1 +++ (w2 +++ w3)) v -> rt P r ((w1 +++ w2) +++ w3) v.
Proof.
  intros A P r w1 w2 w3 v H bs rest Hw. apply H.
  destruct w1 as [x|]; destruct w2 as [y|]; destruct w3 as [z|]; try discriminate Hw.
  cbn in *. now rewrite app_assoc.
Qed.

Lemma rt_assoc_r : forall A (P : bytes -> Prop) (r : reader A) w1 w2 w3 v,
  rt P r ((w1 +++ w2) +++ w3) v -> rt P r (w1 +++ (w2 +++ w3)) v.
Proof.
  intros A P r w1 w2 w3 v H bs rest Hw. apply H.
  destruct w1 as [x|]; destruct w2 as [y|]; destruct w3 as [z|]; try discriminate Hw.
  cbn in *. now rewrite <- app_assoc.
Qed.

Lemma rtx_assoc : forall S (h : Z -> S -> reader S) s w1 w2 w3 s',
  rtx h s (w1 +++ (w2 +++ w3)) s' -> rtx h s ((w1 +++ w2) +++ w3) s'.
Proof.
  intros S h s w1 w2 w3 s' H bs rest fuel Hw. apply H.
  destruct w1 as [x|]; destruct w2 as [y|]; destruct w3 as [z|]; try discriminate Hw.
  cbn in *. now rewrite app_assoc.
Qed.

Lemma wnil_l : forall w bs, wnil +++ w = Ok bs -> w = Ok bs.
Proof. intros [x|e] bs H; [exact H|discriminate H]. Qed.

Lemma rt_nil_l : forall A (P : bytes -> Prop) (r : reader A) w v,
  rt P r w v -> rt P r (wnil +++ w) v.
Proof. intros A P r w v H bs rest Hw. apply H. now apply wnil_l. Qed.

Lemma rtx_opt_id : forall S (h : Z -> S -> reader S) A (u : S -> option A -> S)
    (F : A -> S) (o : option A) (wv : A -> writer) tag s s' w2,
  (forall v, o = Some v -> rt anyr (h tag s) (wv v) (F v)) ->
  F = (fun v => u s (Some v)) ->
  u s None = s ->
  rtx h (u s o) w2 s' ->
  rtx h s (wopt o (fun v => wext tag (wv v)) +++ w2) s'.
Proof.
  intros S h A u F o wv tag s s' w2 H1 -> H2 H3. eapply rtx_opt; [| |exact H3].
  - intros v ->. now apply H1.
  - intros ->. exact H2.
Qed.

Lemma rtx_opt_map : forall S (h : Z -> S -> reader S) A B (u : S -> option B -> S) (g : A -> B)
    (F : A -> S) (o : option A) (wv : A -> writer) tag s s' w2,
  (forall v, o = Some v -> rt anyr (h tag s) (wv v) (F v)) ->
  F = (fun v => u s (Some (g v))) ->
  u s None = s ->
  rtx h (u s (option_map g o)) w2 s' ->
  rtx h s (wopt o (fun v => wext tag (wv v)) +++ w2) s'.
Proof.
  intros S h A B u g F o wv tag s s' w2 H1 -> H2 H3. eapply rtx_opt; [| |exact H3].
  - intros v ->. now apply H1.
  - intros ->. exact H2.
Qed.

(** A section the reader only skips. *)
Lemma rtx_opt_skip : forall S (h : Z -> S -> reader S) A (o : option A) (wv : A -> writer)
    tag s s' w2,
  (forall v, o = Some v -> rt anyr (h tag s) (wv v) s) ->
  rtx h s w2 s' ->
  rtx h s (wopt o (fun v => wext tag (wv v)) +++ w2) s'.
Proof.
  intros S h A o wv tag s s' w2 H1 H3. eapply rtx_opt; [| |exact H3]; auto.
Qed.

Lemma rtx_app_nil : forall S (h : Z -> S -> reader S) s w s',
  rtx h s (w +++ wnil) s' -> rtx h s w s'.
Proof.
  intros S h s w s' H bs rest fuel Hw. apply H.
  rewrite Hw. cbn. now rewrite app_nil_r.
Qed.

(** Sections whose writer is a definition of its own. *)
Definition sect {S} (h : Z -> S -> reader S) (s : S) (w : writer) (s1 : S) : Prop :=
  forall w2 s', rtx h s1 w2 s' -> rtx h s (w +++ w2) s'.

Lemma sect_use : forall S (h : Z -> S -> reader S) s w s1 w2 s',
  sect h s w s1 -> rtx h s1 w2 s' -> rtx h s (w +++ w2) s'.
Proof. intros S h s w s1 w2 s' H. apply H. Qed.

Lemma sect_nil : forall S (h : Z -> S -> reader S) s s1, s = s1 -> sect h s wnil s1.
Proof.
  intros S h s s1 -> w2 s' H bs rest fuel Hw. apply H. now apply wnil_l.
Qed.

Lemma sect_ext : forall S (h : Z -> S -> reader S) s s1 tag w,
  rt anyr (h tag s) w s1 -> sect h s (wext tag w) s1.
Proof. intros S h s s1 tag w H w2 s' H2. eapply rtx_cons; eauto. Qed.

Lemma rt_fourcc : forall P bo v, rt P (rfourcc bo) (wfourcc bo v) v.
Proof.
  intros P bo v. unfold rfourcc, wfourcc. apply rt_wassert. intros H. apply Z.eqb_eq in H.
  destruct bo.
  - eapply rt_bind_last; [apply rt_bytes|].
    + unfold len in *. rewrite rev_length. lia.
    + intros rest. now rewrite rev_involutive.
  - eapply rt_bind_last; [apply rt_bytes; lia|reflexivity].
Qed.
#[export] Hint Resolve rt_fourcc : rt.

Create HintDb sect discriminated.

(** A writer that cannot succeed. *)
Ltac rt_never :=
  let Hw := fresh "Hw" in
  intros ? ? Hw ?; exfalso;
  repeat (let x := fresh "x" in let y := fresh "y" in let Hx := fresh "Hx" in
          apply wcat_ok in Hw as (x & y & Hx & Hw & _); try discriminate Hx);
  try discriminate Hw.

Create HintDb cls discriminated.

(** Facts about the value of an optional property or the member of a list. *)
Ltac use_ok :=
  repeat match goal with
  | Hv : ?x = Some _, H : opt_ok _ ?x |- _ => rewrite Hv in H; cbn [opt_ok] in H
  | Hx : In ?x ?l, H : Forall _ ?l |- _ =>
      let H' := fresh "Hmem" in
      pose proof (proj1 (Forall_forall _ _) H x Hx) as H'; clear H; cbv beta in H'
  | H : _ /\ _ |- _ => destruct H
  end.

Ltac bo_norm :=
  repeat match goal with H : ibo ?i = obo ?c |- context [ibo ?i] => rewrite H end.

(** Puts the sections before the closing tag together. *)
Ltac rt_group :=
  lazymatch goal with
  | |- rt _ _ (_ +++ (wu8 _ +++ _)) _ => idtac
  | |- rt _ _ (_ +++ (_ +++ _)) _ => apply rt_assoc_r; rt_group
  | |- rt _ _ _ _ => idtac
  end.

(** Reduces the object between two sections; for classes with many properties. *)
Ltac sec_norm := idtac.

Ltac rt_elem :=
  bo_norm;
  lazymatch goal with
  | |- rt _ (bind _ _) _ _ => rt_go
  | |- rt _ (if ?b then _ else _) _ _ =>
      let x := eval compute in b in
      lazymatch x with
      | true => change b with true; cbv iota; rt_go
      | false => change b with false; cbv iota; rt_go
      end
  | |- rt _ (ret _) _ _ => apply rt_ret
  | |- rt _ (iter_ext _ _) _ _ => eapply rt_ext; rt_sections
  | |- rt _ (fread _) _ _ =>
      solve [ eapply rt_bytes; unfold len in *; rewrite ?repeat_length; lia ]
  | |- rt _ (rlist _ _) _ _ =>
      first
        [ solve [ eapply rt_list_id; [ first [ apply len_nat | symmetry; assumption ] | intros ? ?; use_ok; rt_elem ] ]
        | solve [ eapply rt_list; [ first [ apply len_nat | symmetry; assumption ] | intros ? ?; use_ok; rt_elem ] ] ]
  | |- rt _ _ _ _ => rt_prim
  end
with rt_go :=
  bo_norm;
  lazymatch goal with
  | |- rt _ _ (Err _ +++ _) _ => apply rt_werr
  | |- rt _ _ ((_ +++ _) +++ _) _ => apply rt_assoc; rt_go
  | |- rt _ _ (wnil +++ _) _ => apply rt_nil_l; rt_go
  | |- rt _ _ (wassert _ +++ _) _ => apply rt_wassert; intros ?Hassert; rt_go
  | |- rt _ (bind (rassert _) _) _ _ =>
      apply rt_rassert;
        [ solve [ assumption | reflexivity | apply Z.eqb_refl | apply Z.leb_le; unfold len; lia
                | apply Z.eqb_eq; unfold len; lia ]
        | rt_go ]
  | |- rt _ (bind (iter_ext _ _) _) (_ +++ _) _ =>
      rt_group;
      lazymatch goal with
      | |- rt _ _ (_ +++ wu8 _ +++ _) _ => idtac
      | |- rt _ _ (_ +++ wu8 _) _ => idtac
      end;
      eapply rt_bind with (Q := endr); [ rt_elem | | rt_end ];
      cbv beta; rt_go
  | |- rt _ (bind _ _) (_ +++ _) _ =>
      first
        [ eapply rt_bind with (Q := anyr); [ rt_elem | | intros; exact I ]
        | eapply rt_bind with (Q := endr); [ rt_elem | | rt_end ] ];
      cbv beta; rt_go
  | |- rt _ (bind _ _) _ _ => eapply rt_bind_last; [ rt_elem | intros; reflexivity ]
  | |- rt _ _ _ _ => rt_elem
  end
with rt_sections :=
  sec_norm;
  lazymatch goal with
  | |- rtx _ _ wnil _ => apply rtx_nil
  | |- rtx _ _ ((_ +++ _) +++ _) _ => apply rtx_assoc; rt_sections
  | |- rtx _ _ (wopt _ _ +++ _) _ =>
      first
        [ eapply rtx_opt_id;
            [ intros ? ?; use_ok; autounfold with cls; cbv beta iota delta [Z.eqb Pos.eqb]; rt_go
            | reflexivity | reflexivity | ]
        | eapply rtx_opt_map;
            [ intros ? ?; use_ok; autounfold with cls; cbv beta iota delta [Z.eqb Pos.eqb]; rt_go
            | reflexivity | reflexivity | ]
        | eapply rtx_opt_skip;
            [ intros ? ?; use_ok; autounfold with cls; cbv beta iota delta [Z.eqb Pos.eqb]; rt_go
            | ] ];
      rt_sections
  | |- rtx _ _ (wext _ _ +++ _) _ =>
      eapply rtx_cons;
        [ autounfold with cls; cbv beta iota delta [Z.eqb Pos.eqb]; rt_go | rt_sections ]
  | |- rtx _ _ (_ +++ _) _ => eapply sect_use; [ solve [ eauto 3 with sect ] | rt_sections ]
  | |- rtx _ _ _ _ => apply rtx_app_nil; rt_sections
  end.

(** [rt_class r w]: the whole proof for a class with reader [r] and writer [w]. *)
Ltac rt_start :=
  intros;
  match goal with
  | H : compat ?i ?c |- _ => let Hbo := fresh "Hbo" in pose proof (proj1 H) as Hbo
  end.
Ltac rt_class :=
  eapply rt_eqv; [ rt_go | reflexivity ].
