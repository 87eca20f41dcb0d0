(** Facts about names, decimal numerals and the calendar. *)
From Coq Require Import ZArith List Bool String Ascii Decimal DecimalZ DecimalFacts Lia.
From Verif Require Import Base Text Names NamesSpec.
Import ListNotations.
Open Scope Z_scope.

Lemma str_eqb_eq : forall a b, str_eqb a b = true <-> a = b.
Proof.
  induction a as [|x a IH]; intros [|y b]; cbn [str_eqb]; split; intros H; try discriminate; try reflexivity.
  - apply andb_prop in H as [H1 H2]. apply Z.eqb_eq in H1. apply IH in H2. congruence.
  - injection H as -> ->. rewrite Z.eqb_refl. now apply IH.
Qed.

Lemma uint_str_inj : forall u v, uint_str u = uint_str v -> u = v.
Proof.
  induction u; intros v H; destruct v; cbn [uint_str] in H; try discriminate; try reflexivity;
    injection H as H; f_equal; auto.
Qed.

Lemma uint_str_digits : forall u x, In x (uint_str u) -> 48 <= x <= 57.
Proof. induction u; intros x H; cbn [uint_str In] in H; try contradiction; destruct H as [<-|H]; try lia; auto. Qed.

Lemma percent_d_inj : forall a b, percent_d a = percent_d b -> a = b.
Proof.
  intros a b H. unfold percent_d in H. rewrite <- (DecimalZ.of_to a), <- (DecimalZ.of_to b).
  destruct (Z.to_int a) as [u|u], (Z.to_int b) as [v|v].
  - now rewrite (uint_str_inj _ _ H).
  - destruct u; cbn [uint_str] in H; discriminate.
  - destruct v; cbn [uint_str] in H; discriminate.
  - injection H as H. now rewrite (uint_str_inj _ _ H).
Qed.

Lemma kind_cases : forall id, media_kind id = None /\ id = 0 \/
  (exists s, In (id, s) known_kinds /\ media_kind id = Some (txt s)) \/
  media_kind id = Some (txt "unknown" ++ percent_d id) /\ id <> 0 /\ ~ In id (map fst known_kinds).
Proof.
  intros id. unfold media_kind.
  repeat match goal with |- context [if ?x =? ?y then _ else _] => destruct (Z.eqb_spec x y) as [->|?] end;
    try (now left); try (right; left; eexists; split; [|reflexivity]; cbn; tauto).
  right. right. split; [reflexivity|]. split; [assumption|]. cbn [map fst known_kinds In]. intuition lia.
Qed.

Lemma unknown_kind : forall n s id, In (id, s) known_kinds -> txt "unknown" ++ n <> txt s.
Proof.
  intros n s id H. cbn [In known_kinds] in H. repeat destruct H as [H|H]; try contradiction;
    injection H as <- <-; vm_compute; congruence.
Qed.

Lemma kinds_distinct : forall a b s, In (a, s) known_kinds -> In (b, s) known_kinds -> a = b.
Proof.
  intros a b s Ha Hb. cbn [In known_kinds] in Ha, Hb.
  repeat destruct Ha as [Ha|Ha]; try contradiction; injection Ha as <- <-;
    repeat destruct Hb as [Hb|Hb]; try contradiction; try discriminate Hb; now inversion Hb.
Qed.

Lemma txt_inj : forall s t, txt s = txt t -> s = t.
Proof.
  induction s as [|a s IH]; intros [|b t] H; try discriminate; [reflexivity|].
  unfold txt in H. cbn [list_ascii_of_string map] in H. injection H as H1 H2. f_equal; [|now apply IH].
  apply N2Z.inj in H1. rewrite <- (ascii_N_embedding a), <- (ascii_N_embedding b). now rewrite H1.
Qed.

Lemma usage_cases : forall a, (exists s, In (a, s) known_usages /\ usage a = option_map txt s) \/ usage a = Some (txt "unknown").
Proof.
  intros a. destruct (in_dec Z.eq_dec a (map fst known_usages)) as [I|N].
  - left. cbn [map fst known_usages In] in I. repeat destruct I as [<-|I]; try contradiction;
      (eexists; split; [cbn [In known_usages]; tauto|reflexivity]).
  - right. cbn [map fst known_usages In] in N. unfold usage.
    repeat match goal with |- context [if a =? ?y then _ else _] => destruct (Z.eqb_spec a y) as [?|?]; [exfalso; apply N; subst; tauto|] end.
    reflexivity.
Qed.

Lemma usages_distinct : forall a b s t, In (a, s) known_usages -> In (b, t) known_usages -> s = t -> a = b.
Proof.
  intros a b s t Ha Hb E. cbn [In known_usages] in Ha, Hb.
  repeat destruct Ha as [Ha|Ha]; try contradiction; injection Ha as <- <-;
    repeat destruct Hb as [Hb|Hb]; try contradiction; injection Hb as <- <-; try discriminate E; reflexivity.
Qed.
