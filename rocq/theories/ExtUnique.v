(** The properties an accelerated reader finds are those of one object. *)
From Coq Require Import ZArith String List Bool Lia.
From Verif Require Import Base IoCtx Text Exp10 MobId Attributes Components TrackGroups Essence Misc.
From Verif Require Import Objects Ext ExtSpec.
Import ListNotations.
Open Scope string_scope.
Open Scope list_scope.
Open Scope Z_scope.

Definition same_views (v v' : list (string * option cell)) : Prop := forall n, vlook v n = vlook v' n.

Definition like_prop (a b : option vprop) : Prop :=
  match a, b with
  | None, None => True
  | Some (VOne c), Some (VOne c') => c = c'
  | Some (VMany l), Some (VMany l') => Forall2 same_views l l'
  | _, _ => False
  end.

Definition like (v v' : view) : Prop := forall n, like_prop (vlook v n) (vlook v' n).

Lemma exact_like v v' d : exact v d -> exact v' d -> like v v'.
Proof.
  intros H H' n. specialize (H n). specialize (H' n). unfold exact_prop, like_prop in *.
  destruct (vlook v n) as [[c|l]|], (lookup d n) as [[q|m]|]; try contradiction;
    destruct (vlook v' n) as [[c'|l']|]; try contradiction; try exact I.
  - congruence.
  - clear - H H'. revert l' H'. induction H as [|x y l m H _ IH]; intros l' H'; inversion H'; subst;
      constructor; [|now apply IH].
    intros k. transitivity (lookup y k); [apply H|symmetry; match goal with G : same_child _ y |- _ => apply G end].
Qed.

(** The names of a view, one after the other; the lists of tracks and parameters apart. *)
Ltac names H l := lazymatch l with
  | nil => idtac
  | "tracks" :: ?l' => names H l'
  | "parameters" :: ?l' => names H l'
  | ?n :: ?l' => let G := fresh "G" in pose proof (H n) as G; vm_compute in G; names H l'
  end.

Ltac by_names H := lazymatch type of H with
  | like ?v _ => let l := eval vm_compute in (map fst v) in names H l
  | same_views ?v _ => let l := eval vm_compute in (map fst v) in names H l
  end; clear H.

Ltac opened := repeat match goal with
  | a : option _ |- _ => destruct a
  | a : bounds_box |- _ => destruct a
  | a : cp_value |- _ => destruct a
  end.

(** One property after the other. *)
Ltac found a b G := tryif constr_eq a b then fail
  else (let E := fresh in
    assert (E : a = b) by (clear - G; opened; solve [contradiction|congruence]); clear G; subst b).

Ltac field := match goal with
  | G : _ |- _ => match type of G with
    | context [match ?a with Some _ => _ | None => _ end] => match type of G with
      | context [match ?b with Some _ => _ | None => _ end] => is_var a; is_var b; found a b G
      end
    | context [match ?a with CPInt _ => _ | CPDouble _ => _ | CPRef _ => _ end] => match type of G with
      | context [match ?b with CPInt _ => _ | CPDouble _ => _ | CPRef _ => _ end] =>
        is_var a; is_var b; found a b G
      end
    | _ = _ => injection G; clear G; intros; subst
    end
  end.

Lemma track_one x x' : same_views (track_view x) (track_view x') -> x = x'.
Proof. intros H. destruct x, x'. by_names H. repeat field. reflexivity. Qed.

Lemma effect_param_one x x' : same_views (effect_param_view x) (effect_param_view x') -> x = x'.
Proof.
  intros H. destruct x as [? ? ? ? ? ? ? ? ? ? ? ? ? ? []], x' as [? ? ? ? ? ? ? ? ? ? ? ? ? ? []].
  by_names H. repeat field. reflexivity.
Qed.

Lemma all_one {A} (f : A -> list (string * option cell)) :
  (forall x x', same_views (f x) (f x') -> x = x') ->
  forall l l', Forall2 same_views (map f l) (map f l') -> l = l'.
Proof.
  intros Hf l. induction l as [|x l IH]; intros [|x' l'] H; cbn [map] in H; inversion H; subst;
    [reflexivity|]. f_equal; [now apply Hf|now apply IH].
Qed.

Ltac unpack := repeat match goal with
  | x : component |- _ => destruct x
  | x : clip |- _ => destruct x
  | x : track_group |- _ => destruct x
  | x : media_descriptor |- _ => destruct x
  | x : media_file_descriptor |- _ => destruct x
  | x : did_descriptor |- _ => destruct x
  end.

Ltac fields := unpack; match goal with H : like _ _ |- _ => by_names H end; repeat field; subst; reflexivity.

Lemma sequence_one x x' : like (sequence_view x) (sequence_view x') -> x = x'.
Proof. intros H. destruct x, x'. fields. Qed.
Lemma filler_one x x' : like (filler_view x) (filler_view x') -> x = x'.
Proof. intros H. destruct x, x'. fields. Qed.
Lemma source_clip_one x x' : like (source_clip_view x) (source_clip_view x') -> x = x'.
Proof. intros H. destruct x, x'. fields. Qed.
Lemma track_ref_one x x' : like (track_ref_view x) (track_ref_view x') -> x = x'.
Proof. intros H. destruct x, x'. fields. Qed.
Lemma param_clip_one x x' : like (param_clip_view x) (param_clip_view x') -> x = x'.
Proof. intros H. destruct x, x'. fields. Qed.
Lemma parameter_item_one x x' : like (parameter_item_view x) (parameter_item_view x') -> x = x'.
Proof. intros H. destruct x, x'. fields. Qed.
Lemma media_descriptor_one x x' : like (media_descriptor_view x) (media_descriptor_view x') -> x = x'.
Proof. intros H. destruct x, x'. fields. Qed.

Lemma track_effect_one x x' : like (track_effect_view x) (track_effect_view x') -> x = x'.
Proof.
  intros H. assert (T : trkg_tracks (tkfx_group x) = trkg_tracks (tkfx_group x')).
  { apply (all_one track_view track_one). exact (H "tracks"). }
  destruct x as [[]], x' as [[]]. cbn in T. fields.
Qed.
Lemma selector_one x x' : like (selector_view x) (selector_view x') -> x = x'.
Proof.
  intros H. assert (T : trkg_tracks (slct_group x) = trkg_tracks (slct_group x')).
  { apply (all_one track_view track_one). exact (H "tracks"). }
  destruct x as [[]], x' as [[]]. cbn in T. fields.
Qed.
Lemma composition_one x x' : like (composition_view x) (composition_view x') -> x = x'.
Proof.
  intros H. assert (T : trkg_tracks (cmpo_group x) = trkg_tracks (cmpo_group x')).
  { apply (all_one track_view track_one). exact (H "tracks"). }
  destruct x as [[]], x' as [[]]. cbn in T. fields.
Qed.
Lemma effect_param_list_one x x' :
  like (effect_param_list_view x) (effect_param_list_view x') -> x = x'.
Proof.
  intros H. assert (T : fxps_parameters x = fxps_parameters x').
  { apply (all_one effect_param_view effect_param_one). exact (H "parameters"). }
  destruct x, x'. cbn in T. fields.
Qed.
Lemma did_descriptor_one x x' : like (did_descriptor_view x) (did_descriptor_view x') -> x = x'.
Proof. intros H. fields. Qed.
Lemma cdci_descriptor_one x x' : like (cdci_descriptor_view x) (cdci_descriptor_view x') -> x = x'.
Proof. intros H. destruct x, x'. fields. Qed.

(** There is just one object that has all the properties found and no others. *)
Lemma exactly_one k x x' d : exactly k x d -> exactly k x' d -> x = x'.
Proof.
  unfold exactly. destruct k; cbn [agree_by]; cbv zeta; try (intros []; fail);
    intros (p & E & H) (p' & E' & H'); rewrite E in E'; injection E' as <-;
    try (pose proof (exact_like _ _ _ H H') as L).
  - congruence.
  - now apply sequence_one.
  - now apply source_clip_one.
  - now apply track_ref_one.
  - now apply param_clip_one.
  - now apply filler_one.
  - now apply media_descriptor_one.
  - now apply did_descriptor_one.
  - now apply cdci_descriptor_one.
  - now apply effect_param_list_one.
  - now apply parameter_item_one.
  - now apply track_effect_one.
  - now apply selector_one.
  - now apply composition_one.
Qed.
