(** The accelerated readers class by class, beside the standard ones. *)
From Coq Require Import ZArith String List Bool Lia.
From Verif Require Import Base IoCtx Text Exp10 MobId Attributes Components TrackGroups Essence Misc.
From Verif Require Import Objects RoundTrip LocProofs Ext ExtSpec ExtSim ExtStrict ExtProofs.
Import ListNotations.
Open Scope Z_scope.

(** The properties found, with the allowances or without. *)
Definition agree_p (p : bool) : forall k, C_type (class_of k) -> loaded -> Prop :=
  agree_by (alike_p p) (fun o d => exists l, d = dict_of l /\ o = dict_of (map (entry_p p) l)).

Lemma agree_by_weaken (S S' : view -> props -> Prop) (D D' : attributes -> attributes -> Prop) k x d :
  (forall v p, S v p -> S' v p) -> (forall o l, D o l -> D' o l) ->
  agree_by S D k x d -> agree_by S' D' k x d.
Proof.
  intros HS HD. destruct k; cbn [agree_by]; cbv zeta; try exact (fun H : False => H);
    intros (q & E & H); exists q; (split; [exact E|]); first [apply HS; exact H|apply HD; exact H].
Qed.

Lemma agree_p_false k x d : agree_p false k x d -> agrees k x d.
Proof. apply agree_by_weaken; [apply alike_p_false|]. intros o l H. exact H. Qed.

Lemma agree_p_true k x d : agree_p true k x d -> exactly k x d.
Proof.
  apply agree_by_weaken; [apply alike_p_true|]. intros o l0 (l & -> & ->). f_equal.
  induction l as [|e l IH]; cbn [map]; [reflexivity|]. rewrite entry_p_true, IH. reflexivity.
Qed.

Lemma run_props_of (pl : bool) (Q : Prop) (V : view) (e : M unit) data :
  (forall p d,
    (exists v p' t' add, e (mk p data d) = (Done v, mk p' t' (d ++ add)) /\ alike_p pl V ([] ++ add)) \/
    (Q /\ exists s, e (mk p data d) = (Thrown, s))) ->
  (exists d, run_props e data = ExtOk d /\ exists p, d = Props p /\ alike_p pl V p) \/
  (run_props e data = ExtMemory /\ Q).
Proof.
  intros H. unfold run_props, run.
  destruct (H [] []) as [(v & p' & t' & a & E & Ha)|[Hq [s E]]]; unfold mk in E; rewrite E.
  - left. eexists. split; [reflexivity|]. eexists. split; [reflexivity|exact Ha].
  - right. split; [reflexivity|exact Hq].
Qed.

Lemma run_props_never (pl : bool) (P : Prop) (V : view) (e : M unit) data :
  (forall p d,
    (exists v p' t' add, e (mk p data d) = (Done v, mk p' t' (d ++ add)) /\ alike_p pl V ([] ++ add)) \/
    (False /\ exists s, e (mk p data d) = (Thrown, s))) ->
  (exists d, run_props e data = ExtOk d /\ exists p, d = Props p /\ alike_p pl V p) \/ P.
Proof. intros H. destruct (run_props_of _ _ _ _ _ H) as [H1|[_ []]]. left. exact H1. Qed.

Ltac after L C := lazymatch goal with
  | Hb : Forall is_byte ?data, E : _ ?data = Ok (_, _) |- _ =>
    let H := fresh in pose proof (C _ _ _ _ _ _ _ _ _ _ (L any) Hb E) as H; cbv beta in H;
    destruct (run_props_of _ _ _ _ _ H) as [?|?]; [left|right]; assumption
  end.
Ltac never_after L C := lazymatch goal with
  | Hb : Forall is_byte ?data, E : _ ?data = Ok (_, _) |- _ =>
    apply run_props_never; exact (C _ _ _ _ _ _ _ _ _ _ (L any) Hb E)
  end.
Ltac simple L := never_after L @sim_closed.
Ltac simple_open L := never_after L @sim_unclosed.
Ltac throws L := after L @sim_closed.
Ltac throws_open L := after L @sim_unclosed.

Lemma run_attrs_of pl i n data x t : i = {| ibo := LE; inobj := n |} ->
  Forall is_byte data -> rattributes_s pl i data = Ok (x, t) ->
  exists d, run_attrs data = ExtOk d /\ agree_p pl K_ATTR x d.
Proof.
  intros -> Hb E. destruct (attributes_open _ _ _ _ _ E) as (l & t' & E' & ->).
  destruct (sim_attributes n pl data l t' Hb E' I [] []) as [(l' & p & a & Ee & [Hf _])|[[] _]].
  unfold run_attrs, run. unfold mk in Ee. rewrite Ee. eexists. split; [reflexivity|].
  exists (dict_of l'). split; [reflexivity|]. exists l'. split; [reflexivity|]. f_equal. clear -Hf. induction Hf; cbn [map]; congruence.
Qed.

Lemma ext_strict s pl k n f data x t :
  ext_read k = Some f -> Forall is_byte data ->
  strict_read s pl k {| ibo := LE; inobj := n |} data = Ok (x, t) ->
  (exists d, f data = ExtOk d /\ agree_p pl k x d) \/
  (f data = ExtMemory /\ s = false /\ countless k x).
Proof.
  intros Hf Hb E.
  destruct k; try discriminate Hf; cbn [ext_read] in Hf; injection Hf as <-;
    cbn [strict_read class_of C_read C_type countless] in *;
    try (unfold agree_p; cbn [agree_by]).
  all: try (eapply or_introl, run_attrs_of; [reflexivity|eassumption|eassumption]).
  - simple (sim_sequence n pl).
  - simple (sim_sourceclip n pl).
  - simple (sim_trackref n pl).
  - simple (sim_paramclip n pl).
  - simple (sim_filler n pl).
  - simple_open (sim_mediadescriptor n pl).
  - throws_open (sim_diddescriptor n s pl).
  - throws (sim_cdcidescriptor n s pl).
  - throws (sim_effectparamlist n s pl).
  - simple (sim_paramitem n pl).
  - throws_open (sim_trackeffect n s pl).
  - simple (sim_selector n s pl).
  - throws (sim_composition n s pl).
Qed.
