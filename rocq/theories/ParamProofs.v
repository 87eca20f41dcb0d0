(** Lemmas for C67. *)
From Coq Require Import ZArith String List Bool Lia Sorted.
From Verif Require Import Base Text MobId Components Misc Names NamesProofs Lookups LookupSpec LookupProofs Params ParamSpec.
Import ListNotations.
Open Scope Z_scope.

(** ** Texts of UUIDs *)

Lemma hexlify_app : forall a b, hexlify (a ++ b) = hexlify a ++ hexlify b.
Proof. intros a b. unfold hexlify. apply flat_map_app. Qed.

Lemma hexlify_length : forall b, length (hexlify b) = (2 * length b)%nat.
Proof. induction b as [|x b IH]; [reflexivity|]. unfold hexlify in *. cbn [flat_map app length]. rewrite IH. lia. Qed.

Lemma sixteen : forall u : uuid, length u = 16%nat ->
  u = slice u 0 4 ++ slice u 4 6 ++ slice u 6 8 ++ slice u 8 10 ++ slice u 10 16 /\
  length (slice u 0 4) = 4%nat /\ length (slice u 4 6) = 2%nat /\ length (slice u 6 8) = 2%nat /\
  length (slice u 8 10) = 2%nat /\ length (slice u 10 16) = 6%nat.
Proof.
  intros u H. do 16 (destruct u as [|? u]; [discriminate H|]). destruct u; [|discriminate H].
  split; [reflexivity|]. repeat split.
Qed.

Lemma text_spells : forall u, uuid_wf u -> spells (uuid_text u) u.
Proof.
  intros u [L B]. destruct (sixteen u L) as (E & L1 & L2 & L3 & L4 & L5). unfold spells, uuid_text.
  exists (hexlify (slice u 0 4)), (hexlify (slice u 4 6)), (hexlify (slice u 6 8)), (hexlify (slice u 8 10)),
    (hexlify (slice u 10 16)).
  split; [reflexivity|]. rewrite !hexlify_length, L1, L2, L3, L4, L5. do 5 (split; [reflexivity|]).
  rewrite <- !hexlify_app, <- E. split; [now apply hexlify_digits|now apply unhex_hexlify].
Qed.

Lemma app_same : forall {A} (a a' b b' : list A), length a = length a' -> a ++ b = a' ++ b' -> a = a' /\ b = b'.
Proof.
  intros A a. induction a as [|x a IH]; intros [|x' a'] b b' L E; try discriminate L; [now split|].
  cbn [app] in E. injection E as -> E. destruct (IH a' b b') as [-> ->]; [now injection L|exact E|now split].
Qed.

Lemma spells_one : forall s u u', spells s u -> spells s u' -> u = u'.
Proof.
  intros s u u' (a & b & c & d & e & -> & L1 & L2 & L3 & L4 & L5 & _ & <-)
    (a' & b' & c' & d' & e' & E & M1 & M2 & M3 & M4 & M5 & _ & <-).
  apply app_same in E as [-> E]; [|congruence]. cbn [app] in E. injection E as E.
  apply app_same in E as [-> E]; [|congruence]. injection E as E.
  apply app_same in E as [-> E]; [|congruence]. injection E as E.
  apply app_same in E as [-> E]; [|congruence]. injection E as ->. reflexivity.
Qed.

Lemma spells_dash : forall s u, spells s u -> nth 8 s 0 = 45.
Proof.
  intros s u (a & b & c & d & e & -> & L1 & _). rewrite app_nth2 by lia. rewrite L1. reflexivity.
Qed.

Lemma digit_hex : forall x, 48 <= x <= 57 \/ 97 <= x <= 102 ->
  0 <= digit_value x < 16 /\ hex_digit (digit_value x) = x.
Proof.
  intros x H. unfold digit_value, hex_digit.
  repeat match goal with |- context [?a <? ?b] => destruct (Z.ltb_spec a b)
    | |- context [?a <=? ?b] => destruct (Z.leb_spec a b) end; cbn [andb]; lia.
Qed.

Lemma hexlify_unhex : forall n s, length s = (2 * n)%nat -> Forall (fun x => 48 <= x <= 57 \/ 97 <= x <= 102) s ->
  hexlify (unhex s) = s /\ length (unhex s) = n /\ Forall is_byte (unhex s).
Proof.
  induction n as [|n IH]; intros s L F.
  - destruct s; [|discriminate L]. split; [reflexivity|]. split; [reflexivity|constructor].
  - destruct s as [|x [|y s]]; try (cbn [length] in L; lia).
    inversion F as [|? ? Hx F1]; subst. inversion F1 as [|? ? Hy F2]; subst.
    destruct (IH s) as (E & Ln & B); [cbn [length] in L; lia|exact F2|].
    apply digit_hex in Hx as [Bx Hx]. apply digit_hex in Hy as [By Hy].
    cbn [unhex]. unfold hexlify. cbn [flat_map app]. fold (hexlify (unhex s)).
    rewrite E. replace ((16 * digit_value x + digit_value y) / 16) with (digit_value x)
      by (apply Z.div_unique with (digit_value y); lia).
    replace ((16 * digit_value x + digit_value y) mod 16) with (digit_value y)
      by (apply Z.mod_unique with (digit_value x); lia).
    rewrite Hx, Hy. split; [reflexivity|]. split; [cbn [length]; now rewrite Ln|].
    constructor; [unfold is_byte; lia|exact B].
Qed.

(** ** The table *)

Definition key_uuid (k : string) : uuid := unhex (filter (fun x => negb (x =? 45)) (txt k)).

Definition byte_b (x : Z) : bool := (0 <=? x) && (x <? 256).

Definition entry_ok (e : string * string) : bool :=
  str_eqb (uuid_text (key_uuid (fst e))) (txt (fst e)) && (length (key_uuid (fst e)) =? 16)%nat &&
  forallb byte_b (key_uuid (fst e)) && negb (nth 8 (txt (snd e)) 0 =? 45).

(** The keys are in ascending order, read as numbers. *)
Definition key_number (k : string) : Z := fold_left (fun n x => 256 * n + x) (txt k) 0.

Fixpoint above (n : Z) (l : list (string * string)) : bool :=
  match l with
  | [] => true
  | e :: l' => (n <? key_number (fst e)) && above (key_number (fst e)) l'
  end.

Lemma entries_ok : forallb entry_ok parameter_uuids = true.
Proof. vm_compute. reflexivity. Qed.
Lemma entries_ascending : above 0 parameter_uuids = true.
Proof. vm_compute. reflexivity. Qed.

Lemma entry_good : forall k n, In (k, n) parameter_uuids ->
  uuid_wf (key_uuid k) /\ uuid_text (key_uuid k) = txt k /\ nth 8 (txt n) 0 <> 45.
Proof.
  intros k n H. pose proof entries_ok as G. rewrite forallb_forall in G. apply G in H.
  unfold entry_ok in H. cbn [fst snd] in H. rewrite !andb_true_iff in H. destruct H as [[[H1 H2] H3] H4].
  apply str_eqb_eq in H1. apply Nat.eqb_eq in H2. split.
  - split; [exact H2|]. apply Forall_forall. intros x Hx. rewrite forallb_forall in H3. apply H3 in Hx.
    unfold byte_b in Hx. unfold is_byte. lia.
  - split; [exact H1|]. destruct (Z.eqb_spec (nth 8 (txt n) 0) 45); [discriminate H4|assumption].
Qed.

Lemma above_all : forall l n, above n l = true -> forall k m, In (k, m) l -> n < key_number k.
Proof.
  induction l as [|[k' m'] l IH]; intros n H k m I; [destruct I|]. cbn [above fst] in H.
  apply andb_true_iff in H as [H1 H2]. destruct I as [I|I]; [injection I as <- <-; lia|].
  specialize (IH _ H2 k m I). lia.
Qed.

Lemma one_name : forall l n, above n l = true -> forall k m m', In (k, m) l -> In (k, m') l -> m = m'.
Proof.
  induction l as [|[k' x] l IH]; intros n H k m m' I I'; [destruct I|]. cbn [above fst] in H.
  apply andb_true_iff in H as [H1 H2].
  destruct I as [I|I], I' as [I'|I'].
  - congruence.
  - injection I as -> ->. apply (above_all l _ H2) in I'. lia.
  - injection I' as -> ->. apply (above_all l _ H2) in I. lia.
  - exact (IH _ H2 k m m' I I').
Qed.

Lemma table_get_some : forall l k n, table_get l k = Some n -> entry l k n.
Proof.
  induction l as [|[k' n'] l IH]; intros k n H; [discriminate H|]. cbn [table_get] in H.
  destruct (str_eqb (txt k') k) eqn:E.
  - injection H as <-. apply str_eqb_eq in E. exists k', n'. split; [now left|now split].
  - destruct (IH k n H) as (a & b & I & Ea & Eb). exists a, b. split; [now right|now split].
Qed.

Lemma table_get_none : forall l k, table_get l k = None -> forall n, ~ entry l k n.
Proof.
  induction l as [|[k' n'] l IH]; intros k H n (a & b & I & -> & ->); [destruct I|]. cbn [table_get] in H.
  destruct (str_eqb (txt k') (txt a)) eqn:E; [discriminate H|]. destruct I as [I|I].
  - injection I as <- <-. assert (str_eqb (txt k') (txt k') = true) by now apply str_eqb_eq. congruence.
  - apply (IH _ H (txt b)). exists a, b. auto.
Qed.

Lemma table_one : forall k n n', entry parameter_uuids k n -> entry parameter_uuids k n' -> n = n'.
Proof.
  intros k n n' (a & b & I & -> & ->) (a' & b' & I' & E & ->). apply txt_inj in E as <-.
  f_equal. exact (one_name _ _ entries_ascending a b b' I I').
Qed.

Lemma name_of : forall o,
  (entry parameter_uuids (uuid_text (prit_uuid o)) (parameter_name o)) \/
  ((forall n, ~ entry parameter_uuids (uuid_text (prit_uuid o)) n) /\ parameter_name o = uuid_text (prit_uuid o)).
Proof.
  intros o. unfold parameter_name. destruct (table_get parameter_uuids (uuid_text (prit_uuid o))) as [n|] eqn:E.
  - left. now apply table_get_some.
  - right. split; [now apply table_get_none|reflexivity].
Qed.

Lemma wf_b : forall u : uuid, ((length u =? 16)%nat && forallb byte_b u) = true -> uuid_wf u.
Proof.
  intros u H. apply andb_true_iff in H as [L B]. split; [now apply Nat.eqb_eq|]. apply Forall_forall. intros x Hx.
  rewrite forallb_forall in B. apply B in Hx. unfold byte_b in Hx. unfold is_byte. lia.
Qed.

(** The text that spells a UUID is [uuid_text]. *)
Lemma spells_text : forall s u, uuid_wf u -> spells s u -> s = uuid_text u.
Proof.
  intros s u W (a & b & c & d & e & -> & L1 & L2 & L3 & L4 & L5 & F & <-).
  destruct (hexlify_unhex 16 (a ++ b ++ c ++ d ++ e)) as (E & L & _);
    [rewrite !app_length; lia|exact F|].
  pose proof (text_spells _ W) as T. set (u := unhex (a ++ b ++ c ++ d ++ e)) in *.
  destruct (sixteen u L) as (Eu & M1 & M2 & M3 & M4 & M5). unfold uuid_text.
  rewrite Eu in E. rewrite !hexlify_app in E.
  apply app_same in E as [-> E]; [|rewrite hexlify_length; lia].
  apply app_same in E as [-> E]; [|rewrite hexlify_length; lia].
  apply app_same in E as [-> E]; [|rewrite hexlify_length; lia].
  apply app_same in E as [-> ->]; [|rewrite hexlify_length; lia]. reflexivity.
Qed.

(** The sample parameter with another UUID. *)
Definition with_uuid (u : uuid) : parameter_item := {|
  prit_uuid := u;
  prit_value_type := 2;
  prit_value := CPDouble 4614253070214989087;
  prit_name := [71; 233; 103];
  prit_enable := true;
  prit_control_track := 76;
  prit_contribs_to_sig := Some true |}.
