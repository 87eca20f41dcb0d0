(** Properties C42 and C46. *)
From Coq Require Import String ZArith List Bool Lia.
From Verif Require Import Base IoCtx Text Names NamesSpec NamesProofs Dates DateSpec DateProofs RoundTrip HeaderProofs.
Import ListNotations.
Open Scope Z_scope.

(** ** C42 *)

(** A name that can be set is the name one gets back. *)
Theorem C42_set_then_get : forall name id, set_media_kind name = Ok id -> media_kind id = name.
Proof.
  intros [v|] id H; cbn [set_media_kind] in H; [|now injection H as <-].
  repeat match type of H with (if str_eqb ?a ?b then _ else _) = _ =>
    destruct (str_eqb a b) eqn:E; [apply str_eqb_eq in E; injection H as <-; now rewrite E|clear E] end.
  discriminate.
Qed.
Print Assumptions C42_set_then_get.

(** The names that can be set: those of the table; any other raises and sets nothing. *)
Theorem C42_names : forall v id, set_media_kind (Some v) = Ok id <-> exists s, In (id, s) known_kinds /\ v = txt s.
Proof.
  intros v id. split.
  - intros H. cbn [set_media_kind] in H.
    repeat match type of H with (if str_eqb ?a ?b then _ else _) = _ =>
      destruct (str_eqb a b) eqn:E; [apply str_eqb_eq in E; injection H as <-; subst v; eexists; split; [|reflexivity]; cbn; tauto|clear E] end.
    discriminate.
  - intros (s & I & ->). cbn [In known_kinds] in I. repeat destruct I as [I|I]; try contradiction; injection I as <- <-; reflexivity.
Qed.
Print Assumptions C42_names.

Theorem C42_unknown_name : forall v, (forall id s, In (id, s) known_kinds -> v <> txt s) -> set_media_kind (Some v) = Err ValueErr.
Proof.
  intros v H. cbn [set_media_kind].
  repeat match goal with |- (if str_eqb ?a (txt ?s) then Ok ?k else _) = _ =>
    destruct (str_eqb a (txt s)) eqn:E; [exfalso; apply str_eqb_eq in E; apply (H k s); [cbn; tauto|exact E]|clear E] end.
  reflexivity.
Qed.
Print Assumptions C42_unknown_name.

(** Different codes, known or not, have different names. *)
Theorem C42_codes_one_to_one : forall a b, media_kind a = media_kind b -> a = b.
Proof.
  intros a b H.
  destruct (kind_cases a) as [[A ->]|[(s & Ia & A)|(A & _ & _)]];
    destruct (kind_cases b) as [[B ->]|[(t & Ib & B)|(B & _ & _)]]; rewrite ?A, ?B in H; try discriminate; try reflexivity.
  - assert (txt s = txt t) as E by congruence. apply txt_inj in E. subst t. eapply kinds_distinct; eauto.
  - exfalso. eapply (unknown_kind (percent_d b)); [exact Ia|congruence].
  - exfalso. eapply (unknown_kind (percent_d a)); [exact Ib|congruence].
  - apply percent_d_inj. apply (app_inv_head (txt "unknown")). congruence.
Qed.
Print Assumptions C42_codes_one_to_one.

(** The name of a code without a name of its own cannot be set. *)
Theorem C42_unknown_code : forall id, id <> 0 -> ~ In id (map fst known_kinds) ->
  exists name, media_kind id = Some name /\ set_media_kind (Some name) = Err ValueErr.
Proof.
  intros id N K. destruct (kind_cases id) as [[_ E]|[(s & I & _)|(E & _ & _)]].
  - contradiction.
  - exfalso. apply K. now apply (in_map fst) in I.
  - eexists. split; [exact E|]. apply C42_unknown_name. intros k s I. eapply unknown_kind; eauto.
Qed.
Print Assumptions C42_unknown_code.

Example C42_example : media_kind 2 = Some (txt "sound") /\ set_media_kind (Some (txt "sound")) = Ok 2 /\
  media_kind (-12) = Some (txt "unknown-12") /\ set_media_kind (Some (txt "Sound")) = Err ValueErr.
Proof. repeat split. Qed.

Theorem C42_kinds : forall id s, In (id, s) known_kinds -> media_kind id = Some (txt s).
Proof. intros id s I. cbn [In known_kinds] in I. repeat destruct I as [I|I]; try contradiction; injection I as <- <-; reflexivity. Qed.
Print Assumptions C42_kinds.

(** Mob types: what a new mob is given is what it says it is, and its name is that type whatever
    name was passed; a text that is no type raises. *)
Theorem C42_mob_types : forall name type n id, init_mob name (AText type) = Ok (n, id) ->
  mob_type id = Ok type /\ n = AText type.
Proof.
  intros name type n id H. unfold init_mob in H.
  repeat match type of H with (if str_eqb ?a ?b then _ else _) = _ =>
    destruct (str_eqb a b) eqn:E; [apply str_eqb_eq in E; injection H as <- <-; subst type; split; reflexivity|clear E] end.
  discriminate.
Qed.
Print Assumptions C42_mob_types.

Theorem C42_mob_type_names : forall id s, mob_type id = Ok (txt s) <-> In (id, s) known_mobs.
Proof.
  intros id s. split.
  - intros H. unfold mob_type in H. cbn [In known_mobs].
    destruct (Z.eqb_spec id 1) as [->|_]; [apply Ok_inj, txt_inj in H; subst s; tauto|].
    destruct (Z.eqb_spec id 2) as [->|_]; [apply Ok_inj, txt_inj in H; subst s; tauto|].
    destruct (Z.eqb_spec id 3) as [->|_]; [apply Ok_inj, txt_inj in H; subst s; tauto|].
    discriminate H.
  - intros I. cbn [In known_mobs] in I. repeat destruct I as [I|I]; try contradiction; injection I as <- <-; reflexivity.
Qed.
Print Assumptions C42_mob_type_names.

(** A number passed as the type is taken without an error and makes a master mob. *)
Theorem C42_mob_type_number_refuted : exists n, forall name, n <> 2 /\ init_mob name (ANum n) = Ok (ANum n, 2).
Proof. exists 1. intros name. split; [discriminate|reflexivity]. Qed.
Print Assumptions C42_mob_type_number_refuted.

Theorem C42_mob_types_one_to_one : forall a b s, mob_type a = Ok s -> mob_type b = Ok s -> a = b.
Proof.
  intros a b s A B. unfold mob_type in *.
  repeat match type of A with (if ?x =? ?y then _ else _) = _ => destruct (Z.eqb_spec x y) as [->|?] end; try discriminate;
  repeat match type of B with (if ?x =? ?y then _ else _) = _ => destruct (Z.eqb_spec x y) as [->|?] end; try discriminate;
  try reflexivity; rewrite <- A in B; vm_compute in B; discriminate.
Qed.
Print Assumptions C42_mob_types_one_to_one.

Theorem C42_mob_type_codes : forall id s, mob_type id = Ok s -> forall name, init_mob name (AText s) = Ok (AText s, id).
Proof.
  intros id s H name. unfold mob_type in H.
  repeat match type of H with (if ?x =? ?y then _ else _) = _ => destruct (Z.eqb_spec x y) as [->|?] end; try discriminate;
    injection H as <-; reflexivity.
Qed.
Print Assumptions C42_mob_type_codes.

(** Usages: the named ones have names of their own; the others share one. *)
Theorem C42_usages : forall a b, usage a = usage b -> usage a <> Some (txt "unknown") -> a = b.
Proof.
  intros a b H N. destruct (usage_cases a) as [(s & Ia & A)|A]; [|contradiction].
  destruct (usage_cases b) as [(t & Ib & B)|B]; [|congruence]. rewrite A, B in H. apply (usages_distinct a b s t Ia Ib).
  destruct s as [s|], t as [t|]; cbn [option_map] in H; try discriminate; [|reflexivity].
  f_equal. apply txt_inj. congruence.
Qed.
Print Assumptions C42_usages.

Theorem C42_usage_names : forall id s, In (id, s) known_usages -> usage id = option_map txt s.
Proof. intros id s I. cbn [In known_usages] in I. repeat destruct I as [I|I]; try contradiction; injection I as <- <-; reflexivity. Qed.
Print Assumptions C42_usage_names.

Theorem C42_usages_refuted : exists a b, a <> b /\ usage a = usage b.
Proof. exists 8, 10. split; [discriminate|reflexivity]. Qed.
Print Assumptions C42_usages_refuted.

(** ** C46 *)

(** A date read from a file and written again gives the same bytes if its local time is unambiguous. *)
Theorem C46_read_then_write : forall z bo b rest t d, mktime_right z ->
  ru32 bo (b ++ rest) = Ok (t, rest) -> rdatetime z bo (b ++ rest) = Ok (d, rest) -> length b = 4%nat -> Forall is_byte b ->
  unambiguous z t -> wdatetime z bo d = Ok b.
Proof.
  intros z bo b rest t d M R D L B U. unfold rdatetime, bind, ret in D. rewrite R in D. injection D as <-.
  unfold wdatetime. rewrite (U _ (M t)). unfold ru32, runsigned, bind, ret in R. rewrite take_app in R by exact L.
  injection R as <-. unfold wu32. rewrite wunsigned_in.
  - f_equal. rewrite <- L. now apply enc_dec.
  - rewrite <- L. apply dec_range. exact B.
Qed.
Print Assumptions C46_read_then_write.

(** In a zone of one offset that is every date. *)
Theorem C46_fixed_offset : forall off z bo t, (forall u, z_off z u = off) -> mktime_right z ->
  wdatetime z bo (from_timestamp z t) = wu32 bo t.
Proof.
  intros off z bo t F M. unfold wdatetime. f_equal. pose proof (M t) as E. cbv zeta in E. unfold from_timestamp in *. rewrite !F in *. lia.
Qed.
Print Assumptions C46_fixed_offset.

(** In a zone whose clock shows some time twice, one of the two instants does not survive. *)
Theorem C46_clock_set_back : forall z bo t u, 0 <= t < 2 ^ 32 -> 0 <= u < 2 ^ 32 -> t <> u ->
  from_timestamp z t = from_timestamp z u ->
  exists v, (v = t \/ v = u) /\ wdatetime z bo (from_timestamp z v) <> wu32 bo v.
Proof.
  intros z bo t u Ht Hu N E.
  assert (forall v, (v = t \/ v = u) -> wdatetime z bo (from_timestamp z v) = wu32 bo v -> to_timestamp z (from_timestamp z v) = v) as K.
  { intros v V W. unfold wdatetime, wu32 in W.
    assert (0 <= v < pow256 4) as Hv by (change (pow256 4) with (2 ^ 32); destruct V; subst v; assumption).
    rewrite (wunsigned_in bo 4 v Hv) in W. apply wunsigned_ok in W as [W1 W2].
    transitivity (dec bo (enc bo 4 v)); [|now apply dec_enc_small]. rewrite W2. symmetry. now apply dec_enc_small. }
  destruct (Z.eq_dec (to_timestamp z (from_timestamp z t)) t) as [T|T].
  - exists u. split; [now right|]. intros W. apply K in W; [|now right]. rewrite <- E, T in W. contradiction.
  - exists t. split; [now left|]. intros W. apply T. apply K; [now left|exact W].
Qed.
Print Assumptions C46_clock_set_back.

(** The local time itself always survives: a date written by a save is read back as that date. *)
Theorem C46_write_then_read : forall z bo t b rest, mktime_right z ->
  wdatetime z bo (from_timestamp z t) = Ok b -> rdatetime z bo (b ++ rest) = Ok (from_timestamp z t, rest).
Proof.
  intros z bo t b rest M W. unfold wdatetime, wu32 in W. apply wunsigned_ok in W as [W ->].
  unfold rdatetime, bind, ret, ru32. rewrite runsigned_enc by exact W. now rewrite (M t).
Qed.
Print Assumptions C46_write_then_read.

Example C46_example :
  mktime_right autumn /\ unambiguous autumn 5 /\
  rdatetime autumn LE [5; 0; 0; 0; 9] = Ok (7205, [9]) /\ wdatetime autumn LE 7205 = Ok [5; 0; 0; 0] /\
  from_timestamp autumn 999999000 = from_timestamp autumn (999999000 + 3600) /\
  wdatetime autumn LE (from_timestamp autumn 999999000) = wu32 LE (999999000 + 3600).
Proof.
  split; [|split; [|repeat split]].
  - intros t. unfold from_timestamp, to_timestamp, autumn, z_off, z_mk. cbv zeta.
    repeat match goal with |- context [?a <? ?b] => destruct (Z.ltb_spec a b) end; lia.
  - intros u. unfold from_timestamp, autumn, z_off.
    repeat match goal with |- context [?a <? ?b] => destruct (Z.ltb_spec a b) end; lia.
Qed.

(** ** C52 *)

(** The calendar the time of the last save is printed with starts on 1 January 1970 and goes on
    by the rule of the Gregorian calendar; from day 0 on there is no other such calendar. *)
Theorem C52_calendar : calendar civil /\ forall c n, calendar c -> 0 <= n -> c n = civil n.
Proof. split; [apply civil_calendar|]. intros. now apply calendar_unique. Qed.
Print Assumptions C52_calendar.

(** For the years 1000 to 9999 the text is the year, month, day, hour, minute and second as
    numbers of fixed width, and from them the clock reading is the second it was. *)
Theorem C52_text : forall c d y m day, calendar c -> 0 <= d -> c (d / 86400) = (y, m, day) -> y <= 9999 ->
  exists ty tm td th tmin ts,
    save_text d = ty ++ [47] ++ tm ++ [47] ++ td ++ [32] ++ th ++ [58] ++ tmin ++ [58] ++ ts /\
    map (@length Z) [ty; tm; td; th; tmin; ts] = [4; 2; 2; 2; 2; 2]%nat /\
    number 0 ty = y /\ number 0 tm = m /\ number 0 td = day /\
    d mod 86400 = 3600 * number 0 th + 60 * number 0 tmin + number 0 ts /\
    0 <= number 0 tmin < 60 /\ 0 <= number 0 ts < 60.
Proof.
  intros c d y m day C D E Y. assert (0 <= d / 86400) as P by (apply Z.div_pos; lia).
  rewrite (calendar_unique c _ C P) in E. unfold save_text. rewrite E. cbv zeta.
  destruct (civil_range (d / 86400) y m day P E) as (Hy & Hm & Hd).
  pose proof (Z.mod_pos_bound d 86400). set (s := d mod 86400) in *. clearbody s.
  assert (0 <= s / 3600 < 100) as H1 by (split; [apply Z.div_pos; lia|apply Z.div_lt_upper_bound; lia]).
  pose proof (Z.mod_pos_bound (s / 60) 60). pose proof (Z.mod_pos_bound s 60).
  do 6 eexists. split; [reflexivity|]. split; [cbn [map]; now rewrite !digits_length|].
  rewrite !number_digits by (change (10 ^ Z.of_nat 4) with 10000; change (10 ^ Z.of_nat 2) with 100; lia).
  repeat split; try lia.
  pose proof (Z.div_mod s 60). pose proof (Z.div_mod (s / 60) 60). assert (s / 60 / 60 = s / 3600) by (rewrite Z.div_div by lia; reflexivity). lia.
Qed.
Print Assumptions C52_text.

(** 29 February 2000, 12:34:56. *)
Example C52_example : save_text (11016 * 86400 + 45296) = txt "2000/02/29 12:34:56".
Proof. reflexivity. Qed.
