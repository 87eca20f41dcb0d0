(** C20: settings and bins survive a save.
    [saves] is in Saved.v, the [_fits] conditions in Fits.v, the [_ok] conditions beside the
    classes; the sample objects in Samples.v. *)
From Coq Require Import ZArith List Bool Lia.
From Verif Require Import Base IoCtx Text Exp10 MobId Storable Attributes Components TrackGroups
  Misc Essence BinModel Fits RoundTrip ComponentsProofs TrackGroupsProofs MiscProofs EssenceProofs
  BinProofs FitsProofs MapProofs Saved SavedProofs Samples.
Import ListNotations.
Open Scope Z_scope.

Theorem C20_setting_saved :
  saves rsetting wsetting setting_map setting_refs setting_ok setting_fits
    always.
Proof.
  apply saves_intro.
  - exact rt_setting.
  - intros c o H. apply fit_setting; exact H.
  - intros o H. apply map_id_setting.
  - intros f o. apply refs_map_setting.
Qed.
Print Assumptions C20_setting_saved.

Example C20_setting_case :
  setting_ok sample_setting /\ forall bo, setting_fits (sample_out bo) sample_setting.
Proof.
  assert (setting_ok sample_setting) as H by sample_ok.
  split; [exact H|]. intros bo. apply fit_setting; [exact H|]. destruct bo; vm_compute; eexists; reflexivity.
Qed.

Theorem C20_bin_view_setting_saved :
  saves rbin_view_setting wbin_view_setting bin_view_setting_map bin_view_setting_refs bin_view_setting_ok bin_view_setting_fits
    always.
Proof.
  apply saves_intro.
  - exact rt_bin_view_setting.
  - intros c o H. apply fit_bin_view_setting; exact H.
  - intros o H. apply map_id_bin_view_setting.
  - intros f o. apply refs_map_bin_view_setting.
Qed.
Print Assumptions C20_bin_view_setting_saved.

Example C20_bin_view_setting_case :
  bin_view_setting_ok sample_bin_view_setting /\ forall bo, bin_view_setting_fits (sample_out bo) sample_bin_view_setting.
Proof.
  assert (bin_view_setting_ok sample_bin_view_setting) as H by sample_ok.
  split; [exact H|]. intros bo. apply fit_bin_view_setting; [exact H|]. destruct bo; vm_compute; eexists; reflexivity.
Qed.

Theorem C20_bin_saved :
  saves rbin wbin bin_map bin_refs bin_ok bin_fits
    always.
Proof.
  apply saves_intro.
  - exact rt_bin.
  - intros c o H. apply fit_bin; exact H.
  - intros o H. apply map_id_bin.
  - intros f o. apply refs_map_bin.
Qed.
Print Assumptions C20_bin_saved.

Example C20_bin_case :
  bin_ok sample_bin /\ forall bo, bin_fits (sample_out bo) sample_bin.
Proof.
  assert (bin_ok sample_bin) as H by sample_ok.
  split; [exact H|]. intros bo. apply fit_bin; [exact H|]. destruct bo; vm_compute; eexists; reflexivity.
Qed.

Theorem C20_bin_first_saved :
  saves rbin_first wbin_first bin_first_map bin_first_refs bin_first_ok bin_first_fits
    always.
Proof.
  apply saves_intro.
  - exact rt_bin_first.
  - intros c o H. apply fit_bin_first; exact H.
  - intros o H. apply map_id_bin_first.
  - intros f o. apply refs_map_bin_first.
Qed.
Print Assumptions C20_bin_first_saved.

Example C20_bin_first_case :
  bin_first_ok sample_bin_first /\ forall bo, bin_first_fits (sample_out bo) sample_bin_first.
Proof.
  assert (bin_first_ok sample_bin_first) as H by sample_ok.
  split; [exact H|]. intros bo. apply fit_bin_first; [exact H|]. destruct bo; vm_compute; eexists; reflexivity.
Qed.

(** The bin as a large bin. *)
Definition as_large (o : bin) : bin := {|
  abin_large_bin := true;
  abin_view_setting := abin_view_setting o; abin_uid := abin_uid o; abin_items := abin_items o;
  abin_display_mask := abin_display_mask o; abin_display_mode := abin_display_mode o;
  abin_sifted := abin_sifted o; abin_sifted_settings := abin_sifted_settings o;
  abin_sort_columns := abin_sort_columns o; abin_mac_font := abin_mac_font o;
  abin_mac_font_size := abin_mac_font_size o; abin_mac_image_scale := abin_mac_image_scale o;
  abin_home_rect := abin_home_rect o; abin_background_color := abin_background_color o;
  abin_forground_color := abin_forground_color o; abin_ql_image_scale := abin_ql_image_scale o;
  abin_attributes := abin_attributes o; abin_was_iconic := abin_was_iconic o |}.

(** More than 65535 items: the bin is read back as a large bin, otherwise equal. *)
Theorem C20_large_bin_saved : forall i c o, compat i c -> bin_ok (as_large o) ->
  65535 < len (abin_items o) ->
  (bin_fits c o -> exists bs, wbin c o = Ok bs /\
     forall rest, rbin i (bs ++ rest) = Ok (bin_map (reff c) (as_large o), rest)) /\
  (~ bin_fits c o -> exists e, wbin c o = Err e).
Proof.
  intros i c o Hc Hok Hlen.
  assert (wbin c o = wbin c (as_large o)) as E.
  { unfold wbin, wbin_base, wobject_count, large_form. cbn [as_large abin_large_bin abin_items
      abin_view_setting abin_uid abin_display_mask abin_display_mode abin_sifted
      abin_sifted_settings abin_sort_columns abin_mac_font abin_mac_font_size
      abin_mac_image_scale abin_home_rect abin_background_color abin_forground_color
      abin_ql_image_scale abin_attributes abin_was_iconic].
    assert (65535 <? len (abin_items o) = true) as -> by now apply Z.ltb_lt.
    rewrite !orb_true_r. reflexivity. }
  rewrite E. change (bin_fits c o) with (bin_fits c (as_large o)).
  destruct (fit_bin c (as_large o) Hok) as [H1 H2]. split.
  - intros Hf. destruct (H2 Hf) as [bs Hbs]. exists bs. split; [exact Hbs|].
    intros rest. apply (rt_bin i c Hc anyr (as_large o) Hok); [exact Hbs|exact I].
  - intros Hn. destruct (wbin c (as_large o)) as [bs|e] eqn:E'; [|eauto].
    exfalso. apply Hn, H1. exists bs. reflexivity.
Qed.
Print Assumptions C20_large_bin_saved.

(** A bin of [n] items. *)
Definition big_bin (n : nat) : bin := {|
  abin_large_bin := false;
  abin_view_setting := 3; abin_uid := 4; abin_items := repeat sample_bin_item n;
  abin_display_mask := 1; abin_display_mode := 2; abin_sifted := false;
  abin_sifted_settings := repeat sample_sift_item 6; abin_sort_columns := [sample_sort_column];
  abin_mac_font := 1; abin_mac_font_size := 2; abin_mac_image_scale := 3;
  abin_home_rect := sample_rect; abin_background_color := sample_rgb;
  abin_forground_color := sample_rgb; abin_ql_image_scale := 5;
  abin_attributes := 0; abin_was_iconic := true |}.

Example C20_large_bin_case : forall n, 65535 < Z.of_nat n <= 4294967295 ->
  bin_ok (as_large (big_bin n)) /\ 65535 < len (abin_items (big_bin n)) /\
  forall bo, bin_fits (sample_out bo) (big_bin n).
Proof.
  intros n Hn.
  assert (forall n, Forall bin_item_ok (repeat sample_bin_item n)) as Hi.
  { clear. intros n. induction n; cbn [repeat]; constructor; auto. sample_ok. }
  assert (len (abin_items (big_bin n)) = Z.of_nat n) as Hlen.
  { unfold len. cbn [big_bin abin_items]. now rewrite repeat_length. }
  split; [|split].
  { split; [apply Hi|]. split; [sample_ok|]. split; [sample_ok|]. split; [reflexivity|discriminate]. }
  { rewrite Hlen. lia. }
  intros bo.
  assert (bin_fits (sample_out bo) (big_bin 2)) as Hs.
  { apply fit_bin; [sample_ok|]. destruct bo; vm_compute; eexists; reflexivity. }
  destruct Hs as (A1 & A2 & _ & A4 & A5).
  unfold bin_fits, bin_base_fits, object_count_fits. rewrite Hlen.
  split; [exact A1|]. split; [exact A2|]. split; [lia|]. split; [|exact A5].
  apply Forall_inv in A4. cbn [big_bin abin_items]. clear - A4.
  induction n; cbn [repeat]; constructor; auto.
Qed.

(** Six sift settings are needed: with fewer the writer raises, with more the rest is lost. *)
Theorem C20_sift_settings_refuted : exists o bs o',
  length (abin_sifted_settings o) = 7%nat /\ wbin (sample_out LE) o = Ok bs /\
  rbin (sample_in LE) bs = Ok (o', []) /\ length (abin_sifted_settings o') = 6%nat.
Proof.
  exists {|
  abin_large_bin := false;
  abin_view_setting := 3; abin_uid := 4; abin_items := [];
  abin_display_mask := 1; abin_display_mode := 2; abin_sifted := false;
  abin_sifted_settings := repeat sample_sift_item 7; abin_sort_columns := [];
  abin_mac_font := 1; abin_mac_font_size := 2; abin_mac_image_scale := 3;
  abin_home_rect := sample_rect; abin_background_color := sample_rgb;
  abin_forground_color := sample_rgb; abin_ql_image_scale := 5;
  abin_attributes := 0; abin_was_iconic := true |}.
  eexists. eexists. split; [reflexivity|]. split; [vm_compute; reflexivity|].
  split; [vm_compute; reflexivity|]. reflexivity.
Qed.
Print Assumptions C20_sift_settings_refuted.
