(** Round trips of the classes of BinModel.v. *)
From Coq Require Import ZArith List Bool Lia.
From Verif Require Import Base IoCtx Text Exp10 MobId ClassTac BinModel.
Import ListNotations.
Open Scope Z_scope.

#[export] Hint Unfold bin_view_setting_ext : cls.

Section Classes.
Context (i : ictx) (c : octx) (Hc : compat i c).

Lemma rt_setting : forall P o, setting_ok o ->
  rt P (rsetting i) (wsetting c o) (setting_map (reff c) o).
Proof. rt_start. unfold setting_ok in *. use_ok. unfold rsetting, wsetting. rt_class. Qed.
Hint Resolve rt_setting : rt.

Lemma rt_bin_column : forall P o, bin_column_ok o ->
  rt P (rbin_column i) (wbin_column c o) (bin_column_map (reff c) o).
Proof.
  rt_start. unfold bin_column_ok in *. use_ok. unfold rbin_column, wbin_column. rt_class.
Qed.
Hint Resolve rt_bin_column : rt.

(** Four bytes of any two written numbers are skipped. *)
Lemma rt_skip4 : forall P a b, exists v,
  rt P (rs32 (ibo i)) (ws16 (obo c) a +++ ws16 (obo c) b) v.
Proof.
  intros P a b. unfold ws16, wsigned.
  destruct (_ && _); [|exists 0; apply rt_err].
  destruct (_ && _); [|exists 0; intros bs rest H; discriminate H].
  eexists. intros bs rest H _. apply Ok_inj in H as <-.
  unfold rs32, rsigned, bind. rewrite take_app by (rewrite app_length, !enc_length; reflexivity).
  reflexivity.
Qed.

Lemma rt_format_desc : forall P o, format_desc_ok o ->
  rt P (rformat_desc i) (wformat_desc c o) (format_desc_map (reff c) o).
Proof.
  rt_start. unfold rformat_desc, wformat_desc.
  destruct (utf8_encode (fdsc_format_descriptor o)) as [data|] eqn:E; [|rt_never].
  assert (utf8_decode data = Ok (fdsc_format_descriptor o)) as D
    by (unfold utf8_decode; apply (utf8_decode_encode _ _ _ E); lia).
  destruct (rt_skip4 anyr (len data + 2) 0) as [v Hv].
  rewrite Hbo in *.
  eapply rt_bind with (Q := anyr); [rt_prim| |intros; exact I].
  eapply rt_bind with (Q := anyr); [rt_prim| |intros; exact I].
  eapply rt_bind with (Q := anyr); [rt_prim| |intros; exact I].
  eapply rt_bind with (Q := anyr); [rt_prim| |intros; exact I].
  eapply rt_bind with (Q := anyr); [rt_prim| |intros; exact I].
  apply rt_assoc_r.
  eapply rt_bind with (Q := anyr); [exact Hv| |intros; exact I].
  eapply rt_bind_last; [now apply rt_bytes|].
  intros rest. unfold bind, of_result. rewrite D. reflexivity.
Qed.
Hint Resolve rt_format_desc : rt.

Lemma rt_u16_s16 : forall P bo v, v < 32768 -> rt P (rs16 bo) (wu16 bo v) v.
Proof.
  intros P bo v Hv bs rest H _. unfold wu16, wunsigned in H.
  destruct (Z.leb_spec 0 v); destruct (Z.ltb_spec v (pow256 2)); cbn [andb] in H;
    try discriminate H.
  apply Ok_inj in H as <-. unfold rs16, rsigned, bind.
  rewrite take_app by apply enc_length.
  unfold ret. cbv zeta. rewrite dec_enc, Z.mod_small by lia.
  change (pow256 2 / 2) with 32768. destruct (Z.ltb_spec v 32768); [reflexivity|lia].
Qed.
Hint Resolve rt_u16_s16 : rt.

Lemma rt_bin_view_setting : forall P o, bin_view_setting_ok o ->
  rt P (rbin_view_setting i) (wbin_view_setting c o) (bin_view_setting_map (reff c) o).
Proof.
  rt_start. unfold bin_view_setting_ok in *. use_ok.
  unfold rbin_view_setting, wbin_view_setting, wformat_descs. rt_class.
Qed.

Lemma rt_bin_item : forall P o, bin_item_ok o ->
  rt P (rbin_item i) (wbin_item c o) (bin_item_map (reff c) o).
Proof.
  rt_start. unfold rbin_item, wbin_item.
  replace (wu8 (if item_user_placed o then 1 else 0)) with (wbool (item_user_placed o))
    by (unfold wbool; now destruct (item_user_placed o)).
  rt_class.
Qed.
Hint Resolve rt_bin_item : rt.

Lemma rt_sift_item : forall P o, sift_item_ok o ->
  rt P (rsift_item i) (wsift_item c o) (sift_item_map (reff c) o).
Proof.
  rt_start. unfold sift_item_ok in *. use_ok. unfold rsift_item, wsift_item. rt_class.
Qed.
Hint Resolve rt_sift_item : rt.

Lemma rt_sort_column : forall P o, sort_column_ok o ->
  rt P (rsort_column i) (wsort_column c o) (sort_column_map (reff c) o).
Proof.
  rt_start. unfold sort_column_ok in *. use_ok. unfold rsort_column, wsort_column. rt_class.
Qed.
Hint Resolve rt_sort_column : rt.

Lemma wfirst_all : forall A (w : A -> writer) l n, length l = n -> wfirst n w l = wlist w l.
Proof.
  intros A w l n <-. induction l as [|x l IH]; [reflexivity|].
  cbn [length wfirst wlist]. now rewrite IH.
Qed.

Lemma rt_object_count : forall P o,
  rt P (robject_count i (if large_form o then 0x0f else 0x0e)) (wobject_count c o)
    (len (abin_items o)).
Proof.
  rt_start. unfold robject_count, wobject_count. rewrite Hbo.
  destruct (large_form o); cbv beta iota delta [Z.eqb Pos.eqb].
  - apply rt_u32.
  - apply rt_u16.
Qed.
Hint Resolve rt_object_count : rt.

Lemma rt_bin_base : forall P o, bin_ok o ->
  rt P (rbin_base i) (wbin_base c o) (bin_map (reff c) o).
Proof.
  rt_start. unfold bin_ok in *. use_ok. unfold rbin_base, wbin_base.
  rewrite wfirst_all by assumption.
  match goal with H : length _ = 6%nat |- _ => rename H into H6 end.
  assert ((if large_form o then 15 else 14) =? 15 = abin_large_bin o) as Hl.
  { unfold large_form. destruct (abin_large_bin o); [reflexivity|].
    destruct (Z.ltb_spec 65535 (len (abin_items o))); [|reflexivity].
    match goal with H : false = false -> _ |- _ => specialize (H eq_refl); lia end. }
  assert (((if large_form o then 15 else 14) =? 14) || ((if large_form o then 15 else 14) =? 15)
          = true) as Hv by now destruct (large_form o).
  eapply rt_eqv; [rt_go|].
  unfold bin_map. now rewrite <- Hl.
Qed.
Hint Resolve rt_bin_base : rt.

Lemma rt_bin : forall P o, bin_ok o -> rt P (rbin i) (wbin c o) (bin_map (reff c) o).
Proof. rt_start. unfold rbin, wbin. rt_class. Qed.

Lemma rt_bin_first : forall P o, bin_first_ok o ->
  rt P (rbin_first i) (wbin_first c o) (bin_first_map (reff c) o).
Proof.
  rt_start. unfold bin_first_ok in *. use_ok. unfold rbin_first, wbin_first. rt_class.
Qed.

End Classes.
