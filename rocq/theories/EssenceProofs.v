(** Round trips of the classes of Essence.v. *)
From Coq Require Import ZArith List Bool Lia.
From Verif Require Import Base IoCtx Text Exp10 MobId ClassTac Essence.
Import ListNotations.
Open Scope Z_scope.

#[export] Hint Unfold media_descriptor_ext aifc_descriptor_ext pcma_descriptor_ext
  mpga_descriptor_ext did_descriptor_ext cdci_descriptor_ext jped_descriptor_ext
  rgba_descriptor_ext : cls.

Lemma rt_magic : forall P m, len m = 4 -> rt P (rmagic m) (wbytes m) tt.
Proof.
  intros P m H. unfold rmagic. eapply rt_bind_last; [apply rt_bytes; lia|].
  intros rest. destruct (list_eq_dec Z.eq_dec m m); [reflexivity|contradiction].
Qed.

Lemma rt_riff : forall P, rt P (rmagic riff) (wbytes riff) tt.
Proof. intros. now apply rt_magic. Qed.
Lemma rt_form : forall P, rt P (rmagic form) (wbytes form) tt.
Proof. intros. now apply rt_magic. Qed.

(** What is written signed and read unsigned. *)
Lemma rt_s64_u64 : forall P bo v, 0 <= v -> rt P (ru64 bo) (ws64 bo v) v.
Proof.
  intros P bo v Hv bs rest H _. unfold ws64, wsigned in H.
  destruct (Z.leb_spec (- (pow256 8 / 2)) v); destruct (Z.ltb_spec v (pow256 8 / 2));
    cbn [andb] in H; try discriminate H.
  apply Ok_inj in H as <-. unfold ru64, runsigned, bind.
  rewrite take_app by apply enc_length.
  assert (v < pow256 8) by (change (pow256 8) with (2 * (pow256 8 / 2)); lia).
  unfold ret. rewrite dec_enc, !Z.mod_mod, Z.mod_small by (pose proof (pow256_pos 8); lia).
  reflexivity.
Qed.

Section Classes.
Context (i : ictx) (c : octx) (Hc : compat i c).

Hint Resolve rt_riff rt_form rt_s64_u64 : rt.

Lemma rt_media_descriptor_base : forall o, media_descriptor_ok o ->
  rt endr (rmedia_descriptor_base i) (wmedia_descriptor_base c o)
    (media_descriptor_map (reff c) o).
Proof.
  rt_start. unfold media_descriptor_ok in *. use_ok.
  unfold rmedia_descriptor_base, wmedia_descriptor_base. rt_class.
Qed.
Hint Resolve rt_media_descriptor_base : rt.

Lemma rt_media_descriptor : forall P o, media_descriptor_ok o ->
  rt P (rmedia_descriptor i) (wmedia_descriptor c o) (media_descriptor_map (reff c) o).
Proof. rt_start. unfold rmedia_descriptor, wmedia_descriptor. rt_class. Qed.

Lemma rt_tape_descriptor : forall P o, tape_descriptor_ok o ->
  rt P (rtape_descriptor i) (wtape_descriptor c o) (tape_descriptor_map (reff c) o).
Proof.
  rt_start. unfold tape_descriptor_ok in *. use_ok.
  unfold rtape_descriptor, wtape_descriptor. rt_class.
Qed.

Lemma rt_film_descriptor : forall P o, film_descriptor_ok o ->
  rt P (rfilm_descriptor i) (wfilm_descriptor c o) (film_descriptor_map (reff c) o).
Proof.
  rt_start. unfold film_descriptor_ok in *.
  unfold rfilm_descriptor, wfilm_descriptor. rt_class.
Qed.

Lemma rt_media_file_descriptor_base : forall P o, media_file_descriptor_ok o ->
  rt P (rmedia_file_descriptor_base i) (wmedia_file_descriptor_base c o)
    (media_file_descriptor_map (reff c) o).
Proof.
  rt_start. unfold media_file_descriptor_ok in *. use_ok.
  unfold rmedia_file_descriptor_base, wmedia_file_descriptor_base. rt_class.
Qed.
Hint Resolve rt_media_file_descriptor_base : rt.

Lemma rt_media_file_descriptor : forall P o, media_file_descriptor_ok o ->
  rt P (rmedia_file_descriptor i) (wmedia_file_descriptor c o)
    (media_file_descriptor_map (reff c) o).
Proof. rt_start. unfold rmedia_file_descriptor, wmedia_file_descriptor. rt_class. Qed.

Lemma rt_multi_descriptor : forall P o, multi_descriptor_ok o ->
  rt P (rmulti_descriptor i) (wmulti_descriptor c o) (multi_descriptor_map (reff c) o).
Proof.
  rt_start. unfold multi_descriptor_ok in *. use_ok.
  unfold rmulti_descriptor, wmulti_descriptor. rt_class.
Qed.

Lemma rt_wave_descriptor : forall P o, wave_descriptor_ok o ->
  rt P (rwave_descriptor i) (wwave_descriptor c o) (wave_descriptor_map (reff c) o).
Proof.
  rt_start. unfold wave_descriptor_ok in *. use_ok.
  unfold rwave_descriptor, wwave_descriptor. rt_class.
Qed.

Lemma rt_aifc_descriptor : forall P o, aifc_descriptor_ok o ->
  rt P (raifc_descriptor i) (waifc_descriptor c o) (aifc_descriptor_map (reff c) o).
Proof.
  rt_start. unfold aifc_descriptor_ok in *. use_ok.
  unfold raifc_descriptor, waifc_descriptor. rt_class.
Qed.

Lemma rt_pcma_descriptor : forall P o, pcma_descriptor_ok o ->
  rt P (rpcma_descriptor i) (wpcma_descriptor c o) (pcma_descriptor_map (reff c) o).
Proof.
  rt_start. unfold pcma_descriptor_ok in *. use_ok.
  unfold rpcma_descriptor, wpcma_descriptor. rt_class.
Qed.

Lemma rt_mpga_descriptor : forall P o, mpga_descriptor_ok o ->
  rt P (rmpga_descriptor i) (wmpga_descriptor c o) (mpga_descriptor_map (reff c) o).
Proof.
  rt_start. unfold mpga_descriptor_ok in *. use_ok.
  unfold rmpga_descriptor, wmpga_descriptor. rt_class.
Qed.

(** ** DIDD *)

Lemma rt_point : forall P x y, rt P (rpoint i) (wpoint c x y) (x, y).
Proof. rt_start. unfold rpoint, wpoint. rt_class. Qed.
Hint Resolve rt_point : rt.

Lemma rt_bounds_box : forall P b, rt P (rbounds_box i) (wbounds_box c b) b.
Proof. rt_start. unfold rbounds_box, wbounds_box. destruct b. rt_class. Qed.
Hint Resolve rt_bounds_box : rt.

Lemma rt_line_map : forall P l, rt P (rline_map i) (wline_map c l) l.
Proof.
  rt_start. unfold rline_map, wline_map.
  eapply rt_bind with (Q := anyr); [rt_elem| |intros; exact I]. cbv beta.
  destruct (Z.eqb_spec (len l * 4) 0) as [E|E].
  - destruct l; [apply rt_ret|unfold len in E; cbn [length] in E; lia].
  - rewrite Z.div_mul by lia. rt_elem.
Qed.
Hint Resolve rt_line_map : rt.

Lemma sect_client_fill : forall s a b,
  (a = None -> b = None) -> set_didd_client_fill_end (set_didd_client_fill_start s None) None = s ->
  sect (did_descriptor_ext i) s (wclient_fill c a b)
    (set_didd_client_fill_end (set_didd_client_fill_start s a) b).
Proof.
  rt_start. unfold wclient_fill. destruct a as [a|].
  - apply sect_ext. destruct b as [b|].
    + autounfold with cls. cbv beta iota delta [Z.eqb Pos.eqb]. rt_go.
    + rt_never.
  - rewrite H by reflexivity. now apply sect_nil.
Qed.

Lemma sect_boxes : forall s a b d,
  same_presence a b -> same_presence a d ->
  set_didd_source_box (set_didd_essence_box (set_didd_valid_box s None) None) None = s ->
  sect (did_descriptor_ext i) s (wboxes c a b d)
    (set_didd_source_box (set_didd_essence_box (set_didd_valid_box s a) b) d).
Proof.
  rt_start. unfold wboxes, same_presence in *. destruct a as [a|].
  - destruct b as [b|]; [|destruct H as [_ H]; discriminate (H eq_refl)].
    destruct d as [d|]; [|destruct H0 as [_ H0]; discriminate (H0 eq_refl)].
    apply sect_ext. autounfold with cls. cbv beta iota delta [Z.eqb Pos.eqb]. rt_go.
  - rewrite (proj1 H eq_refl), (proj1 H0 eq_refl). now apply sect_nil.
Qed.

Lemma sect_framing : forall s a b,
  same_presence a b -> set_didd_reformatting_option (set_didd_framing_box s None) None = s ->
  sect (did_descriptor_ext i) s (wframing c a b)
    (set_didd_reformatting_option (set_didd_framing_box s a) b).
Proof.
  rt_start. unfold wframing, same_presence in *. destruct a as [a|].
  - destruct b as [b|]; [|destruct H as [_ H]; discriminate (H eq_refl)].
    apply sect_ext. autounfold with cls. cbv beta iota delta [Z.eqb Pos.eqb]. rt_go.
  - rewrite (proj1 H eq_refl). now apply sect_nil.
Qed.

Lemma sect_color : forall s a b,
  same_presence a b -> opt_ok uuid_wf a -> opt_ok uuid_wf b ->
  set_didd_coding_equations (set_didd_color_primaries s None) None = s ->
  sect (did_descriptor_ext i) s (wcolor c a b)
    (set_didd_coding_equations (set_didd_color_primaries s a) b).
Proof.
  rt_start. unfold wcolor, same_presence in *. destruct a as [a|].
  - destruct b as [b|]; [|destruct H as [_ H]; discriminate (H eq_refl)].
    cbn [opt_ok] in *.
    apply sect_ext. autounfold with cls. cbv beta iota delta [Z.eqb Pos.eqb]. rt_go.
  - rewrite (proj1 H eq_refl). now apply sect_nil.
Qed.
Hint Resolve sect_client_fill sect_boxes sect_framing sect_color : sect.
Hint Extern 1 (_ = _) => reflexivity : sect.

Ltac sec_norm ::=
  cbv beta delta [
    set_didd_frame_index_byte_order set_didd_frame_sample_size set_didd_first_frame_offset
    set_didd_client_fill_start set_didd_client_fill_end set_didd_offset_to_rle_frame_index
    set_didd_frame_start_offset set_didd_valid_box set_didd_essence_box
    set_didd_source_box set_didd_framing_box set_didd_reformatting_option
    set_didd_transfer_characteristic set_didd_color_primaries set_didd_coding_equations
    set_didd_essence_compression set_didd_essence_element_size_kind
    set_didd_frame_checked_with_mapper ];
  cbn [
    didd_file didd_stored_height didd_stored_width didd_sampled_height didd_sampled_width
    didd_sampled_x_offset didd_sampled_y_offset didd_display_height didd_display_width
    didd_display_x_offset didd_display_y_offset didd_frame_layout didd_aspect_num
    didd_aspect_den didd_line_map didd_alpha_transparency didd_uniformness
    didd_did_image_size didd_next_did_desc didd_compress_method didd_resolution_id
    didd_image_alignment_factor didd_frame_index_byte_order didd_frame_sample_size
    didd_first_frame_offset didd_client_fill_start didd_client_fill_end
    didd_offset_to_rle_frame_index didd_frame_start_offset didd_valid_box didd_essence_box
    didd_source_box didd_framing_box didd_reformatting_option didd_transfer_characteristic
    didd_color_primaries didd_coding_equations didd_essence_compression
    didd_essence_element_size_kind didd_frame_checked_with_mapper ].

Lemma rt_did_descriptor_base : forall o, did_descriptor_ok o ->
  rt endr (rdid_descriptor_base i) (wdid_descriptor_base c o) (did_descriptor_map (reff c) o).
Proof.
  rt_start. unfold did_descriptor_ok in *. use_ok.
  unfold rdid_descriptor_base, wdid_descriptor_base. rt_class.
Qed.
Hint Resolve rt_did_descriptor_base : rt.
Ltac sec_norm ::= idtac.

Lemma rt_did_descriptor : forall P o, did_descriptor_ok o ->
  rt P (rdid_descriptor i) (wdid_descriptor c o) (did_descriptor_map (reff c) o).
Proof. rt_start. unfold rdid_descriptor, wdid_descriptor. rt_class. Qed.

Lemma rt_cdci_descriptor_base : forall o, cdci_descriptor_ok o ->
  rt endr (rcdci_descriptor_base i) (wcdci_descriptor_base c o)
    (cdci_descriptor_map (reff c) o).
Proof.
  rt_start. unfold cdci_descriptor_ok in *. use_ok.
  unfold rcdci_descriptor_base, wcdci_descriptor_base. rt_class.
Qed.
Hint Resolve rt_cdci_descriptor_base : rt.

Lemma rt_cdci_descriptor : forall P o, cdci_descriptor_ok o ->
  rt P (rcdci_descriptor i) (wcdci_descriptor c o) (cdci_descriptor_map (reff c) o).
Proof. rt_start. unfold rcdci_descriptor, wcdci_descriptor. rt_class. Qed.

Lemma rt_mpgi_descriptor : forall P o, mpgi_descriptor_ok o ->
  rt P (rmpgi_descriptor i) (wmpgi_descriptor c o) (mpgi_descriptor_map (reff c) o).
Proof.
  rt_start. unfold mpgi_descriptor_ok in *. use_ok.
  unfold rmpgi_descriptor, wmpgi_descriptor. rt_class.
Qed.

Lemma rt_jped_descriptor : forall P o, jped_descriptor_ok o ->
  rt P (rjped_descriptor i) (wjped_descriptor c o) (jped_descriptor_map (reff c) o).
Proof.
  rt_start. unfold jped_descriptor_ok in *. use_ok.
  unfold rjped_descriptor, wjped_descriptor. rt_class.
Qed.

(** ** RGBA *)

Lemma wlist_u8 : forall A (f : A -> Z) l bs, wlist (fun p => wu8 (f p)) l = Ok bs ->
  bs = map f l.
Proof.
  induction l as [|x l IH]; intros bs H; cbn [wlist map] in *.
  - now apply Ok_inj in H.
  - apply wcat_ok in H as (a & b & Ha & Hb & ->). apply wu8_ok in Ha as [-> _].
    now rewrite (IH b Hb).
Qed.

Lemma combine_fst_snd : forall A B (l : list (A * B)), combine (map fst l) (map snd l) = l.
Proof. induction l as [|[a b] l IH]; cbn; congruence. Qed.

Lemma rt_pixel_layout : forall P l, rt P (rpixel_layout i) (wpixel_layout c l) l.
Proof.
  rt_start. unfold rpixel_layout, wpixel_layout.
  destruct (wlist (fun p => wu8 (fst p)) l) as [pl|] eqn:E1; [|apply rt_err].
  destruct (wlist (fun p => wu8 (snd p)) l) as [ps|] eqn:E2; [|apply rt_err].
  apply wlist_u8 in E1 as ->. apply wlist_u8 in E2 as ->.
  rewrite Hbo.
  eapply rt_bind; [apply (rt_u32 anyr)| |intros; exact I].
  eapply rt_bind; [now apply (rt_bytes anyr)| |intros; exact I].
  eapply rt_bind; [apply (rt_u32 anyr)| |intros; exact I].
  eapply rt_bind_last; [now apply rt_bytes|].
  intros rest. unfold len. rewrite !map_length, Z.eqb_refl. unfold bind, rassert, ret.
  now rewrite combine_fst_snd.
Qed.
Hint Resolve rt_pixel_layout : rt.

Lemma sect_comp_refs : forall s o,
  (rgba_has_comp_min_ref o = None -> rgba_comp_min_ref o = None) ->
  (rgba_has_comp_min_ref o = None -> rgba_has_comp_max_ref o = None) ->
  (rgba_has_comp_min_ref o = None -> rgba_comp_max_ref o = None) ->
  set_rgba_comp_max_ref (set_rgba_has_comp_max_ref (set_rgba_comp_min_ref
    (set_rgba_has_comp_min_ref s None) None) None) None = s ->
  sect (rgba_descriptor_ext i) s (wcomp_refs c o)
    (set_rgba_comp_max_ref (set_rgba_has_comp_max_ref (set_rgba_comp_min_ref
       (set_rgba_has_comp_min_ref s (rgba_has_comp_min_ref o)) (rgba_comp_min_ref o))
       (rgba_has_comp_max_ref o)) (rgba_comp_max_ref o)).
Proof.
  rt_start. unfold wcomp_refs. destruct (rgba_has_comp_min_ref o) as [a|].
  - apply sect_ext.
    destruct (rgba_comp_min_ref o); cbn [wattr_of]; [|rt_never].
    destruct (rgba_has_comp_max_ref o); cbn [wattr_of]; [|rt_never].
    destruct (rgba_comp_max_ref o); cbn [wattr_of]; [|rt_never].
    autounfold with cls. cbv beta iota delta [Z.eqb Pos.eqb]. rt_go.
  - rewrite H, H0, H1 by reflexivity. now apply sect_nil.
Qed.

Lemma sect_alpha_refs : forall s o,
  (rgba_alpha_min_ref o = None -> rgba_alpha_max_ref o = None) ->
  set_rgba_alpha_max_ref (set_rgba_alpha_min_ref s None) None = s ->
  sect (rgba_descriptor_ext i) s (walpha_refs c o)
    (set_rgba_alpha_max_ref (set_rgba_alpha_min_ref s (rgba_alpha_min_ref o))
       (rgba_alpha_max_ref o)).
Proof.
  rt_start. unfold walpha_refs. destruct (rgba_alpha_min_ref o) as [a|].
  - apply sect_ext.
    destruct (rgba_alpha_max_ref o); cbn [wattr_of]; [|rt_never].
    autounfold with cls. cbv beta iota delta [Z.eqb Pos.eqb]. rt_go.
  - rewrite H by reflexivity. now apply sect_nil.
Qed.
Hint Resolve sect_comp_refs sect_alpha_refs : sect.

Lemma rt_rgba_descriptor : forall P o, rgba_descriptor_ok o ->
  rt P (rrgba_descriptor i) (wrgba_descriptor c o) (rgba_descriptor_map (reff c) o).
Proof.
  rt_start. unfold rgba_descriptor_ok in *. use_ok.
  unfold rrgba_descriptor, wrgba_descriptor. rt_class.
Qed.

Lemma rt_data_descriptor : forall P o, data_descriptor_ok o ->
  rt P (rdata_descriptor i) (wdata_descriptor c o) (data_descriptor_map (reff c) o).
Proof.
  rt_start. unfold data_descriptor_ok in *. use_ok.
  unfold rdata_descriptor, wdata_descriptor. rt_class.
Qed.
Hint Resolve rt_data_descriptor : rt.

Lemma rt_anc_data_descriptor : forall P o, anc_data_descriptor_ok o ->
  rt P (ranc_data_descriptor i) (wanc_data_descriptor c o) (anc_data_descriptor_map (reff c) o).
Proof.
  rt_start. unfold anc_data_descriptor_ok in *.
  unfold ranc_data_descriptor, wanc_data_descriptor. rt_class.
Qed.

End Classes.
