(** What of a file that was opened cannot be saved again. A specification; nothing here is code of
    the repository. *)
From Coq Require Import ZArith List Bool.
From Verif Require Import Base IoCtx Text Exp10 MobId Storable Attributes Components TrackGroups
  Misc Essence BinModel Fits Saved Objects ObjSpec.
Import ListNotations.
Open Scope Z_scope.

(** A rate that has a stored form, and one that reads back as the same rate. *)
Definition steady (x : float64) : Prop :=
  exists m e, exp10_parts x = Ok (m, e) /\ fits_s32 m /\ fits_s16 e /\ exp10_value m e = Ok x.

(** There is room for the text and the two zero bytes the writer puts before it, and the length is
    not the one that stands for a missing text. *)
Definition roomy (s : str) : Prop := utf8_size s < 65533.

(** The conditions beyond being readable, class by class:
    - the decimal rates have to be ones the writer reproduces;
    - a mob ID must have been in the file, where the format allows it to be missing but the writer
      demands it; likewise the UTF-8 name of a bin reference;
    - the halves of the mob ID of an audio suite effect are read unsigned and written signed; so is
      the sub-frame alignment of an MPEG audio descriptor;
    - UTF-8 texts must leave room for the two zero bytes;
    - the number of fields of an MPEG position is written doubled;
    - the text of a format descriptor has 15 bits of length;
    - the three classes whose writers do not write the closing byte cannot be saved at all. *)
Definition keeps_of (k : kind) : C_type (class_of k) -> Prop :=
  match k with
  | K_ATTR => always
  | K_PRLS => always
  | K_TMCS => always
  | K_BVst => fun o => opt_ok (Forall (fun d => utf8_size (fdsc_format_descriptor d) <= 32765)) (bvst_format_descriptors o)
  | K_ABIN => always
  | K_BINF => always
  | K_SEQU => fun o => steady (cpnt_edit_rate (sequ_component o))
  | K_SCLP => fun o => steady (cpnt_edit_rate (clip_component (sclp_clip o))) /\
      sclp_mob_id o <> None
  | K_TCCP => fun o => steady (cpnt_edit_rate (clip_component (tccp_clip o)))
  | K_ECCP => fun o => steady (cpnt_edit_rate (clip_component (eccp_clip o)))
  | K_TRKR => fun o => steady (cpnt_edit_rate (clip_component (trkr_clip o)))
  | K_PRCL => fun o => steady (cpnt_edit_rate (clip_component (prcl_clip o)))
  | K_CTRL => fun o => steady (cpnt_edit_rate (clip_component (ctrl_clip o)))
  | K_FILL => fun o => steady (cpnt_edit_rate (clip_component (fill_clip o)))
  | K_MDES => always
  | K_MDTP => always
  | K_MDFM => always
  | K_MDNG => always
  | K_MDFL => fun o => steady (mdfl_edit_rate o)
  | K_MULD => fun o => steady (mdfl_edit_rate (muld_file o))
  | K_WAVE => fun o => steady (mdfl_edit_rate (wave_file o))
  | K_AIFC => fun o => steady (mdfl_edit_rate (aifc_file o))
  | K_PCMA => fun o => steady (mdfl_edit_rate (pcma_file o)) /\
      steady (pcma_sample_rate o)
  | K_MPGA => fun o => steady (mdfl_edit_rate (mpga_file o)) /\
      steady (mpga_sample_rate o) /\
      opt_ok (fun n => n < 2 ^ 63) (mpga_sub_frame_alignment o)
  | K_DIDD => fun o => steady (mdfl_edit_rate (didd_file o))
  | K_CDCI => fun o => steady (mdfl_edit_rate (didd_file (cdci_did o)))
  | K_MPGI => fun o => steady (mdfl_edit_rate (didd_file (cdci_did (mpgi_cdci o))))
  | K_JPED => fun o => steady (mdfl_edit_rate (didd_file (cdci_did (jped_cdci o))))
  | K_RGBA => fun o => steady (mdfl_edit_rate (didd_file (rgba_did o)))
  | K_DATD => fun o => False
  | K_ANCD => fun o => steady (mdfl_edit_rate (datd_file (ancd_data o)))
  | K_FILE => fun o => opt_ok roomy (file_path_utf8 o) /\
      opt_ok roomy (file_path2_utf8 o)
  | K_WINF => fun o => opt_ok roomy (file_path_utf8 o) /\
      opt_ok roomy (file_path2_utf8 o)
  | K_URLL => always
  | K_GRFX => always
  | K_SHLP => always
  | K_CCFX => always
  | K_FXPS => always
  | K_AVUP => always
  | K_PRIT => always
  | K_MSML => fun o => msml_mob_id o <> None /\
      opt_ok roomy (msml_last_known_volume_utf8 o)
  | K_APOS => fun o => apos_mob_id o <> None
  | K_ABOB => fun o => apos_mob_id (abob_position o) <> None
  | K_DIDP => fun o => apos_mob_id (abob_position (didp_bob o)) <> None
  | K_MPGP => fun o => apos_mob_id (abob_position (didp_bob (mpgp_did o))) <> None /\
      2 * len (mpgp_fields o) < 2 ^ 15
  | K_MCBR => fun o => mcbr_name_utf8 o <> None /\
      opt_ok roomy (mcbr_name_utf8 o)
  | K_MCMR => fun o => mcmr_mob_id o <> None
  | K_TMBC => fun o => mcmr_mob_id (tmbc_mob_ref o) <> None
  | K_TKMN => always
  | K_TKDS => always
  | K_TKPS => always
  | K_TKDA => always
  | K_TKPA => always
  | K_TRKG => fun o => False
  | K_TKFX => fun o => steady (cpnt_edit_rate (trkg_component (tkfx_group o)))
  | K_PVOL => fun o => steady (cpnt_edit_rate (trkg_component (tkfx_group (pvol_effect o))))
  | K_ASPI => fun o => steady (cpnt_edit_rate (trkg_component (tkfx_group (aspi_effect o)))) /\
      opt_ok (fun m => mob_lo m < 2 ^ 31 /\ mob_hi m < 2 ^ 31) (aspi_mob_id o)
  | K_EQMB => fun o => steady (cpnt_edit_rate (trkg_component (tkfx_group (eqmb_effect o))))
  | K_MASK => fun o => steady (cpnt_edit_rate (trkg_component (warp_group (mask_warp o))))
  | K_STRB => fun o => steady (cpnt_edit_rate (trkg_component (warp_group (strb_warp o))))
  | K_SPED => fun o => steady (cpnt_edit_rate (trkg_component (warp_group (sped_warp o))))
  | K_REPT => fun o => steady (cpnt_edit_rate (trkg_component (warp_group (rept_warp o))))
  | K_RSET => fun o => steady (cpnt_edit_rate (trkg_component (rset_group o)))
  | K_TNFX => fun o => steady (cpnt_edit_rate (trkg_component (tnfx_group o)))
  | K_SLCT => fun o => steady (cpnt_edit_rate (trkg_component (slct_group o)))
  | K_CMPO => fun o => steady (cpnt_edit_rate (trkg_component (cmpo_group o))) /\
      cmpo_mob_id o <> None
  end.

(** The same for objects. *)
Definition obj_keeps (o : obj) : Prop := keeps_of (okind o) (oval o).

(** Whatever order the walk takes: it meets the references of each object, and only those. *)
Definition follows (kids : Z -> obj -> list Z) : Prop :=
  forall n o b, In b (kids n o) <-> In b (obj_refs o) /\ b <> 0.

(** The order depends on the object alone, not on the numbers its references happen to have. *)
Definition consistent (kids : Z -> obj -> list Z) : Prop :=
  forall n n' f o, closes (okind o) = true -> (forall r, In r (obj_refs o) -> f r = 0 <-> r = 0) ->
  (forall r r', In r (obj_refs o) -> In r' (obj_refs o) -> f r = f r' -> r = r') ->
  kids n' (obj_map f o) = map f (kids n o).
