(** Model of the readers and writers of src/avb/essence.py. *)
From Coq Require Import ZArith List Bool.
From Verif Require Import Base IoCtx Text Exp10 MobId Storable.
Import ListNotations.
Open Scope Z_scope.

(** ** MediaDescriptor (MDES), essence.py:14-97 *)

(** essence.py:18-26: the properties. *)
Record media_descriptor := {
  mdes_mob_kind : Z;
  mdes_locator : Z;
  mdes_intermediate : bool;
  mdes_physical_media : Z;
  mdes_uuid : option uuid;
  mdes_wchar : option bytes;
  mdes_attributes : option Z }.

(** [media_descriptor] with its references renamed by [f]; essence.py:18-26. *)
Definition media_descriptor_map (f : Z -> Z) (o : media_descriptor) : media_descriptor := {|
  mdes_mob_kind := mdes_mob_kind o;
  mdes_locator := f (mdes_locator o);
  mdes_intermediate := mdes_intermediate o;
  mdes_physical_media := f (mdes_physical_media o);
  mdes_uuid := mdes_uuid o;
  mdes_wchar := mdes_wchar o;
  mdes_attributes := option_map f (mdes_attributes o) |}.

(** The references of [media_descriptor]; essence.py:18-26. *)
Definition media_descriptor_refs (o : media_descriptor) : list Z :=
  [mdes_locator o]
  ++ [mdes_physical_media o]
  ++ (match mdes_attributes o with Some v => [v] | None => [] end).

(** What [media_descriptor] has to satisfy to be stored exactly; essence.py:18-26. *)
Definition media_descriptor_ok (o : media_descriptor) : Prop :=
  opt_ok uuid_wf (mdes_uuid o).

(** [self.uuid = v]; essence.py:50. *)
Definition set_mdes_uuid (o : media_descriptor) (v : option uuid) : media_descriptor := {|
  mdes_mob_kind := mdes_mob_kind o;
  mdes_locator := mdes_locator o;
  mdes_intermediate := mdes_intermediate o;
  mdes_physical_media := mdes_physical_media o;
  mdes_uuid := v;
  mdes_wchar := mdes_wchar o;
  mdes_attributes := mdes_attributes o |}.

(** [self.wchar = v]; essence.py:55. *)
Definition set_mdes_wchar (o : media_descriptor) (v : option bytes) : media_descriptor := {|
  mdes_mob_kind := mdes_mob_kind o;
  mdes_locator := mdes_locator o;
  mdes_intermediate := mdes_intermediate o;
  mdes_physical_media := mdes_physical_media o;
  mdes_uuid := mdes_uuid o;
  mdes_wchar := v;
  mdes_attributes := mdes_attributes o |}.

(** [self.attributes = v]; essence.py:58. *)
Definition set_mdes_attributes (o : media_descriptor) (v : option Z) : media_descriptor := {|
  mdes_mob_kind := mdes_mob_kind o;
  mdes_locator := mdes_locator o;
  mdes_intermediate := mdes_intermediate o;
  mdes_physical_media := mdes_physical_media o;
  mdes_uuid := mdes_uuid o;
  mdes_wchar := mdes_wchar o;
  mdes_attributes := v |}.

(** essence.py:44-60. *)
Definition media_descriptor_ext (i : ictx) (tag : Z) (o : media_descriptor)
  : reader media_descriptor :=
  if tag =? 1 then
    rtag 65 ;;; uuid_len <- rs32 (ibo i) ;; rassert (uuid_len =? 16) ;;;
    v <- rrawuuid (ibo i) ;; ret (set_mdes_uuid o (Some v))
  else if tag =? 2 then
    rtag 65 ;;; size <- rs32 (ibo i) ;; v <- fread size ;; ret (set_mdes_wchar o (Some v))
  else if tag =? 3 then
    rtag 72 ;;; v <- rref i ;; ret (set_mdes_attributes o (Some v))
  else fail ValueErr.

(** essence.py:29-60, without the closing tag that only a plain MDES object has. *)
Definition rmedia_descriptor_base (i : ictx) : reader media_descriptor :=
  rtag 2 ;;; rtag 3 ;;;
  mob_kind <- ru8 ;;
  locator <- rref i ;;
  intermediate <- rbool ;;
  physical_media <- rref i ;;
  iter_ext (media_descriptor_ext i) {| mdes_mob_kind := mob_kind; mdes_locator := locator;
    mdes_intermediate := intermediate; mdes_physical_media := physical_media;
    mdes_uuid := None; mdes_wchar := None; mdes_attributes := None |}.

(** essence.py:65-94. *)
Definition wmedia_descriptor_base (c : octx) (o : media_descriptor) : writer :=
  wu8 2 +++ wu8 3 +++
  wu8 (mdes_mob_kind o) +++
  wref c (mdes_locator o) +++
  wbool (mdes_intermediate o) +++
  wref c (mdes_physical_media o) +++
  wopt (mdes_uuid o) (fun v => wext 1 (wu8 65 +++ ws32 (obo c) 16 +++ wrawuuid (obo c) v)) +++
  wopt (mdes_wchar o) (fun v => wext 2 (wu8 65 +++ ws32 (obo c) (len v) +++ wbytes v)) +++
  wopt (mdes_attributes o) (fun v => wext 3 (wu8 72 +++ wref c v)).

(** essence.py:62-63, 96-97: class MDES itself. *)
Definition rmedia_descriptor (i : ictx) : reader media_descriptor :=
  o <- rmedia_descriptor_base i ;; rtag 3 ;;; ret o.

(** essence.py:65-97 [MediaDescriptor.write]. *)
Definition wmedia_descriptor (c : octx) (o : media_descriptor) : writer :=
  wmedia_descriptor_base c o +++ wu8 3.

(** ** TapeDescriptor (MDTP), essence.py:100-124 *)

(** essence.py:103-105: the properties. *)
Record tape_descriptor := {
  mdtp_media : media_descriptor;
  mdtp_cframe : Z }.

(** [tape_descriptor] with its references renamed by [f]; essence.py:103-105. *)
Definition tape_descriptor_map (f : Z -> Z) (o : tape_descriptor) : tape_descriptor := {|
  mdtp_media := media_descriptor_map f (mdtp_media o);
  mdtp_cframe := mdtp_cframe o |}.

(** The references of [tape_descriptor]; essence.py:103-105. *)
Definition tape_descriptor_refs (o : tape_descriptor) : list Z :=
  media_descriptor_refs (mdtp_media o).

(** What [tape_descriptor] has to satisfy to be stored exactly; essence.py:103-105. *)
Definition tape_descriptor_ok (o : tape_descriptor) : Prop :=
  media_descriptor_ok (mdtp_media o).

(** essence.py:108-115. *)
Definition rtape_descriptor (i : ictx) : reader tape_descriptor :=
  media <- rmedia_descriptor_base i ;;
  rtag 2 ;;; rtag 2 ;;;
  cframe <- rs16 (ibo i) ;;
  rtag 3 ;;;
  ret {| mdtp_media := media; mdtp_cframe := cframe |}.

(** essence.py:117-124. *)
Definition wtape_descriptor (c : octx) (o : tape_descriptor) : writer :=
  wmedia_descriptor_base c (mdtp_media o) +++
  wu8 2 +++ wu8 2 +++
  ws16 (obo c) (mdtp_cframe o) +++
  wu8 3.

(** ** FilmDescriptor (MDFM), essence.py:126-144, and NagraDescriptor (MDNG),
    essence.py:146-164: no properties of their own and the same bytes. *)

(** essence.py:126-144: nothing but the properties of the base class. *)
Definition film_descriptor := media_descriptor.
(** [film_descriptor] with its references renamed by [f]; essence.py:126-144. *)
Definition film_descriptor_map : (Z -> Z) -> film_descriptor -> film_descriptor :=
  media_descriptor_map.
(** The references of [film_descriptor]; essence.py:126-144. *)
Definition film_descriptor_refs : film_descriptor -> list Z := media_descriptor_refs.
(** What [film_descriptor] has to satisfy to be stored exactly; essence.py:126-144. *)
Definition film_descriptor_ok : film_descriptor -> Prop := media_descriptor_ok.

(** essence.py:131-137, 151-157. *)
Definition rfilm_descriptor (i : ictx) : reader film_descriptor :=
  p <- rmedia_descriptor_base i ;; rtag 2 ;;; rtag 1 ;;; rtag 3 ;;; ret p.

(** essence.py:139-144, 159-164. *)
Definition wfilm_descriptor (c : octx) (o : film_descriptor) : writer :=
  wmedia_descriptor_base c o +++ wu8 2 +++ wu8 1 +++ wu8 3.

(** ** MediaFileDescriptor (MDFL), essence.py:166-203 *)

(** essence.py:169-174: the properties. *)
Record media_file_descriptor := {
  mdfl_media : media_descriptor;
  mdfl_edit_rate : float64;
  mdfl_length : Z;
  mdfl_is_omfi : Z;
  mdfl_data_offset : Z }.

(** [media_file_descriptor] with its references renamed by [f]; essence.py:169-174. *)
Definition media_file_descriptor_map (f : Z -> Z) (o : media_file_descriptor)
  : media_file_descriptor := {|
  mdfl_media := media_descriptor_map f (mdfl_media o);
  mdfl_edit_rate := mdfl_edit_rate o;
  mdfl_length := mdfl_length o;
  mdfl_is_omfi := mdfl_is_omfi o;
  mdfl_data_offset := mdfl_data_offset o |}.

(** The references of [media_file_descriptor]; essence.py:169-174. *)
Definition media_file_descriptor_refs (o : media_file_descriptor) : list Z :=
  media_descriptor_refs (mdfl_media o).

(** What [media_file_descriptor] has to satisfy to be stored exactly; essence.py:169-174. *)
Definition media_file_descriptor_ok (o : media_file_descriptor) : Prop :=
  media_descriptor_ok (mdfl_media o) /\
  exp10_stable (mdfl_edit_rate o).

(** essence.py:177-186. *)
Definition rmedia_file_descriptor_base (i : ictx) : reader media_file_descriptor :=
  media <- rmedia_descriptor_base i ;;
  rtag 2 ;;; rtag 3 ;;;
  edit_rate <- rexp10 (ibo i) ;;
  length <- rs32 (ibo i) ;;
  is_omfi <- rs16 (ibo i) ;;
  data_offset <- rs32 (ibo i) ;;
  ret {| mdfl_media := media; mdfl_edit_rate := edit_rate; mdfl_length := length;
    mdfl_is_omfi := is_omfi; mdfl_data_offset := data_offset |}.

(** essence.py:191-200. *)
Definition wmedia_file_descriptor_base (c : octx) (o : media_file_descriptor) : writer :=
  wmedia_descriptor_base c (mdfl_media o) +++
  wu8 2 +++ wu8 3 +++
  wexp10 (obo c) (mdfl_edit_rate o) +++
  ws32 (obo c) (mdfl_length o) +++
  ws16 (obo c) (mdfl_is_omfi o) +++
  ws32 (obo c) (mdfl_data_offset o).

(** essence.py:188-189, 202-203: class MDFL itself. *)
Definition rmedia_file_descriptor (i : ictx) : reader media_file_descriptor :=
  o <- rmedia_file_descriptor_base i ;; rtag 3 ;;; ret o.

(** essence.py:191-203 [MediaFileDescriptor.write]. *)
Definition wmedia_file_descriptor (c : octx) (o : media_file_descriptor) : writer :=
  wmedia_file_descriptor_base c o +++ wu8 3.

(** ** MultiDescriptor (MULD), essence.py:205-238 (read 213-225, write 227-238) *)

(** essence.py:208-210: the properties. *)
Record multi_descriptor := {
  muld_file : media_file_descriptor;
  muld_descriptors : list Z }.

(** [multi_descriptor] with its references renamed by [f]; essence.py:208-210. *)
Definition multi_descriptor_map (f : Z -> Z) (o : multi_descriptor) : multi_descriptor := {|
  muld_file := media_file_descriptor_map f (muld_file o);
  muld_descriptors := map f (muld_descriptors o) |}.

(** The references of [multi_descriptor]; essence.py:208-210. *)
Definition multi_descriptor_refs (o : multi_descriptor) : list Z :=
  media_file_descriptor_refs (muld_file o)
  ++ muld_descriptors o.

(** What [multi_descriptor] has to satisfy to be stored exactly; essence.py:208-210. *)
Definition multi_descriptor_ok (o : multi_descriptor) : Prop :=
  media_file_descriptor_ok (muld_file o).

(** essence.py:213-225 [MultiDescriptor.read]. *)
Definition rmulti_descriptor (i : ictx) : reader multi_descriptor :=
  file <- rmedia_file_descriptor_base i ;;
  rtag 2 ;;; rtag 1 ;;;
  count <- rs32 (ibo i) ;;
  descriptors <- rlist (Z.to_nat count) (rref i) ;;
  rtag 3 ;;;
  ret {| muld_file := file; muld_descriptors := descriptors |}.

(** essence.py:227-238 [MultiDescriptor.write]. *)
Definition wmulti_descriptor (c : octx) (o : multi_descriptor) : writer :=
  wmedia_file_descriptor_base c (muld_file o) +++
  wu8 2 +++ wu8 1 +++
  ws32 (obo c) (len (muld_descriptors o)) +++
  wlist (wref c) (muld_descriptors o) +++
  wu8 3.

(** ** WaveDescriptor (WAVE), essence.py:240-270 *)

(** essence.py:243-245: the properties. *)
Record wave_descriptor := {
  wave_file : media_file_descriptor;
  wave_summary : bytes }.

(** [wave_descriptor] with its references renamed by [f]; essence.py:243-245. *)
Definition wave_descriptor_map (f : Z -> Z) (o : wave_descriptor) : wave_descriptor := {|
  wave_file := media_file_descriptor_map f (wave_file o);
  wave_summary := wave_summary o |}.

(** The references of [wave_descriptor]; essence.py:243-245. *)
Definition wave_descriptor_refs (o : wave_descriptor) : list Z :=
  media_file_descriptor_refs (wave_file o).

(** What [wave_descriptor] has to satisfy to be stored exactly; essence.py:243-245. *)
Definition wave_descriptor_ok (o : wave_descriptor) : Prop :=
  media_file_descriptor_ok (wave_file o).

(** [assert f.read(4) == b'...'], essence.py:254, 287. *)
Definition rmagic (magic : bytes) : reader unit :=
  b <- fread 4 ;; rassert (if list_eq_dec Z.eq_dec b magic then true else false) ;;; ret tt.

(** b'RIFF' and b'FORM' (essence.py:254 and 266). *)
Definition riff : bytes := [82; 73; 70; 70].
(** [b'FORM'], essence.py:287 and 307. *)
Definition form : bytes := [70; 79; 82; 77].

(** essence.py:248-259; the size is little-endian in both byte orders. *)
Definition rwave_descriptor (i : ictx) : reader wave_descriptor :=
  file <- rmedia_file_descriptor_base i ;;
  rtag 2 ;;; rtag 1 ;;;
  rmagic riff ;;;
  size <- ru32 LE ;;
  summary <- fread size ;;
  rtag 3 ;;;
  ret {| wave_file := file; wave_summary := summary |}.

(** essence.py:261-270. *)
Definition wwave_descriptor (c : octx) (o : wave_descriptor) : writer :=
  wmedia_file_descriptor_base c (wave_file o) +++
  wu8 2 +++ wu8 1 +++
  wbytes riff +++
  wu32 LE (len (wave_summary o)) +++
  wbytes (wave_summary o) +++
  wu8 3.

(** ** AIFCDescriptor (AIFC), essence.py:272-318 *)

(** essence.py:275-278: the properties. *)
Record aifc_descriptor := {
  aifc_file : media_file_descriptor;
  aifc_summary : bytes;
  aifc_data_pos : option Z }.

(** [aifc_descriptor] with its references renamed by [f]; essence.py:275-278. *)
Definition aifc_descriptor_map (f : Z -> Z) (o : aifc_descriptor) : aifc_descriptor := {|
  aifc_file := media_file_descriptor_map f (aifc_file o);
  aifc_summary := aifc_summary o;
  aifc_data_pos := aifc_data_pos o |}.

(** The references of [aifc_descriptor]; essence.py:275-278. *)
Definition aifc_descriptor_refs (o : aifc_descriptor) : list Z :=
  media_file_descriptor_refs (aifc_file o).

(** What [aifc_descriptor] has to satisfy to be stored exactly; essence.py:275-278. *)
Definition aifc_descriptor_ok (o : aifc_descriptor) : Prop :=
  media_file_descriptor_ok (aifc_file o).

(** [self.data_pos = v]; essence.py:295. *)
Definition set_aifc_data_pos (o : aifc_descriptor) (v : option Z) : aifc_descriptor := {|
  aifc_file := aifc_file o;
  aifc_summary := aifc_summary o;
  aifc_data_pos := v |}.

(** essence.py:292-297. *)
Definition aifc_descriptor_ext (i : ictx) (tag : Z) (o : aifc_descriptor)
  : reader aifc_descriptor :=
  if tag =? 1 then rtag 71 ;;; v <- rs32 (ibo i) ;; ret (set_aifc_data_pos o (Some v))
  else fail ValueErr.

(** essence.py:281-299; the size is big-endian in both byte orders. *)
Definition raifc_descriptor (i : ictx) : reader aifc_descriptor :=
  file <- rmedia_file_descriptor_base i ;;
  rtag 2 ;;; rtag 1 ;;;
  rmagic form ;;;
  size <- ru32 BE ;;
  summary <- fread size ;;
  o <- iter_ext (aifc_descriptor_ext i) {| aifc_file := file; aifc_summary := summary;
    aifc_data_pos := None |} ;;
  rtag 3 ;;;
  ret o.

(** essence.py:301-318. *)
Definition waifc_descriptor (c : octx) (o : aifc_descriptor) : writer :=
  wmedia_file_descriptor_base c (aifc_file o) +++
  wu8 2 +++ wu8 1 +++
  wbytes form +++
  wu32 BE (len (aifc_summary o)) +++
  wbytes (aifc_summary o) +++
  wopt (aifc_data_pos o) (fun v => wext 1 (wu8 71 +++ ws32 (obo c) v)) +++
  wu8 3.

(** ** PCMADescriptor (PCMA), essence.py:320-436 *)

(** essence.py:323-346: the properties. *)
Record pcma_descriptor := {
  pcma_file : media_file_descriptor;
  pcma_channels : Z;
  pcma_quantization_bits : Z;
  pcma_sample_rate : float64;
  pcma_locked : bool;
  pcma_audio_ref_level : Z;
  pcma_electro_spatial_formulation : Z;
  pcma_dial_norm : Z;
  pcma_coding_format : Z;
  pcma_block_align : Z;
  pcma_sequence_offset : Z;
  pcma_average_bps : Z;
  pcma_has_peak_envelope_data : bool;
  pcma_peak_envelope_version : Z;
  pcma_peak_envelope_format : Z;
  pcma_points_per_peak_value : Z;
  pcma_peak_envelope_block_size : Z;
  pcma_peak_channel_count : Z;
  pcma_peak_frame_count : Z;
  pcma_peak_of_peaks_offset : Z;
  pcma_peak_envelope_timestamp : Z;
  pcma_ebu_timestamp : option Z;
  pcma_timecode_framerate : option str }.

(** [pcma_descriptor] with its references renamed by [f]; essence.py:323-346. *)
Definition pcma_descriptor_map (f : Z -> Z) (o : pcma_descriptor) : pcma_descriptor := {|
  pcma_file := media_file_descriptor_map f (pcma_file o);
  pcma_channels := pcma_channels o;
  pcma_quantization_bits := pcma_quantization_bits o;
  pcma_sample_rate := pcma_sample_rate o;
  pcma_locked := pcma_locked o;
  pcma_audio_ref_level := pcma_audio_ref_level o;
  pcma_electro_spatial_formulation := pcma_electro_spatial_formulation o;
  pcma_dial_norm := pcma_dial_norm o;
  pcma_coding_format := pcma_coding_format o;
  pcma_block_align := pcma_block_align o;
  pcma_sequence_offset := pcma_sequence_offset o;
  pcma_average_bps := pcma_average_bps o;
  pcma_has_peak_envelope_data := pcma_has_peak_envelope_data o;
  pcma_peak_envelope_version := pcma_peak_envelope_version o;
  pcma_peak_envelope_format := pcma_peak_envelope_format o;
  pcma_points_per_peak_value := pcma_points_per_peak_value o;
  pcma_peak_envelope_block_size := pcma_peak_envelope_block_size o;
  pcma_peak_channel_count := pcma_peak_channel_count o;
  pcma_peak_frame_count := pcma_peak_frame_count o;
  pcma_peak_of_peaks_offset := pcma_peak_of_peaks_offset o;
  pcma_peak_envelope_timestamp := pcma_peak_envelope_timestamp o;
  pcma_ebu_timestamp := pcma_ebu_timestamp o;
  pcma_timecode_framerate := pcma_timecode_framerate o |}.

(** The references of [pcma_descriptor]; essence.py:323-346. *)
Definition pcma_descriptor_refs (o : pcma_descriptor) : list Z :=
  media_file_descriptor_refs (pcma_file o).

(** What [pcma_descriptor] has to satisfy to be stored exactly; essence.py:323-346. *)
Definition pcma_descriptor_ok (o : pcma_descriptor) : Prop :=
  media_file_descriptor_ok (pcma_file o) /\
  exp10_stable (pcma_sample_rate o) /\
  opt_ok str_ok (pcma_timecode_framerate o).

(** [self.ebu_timestamp = v]; essence.py:383. *)
Definition set_pcma_ebu_timestamp (o : pcma_descriptor) (v : option Z) : pcma_descriptor := {|
  pcma_file := pcma_file o;
  pcma_channels := pcma_channels o;
  pcma_quantization_bits := pcma_quantization_bits o;
  pcma_sample_rate := pcma_sample_rate o;
  pcma_locked := pcma_locked o;
  pcma_audio_ref_level := pcma_audio_ref_level o;
  pcma_electro_spatial_formulation := pcma_electro_spatial_formulation o;
  pcma_dial_norm := pcma_dial_norm o;
  pcma_coding_format := pcma_coding_format o;
  pcma_block_align := pcma_block_align o;
  pcma_sequence_offset := pcma_sequence_offset o;
  pcma_average_bps := pcma_average_bps o;
  pcma_has_peak_envelope_data := pcma_has_peak_envelope_data o;
  pcma_peak_envelope_version := pcma_peak_envelope_version o;
  pcma_peak_envelope_format := pcma_peak_envelope_format o;
  pcma_points_per_peak_value := pcma_points_per_peak_value o;
  pcma_peak_envelope_block_size := pcma_peak_envelope_block_size o;
  pcma_peak_channel_count := pcma_peak_channel_count o;
  pcma_peak_frame_count := pcma_peak_frame_count o;
  pcma_peak_of_peaks_offset := pcma_peak_of_peaks_offset o;
  pcma_peak_envelope_timestamp := pcma_peak_envelope_timestamp o;
  pcma_ebu_timestamp := v;
  pcma_timecode_framerate := pcma_timecode_framerate o |}.

(** [self.timecode_framerate = v]; essence.py:387. *)
Definition set_pcma_timecode_framerate (o : pcma_descriptor) (v : option str)
  : pcma_descriptor := {|
  pcma_file := pcma_file o;
  pcma_channels := pcma_channels o;
  pcma_quantization_bits := pcma_quantization_bits o;
  pcma_sample_rate := pcma_sample_rate o;
  pcma_locked := pcma_locked o;
  pcma_audio_ref_level := pcma_audio_ref_level o;
  pcma_electro_spatial_formulation := pcma_electro_spatial_formulation o;
  pcma_dial_norm := pcma_dial_norm o;
  pcma_coding_format := pcma_coding_format o;
  pcma_block_align := pcma_block_align o;
  pcma_sequence_offset := pcma_sequence_offset o;
  pcma_average_bps := pcma_average_bps o;
  pcma_has_peak_envelope_data := pcma_has_peak_envelope_data o;
  pcma_peak_envelope_version := pcma_peak_envelope_version o;
  pcma_peak_envelope_format := pcma_peak_envelope_format o;
  pcma_points_per_peak_value := pcma_points_per_peak_value o;
  pcma_peak_envelope_block_size := pcma_peak_envelope_block_size o;
  pcma_peak_channel_count := pcma_peak_channel_count o;
  pcma_peak_frame_count := pcma_peak_frame_count o;
  pcma_peak_of_peaks_offset := pcma_peak_of_peaks_offset o;
  pcma_peak_envelope_timestamp := pcma_peak_envelope_timestamp o;
  pcma_ebu_timestamp := pcma_ebu_timestamp o;
  pcma_timecode_framerate := v |}.

(** essence.py:380-389. *)
Definition pcma_descriptor_ext (i : ictx) (tag : Z) (o : pcma_descriptor)
  : reader pcma_descriptor :=
  if tag =? 1 then rtag 77 ;;; v <- rs64 (ibo i) ;; ret (set_pcma_ebu_timestamp o (Some v))
  else if tag =? 3 then
    rtag 76 ;;; v <- rstr (ibo i) ;; ret (set_pcma_timecode_framerate o (Some v))
  else fail ValueErr.

(** essence.py:349-391. *)
Definition rpcma_descriptor (i : ictx) : reader pcma_descriptor :=
  file <- rmedia_file_descriptor_base i ;;
  rtag 2 ;;; rtag 1 ;;;
  channels <- ru16 (ibo i) ;;
  quantization_bits <- ru16 (ibo i) ;;
  sample_rate <- rexp10 (ibo i) ;;
  locked <- rbool ;;
  audio_ref_level <- rs16 (ibo i) ;;
  electro_spatial_formulation <- rs32 (ibo i) ;;
  dial_norm <- ru16 (ibo i) ;;
  coding_format <- ru32 (ibo i) ;;
  block_align <- ru32 (ibo i) ;;
  sequence_offset <- ru16 (ibo i) ;;
  average_bps <- ru32 (ibo i) ;;
  has_peak_envelope_data <- rbool ;;
  peak_envelope_version <- rs32 (ibo i) ;;
  peak_envelope_format <- rs32 (ibo i) ;;
  points_per_peak_value <- rs32 (ibo i) ;;
  peak_envelope_block_size <- rs32 (ibo i) ;;
  peak_channel_count <- rs32 (ibo i) ;;
  peak_frame_count <- rs32 (ibo i) ;;
  peak_of_peaks_offset <- ru64 (ibo i) ;;
  peak_envelope_timestamp <- rs32 (ibo i) ;;
  o <- iter_ext (pcma_descriptor_ext i) {| pcma_file := file; pcma_channels := channels;
    pcma_quantization_bits := quantization_bits; pcma_sample_rate := sample_rate;
    pcma_locked := locked; pcma_audio_ref_level := audio_ref_level;
    pcma_electro_spatial_formulation := electro_spatial_formulation;
    pcma_dial_norm := dial_norm; pcma_coding_format := coding_format;
    pcma_block_align := block_align; pcma_sequence_offset := sequence_offset;
    pcma_average_bps := average_bps; pcma_has_peak_envelope_data := has_peak_envelope_data;
    pcma_peak_envelope_version := peak_envelope_version;
    pcma_peak_envelope_format := peak_envelope_format;
    pcma_points_per_peak_value := points_per_peak_value;
    pcma_peak_envelope_block_size := peak_envelope_block_size;
    pcma_peak_channel_count := peak_channel_count; pcma_peak_frame_count := peak_frame_count;
    pcma_peak_of_peaks_offset := peak_of_peaks_offset;
    pcma_peak_envelope_timestamp := peak_envelope_timestamp; pcma_ebu_timestamp := None;
    pcma_timecode_framerate := None |} ;;
  rtag 3 ;;;
  ret o.

(** essence.py:393-436. *)
Definition wpcma_descriptor (c : octx) (o : pcma_descriptor) : writer :=
  wmedia_file_descriptor_base c (pcma_file o) +++
  wu8 2 +++ wu8 1 +++
  wu16 (obo c) (pcma_channels o) +++
  wu16 (obo c) (pcma_quantization_bits o) +++
  wexp10 (obo c) (pcma_sample_rate o) +++
  wbool (pcma_locked o) +++
  ws16 (obo c) (pcma_audio_ref_level o) +++
  ws32 (obo c) (pcma_electro_spatial_formulation o) +++
  wu16 (obo c) (pcma_dial_norm o) +++
  wu32 (obo c) (pcma_coding_format o) +++
  wu32 (obo c) (pcma_block_align o) +++
  wu16 (obo c) (pcma_sequence_offset o) +++
  wu32 (obo c) (pcma_average_bps o) +++
  wbool (pcma_has_peak_envelope_data o) +++
  ws32 (obo c) (pcma_peak_envelope_version o) +++
  ws32 (obo c) (pcma_peak_envelope_format o) +++
  ws32 (obo c) (pcma_points_per_peak_value o) +++
  ws32 (obo c) (pcma_peak_envelope_block_size o) +++
  ws32 (obo c) (pcma_peak_channel_count o) +++
  ws32 (obo c) (pcma_peak_frame_count o) +++
  wu64 (obo c) (pcma_peak_of_peaks_offset o) +++
  ws32 (obo c) (pcma_peak_envelope_timestamp o) +++
  wopt (pcma_ebu_timestamp o) (fun v => wext 1 (wu8 77 +++ ws64 (obo c) v)) +++
  wopt (pcma_timecode_framerate o) (fun v => wext 3 (wu8 76 +++ wstr (obo c) v)) +++
  wu8 3.

(** ** MPGADescriptor (MPGA), essence.py:439-517 *)

(** [sub_frame_alignment] is written as a signed and read as an unsigned number;
    essence.py:442-454. *)
Record mpga_descriptor := {
  mpga_file : media_file_descriptor;
  mpga_channels : Z;
  mpga_quantization_bits : Z;
  mpga_sample_rate : float64;
  mpga_locked : bool;
  mpga_audio_ref_level : Z;
  mpga_electro_spatial_formulation : Z;
  mpga_dial_norm : Z;
  mpga_coding_format : Z;
  mpga_bit_rate : Z;
  mpga_sub_frame_alignment : option Z;
  mpga_origin : option Z }.

(** [mpga_descriptor] with its references renamed by [f]; essence.py:442-454. *)
Definition mpga_descriptor_map (f : Z -> Z) (o : mpga_descriptor) : mpga_descriptor := {|
  mpga_file := media_file_descriptor_map f (mpga_file o);
  mpga_channels := mpga_channels o;
  mpga_quantization_bits := mpga_quantization_bits o;
  mpga_sample_rate := mpga_sample_rate o;
  mpga_locked := mpga_locked o;
  mpga_audio_ref_level := mpga_audio_ref_level o;
  mpga_electro_spatial_formulation := mpga_electro_spatial_formulation o;
  mpga_dial_norm := mpga_dial_norm o;
  mpga_coding_format := mpga_coding_format o;
  mpga_bit_rate := mpga_bit_rate o;
  mpga_sub_frame_alignment := mpga_sub_frame_alignment o;
  mpga_origin := mpga_origin o |}.

(** The references of [mpga_descriptor]; essence.py:442-454. *)
Definition mpga_descriptor_refs (o : mpga_descriptor) : list Z :=
  media_file_descriptor_refs (mpga_file o).

(** What [mpga_descriptor] has to satisfy to be stored exactly; essence.py:442-454. *)
Definition mpga_descriptor_ok (o : mpga_descriptor) : Prop :=
  media_file_descriptor_ok (mpga_file o) /\
  exp10_stable (mpga_sample_rate o) /\
  opt_ok (fun v => 0 <= v) (mpga_sub_frame_alignment o).

(** [self.sub_frame_alignment = v]; essence.py:478. *)
Definition set_mpga_sub_frame_alignment (o : mpga_descriptor) (v : option Z)
  : mpga_descriptor := {|
  mpga_file := mpga_file o;
  mpga_channels := mpga_channels o;
  mpga_quantization_bits := mpga_quantization_bits o;
  mpga_sample_rate := mpga_sample_rate o;
  mpga_locked := mpga_locked o;
  mpga_audio_ref_level := mpga_audio_ref_level o;
  mpga_electro_spatial_formulation := mpga_electro_spatial_formulation o;
  mpga_dial_norm := mpga_dial_norm o;
  mpga_coding_format := mpga_coding_format o;
  mpga_bit_rate := mpga_bit_rate o;
  mpga_sub_frame_alignment := v;
  mpga_origin := mpga_origin o |}.

(** [self.origin = v]; essence.py:481. *)
Definition set_mpga_origin (o : mpga_descriptor) (v : option Z) : mpga_descriptor := {|
  mpga_file := mpga_file o;
  mpga_channels := mpga_channels o;
  mpga_quantization_bits := mpga_quantization_bits o;
  mpga_sample_rate := mpga_sample_rate o;
  mpga_locked := mpga_locked o;
  mpga_audio_ref_level := mpga_audio_ref_level o;
  mpga_electro_spatial_formulation := mpga_electro_spatial_formulation o;
  mpga_dial_norm := mpga_dial_norm o;
  mpga_coding_format := mpga_coding_format o;
  mpga_bit_rate := mpga_bit_rate o;
  mpga_sub_frame_alignment := mpga_sub_frame_alignment o;
  mpga_origin := v |}.

(** essence.py:475-483. *)
Definition mpga_descriptor_ext (i : ictx) (tag : Z) (o : mpga_descriptor)
  : reader mpga_descriptor :=
  if tag =? 1 then rtag 77 ;;; v <- ru64 (ibo i) ;; ret (set_mpga_sub_frame_alignment o (Some v))
  else if tag =? 2 then rtag 77 ;;; v <- ru64 (ibo i) ;; ret (set_mpga_origin o (Some v))
  else fail ValueErr.

(** essence.py:457-485. *)
Definition rmpga_descriptor (i : ictx) : reader mpga_descriptor :=
  file <- rmedia_file_descriptor_base i ;;
  rtag 2 ;;; rtag 1 ;;;
  channels <- ru16 (ibo i) ;;
  quantization_bits <- ru16 (ibo i) ;;
  sample_rate <- rexp10 (ibo i) ;;
  locked <- rbool ;;
  audio_ref_level <- rs16 (ibo i) ;;
  electro_spatial_formulation <- rs32 (ibo i) ;;
  dial_norm <- ru16 (ibo i) ;;
  coding_format <- ru32 (ibo i) ;;
  bit_rate <- ru32 (ibo i) ;;
  o <- iter_ext (mpga_descriptor_ext i) {| mpga_file := file; mpga_channels := channels;
    mpga_quantization_bits := quantization_bits; mpga_sample_rate := sample_rate;
    mpga_locked := locked; mpga_audio_ref_level := audio_ref_level;
    mpga_electro_spatial_formulation := electro_spatial_formulation;
    mpga_dial_norm := dial_norm; mpga_coding_format := coding_format;
    mpga_bit_rate := bit_rate; mpga_sub_frame_alignment := None; mpga_origin := None |} ;;
  rtag 3 ;;;
  ret o.

(** essence.py:487-517. *)
Definition wmpga_descriptor (c : octx) (o : mpga_descriptor) : writer :=
  wmedia_file_descriptor_base c (mpga_file o) +++
  wu8 2 +++ wu8 1 +++
  wu16 (obo c) (mpga_channels o) +++
  wu16 (obo c) (mpga_quantization_bits o) +++
  wexp10 (obo c) (mpga_sample_rate o) +++
  wbool (mpga_locked o) +++
  ws16 (obo c) (mpga_audio_ref_level o) +++
  ws32 (obo c) (mpga_electro_spatial_formulation o) +++
  wu16 (obo c) (mpga_dial_norm o) +++
  wu32 (obo c) (mpga_coding_format o) +++
  wu32 (obo c) (mpga_bit_rate o) +++
  wopt (mpga_sub_frame_alignment o) (fun v => wext 1 (wu8 77 +++ ws64 (obo c) v)) +++
  wopt (mpga_origin o) (fun v => wext 2 (wu8 77 +++ wu64 (obo c) v)) +++
  wu8 3.

(** ** DIDDescriptor (DIDD), essence.py:520-983 *)

(** Four points, [[x, y], ...]; the writer takes [box[0][0]]..[box[3][1]]; essence.py:520-983. *)
Record bounds_box := {
  bb_x0 : Z; bb_y0 : Z; bb_x1 : Z; bb_y1 : Z; bb_x2 : Z; bb_y2 : Z; bb_x3 : Z; bb_y3 : Z }.

(** Two properties written together, as essence.py:855, 922 and 956. A specification. *)
Definition same_presence {A B} (a : option A) (b : option B) : Prop :=
  a = None <-> b = None.

(** [aspect_ratio] is the pair of the numerator and the denominator. Some properties share a
    section of the file: a part of such a group that is set alone is not written (or, for
    [client_fill_start] alone, raises); essence.py:523-562. *)
Record did_descriptor := {
  didd_file : media_file_descriptor;
  didd_stored_height : Z;
  didd_stored_width : Z;
  didd_sampled_height : Z;
  didd_sampled_width : Z;
  didd_sampled_x_offset : Z;
  didd_sampled_y_offset : Z;
  didd_display_height : Z;
  didd_display_width : Z;
  didd_display_x_offset : Z;
  didd_display_y_offset : Z;
  didd_frame_layout : Z;
  didd_aspect_num : Z;
  didd_aspect_den : Z;
  didd_line_map : list Z;
  didd_alpha_transparency : Z;
  didd_uniformness : bool;
  didd_did_image_size : Z;
  didd_next_did_desc : Z;
  didd_compress_method : bytes;
  didd_resolution_id : Z;
  didd_image_alignment_factor : Z;
  didd_frame_index_byte_order : option Z;
  didd_frame_sample_size : option Z;
  didd_first_frame_offset : option Z;
  didd_client_fill_start : option Z;
  didd_client_fill_end : option Z;
  didd_offset_to_rle_frame_index : option Z;
  didd_frame_start_offset : option Z;
  didd_valid_box : option bounds_box;
  didd_essence_box : option bounds_box;
  didd_source_box : option bounds_box;
  didd_framing_box : option bounds_box;
  didd_reformatting_option : option Z;
  didd_transfer_characteristic : option uuid;
  didd_color_primaries : option uuid;
  didd_coding_equations : option uuid;
  didd_essence_compression : option uuid;
  didd_essence_element_size_kind : option Z;
  didd_frame_checked_with_mapper : option bool }.

(** [did_descriptor] with its references renamed by [f]; essence.py:523-562. *)
Definition did_descriptor_map (f : Z -> Z) (o : did_descriptor) : did_descriptor := {|
  didd_file := media_file_descriptor_map f (didd_file o);
  didd_stored_height := didd_stored_height o;
  didd_stored_width := didd_stored_width o;
  didd_sampled_height := didd_sampled_height o;
  didd_sampled_width := didd_sampled_width o;
  didd_sampled_x_offset := didd_sampled_x_offset o;
  didd_sampled_y_offset := didd_sampled_y_offset o;
  didd_display_height := didd_display_height o;
  didd_display_width := didd_display_width o;
  didd_display_x_offset := didd_display_x_offset o;
  didd_display_y_offset := didd_display_y_offset o;
  didd_frame_layout := didd_frame_layout o;
  didd_aspect_num := didd_aspect_num o;
  didd_aspect_den := didd_aspect_den o;
  didd_line_map := didd_line_map o;
  didd_alpha_transparency := didd_alpha_transparency o;
  didd_uniformness := didd_uniformness o;
  didd_did_image_size := didd_did_image_size o;
  didd_next_did_desc := f (didd_next_did_desc o);
  didd_compress_method := didd_compress_method o;
  didd_resolution_id := didd_resolution_id o;
  didd_image_alignment_factor := didd_image_alignment_factor o;
  didd_frame_index_byte_order := didd_frame_index_byte_order o;
  didd_frame_sample_size := didd_frame_sample_size o;
  didd_first_frame_offset := didd_first_frame_offset o;
  didd_client_fill_start := didd_client_fill_start o;
  didd_client_fill_end := didd_client_fill_end o;
  didd_offset_to_rle_frame_index := didd_offset_to_rle_frame_index o;
  didd_frame_start_offset := didd_frame_start_offset o;
  didd_valid_box := didd_valid_box o;
  didd_essence_box := didd_essence_box o;
  didd_source_box := didd_source_box o;
  didd_framing_box := didd_framing_box o;
  didd_reformatting_option := didd_reformatting_option o;
  didd_transfer_characteristic := didd_transfer_characteristic o;
  didd_color_primaries := didd_color_primaries o;
  didd_coding_equations := didd_coding_equations o;
  didd_essence_compression := didd_essence_compression o;
  didd_essence_element_size_kind := didd_essence_element_size_kind o;
  didd_frame_checked_with_mapper := didd_frame_checked_with_mapper o |}.

(** The references of [did_descriptor]; essence.py:523-562. *)
Definition did_descriptor_refs (o : did_descriptor) : list Z :=
  media_file_descriptor_refs (didd_file o)
  ++ [didd_next_did_desc o].

(** What [did_descriptor] has to satisfy to be stored exactly; essence.py:523-562. *)
Definition did_descriptor_ok (o : did_descriptor) : Prop :=
  media_file_descriptor_ok (didd_file o) /\
  opt_ok uuid_wf (didd_transfer_characteristic o) /\
  opt_ok uuid_wf (didd_color_primaries o) /\
  opt_ok uuid_wf (didd_coding_equations o) /\
  opt_ok uuid_wf (didd_essence_compression o) /\
  (didd_client_fill_start o = None -> didd_client_fill_end o = None) /\
  same_presence (didd_valid_box o) (didd_essence_box o) /\
  same_presence (didd_valid_box o) (didd_source_box o) /\
  same_presence (didd_framing_box o) (didd_reformatting_option o) /\
  same_presence (didd_color_primaries o) (didd_coding_equations o).

(** [self.frame_index_byte_order = v]; essence.py:614. *)
Definition set_didd_frame_index_byte_order (o : did_descriptor) (v : option Z)
  : did_descriptor := {|
  didd_file := didd_file o;
  didd_stored_height := didd_stored_height o;
  didd_stored_width := didd_stored_width o;
  didd_sampled_height := didd_sampled_height o;
  didd_sampled_width := didd_sampled_width o;
  didd_sampled_x_offset := didd_sampled_x_offset o;
  didd_sampled_y_offset := didd_sampled_y_offset o;
  didd_display_height := didd_display_height o;
  didd_display_width := didd_display_width o;
  didd_display_x_offset := didd_display_x_offset o;
  didd_display_y_offset := didd_display_y_offset o;
  didd_frame_layout := didd_frame_layout o;
  didd_aspect_num := didd_aspect_num o;
  didd_aspect_den := didd_aspect_den o;
  didd_line_map := didd_line_map o;
  didd_alpha_transparency := didd_alpha_transparency o;
  didd_uniformness := didd_uniformness o;
  didd_did_image_size := didd_did_image_size o;
  didd_next_did_desc := didd_next_did_desc o;
  didd_compress_method := didd_compress_method o;
  didd_resolution_id := didd_resolution_id o;
  didd_image_alignment_factor := didd_image_alignment_factor o;
  didd_frame_index_byte_order := v;
  didd_frame_sample_size := didd_frame_sample_size o;
  didd_first_frame_offset := didd_first_frame_offset o;
  didd_client_fill_start := didd_client_fill_start o;
  didd_client_fill_end := didd_client_fill_end o;
  didd_offset_to_rle_frame_index := didd_offset_to_rle_frame_index o;
  didd_frame_start_offset := didd_frame_start_offset o;
  didd_valid_box := didd_valid_box o;
  didd_essence_box := didd_essence_box o;
  didd_source_box := didd_source_box o;
  didd_framing_box := didd_framing_box o;
  didd_reformatting_option := didd_reformatting_option o;
  didd_transfer_characteristic := didd_transfer_characteristic o;
  didd_color_primaries := didd_color_primaries o;
  didd_coding_equations := didd_coding_equations o;
  didd_essence_compression := didd_essence_compression o;
  didd_essence_element_size_kind := didd_essence_element_size_kind o;
  didd_frame_checked_with_mapper := didd_frame_checked_with_mapper o |}.

(** [self.frame_sample_size = v]; essence.py:618. *)
Definition set_didd_frame_sample_size (o : did_descriptor) (v : option Z) : did_descriptor := {|
  didd_file := didd_file o;
  didd_stored_height := didd_stored_height o;
  didd_stored_width := didd_stored_width o;
  didd_sampled_height := didd_sampled_height o;
  didd_sampled_width := didd_sampled_width o;
  didd_sampled_x_offset := didd_sampled_x_offset o;
  didd_sampled_y_offset := didd_sampled_y_offset o;
  didd_display_height := didd_display_height o;
  didd_display_width := didd_display_width o;
  didd_display_x_offset := didd_display_x_offset o;
  didd_display_y_offset := didd_display_y_offset o;
  didd_frame_layout := didd_frame_layout o;
  didd_aspect_num := didd_aspect_num o;
  didd_aspect_den := didd_aspect_den o;
  didd_line_map := didd_line_map o;
  didd_alpha_transparency := didd_alpha_transparency o;
  didd_uniformness := didd_uniformness o;
  didd_did_image_size := didd_did_image_size o;
  didd_next_did_desc := didd_next_did_desc o;
  didd_compress_method := didd_compress_method o;
  didd_resolution_id := didd_resolution_id o;
  didd_image_alignment_factor := didd_image_alignment_factor o;
  didd_frame_index_byte_order := didd_frame_index_byte_order o;
  didd_frame_sample_size := v;
  didd_first_frame_offset := didd_first_frame_offset o;
  didd_client_fill_start := didd_client_fill_start o;
  didd_client_fill_end := didd_client_fill_end o;
  didd_offset_to_rle_frame_index := didd_offset_to_rle_frame_index o;
  didd_frame_start_offset := didd_frame_start_offset o;
  didd_valid_box := didd_valid_box o;
  didd_essence_box := didd_essence_box o;
  didd_source_box := didd_source_box o;
  didd_framing_box := didd_framing_box o;
  didd_reformatting_option := didd_reformatting_option o;
  didd_transfer_characteristic := didd_transfer_characteristic o;
  didd_color_primaries := didd_color_primaries o;
  didd_coding_equations := didd_coding_equations o;
  didd_essence_compression := didd_essence_compression o;
  didd_essence_element_size_kind := didd_essence_element_size_kind o;
  didd_frame_checked_with_mapper := didd_frame_checked_with_mapper o |}.

(** [self.first_frame_offset = v]; essence.py:622. *)
Definition set_didd_first_frame_offset (o : did_descriptor) (v : option Z) : did_descriptor := {|
  didd_file := didd_file o;
  didd_stored_height := didd_stored_height o;
  didd_stored_width := didd_stored_width o;
  didd_sampled_height := didd_sampled_height o;
  didd_sampled_width := didd_sampled_width o;
  didd_sampled_x_offset := didd_sampled_x_offset o;
  didd_sampled_y_offset := didd_sampled_y_offset o;
  didd_display_height := didd_display_height o;
  didd_display_width := didd_display_width o;
  didd_display_x_offset := didd_display_x_offset o;
  didd_display_y_offset := didd_display_y_offset o;
  didd_frame_layout := didd_frame_layout o;
  didd_aspect_num := didd_aspect_num o;
  didd_aspect_den := didd_aspect_den o;
  didd_line_map := didd_line_map o;
  didd_alpha_transparency := didd_alpha_transparency o;
  didd_uniformness := didd_uniformness o;
  didd_did_image_size := didd_did_image_size o;
  didd_next_did_desc := didd_next_did_desc o;
  didd_compress_method := didd_compress_method o;
  didd_resolution_id := didd_resolution_id o;
  didd_image_alignment_factor := didd_image_alignment_factor o;
  didd_frame_index_byte_order := didd_frame_index_byte_order o;
  didd_frame_sample_size := didd_frame_sample_size o;
  didd_first_frame_offset := v;
  didd_client_fill_start := didd_client_fill_start o;
  didd_client_fill_end := didd_client_fill_end o;
  didd_offset_to_rle_frame_index := didd_offset_to_rle_frame_index o;
  didd_frame_start_offset := didd_frame_start_offset o;
  didd_valid_box := didd_valid_box o;
  didd_essence_box := didd_essence_box o;
  didd_source_box := didd_source_box o;
  didd_framing_box := didd_framing_box o;
  didd_reformatting_option := didd_reformatting_option o;
  didd_transfer_characteristic := didd_transfer_characteristic o;
  didd_color_primaries := didd_color_primaries o;
  didd_coding_equations := didd_coding_equations o;
  didd_essence_compression := didd_essence_compression o;
  didd_essence_element_size_kind := didd_essence_element_size_kind o;
  didd_frame_checked_with_mapper := didd_frame_checked_with_mapper o |}.

(** [self.client_fill_start = v]; essence.py:626. *)
Definition set_didd_client_fill_start (o : did_descriptor) (v : option Z) : did_descriptor := {|
  didd_file := didd_file o;
  didd_stored_height := didd_stored_height o;
  didd_stored_width := didd_stored_width o;
  didd_sampled_height := didd_sampled_height o;
  didd_sampled_width := didd_sampled_width o;
  didd_sampled_x_offset := didd_sampled_x_offset o;
  didd_sampled_y_offset := didd_sampled_y_offset o;
  didd_display_height := didd_display_height o;
  didd_display_width := didd_display_width o;
  didd_display_x_offset := didd_display_x_offset o;
  didd_display_y_offset := didd_display_y_offset o;
  didd_frame_layout := didd_frame_layout o;
  didd_aspect_num := didd_aspect_num o;
  didd_aspect_den := didd_aspect_den o;
  didd_line_map := didd_line_map o;
  didd_alpha_transparency := didd_alpha_transparency o;
  didd_uniformness := didd_uniformness o;
  didd_did_image_size := didd_did_image_size o;
  didd_next_did_desc := didd_next_did_desc o;
  didd_compress_method := didd_compress_method o;
  didd_resolution_id := didd_resolution_id o;
  didd_image_alignment_factor := didd_image_alignment_factor o;
  didd_frame_index_byte_order := didd_frame_index_byte_order o;
  didd_frame_sample_size := didd_frame_sample_size o;
  didd_first_frame_offset := didd_first_frame_offset o;
  didd_client_fill_start := v;
  didd_client_fill_end := didd_client_fill_end o;
  didd_offset_to_rle_frame_index := didd_offset_to_rle_frame_index o;
  didd_frame_start_offset := didd_frame_start_offset o;
  didd_valid_box := didd_valid_box o;
  didd_essence_box := didd_essence_box o;
  didd_source_box := didd_source_box o;
  didd_framing_box := didd_framing_box o;
  didd_reformatting_option := didd_reformatting_option o;
  didd_transfer_characteristic := didd_transfer_characteristic o;
  didd_color_primaries := didd_color_primaries o;
  didd_coding_equations := didd_coding_equations o;
  didd_essence_compression := didd_essence_compression o;
  didd_essence_element_size_kind := didd_essence_element_size_kind o;
  didd_frame_checked_with_mapper := didd_frame_checked_with_mapper o |}.

(** [self.client_fill_end = v]; essence.py:629. *)
Definition set_didd_client_fill_end (o : did_descriptor) (v : option Z) : did_descriptor := {|
  didd_file := didd_file o;
  didd_stored_height := didd_stored_height o;
  didd_stored_width := didd_stored_width o;
  didd_sampled_height := didd_sampled_height o;
  didd_sampled_width := didd_sampled_width o;
  didd_sampled_x_offset := didd_sampled_x_offset o;
  didd_sampled_y_offset := didd_sampled_y_offset o;
  didd_display_height := didd_display_height o;
  didd_display_width := didd_display_width o;
  didd_display_x_offset := didd_display_x_offset o;
  didd_display_y_offset := didd_display_y_offset o;
  didd_frame_layout := didd_frame_layout o;
  didd_aspect_num := didd_aspect_num o;
  didd_aspect_den := didd_aspect_den o;
  didd_line_map := didd_line_map o;
  didd_alpha_transparency := didd_alpha_transparency o;
  didd_uniformness := didd_uniformness o;
  didd_did_image_size := didd_did_image_size o;
  didd_next_did_desc := didd_next_did_desc o;
  didd_compress_method := didd_compress_method o;
  didd_resolution_id := didd_resolution_id o;
  didd_image_alignment_factor := didd_image_alignment_factor o;
  didd_frame_index_byte_order := didd_frame_index_byte_order o;
  didd_frame_sample_size := didd_frame_sample_size o;
  didd_first_frame_offset := didd_first_frame_offset o;
  didd_client_fill_start := didd_client_fill_start o;
  didd_client_fill_end := v;
  didd_offset_to_rle_frame_index := didd_offset_to_rle_frame_index o;
  didd_frame_start_offset := didd_frame_start_offset o;
  didd_valid_box := didd_valid_box o;
  didd_essence_box := didd_essence_box o;
  didd_source_box := didd_source_box o;
  didd_framing_box := didd_framing_box o;
  didd_reformatting_option := didd_reformatting_option o;
  didd_transfer_characteristic := didd_transfer_characteristic o;
  didd_color_primaries := didd_color_primaries o;
  didd_coding_equations := didd_coding_equations o;
  didd_essence_compression := didd_essence_compression o;
  didd_essence_element_size_kind := didd_essence_element_size_kind o;
  didd_frame_checked_with_mapper := didd_frame_checked_with_mapper o |}.

(** [self.offset_to_rle_frame_index = v]; essence.py:633. *)
Definition set_didd_offset_to_rle_frame_index (o : did_descriptor) (v : option Z)
  : did_descriptor := {|
  didd_file := didd_file o;
  didd_stored_height := didd_stored_height o;
  didd_stored_width := didd_stored_width o;
  didd_sampled_height := didd_sampled_height o;
  didd_sampled_width := didd_sampled_width o;
  didd_sampled_x_offset := didd_sampled_x_offset o;
  didd_sampled_y_offset := didd_sampled_y_offset o;
  didd_display_height := didd_display_height o;
  didd_display_width := didd_display_width o;
  didd_display_x_offset := didd_display_x_offset o;
  didd_display_y_offset := didd_display_y_offset o;
  didd_frame_layout := didd_frame_layout o;
  didd_aspect_num := didd_aspect_num o;
  didd_aspect_den := didd_aspect_den o;
  didd_line_map := didd_line_map o;
  didd_alpha_transparency := didd_alpha_transparency o;
  didd_uniformness := didd_uniformness o;
  didd_did_image_size := didd_did_image_size o;
  didd_next_did_desc := didd_next_did_desc o;
  didd_compress_method := didd_compress_method o;
  didd_resolution_id := didd_resolution_id o;
  didd_image_alignment_factor := didd_image_alignment_factor o;
  didd_frame_index_byte_order := didd_frame_index_byte_order o;
  didd_frame_sample_size := didd_frame_sample_size o;
  didd_first_frame_offset := didd_first_frame_offset o;
  didd_client_fill_start := didd_client_fill_start o;
  didd_client_fill_end := didd_client_fill_end o;
  didd_offset_to_rle_frame_index := v;
  didd_frame_start_offset := didd_frame_start_offset o;
  didd_valid_box := didd_valid_box o;
  didd_essence_box := didd_essence_box o;
  didd_source_box := didd_source_box o;
  didd_framing_box := didd_framing_box o;
  didd_reformatting_option := didd_reformatting_option o;
  didd_transfer_characteristic := didd_transfer_characteristic o;
  didd_color_primaries := didd_color_primaries o;
  didd_coding_equations := didd_coding_equations o;
  didd_essence_compression := didd_essence_compression o;
  didd_essence_element_size_kind := didd_essence_element_size_kind o;
  didd_frame_checked_with_mapper := didd_frame_checked_with_mapper o |}.

(** [self.frame_start_offset = v]; essence.py:637. *)
Definition set_didd_frame_start_offset (o : did_descriptor) (v : option Z) : did_descriptor := {|
  didd_file := didd_file o;
  didd_stored_height := didd_stored_height o;
  didd_stored_width := didd_stored_width o;
  didd_sampled_height := didd_sampled_height o;
  didd_sampled_width := didd_sampled_width o;
  didd_sampled_x_offset := didd_sampled_x_offset o;
  didd_sampled_y_offset := didd_sampled_y_offset o;
  didd_display_height := didd_display_height o;
  didd_display_width := didd_display_width o;
  didd_display_x_offset := didd_display_x_offset o;
  didd_display_y_offset := didd_display_y_offset o;
  didd_frame_layout := didd_frame_layout o;
  didd_aspect_num := didd_aspect_num o;
  didd_aspect_den := didd_aspect_den o;
  didd_line_map := didd_line_map o;
  didd_alpha_transparency := didd_alpha_transparency o;
  didd_uniformness := didd_uniformness o;
  didd_did_image_size := didd_did_image_size o;
  didd_next_did_desc := didd_next_did_desc o;
  didd_compress_method := didd_compress_method o;
  didd_resolution_id := didd_resolution_id o;
  didd_image_alignment_factor := didd_image_alignment_factor o;
  didd_frame_index_byte_order := didd_frame_index_byte_order o;
  didd_frame_sample_size := didd_frame_sample_size o;
  didd_first_frame_offset := didd_first_frame_offset o;
  didd_client_fill_start := didd_client_fill_start o;
  didd_client_fill_end := didd_client_fill_end o;
  didd_offset_to_rle_frame_index := didd_offset_to_rle_frame_index o;
  didd_frame_start_offset := v;
  didd_valid_box := didd_valid_box o;
  didd_essence_box := didd_essence_box o;
  didd_source_box := didd_source_box o;
  didd_framing_box := didd_framing_box o;
  didd_reformatting_option := didd_reformatting_option o;
  didd_transfer_characteristic := didd_transfer_characteristic o;
  didd_color_primaries := didd_color_primaries o;
  didd_coding_equations := didd_coding_equations o;
  didd_essence_compression := didd_essence_compression o;
  didd_essence_element_size_kind := didd_essence_element_size_kind o;
  didd_frame_checked_with_mapper := didd_frame_checked_with_mapper o |}.

(** [self.valid_box = v]; essence.py:641. *)
Definition set_didd_valid_box (o : did_descriptor) (v : option bounds_box) : did_descriptor := {|
  didd_file := didd_file o;
  didd_stored_height := didd_stored_height o;
  didd_stored_width := didd_stored_width o;
  didd_sampled_height := didd_sampled_height o;
  didd_sampled_width := didd_sampled_width o;
  didd_sampled_x_offset := didd_sampled_x_offset o;
  didd_sampled_y_offset := didd_sampled_y_offset o;
  didd_display_height := didd_display_height o;
  didd_display_width := didd_display_width o;
  didd_display_x_offset := didd_display_x_offset o;
  didd_display_y_offset := didd_display_y_offset o;
  didd_frame_layout := didd_frame_layout o;
  didd_aspect_num := didd_aspect_num o;
  didd_aspect_den := didd_aspect_den o;
  didd_line_map := didd_line_map o;
  didd_alpha_transparency := didd_alpha_transparency o;
  didd_uniformness := didd_uniformness o;
  didd_did_image_size := didd_did_image_size o;
  didd_next_did_desc := didd_next_did_desc o;
  didd_compress_method := didd_compress_method o;
  didd_resolution_id := didd_resolution_id o;
  didd_image_alignment_factor := didd_image_alignment_factor o;
  didd_frame_index_byte_order := didd_frame_index_byte_order o;
  didd_frame_sample_size := didd_frame_sample_size o;
  didd_first_frame_offset := didd_first_frame_offset o;
  didd_client_fill_start := didd_client_fill_start o;
  didd_client_fill_end := didd_client_fill_end o;
  didd_offset_to_rle_frame_index := didd_offset_to_rle_frame_index o;
  didd_frame_start_offset := didd_frame_start_offset o;
  didd_valid_box := v;
  didd_essence_box := didd_essence_box o;
  didd_source_box := didd_source_box o;
  didd_framing_box := didd_framing_box o;
  didd_reformatting_option := didd_reformatting_option o;
  didd_transfer_characteristic := didd_transfer_characteristic o;
  didd_color_primaries := didd_color_primaries o;
  didd_coding_equations := didd_coding_equations o;
  didd_essence_compression := didd_essence_compression o;
  didd_essence_element_size_kind := didd_essence_element_size_kind o;
  didd_frame_checked_with_mapper := didd_frame_checked_with_mapper o |}.

(** [self.essence_box = v]; essence.py:667. *)
Definition set_didd_essence_box (o : did_descriptor) (v : option bounds_box)
  : did_descriptor := {|
  didd_file := didd_file o;
  didd_stored_height := didd_stored_height o;
  didd_stored_width := didd_stored_width o;
  didd_sampled_height := didd_sampled_height o;
  didd_sampled_width := didd_sampled_width o;
  didd_sampled_x_offset := didd_sampled_x_offset o;
  didd_sampled_y_offset := didd_sampled_y_offset o;
  didd_display_height := didd_display_height o;
  didd_display_width := didd_display_width o;
  didd_display_x_offset := didd_display_x_offset o;
  didd_display_y_offset := didd_display_y_offset o;
  didd_frame_layout := didd_frame_layout o;
  didd_aspect_num := didd_aspect_num o;
  didd_aspect_den := didd_aspect_den o;
  didd_line_map := didd_line_map o;
  didd_alpha_transparency := didd_alpha_transparency o;
  didd_uniformness := didd_uniformness o;
  didd_did_image_size := didd_did_image_size o;
  didd_next_did_desc := didd_next_did_desc o;
  didd_compress_method := didd_compress_method o;
  didd_resolution_id := didd_resolution_id o;
  didd_image_alignment_factor := didd_image_alignment_factor o;
  didd_frame_index_byte_order := didd_frame_index_byte_order o;
  didd_frame_sample_size := didd_frame_sample_size o;
  didd_first_frame_offset := didd_first_frame_offset o;
  didd_client_fill_start := didd_client_fill_start o;
  didd_client_fill_end := didd_client_fill_end o;
  didd_offset_to_rle_frame_index := didd_offset_to_rle_frame_index o;
  didd_frame_start_offset := didd_frame_start_offset o;
  didd_valid_box := didd_valid_box o;
  didd_essence_box := v;
  didd_source_box := didd_source_box o;
  didd_framing_box := didd_framing_box o;
  didd_reformatting_option := didd_reformatting_option o;
  didd_transfer_characteristic := didd_transfer_characteristic o;
  didd_color_primaries := didd_color_primaries o;
  didd_coding_equations := didd_coding_equations o;
  didd_essence_compression := didd_essence_compression o;
  didd_essence_element_size_kind := didd_essence_element_size_kind o;
  didd_frame_checked_with_mapper := didd_frame_checked_with_mapper o |}.

(** [self.source_box = v]; essence.py:693. *)
Definition set_didd_source_box (o : did_descriptor) (v : option bounds_box) : did_descriptor := {|
  didd_file := didd_file o;
  didd_stored_height := didd_stored_height o;
  didd_stored_width := didd_stored_width o;
  didd_sampled_height := didd_sampled_height o;
  didd_sampled_width := didd_sampled_width o;
  didd_sampled_x_offset := didd_sampled_x_offset o;
  didd_sampled_y_offset := didd_sampled_y_offset o;
  didd_display_height := didd_display_height o;
  didd_display_width := didd_display_width o;
  didd_display_x_offset := didd_display_x_offset o;
  didd_display_y_offset := didd_display_y_offset o;
  didd_frame_layout := didd_frame_layout o;
  didd_aspect_num := didd_aspect_num o;
  didd_aspect_den := didd_aspect_den o;
  didd_line_map := didd_line_map o;
  didd_alpha_transparency := didd_alpha_transparency o;
  didd_uniformness := didd_uniformness o;
  didd_did_image_size := didd_did_image_size o;
  didd_next_did_desc := didd_next_did_desc o;
  didd_compress_method := didd_compress_method o;
  didd_resolution_id := didd_resolution_id o;
  didd_image_alignment_factor := didd_image_alignment_factor o;
  didd_frame_index_byte_order := didd_frame_index_byte_order o;
  didd_frame_sample_size := didd_frame_sample_size o;
  didd_first_frame_offset := didd_first_frame_offset o;
  didd_client_fill_start := didd_client_fill_start o;
  didd_client_fill_end := didd_client_fill_end o;
  didd_offset_to_rle_frame_index := didd_offset_to_rle_frame_index o;
  didd_frame_start_offset := didd_frame_start_offset o;
  didd_valid_box := didd_valid_box o;
  didd_essence_box := didd_essence_box o;
  didd_source_box := v;
  didd_framing_box := didd_framing_box o;
  didd_reformatting_option := didd_reformatting_option o;
  didd_transfer_characteristic := didd_transfer_characteristic o;
  didd_color_primaries := didd_color_primaries o;
  didd_coding_equations := didd_coding_equations o;
  didd_essence_compression := didd_essence_compression o;
  didd_essence_element_size_kind := didd_essence_element_size_kind o;
  didd_frame_checked_with_mapper := didd_frame_checked_with_mapper o |}.

(** [self.framing_box = v]; essence.py:720. *)
Definition set_didd_framing_box (o : did_descriptor) (v : option bounds_box)
  : did_descriptor := {|
  didd_file := didd_file o;
  didd_stored_height := didd_stored_height o;
  didd_stored_width := didd_stored_width o;
  didd_sampled_height := didd_sampled_height o;
  didd_sampled_width := didd_sampled_width o;
  didd_sampled_x_offset := didd_sampled_x_offset o;
  didd_sampled_y_offset := didd_sampled_y_offset o;
  didd_display_height := didd_display_height o;
  didd_display_width := didd_display_width o;
  didd_display_x_offset := didd_display_x_offset o;
  didd_display_y_offset := didd_display_y_offset o;
  didd_frame_layout := didd_frame_layout o;
  didd_aspect_num := didd_aspect_num o;
  didd_aspect_den := didd_aspect_den o;
  didd_line_map := didd_line_map o;
  didd_alpha_transparency := didd_alpha_transparency o;
  didd_uniformness := didd_uniformness o;
  didd_did_image_size := didd_did_image_size o;
  didd_next_did_desc := didd_next_did_desc o;
  didd_compress_method := didd_compress_method o;
  didd_resolution_id := didd_resolution_id o;
  didd_image_alignment_factor := didd_image_alignment_factor o;
  didd_frame_index_byte_order := didd_frame_index_byte_order o;
  didd_frame_sample_size := didd_frame_sample_size o;
  didd_first_frame_offset := didd_first_frame_offset o;
  didd_client_fill_start := didd_client_fill_start o;
  didd_client_fill_end := didd_client_fill_end o;
  didd_offset_to_rle_frame_index := didd_offset_to_rle_frame_index o;
  didd_frame_start_offset := didd_frame_start_offset o;
  didd_valid_box := didd_valid_box o;
  didd_essence_box := didd_essence_box o;
  didd_source_box := didd_source_box o;
  didd_framing_box := v;
  didd_reformatting_option := didd_reformatting_option o;
  didd_transfer_characteristic := didd_transfer_characteristic o;
  didd_color_primaries := didd_color_primaries o;
  didd_coding_equations := didd_coding_equations o;
  didd_essence_compression := didd_essence_compression o;
  didd_essence_element_size_kind := didd_essence_element_size_kind o;
  didd_frame_checked_with_mapper := didd_frame_checked_with_mapper o |}.

(** [self.reformatting_option = v]; essence.py:746. *)
Definition set_didd_reformatting_option (o : did_descriptor) (v : option Z) : did_descriptor := {|
  didd_file := didd_file o;
  didd_stored_height := didd_stored_height o;
  didd_stored_width := didd_stored_width o;
  didd_sampled_height := didd_sampled_height o;
  didd_sampled_width := didd_sampled_width o;
  didd_sampled_x_offset := didd_sampled_x_offset o;
  didd_sampled_y_offset := didd_sampled_y_offset o;
  didd_display_height := didd_display_height o;
  didd_display_width := didd_display_width o;
  didd_display_x_offset := didd_display_x_offset o;
  didd_display_y_offset := didd_display_y_offset o;
  didd_frame_layout := didd_frame_layout o;
  didd_aspect_num := didd_aspect_num o;
  didd_aspect_den := didd_aspect_den o;
  didd_line_map := didd_line_map o;
  didd_alpha_transparency := didd_alpha_transparency o;
  didd_uniformness := didd_uniformness o;
  didd_did_image_size := didd_did_image_size o;
  didd_next_did_desc := didd_next_did_desc o;
  didd_compress_method := didd_compress_method o;
  didd_resolution_id := didd_resolution_id o;
  didd_image_alignment_factor := didd_image_alignment_factor o;
  didd_frame_index_byte_order := didd_frame_index_byte_order o;
  didd_frame_sample_size := didd_frame_sample_size o;
  didd_first_frame_offset := didd_first_frame_offset o;
  didd_client_fill_start := didd_client_fill_start o;
  didd_client_fill_end := didd_client_fill_end o;
  didd_offset_to_rle_frame_index := didd_offset_to_rle_frame_index o;
  didd_frame_start_offset := didd_frame_start_offset o;
  didd_valid_box := didd_valid_box o;
  didd_essence_box := didd_essence_box o;
  didd_source_box := didd_source_box o;
  didd_framing_box := didd_framing_box o;
  didd_reformatting_option := v;
  didd_transfer_characteristic := didd_transfer_characteristic o;
  didd_color_primaries := didd_color_primaries o;
  didd_coding_equations := didd_coding_equations o;
  didd_essence_compression := didd_essence_compression o;
  didd_essence_element_size_kind := didd_essence_element_size_kind o;
  didd_frame_checked_with_mapper := didd_frame_checked_with_mapper o |}.

(** [self.transfer_characteristic = v]; essence.py:750. *)
Definition set_didd_transfer_characteristic (o : did_descriptor) (v : option uuid)
  : did_descriptor := {|
  didd_file := didd_file o;
  didd_stored_height := didd_stored_height o;
  didd_stored_width := didd_stored_width o;
  didd_sampled_height := didd_sampled_height o;
  didd_sampled_width := didd_sampled_width o;
  didd_sampled_x_offset := didd_sampled_x_offset o;
  didd_sampled_y_offset := didd_sampled_y_offset o;
  didd_display_height := didd_display_height o;
  didd_display_width := didd_display_width o;
  didd_display_x_offset := didd_display_x_offset o;
  didd_display_y_offset := didd_display_y_offset o;
  didd_frame_layout := didd_frame_layout o;
  didd_aspect_num := didd_aspect_num o;
  didd_aspect_den := didd_aspect_den o;
  didd_line_map := didd_line_map o;
  didd_alpha_transparency := didd_alpha_transparency o;
  didd_uniformness := didd_uniformness o;
  didd_did_image_size := didd_did_image_size o;
  didd_next_did_desc := didd_next_did_desc o;
  didd_compress_method := didd_compress_method o;
  didd_resolution_id := didd_resolution_id o;
  didd_image_alignment_factor := didd_image_alignment_factor o;
  didd_frame_index_byte_order := didd_frame_index_byte_order o;
  didd_frame_sample_size := didd_frame_sample_size o;
  didd_first_frame_offset := didd_first_frame_offset o;
  didd_client_fill_start := didd_client_fill_start o;
  didd_client_fill_end := didd_client_fill_end o;
  didd_offset_to_rle_frame_index := didd_offset_to_rle_frame_index o;
  didd_frame_start_offset := didd_frame_start_offset o;
  didd_valid_box := didd_valid_box o;
  didd_essence_box := didd_essence_box o;
  didd_source_box := didd_source_box o;
  didd_framing_box := didd_framing_box o;
  didd_reformatting_option := didd_reformatting_option o;
  didd_transfer_characteristic := v;
  didd_color_primaries := didd_color_primaries o;
  didd_coding_equations := didd_coding_equations o;
  didd_essence_compression := didd_essence_compression o;
  didd_essence_element_size_kind := didd_essence_element_size_kind o;
  didd_frame_checked_with_mapper := didd_frame_checked_with_mapper o |}.

(** [self.color_primaries = v]; essence.py:753. *)
Definition set_didd_color_primaries (o : did_descriptor) (v : option uuid) : did_descriptor := {|
  didd_file := didd_file o;
  didd_stored_height := didd_stored_height o;
  didd_stored_width := didd_stored_width o;
  didd_sampled_height := didd_sampled_height o;
  didd_sampled_width := didd_sampled_width o;
  didd_sampled_x_offset := didd_sampled_x_offset o;
  didd_sampled_y_offset := didd_sampled_y_offset o;
  didd_display_height := didd_display_height o;
  didd_display_width := didd_display_width o;
  didd_display_x_offset := didd_display_x_offset o;
  didd_display_y_offset := didd_display_y_offset o;
  didd_frame_layout := didd_frame_layout o;
  didd_aspect_num := didd_aspect_num o;
  didd_aspect_den := didd_aspect_den o;
  didd_line_map := didd_line_map o;
  didd_alpha_transparency := didd_alpha_transparency o;
  didd_uniformness := didd_uniformness o;
  didd_did_image_size := didd_did_image_size o;
  didd_next_did_desc := didd_next_did_desc o;
  didd_compress_method := didd_compress_method o;
  didd_resolution_id := didd_resolution_id o;
  didd_image_alignment_factor := didd_image_alignment_factor o;
  didd_frame_index_byte_order := didd_frame_index_byte_order o;
  didd_frame_sample_size := didd_frame_sample_size o;
  didd_first_frame_offset := didd_first_frame_offset o;
  didd_client_fill_start := didd_client_fill_start o;
  didd_client_fill_end := didd_client_fill_end o;
  didd_offset_to_rle_frame_index := didd_offset_to_rle_frame_index o;
  didd_frame_start_offset := didd_frame_start_offset o;
  didd_valid_box := didd_valid_box o;
  didd_essence_box := didd_essence_box o;
  didd_source_box := didd_source_box o;
  didd_framing_box := didd_framing_box o;
  didd_reformatting_option := didd_reformatting_option o;
  didd_transfer_characteristic := didd_transfer_characteristic o;
  didd_color_primaries := v;
  didd_coding_equations := didd_coding_equations o;
  didd_essence_compression := didd_essence_compression o;
  didd_essence_element_size_kind := didd_essence_element_size_kind o;
  didd_frame_checked_with_mapper := didd_frame_checked_with_mapper o |}.

(** [self.coding_equations = v]; essence.py:755. *)
Definition set_didd_coding_equations (o : did_descriptor) (v : option uuid) : did_descriptor := {|
  didd_file := didd_file o;
  didd_stored_height := didd_stored_height o;
  didd_stored_width := didd_stored_width o;
  didd_sampled_height := didd_sampled_height o;
  didd_sampled_width := didd_sampled_width o;
  didd_sampled_x_offset := didd_sampled_x_offset o;
  didd_sampled_y_offset := didd_sampled_y_offset o;
  didd_display_height := didd_display_height o;
  didd_display_width := didd_display_width o;
  didd_display_x_offset := didd_display_x_offset o;
  didd_display_y_offset := didd_display_y_offset o;
  didd_frame_layout := didd_frame_layout o;
  didd_aspect_num := didd_aspect_num o;
  didd_aspect_den := didd_aspect_den o;
  didd_line_map := didd_line_map o;
  didd_alpha_transparency := didd_alpha_transparency o;
  didd_uniformness := didd_uniformness o;
  didd_did_image_size := didd_did_image_size o;
  didd_next_did_desc := didd_next_did_desc o;
  didd_compress_method := didd_compress_method o;
  didd_resolution_id := didd_resolution_id o;
  didd_image_alignment_factor := didd_image_alignment_factor o;
  didd_frame_index_byte_order := didd_frame_index_byte_order o;
  didd_frame_sample_size := didd_frame_sample_size o;
  didd_first_frame_offset := didd_first_frame_offset o;
  didd_client_fill_start := didd_client_fill_start o;
  didd_client_fill_end := didd_client_fill_end o;
  didd_offset_to_rle_frame_index := didd_offset_to_rle_frame_index o;
  didd_frame_start_offset := didd_frame_start_offset o;
  didd_valid_box := didd_valid_box o;
  didd_essence_box := didd_essence_box o;
  didd_source_box := didd_source_box o;
  didd_framing_box := didd_framing_box o;
  didd_reformatting_option := didd_reformatting_option o;
  didd_transfer_characteristic := didd_transfer_characteristic o;
  didd_color_primaries := didd_color_primaries o;
  didd_coding_equations := v;
  didd_essence_compression := didd_essence_compression o;
  didd_essence_element_size_kind := didd_essence_element_size_kind o;
  didd_frame_checked_with_mapper := didd_frame_checked_with_mapper o |}.

(** [self.essence_compression = v]; essence.py:758. *)
Definition set_didd_essence_compression (o : did_descriptor) (v : option uuid)
  : did_descriptor := {|
  didd_file := didd_file o;
  didd_stored_height := didd_stored_height o;
  didd_stored_width := didd_stored_width o;
  didd_sampled_height := didd_sampled_height o;
  didd_sampled_width := didd_sampled_width o;
  didd_sampled_x_offset := didd_sampled_x_offset o;
  didd_sampled_y_offset := didd_sampled_y_offset o;
  didd_display_height := didd_display_height o;
  didd_display_width := didd_display_width o;
  didd_display_x_offset := didd_display_x_offset o;
  didd_display_y_offset := didd_display_y_offset o;
  didd_frame_layout := didd_frame_layout o;
  didd_aspect_num := didd_aspect_num o;
  didd_aspect_den := didd_aspect_den o;
  didd_line_map := didd_line_map o;
  didd_alpha_transparency := didd_alpha_transparency o;
  didd_uniformness := didd_uniformness o;
  didd_did_image_size := didd_did_image_size o;
  didd_next_did_desc := didd_next_did_desc o;
  didd_compress_method := didd_compress_method o;
  didd_resolution_id := didd_resolution_id o;
  didd_image_alignment_factor := didd_image_alignment_factor o;
  didd_frame_index_byte_order := didd_frame_index_byte_order o;
  didd_frame_sample_size := didd_frame_sample_size o;
  didd_first_frame_offset := didd_first_frame_offset o;
  didd_client_fill_start := didd_client_fill_start o;
  didd_client_fill_end := didd_client_fill_end o;
  didd_offset_to_rle_frame_index := didd_offset_to_rle_frame_index o;
  didd_frame_start_offset := didd_frame_start_offset o;
  didd_valid_box := didd_valid_box o;
  didd_essence_box := didd_essence_box o;
  didd_source_box := didd_source_box o;
  didd_framing_box := didd_framing_box o;
  didd_reformatting_option := didd_reformatting_option o;
  didd_transfer_characteristic := didd_transfer_characteristic o;
  didd_color_primaries := didd_color_primaries o;
  didd_coding_equations := didd_coding_equations o;
  didd_essence_compression := v;
  didd_essence_element_size_kind := didd_essence_element_size_kind o;
  didd_frame_checked_with_mapper := didd_frame_checked_with_mapper o |}.

(** [self.essence_element_size_kind = v]; essence.py:761. *)
Definition set_didd_essence_element_size_kind (o : did_descriptor) (v : option Z)
  : did_descriptor := {|
  didd_file := didd_file o;
  didd_stored_height := didd_stored_height o;
  didd_stored_width := didd_stored_width o;
  didd_sampled_height := didd_sampled_height o;
  didd_sampled_width := didd_sampled_width o;
  didd_sampled_x_offset := didd_sampled_x_offset o;
  didd_sampled_y_offset := didd_sampled_y_offset o;
  didd_display_height := didd_display_height o;
  didd_display_width := didd_display_width o;
  didd_display_x_offset := didd_display_x_offset o;
  didd_display_y_offset := didd_display_y_offset o;
  didd_frame_layout := didd_frame_layout o;
  didd_aspect_num := didd_aspect_num o;
  didd_aspect_den := didd_aspect_den o;
  didd_line_map := didd_line_map o;
  didd_alpha_transparency := didd_alpha_transparency o;
  didd_uniformness := didd_uniformness o;
  didd_did_image_size := didd_did_image_size o;
  didd_next_did_desc := didd_next_did_desc o;
  didd_compress_method := didd_compress_method o;
  didd_resolution_id := didd_resolution_id o;
  didd_image_alignment_factor := didd_image_alignment_factor o;
  didd_frame_index_byte_order := didd_frame_index_byte_order o;
  didd_frame_sample_size := didd_frame_sample_size o;
  didd_first_frame_offset := didd_first_frame_offset o;
  didd_client_fill_start := didd_client_fill_start o;
  didd_client_fill_end := didd_client_fill_end o;
  didd_offset_to_rle_frame_index := didd_offset_to_rle_frame_index o;
  didd_frame_start_offset := didd_frame_start_offset o;
  didd_valid_box := didd_valid_box o;
  didd_essence_box := didd_essence_box o;
  didd_source_box := didd_source_box o;
  didd_framing_box := didd_framing_box o;
  didd_reformatting_option := didd_reformatting_option o;
  didd_transfer_characteristic := didd_transfer_characteristic o;
  didd_color_primaries := didd_color_primaries o;
  didd_coding_equations := didd_coding_equations o;
  didd_essence_compression := didd_essence_compression o;
  didd_essence_element_size_kind := v;
  didd_frame_checked_with_mapper := didd_frame_checked_with_mapper o |}.

(** [self.frame_checked_with_mapper = v]; essence.py:764. *)
Definition set_didd_frame_checked_with_mapper (o : did_descriptor) (v : option bool)
  : did_descriptor := {|
  didd_file := didd_file o;
  didd_stored_height := didd_stored_height o;
  didd_stored_width := didd_stored_width o;
  didd_sampled_height := didd_sampled_height o;
  didd_sampled_width := didd_sampled_width o;
  didd_sampled_x_offset := didd_sampled_x_offset o;
  didd_sampled_y_offset := didd_sampled_y_offset o;
  didd_display_height := didd_display_height o;
  didd_display_width := didd_display_width o;
  didd_display_x_offset := didd_display_x_offset o;
  didd_display_y_offset := didd_display_y_offset o;
  didd_frame_layout := didd_frame_layout o;
  didd_aspect_num := didd_aspect_num o;
  didd_aspect_den := didd_aspect_den o;
  didd_line_map := didd_line_map o;
  didd_alpha_transparency := didd_alpha_transparency o;
  didd_uniformness := didd_uniformness o;
  didd_did_image_size := didd_did_image_size o;
  didd_next_did_desc := didd_next_did_desc o;
  didd_compress_method := didd_compress_method o;
  didd_resolution_id := didd_resolution_id o;
  didd_image_alignment_factor := didd_image_alignment_factor o;
  didd_frame_index_byte_order := didd_frame_index_byte_order o;
  didd_frame_sample_size := didd_frame_sample_size o;
  didd_first_frame_offset := didd_first_frame_offset o;
  didd_client_fill_start := didd_client_fill_start o;
  didd_client_fill_end := didd_client_fill_end o;
  didd_offset_to_rle_frame_index := didd_offset_to_rle_frame_index o;
  didd_frame_start_offset := didd_frame_start_offset o;
  didd_valid_box := didd_valid_box o;
  didd_essence_box := didd_essence_box o;
  didd_source_box := didd_source_box o;
  didd_framing_box := didd_framing_box o;
  didd_reformatting_option := didd_reformatting_option o;
  didd_transfer_characteristic := didd_transfer_characteristic o;
  didd_color_primaries := didd_color_primaries o;
  didd_coding_equations := didd_coding_equations o;
  didd_essence_compression := didd_essence_compression o;
  didd_essence_element_size_kind := didd_essence_element_size_kind o;
  didd_frame_checked_with_mapper := v |}.

(** essence.py:642-646 and the like: a tagged pair of numbers. *)
Definition rpoint (i : ictx) : reader (Z * Z) :=
  rtag 71 ;;; x <- rs32 (ibo i) ;; rtag 71 ;;; y <- rs32 (ibo i) ;; ret (x, y).

(** essence.py:641-664 and the like. *)
Definition rbounds_box (i : ictx) : reader bounds_box :=
  p0 <- rpoint i ;; p1 <- rpoint i ;; p2 <- rpoint i ;; p3 <- rpoint i ;;
  ret {| bb_x0 := fst p0; bb_y0 := snd p0; bb_x1 := fst p1; bb_y1 := snd p1;
         bb_x2 := fst p2; bb_y2 := snd p2; bb_x3 := fst p3; bb_y3 := snd p3 |}.

(** essence.py:859-862 and the like. *)
Definition wpoint (c : octx) (x y : Z) : writer :=
  wu8 71 +++ ws32 (obo c) x +++ wu8 71 +++ ws32 (obo c) y.

(** essence.py:859-877 and the like. *)
Definition wbounds_box (c : octx) (b : bounds_box) : writer :=
  wpoint c (bb_x0 b) (bb_y0 b) +++ wpoint c (bb_x1 b) (bb_y1 b) +++
  wpoint c (bb_x2 b) (bb_y2 b) +++ wpoint c (bb_x3 b) (bb_y3 b).

(** essence.py:611-767. *)
Definition did_descriptor_ext (i : ictx) (tag : Z) (o : did_descriptor) : reader did_descriptor :=
  if tag =? 1 then
    rtag 69 ;;; v <- rs16 (ibo i) ;; ret (set_didd_frame_index_byte_order o (Some v))
  else if tag =? 2 then
    rtag 71 ;;; v <- rs32 (ibo i) ;; ret (set_didd_frame_sample_size o (Some v))
  else if tag =? 3 then
    rtag 71 ;;; v <- rs32 (ibo i) ;; ret (set_didd_first_frame_offset o (Some v))
  else if tag =? 4 then
  rtag 71 ;;; a <- rs32 (ibo i) ;; rtag 71 ;;; b <- rs32 (ibo i) ;;
  ret (set_didd_client_fill_end (set_didd_client_fill_start o (Some a)) (Some b))
  else if tag =? 5 then
    rtag 71 ;;; v <- rs32 (ibo i) ;; ret (set_didd_offset_to_rle_frame_index o (Some v))
  else if tag =? 6 then
    rtag 71 ;;; v <- rs32 (ibo i) ;; ret (set_didd_frame_start_offset o (Some v))
  else if tag =? 8 then
  va <- rbounds_box i ;; es <- rbounds_box i ;; so <- rbounds_box i ;;
  ret (set_didd_source_box (set_didd_essence_box (set_didd_valid_box o (Some va))
  (Some es)) (Some so))
  else if tag =? 9 then
  fb <- rbounds_box i ;; rtag 71 ;;; ro <- rs32 (ibo i) ;;
  ret (set_didd_reformatting_option (set_didd_framing_box o (Some fb)) (Some ro))
  else if tag =? 10 then
    rtag 80 ;;; v <- rrawuuid (ibo i) ;; ret (set_didd_transfer_characteristic o (Some v))
  else if tag =? 11 then
  rtag 80 ;;; cp <- rrawuuid (ibo i) ;; rtag 80 ;;; ce <- rrawuuid (ibo i) ;;
  ret (set_didd_coding_equations (set_didd_color_primaries o (Some cp)) (Some ce))
  else if tag =? 12 then
    rtag 80 ;;; v <- rrawuuid (ibo i) ;; ret (set_didd_essence_compression o (Some v))
  else if tag =? 14 then
    rtag 68 ;;; v <- ru8 ;; ret (set_didd_essence_element_size_kind o (Some v))
  else if tag =? 15 then
    rtag 66 ;;; v <- rbool ;; ret (set_didd_frame_checked_with_mapper o (Some v))
  else fail ValueErr.

(** essence.py:592-597. *)
Definition rline_map (i : ictx) : reader (list Z) :=
  line_map_byte_size <- rs32 (ibo i) ;;
  if line_map_byte_size =? 0 then ret []
  else rlist (Z.to_nat (line_map_byte_size / 4)) (rs32 (ibo i)).

(** essence.py:565-767. *)
Definition rdid_descriptor_base (i : ictx) : reader did_descriptor :=
  file <- rmedia_file_descriptor_base i ;;
  rtag 2 ;;; rtag 2 ;;;
  stored_height <- rs32 (ibo i) ;;
  stored_width <- rs32 (ibo i) ;;
  sampled_height <- rs32 (ibo i) ;;
  sampled_width <- rs32 (ibo i) ;;
  sampled_x_offset <- rs32 (ibo i) ;;
  sampled_y_offset <- rs32 (ibo i) ;;
  display_height <- rs32 (ibo i) ;;
  display_width <- rs32 (ibo i) ;;
  display_x_offset <- rs32 (ibo i) ;;
  display_y_offset <- rs32 (ibo i) ;;
  frame_layout <- rs16 (ibo i) ;;
  aspect_num <- rs32 (ibo i) ;;
  aspect_den <- rs32 (ibo i) ;;
  line_map <- rline_map i ;;
  alpha_transparency <- rs32 (ibo i) ;;
  uniformness <- rbool ;;
  did_image_size <- rs32 (ibo i) ;;
  next_did_desc <- rref i ;;
  compress_method <- rfourcc (ibo i) ;;
  resolution_id <- rs32 (ibo i) ;;
  image_alignment_factor <- rs32 (ibo i) ;;
  iter_ext (did_descriptor_ext i) {| didd_file := file; didd_stored_height := stored_height;
    didd_stored_width := stored_width; didd_sampled_height := sampled_height;
    didd_sampled_width := sampled_width; didd_sampled_x_offset := sampled_x_offset;
    didd_sampled_y_offset := sampled_y_offset; didd_display_height := display_height;
    didd_display_width := display_width; didd_display_x_offset := display_x_offset;
    didd_display_y_offset := display_y_offset; didd_frame_layout := frame_layout;
    didd_aspect_num := aspect_num; didd_aspect_den := aspect_den; didd_line_map := line_map;
    didd_alpha_transparency := alpha_transparency; didd_uniformness := uniformness;
    didd_did_image_size := did_image_size; didd_next_did_desc := next_did_desc;
    didd_compress_method := compress_method; didd_resolution_id := resolution_id;
    didd_image_alignment_factor := image_alignment_factor; didd_frame_index_byte_order := None;
    didd_frame_sample_size := None; didd_first_frame_offset := None;
    didd_client_fill_start := None; didd_client_fill_end := None;
    didd_offset_to_rle_frame_index := None; didd_frame_start_offset := None;
    didd_valid_box := None; didd_essence_box := None; didd_source_box := None;
    didd_framing_box := None; didd_reformatting_option := None;
    didd_transfer_characteristic := None; didd_color_primaries := None;
    didd_coding_equations := None; didd_essence_compression := None;
    didd_essence_element_size_kind := None; didd_frame_checked_with_mapper := None |}.

(** essence.py:834-841. *)
Definition wclient_fill (c : octx) (s e : option Z) : writer :=
  match s with
  | None => wnil
  | Some a => wext 4 (wu8 71 +++ ws32 (obo c) a +++ wu8 71 +++
                      match e with Some b => ws32 (obo c) b | None => Err AttributeErr end)
  end.

(** essence.py:855-920. *)
Definition wboxes (c : octx) (va es so : option bounds_box) : writer :=
  match va, es, so with
  | Some a, Some b, Some d =>
      wext 8 (wbounds_box c a +++ wbounds_box c b +++ wbounds_box c d)
  | _, _, _ => wnil
  end.

(** essence.py:922-948. *)
Definition wframing (c : octx) (fb : option bounds_box) (ro : option Z) : writer :=
  match fb, ro with
  | Some a, Some b => wext 9 (wbounds_box c a +++ wu8 71 +++ ws32 (obo c) b)
  | _, _ => wnil
  end.

(** essence.py:956-962. *)
Definition wcolor (c : octx) (cp ce : option uuid) : writer :=
  match cp, ce with
  | Some a, Some b =>
      wext 11 (wu8 80 +++ wrawuuid (obo c) a +++ wu8 80 +++ wrawuuid (obo c) b)
  | _, _ => wnil
  end.

(** essence.py:798-800. *)
Definition wline_map (c : octx) (l : list Z) : writer :=
  ws32 (obo c) (len l * 4) +++ wlist (ws32 (obo c)) l.

(** essence.py:772-980. *)
Definition wdid_descriptor_base (c : octx) (o : did_descriptor) : writer :=
  wmedia_file_descriptor_base c (didd_file o) +++
  wu8 2 +++ wu8 2 +++
  ws32 (obo c) (didd_stored_height o) +++
  ws32 (obo c) (didd_stored_width o) +++
  ws32 (obo c) (didd_sampled_height o) +++
  ws32 (obo c) (didd_sampled_width o) +++
  ws32 (obo c) (didd_sampled_x_offset o) +++
  ws32 (obo c) (didd_sampled_y_offset o) +++
  ws32 (obo c) (didd_display_height o) +++
  ws32 (obo c) (didd_display_width o) +++
  ws32 (obo c) (didd_display_x_offset o) +++
  ws32 (obo c) (didd_display_y_offset o) +++
  ws16 (obo c) (didd_frame_layout o) +++
  ws32 (obo c) (didd_aspect_num o) +++
  ws32 (obo c) (didd_aspect_den o) +++
  wline_map c (didd_line_map o) +++
  ws32 (obo c) (didd_alpha_transparency o) +++
  wbool (didd_uniformness o) +++
  ws32 (obo c) (didd_did_image_size o) +++
  wref c (didd_next_did_desc o) +++
  wassert (len (didd_compress_method o) =? 4) +++
  wfourcc (obo c) (didd_compress_method o) +++
  ws32 (obo c) (didd_resolution_id o) +++
  ws32 (obo c) (didd_image_alignment_factor o) +++
  wopt (didd_frame_index_byte_order o) (fun v => wext 1 (wu8 69 +++ ws16 (obo c) v)) +++
  wopt (didd_frame_sample_size o) (fun v => wext 2 (wu8 71 +++ ws32 (obo c) v)) +++
  wopt (didd_first_frame_offset o) (fun v => wext 3 (wu8 71 +++ ws32 (obo c) v)) +++
  wclient_fill c (didd_client_fill_start o) (didd_client_fill_end o) +++
  wopt (didd_offset_to_rle_frame_index o) (fun v => wext 5 (wu8 71 +++ ws32 (obo c) v)) +++
  wopt (didd_frame_start_offset o) (fun v => wext 6 (wu8 71 +++ ws32 (obo c) v)) +++
  wboxes c (didd_valid_box o) (didd_essence_box o) (didd_source_box o) +++
  wframing c (didd_framing_box o) (didd_reformatting_option o) +++
  wopt (didd_transfer_characteristic o) (fun v => wext 10 (wu8 80 +++ wrawuuid (obo c) v)) +++
  wcolor c (didd_color_primaries o) (didd_coding_equations o) +++
  wopt (didd_essence_compression o) (fun v => wext 12 (wu8 80 +++ wrawuuid (obo c) v)) +++
  wopt (didd_essence_element_size_kind o) (fun v => wext 14 (wu8 68 +++ wu8 v)) +++
  wopt (didd_frame_checked_with_mapper o) (fun v => wext 15 (wu8 66 +++ wbool v)).

(** essence.py:769-770, 982-983: class DIDD itself. *)
Definition rdid_descriptor (i : ictx) : reader did_descriptor :=
  o <- rdid_descriptor_base i ;; rtag 3 ;;; ret o.

(** essence.py:772-983 [DIDDescriptor.write]. *)
Definition wdid_descriptor (c : octx) (o : did_descriptor) : writer :=
  wdid_descriptor_base c o +++ wu8 3.

(** ** CDCIDescriptor (CDCI), essence.py:985-1063 *)

(** essence.py:988-999: the properties. *)
Record cdci_descriptor := {
  cdci_did : did_descriptor;
  cdci_horizontal_subsampling : Z;
  cdci_vertical_subsampling : Z;
  cdci_component_width : Z;
  cdci_color_sitting : Z;
  cdci_black_ref_level : Z;
  cdci_white_ref_level : Z;
  cdci_color_range : Z;
  cdci_frame_index_offset : Z;
  cdci_alpha_sampled_width : option Z;
  cdci_ignore_bw : option Z }.

(** [cdci_descriptor] with its references renamed by [f]; essence.py:988-999. *)
Definition cdci_descriptor_map (f : Z -> Z) (o : cdci_descriptor) : cdci_descriptor := {|
  cdci_did := did_descriptor_map f (cdci_did o);
  cdci_horizontal_subsampling := cdci_horizontal_subsampling o;
  cdci_vertical_subsampling := cdci_vertical_subsampling o;
  cdci_component_width := cdci_component_width o;
  cdci_color_sitting := cdci_color_sitting o;
  cdci_black_ref_level := cdci_black_ref_level o;
  cdci_white_ref_level := cdci_white_ref_level o;
  cdci_color_range := cdci_color_range o;
  cdci_frame_index_offset := cdci_frame_index_offset o;
  cdci_alpha_sampled_width := cdci_alpha_sampled_width o;
  cdci_ignore_bw := cdci_ignore_bw o |}.

(** The references of [cdci_descriptor]; essence.py:988-999. *)
Definition cdci_descriptor_refs (o : cdci_descriptor) : list Z :=
  did_descriptor_refs (cdci_did o).

(** What [cdci_descriptor] has to satisfy to be stored exactly; essence.py:988-999. *)
Definition cdci_descriptor_ok (o : cdci_descriptor) : Prop :=
  did_descriptor_ok (cdci_did o).

(** [self.alpha_sampled_width = v]; essence.py:1022. *)
Definition set_cdci_alpha_sampled_width (o : cdci_descriptor) (v : option Z)
  : cdci_descriptor := {|
  cdci_did := cdci_did o;
  cdci_horizontal_subsampling := cdci_horizontal_subsampling o;
  cdci_vertical_subsampling := cdci_vertical_subsampling o;
  cdci_component_width := cdci_component_width o;
  cdci_color_sitting := cdci_color_sitting o;
  cdci_black_ref_level := cdci_black_ref_level o;
  cdci_white_ref_level := cdci_white_ref_level o;
  cdci_color_range := cdci_color_range o;
  cdci_frame_index_offset := cdci_frame_index_offset o;
  cdci_alpha_sampled_width := v;
  cdci_ignore_bw := cdci_ignore_bw o |}.

(** [self.ignore_bw = v]; essence.py:1026. *)
Definition set_cdci_ignore_bw (o : cdci_descriptor) (v : option Z) : cdci_descriptor := {|
  cdci_did := cdci_did o;
  cdci_horizontal_subsampling := cdci_horizontal_subsampling o;
  cdci_vertical_subsampling := cdci_vertical_subsampling o;
  cdci_component_width := cdci_component_width o;
  cdci_color_sitting := cdci_color_sitting o;
  cdci_black_ref_level := cdci_black_ref_level o;
  cdci_white_ref_level := cdci_white_ref_level o;
  cdci_color_range := cdci_color_range o;
  cdci_frame_index_offset := cdci_frame_index_offset o;
  cdci_alpha_sampled_width := cdci_alpha_sampled_width o;
  cdci_ignore_bw := v |}.

(** essence.py:1019-1028. *)
Definition cdci_descriptor_ext (i : ictx) (tag : Z) (o : cdci_descriptor)
  : reader cdci_descriptor :=
  if tag =? 1 then rtag 72 ;;; v <- ru32 (ibo i) ;; ret (set_cdci_alpha_sampled_width o (Some v))
  else if tag =? 2 then rtag 72 ;;; v <- ru32 (ibo i) ;; ret (set_cdci_ignore_bw o (Some v))
  else fail ValueErr.

(** essence.py:1002-1028. *)
Definition rcdci_descriptor_base (i : ictx) : reader cdci_descriptor :=
  did <- rdid_descriptor_base i ;;
  rtag 2 ;;; rtag 2 ;;;
  horizontal_subsampling <- ru32 (ibo i) ;;
  vertical_subsampling <- ru32 (ibo i) ;;
  component_width <- rs32 (ibo i) ;;
  color_sitting <- rs16 (ibo i) ;;
  black_ref_level <- ru32 (ibo i) ;;
  white_ref_level <- ru32 (ibo i) ;;
  color_range <- ru32 (ibo i) ;;
  frame_index_offset <- rs64 (ibo i) ;;
  iter_ext (cdci_descriptor_ext i) {| cdci_did := did;
    cdci_horizontal_subsampling := horizontal_subsampling;
    cdci_vertical_subsampling := vertical_subsampling; cdci_component_width := component_width;
    cdci_color_sitting := color_sitting; cdci_black_ref_level := black_ref_level;
    cdci_white_ref_level := white_ref_level; cdci_color_range := color_range;
    cdci_frame_index_offset := frame_index_offset; cdci_alpha_sampled_width := None;
    cdci_ignore_bw := None |}.

(** essence.py:1033-1060. *)
Definition wcdci_descriptor_base (c : octx) (o : cdci_descriptor) : writer :=
  wdid_descriptor_base c (cdci_did o) +++
  wu8 2 +++ wu8 2 +++
  wu32 (obo c) (cdci_horizontal_subsampling o) +++
  wu32 (obo c) (cdci_vertical_subsampling o) +++
  ws32 (obo c) (cdci_component_width o) +++
  ws16 (obo c) (cdci_color_sitting o) +++
  wu32 (obo c) (cdci_black_ref_level o) +++
  wu32 (obo c) (cdci_white_ref_level o) +++
  wu32 (obo c) (cdci_color_range o) +++
  ws64 (obo c) (cdci_frame_index_offset o) +++
  wopt (cdci_alpha_sampled_width o) (fun v => wext 1 (wu8 72 +++ wu32 (obo c) v)) +++
  wopt (cdci_ignore_bw o) (fun v => wext 2 (wu8 72 +++ wu32 (obo c) v)).

(** essence.py:1030-1031, 1062-1063: class CDCI itself. *)
Definition rcdci_descriptor (i : ictx) : reader cdci_descriptor :=
  o <- rcdci_descriptor_base i ;; rtag 3 ;;; ret o.

(** essence.py:1033-1063 [CDCIDescriptor.write]. *)
Definition wcdci_descriptor (c : octx) (o : cdci_descriptor) : writer :=
  wcdci_descriptor_base c o +++ wu8 3.

(** ** MPGIDescriptor (MPGI), essence.py:1065-1121 *)

(** essence.py:1068-1079: the properties. *)
Record mpgi_descriptor := {
  mpgi_cdci : cdci_descriptor;
  mpgi_mpeg_version : Z;
  mpgi_profile : Z;
  mpgi_gop_structure : Z;
  mpgi_stream_type : Z;
  mpgi_random_access : bool;
  mpgi_leading_discard : bool;
  mpgi_trailing_discard : bool;
  mpgi_min_gop_length : Z;
  mpgi_max_gop_length : Z;
  mpgi_sequence_hdr : bytes }.

(** [mpgi_descriptor] with its references renamed by [f]; essence.py:1068-1079. *)
Definition mpgi_descriptor_map (f : Z -> Z) (o : mpgi_descriptor) : mpgi_descriptor := {|
  mpgi_cdci := cdci_descriptor_map f (mpgi_cdci o);
  mpgi_mpeg_version := mpgi_mpeg_version o;
  mpgi_profile := mpgi_profile o;
  mpgi_gop_structure := mpgi_gop_structure o;
  mpgi_stream_type := mpgi_stream_type o;
  mpgi_random_access := mpgi_random_access o;
  mpgi_leading_discard := mpgi_leading_discard o;
  mpgi_trailing_discard := mpgi_trailing_discard o;
  mpgi_min_gop_length := mpgi_min_gop_length o;
  mpgi_max_gop_length := mpgi_max_gop_length o;
  mpgi_sequence_hdr := mpgi_sequence_hdr o |}.

(** The references of [mpgi_descriptor]; essence.py:1068-1079. *)
Definition mpgi_descriptor_refs (o : mpgi_descriptor) : list Z :=
  cdci_descriptor_refs (mpgi_cdci o).

(** What [mpgi_descriptor] has to satisfy to be stored exactly; essence.py:1068-1079. *)
Definition mpgi_descriptor_ok (o : mpgi_descriptor) : Prop :=
  cdci_descriptor_ok (mpgi_cdci o).

(** essence.py:1082-1101. *)
Definition rmpgi_descriptor (i : ictx) : reader mpgi_descriptor :=
  cdci <- rcdci_descriptor_base i ;;
  rtag 2 ;;; rtag 1 ;;;
  mpeg_version <- ru8 ;;
  profile <- ru8 ;;
  gop_structure <- ru8 ;;
  stream_type <- ru8 ;;
  random_access <- rbool ;;
  leading_discard <- rbool ;;
  trailing_discard <- rbool ;;
  min_gop_length <- ru16 (ibo i) ;;
  max_gop_length <- ru16 (ibo i) ;;
  hdrlen <- rs32 (ibo i) ;;
  rassert (0 <=? hdrlen) ;;;
  sequence_hdr <- fread hdrlen ;;
  rtag 3 ;;;
  ret {| mpgi_cdci := cdci; mpgi_mpeg_version := mpeg_version; mpgi_profile := profile;
    mpgi_gop_structure := gop_structure; mpgi_stream_type := stream_type;
    mpgi_random_access := random_access; mpgi_leading_discard := leading_discard;
    mpgi_trailing_discard := trailing_discard; mpgi_min_gop_length := min_gop_length;
    mpgi_max_gop_length := max_gop_length; mpgi_sequence_hdr := sequence_hdr |}.

(** essence.py:1103-1121. *)
Definition wmpgi_descriptor (c : octx) (o : mpgi_descriptor) : writer :=
  wcdci_descriptor_base c (mpgi_cdci o) +++
  wu8 2 +++ wu8 1 +++
  wu8 (mpgi_mpeg_version o) +++
  wu8 (mpgi_profile o) +++
  wu8 (mpgi_gop_structure o) +++
  wu8 (mpgi_stream_type o) +++
  wbool (mpgi_random_access o) +++
  wbool (mpgi_leading_discard o) +++
  wbool (mpgi_trailing_discard o) +++
  wu16 (obo c) (mpgi_min_gop_length o) +++
  wu16 (obo c) (mpgi_max_gop_length o) +++
  ws32 (obo c) (len (mpgi_sequence_hdr o)) +++
  wbytes (mpgi_sequence_hdr o) +++
  wu8 3.

(** ** JPEGDescriptor (JPED), essence.py:1123-1172 *)

(** essence.py:1126-1131: the properties. *)
Record jped_descriptor := {
  jped_cdci : cdci_descriptor;
  jped_jpeg_table_id : Z;
  jped_jpeg_frame_index_offset : Z;
  jped_quantization_tables : bytes;
  jped_image_start_align : option Z }.

(** [jped_descriptor] with its references renamed by [f]; essence.py:1126-1131. *)
Definition jped_descriptor_map (f : Z -> Z) (o : jped_descriptor) : jped_descriptor := {|
  jped_cdci := cdci_descriptor_map f (jped_cdci o);
  jped_jpeg_table_id := jped_jpeg_table_id o;
  jped_jpeg_frame_index_offset := jped_jpeg_frame_index_offset o;
  jped_quantization_tables := jped_quantization_tables o;
  jped_image_start_align := jped_image_start_align o |}.

(** The references of [jped_descriptor]; essence.py:1126-1131. *)
Definition jped_descriptor_refs (o : jped_descriptor) : list Z :=
  cdci_descriptor_refs (jped_cdci o).

(** What [jped_descriptor] has to satisfy to be stored exactly; essence.py:1126-1131. *)
Definition jped_descriptor_ok (o : jped_descriptor) : Prop :=
  cdci_descriptor_ok (jped_cdci o).

(** [self.image_start_align = v]; essence.py:1149. *)
Definition set_jped_image_start_align (o : jped_descriptor) (v : option Z) : jped_descriptor := {|
  jped_cdci := jped_cdci o;
  jped_jpeg_table_id := jped_jpeg_table_id o;
  jped_jpeg_frame_index_offset := jped_jpeg_frame_index_offset o;
  jped_quantization_tables := jped_quantization_tables o;
  jped_image_start_align := v |}.

(** essence.py:1146-1151. *)
Definition jped_descriptor_ext (i : ictx) (tag : Z) (o : jped_descriptor)
  : reader jped_descriptor :=
  if tag =? 1 then rtag 71 ;;; v <- rs32 (ibo i) ;; ret (set_jped_image_start_align o (Some v))
  else fail ValueErr.

(** essence.py:1134-1153. *)
Definition rjped_descriptor (i : ictx) : reader jped_descriptor :=
  cdci <- rcdci_descriptor_base i ;;
  rtag 2 ;;; rtag 1 ;;;
  jpeg_table_id <- rs32 (ibo i) ;;
  jpeg_frame_index_offset <- ru64 (ibo i) ;;
  table_size <- rs32 (ibo i) ;;
  rassert (0 <=? table_size) ;;;
  quantization_tables <- fread table_size ;;
  o <- iter_ext (jped_descriptor_ext i) {| jped_cdci := cdci;
    jped_jpeg_table_id := jpeg_table_id;
    jped_jpeg_frame_index_offset := jpeg_frame_index_offset;
    jped_quantization_tables := quantization_tables; jped_image_start_align := None |} ;;
  rtag 3 ;;;
  ret o.

(** essence.py:1155-1172. *)
Definition wjped_descriptor (c : octx) (o : jped_descriptor) : writer :=
  wcdci_descriptor_base c (jped_cdci o) +++
  wu8 2 +++ wu8 1 +++
  ws32 (obo c) (jped_jpeg_table_id o) +++
  wu64 (obo c) (jped_jpeg_frame_index_offset o) +++
  ws32 (obo c) (len (jped_quantization_tables o)) +++
  wbytes (jped_quantization_tables o) +++
  wopt (jped_image_start_align o) (fun v => wext 1 (wu8 71 +++ ws32 (obo c) v)) +++
  wu8 3.

(** ** RGBADescriptor (RGBA), essence.py:1174-1313 *)

(** [pixel_layout] is a list of dictionaries with the keys Code and Size, here pairs. The
    declared property [palette] is neither read nor written and is left out;
    essence.py:1187-1197. *)
Record rgba_descriptor := {
  rgba_did : did_descriptor;
  rgba_pixel_layout : list (Z * Z);
  rgba_frame_index_offset : option Z;
  rgba_has_comp_min_ref : option bool;
  rgba_comp_min_ref : option Z;
  rgba_has_comp_max_ref : option bool;
  rgba_comp_max_ref : option Z;
  rgba_alpha_min_ref : option Z;
  rgba_alpha_max_ref : option Z }.

(** [rgba_descriptor] with its references renamed by [f]; essence.py:1187-1197. *)
Definition rgba_descriptor_map (f : Z -> Z) (o : rgba_descriptor) : rgba_descriptor := {|
  rgba_did := did_descriptor_map f (rgba_did o);
  rgba_pixel_layout := rgba_pixel_layout o;
  rgba_frame_index_offset := rgba_frame_index_offset o;
  rgba_has_comp_min_ref := rgba_has_comp_min_ref o;
  rgba_comp_min_ref := rgba_comp_min_ref o;
  rgba_has_comp_max_ref := rgba_has_comp_max_ref o;
  rgba_comp_max_ref := rgba_comp_max_ref o;
  rgba_alpha_min_ref := rgba_alpha_min_ref o;
  rgba_alpha_max_ref := rgba_alpha_max_ref o |}.

(** The references of [rgba_descriptor]; essence.py:1187-1197. *)
Definition rgba_descriptor_refs (o : rgba_descriptor) : list Z :=
  did_descriptor_refs (rgba_did o).

(** What [rgba_descriptor] has to satisfy to be stored exactly; essence.py:1187-1197. *)
Definition rgba_descriptor_ok (o : rgba_descriptor) : Prop :=
  did_descriptor_ok (rgba_did o) /\
  (rgba_has_comp_min_ref o = None -> rgba_comp_min_ref o = None) /\
  (rgba_has_comp_min_ref o = None -> rgba_has_comp_max_ref o = None) /\
  (rgba_has_comp_min_ref o = None -> rgba_comp_max_ref o = None) /\
  (rgba_alpha_min_ref o = None -> rgba_alpha_max_ref o = None).

(** [self.frame_index_offset = v]; essence.py:1233. *)
Definition set_rgba_frame_index_offset (o : rgba_descriptor) (v : option Z)
  : rgba_descriptor := {|
  rgba_did := rgba_did o;
  rgba_pixel_layout := rgba_pixel_layout o;
  rgba_frame_index_offset := v;
  rgba_has_comp_min_ref := rgba_has_comp_min_ref o;
  rgba_comp_min_ref := rgba_comp_min_ref o;
  rgba_has_comp_max_ref := rgba_has_comp_max_ref o;
  rgba_comp_max_ref := rgba_comp_max_ref o;
  rgba_alpha_min_ref := rgba_alpha_min_ref o;
  rgba_alpha_max_ref := rgba_alpha_max_ref o |}.

(** [self.has_comp_min_ref = v]; essence.py:1237. *)
Definition set_rgba_has_comp_min_ref (o : rgba_descriptor) (v : option bool)
  : rgba_descriptor := {|
  rgba_did := rgba_did o;
  rgba_pixel_layout := rgba_pixel_layout o;
  rgba_frame_index_offset := rgba_frame_index_offset o;
  rgba_has_comp_min_ref := v;
  rgba_comp_min_ref := rgba_comp_min_ref o;
  rgba_has_comp_max_ref := rgba_has_comp_max_ref o;
  rgba_comp_max_ref := rgba_comp_max_ref o;
  rgba_alpha_min_ref := rgba_alpha_min_ref o;
  rgba_alpha_max_ref := rgba_alpha_max_ref o |}.

(** [self.comp_min_ref = v]; essence.py:1240. *)
Definition set_rgba_comp_min_ref (o : rgba_descriptor) (v : option Z) : rgba_descriptor := {|
  rgba_did := rgba_did o;
  rgba_pixel_layout := rgba_pixel_layout o;
  rgba_frame_index_offset := rgba_frame_index_offset o;
  rgba_has_comp_min_ref := rgba_has_comp_min_ref o;
  rgba_comp_min_ref := v;
  rgba_has_comp_max_ref := rgba_has_comp_max_ref o;
  rgba_comp_max_ref := rgba_comp_max_ref o;
  rgba_alpha_min_ref := rgba_alpha_min_ref o;
  rgba_alpha_max_ref := rgba_alpha_max_ref o |}.

(** [self.has_comp_max_ref = v]; essence.py:1243. *)
Definition set_rgba_has_comp_max_ref (o : rgba_descriptor) (v : option bool)
  : rgba_descriptor := {|
  rgba_did := rgba_did o;
  rgba_pixel_layout := rgba_pixel_layout o;
  rgba_frame_index_offset := rgba_frame_index_offset o;
  rgba_has_comp_min_ref := rgba_has_comp_min_ref o;
  rgba_comp_min_ref := rgba_comp_min_ref o;
  rgba_has_comp_max_ref := v;
  rgba_comp_max_ref := rgba_comp_max_ref o;
  rgba_alpha_min_ref := rgba_alpha_min_ref o;
  rgba_alpha_max_ref := rgba_alpha_max_ref o |}.

(** [self.comp_max_ref = v]; essence.py:1246. *)
Definition set_rgba_comp_max_ref (o : rgba_descriptor) (v : option Z) : rgba_descriptor := {|
  rgba_did := rgba_did o;
  rgba_pixel_layout := rgba_pixel_layout o;
  rgba_frame_index_offset := rgba_frame_index_offset o;
  rgba_has_comp_min_ref := rgba_has_comp_min_ref o;
  rgba_comp_min_ref := rgba_comp_min_ref o;
  rgba_has_comp_max_ref := rgba_has_comp_max_ref o;
  rgba_comp_max_ref := v;
  rgba_alpha_min_ref := rgba_alpha_min_ref o;
  rgba_alpha_max_ref := rgba_alpha_max_ref o |}.

(** [self.alpha_min_ref = v]; essence.py:1250. *)
Definition set_rgba_alpha_min_ref (o : rgba_descriptor) (v : option Z) : rgba_descriptor := {|
  rgba_did := rgba_did o;
  rgba_pixel_layout := rgba_pixel_layout o;
  rgba_frame_index_offset := rgba_frame_index_offset o;
  rgba_has_comp_min_ref := rgba_has_comp_min_ref o;
  rgba_comp_min_ref := rgba_comp_min_ref o;
  rgba_has_comp_max_ref := rgba_has_comp_max_ref o;
  rgba_comp_max_ref := rgba_comp_max_ref o;
  rgba_alpha_min_ref := v;
  rgba_alpha_max_ref := rgba_alpha_max_ref o |}.

(** [self.alpha_max_ref = v]; essence.py:1253. *)
Definition set_rgba_alpha_max_ref (o : rgba_descriptor) (v : option Z) : rgba_descriptor := {|
  rgba_did := rgba_did o;
  rgba_pixel_layout := rgba_pixel_layout o;
  rgba_frame_index_offset := rgba_frame_index_offset o;
  rgba_has_comp_min_ref := rgba_has_comp_min_ref o;
  rgba_comp_min_ref := rgba_comp_min_ref o;
  rgba_has_comp_max_ref := rgba_has_comp_max_ref o;
  rgba_comp_max_ref := rgba_comp_max_ref o;
  rgba_alpha_min_ref := rgba_alpha_min_ref o;
  rgba_alpha_max_ref := v |}.

(** essence.py:1230-1256. *)
Definition rgba_descriptor_ext (i : ictx) (tag : Z) (o : rgba_descriptor)
  : reader rgba_descriptor :=
  if tag =? 1 then rtag 77 ;;; v <- ru64 (ibo i) ;; ret (set_rgba_frame_index_offset o (Some v))
  else if tag =? 2 then
  rtag 66 ;;; a <- rbool ;; rtag 72 ;;; b <- ru32 (ibo i) ;;
  rtag 66 ;;; d <- rbool ;; rtag 72 ;;; e <- ru32 (ibo i) ;;
  ret (set_rgba_comp_max_ref (set_rgba_has_comp_max_ref (set_rgba_comp_min_ref
  (set_rgba_has_comp_min_ref o (Some a)) (Some b)) (Some d)) (Some e))
  else if tag =? 3 then
  rtag 72 ;;; a <- ru32 (ibo i) ;; rtag 72 ;;; b <- ru32 (ibo i) ;;
  ret (set_rgba_alpha_max_ref (set_rgba_alpha_min_ref o (Some a)) (Some b))
  else fail ValueErr.

(** essence.py:1207-1219. *)
Definition rpixel_layout (i : ictx) : reader (list (Z * Z)) :=
  layout_size <- ru32 (ibo i) ;;
  pixel_layout <- fread layout_size ;;
  struct_size <- ru32 (ibo i) ;;
  pixel_struct <- fread struct_size ;;
  rassert (layout_size =? struct_size) ;;;
  ret (combine pixel_layout pixel_struct).

(** essence.py:1200-1258. *)
Definition rrgba_descriptor (i : ictx) : reader rgba_descriptor :=
  did <- rdid_descriptor_base i ;;
  rtag 2 ;;; rtag 1 ;;;
  pixel_layout <- rpixel_layout i ;;
  palette_layout_size <- ru32 (ibo i) ;;
  rassert (palette_layout_size =? 0) ;;;
  palette_struct_size <- ru32 (ibo i) ;;
  rassert (palette_struct_size =? 0) ;;;
  palette_size <- ru32 (ibo i) ;;
  rassert (palette_size =? 0) ;;;
  o <- iter_ext (rgba_descriptor_ext i) {| rgba_did := did; rgba_pixel_layout := pixel_layout;
    rgba_frame_index_offset := None; rgba_has_comp_min_ref := None; rgba_comp_min_ref := None;
    rgba_has_comp_max_ref := None; rgba_comp_max_ref := None; rgba_alpha_min_ref := None;
    rgba_alpha_max_ref := None |} ;;
  rtag 3 ;;;
  ret o.

(** essence.py:1174-1182, 1266-1273: the two lists are built first. *)
Definition wpixel_layout (c : octx) (l : list (Z * Z)) : writer :=
  match wlist (fun p => wu8 (fst p)) l, wlist (fun p => wu8 (snd p)) l with
  | Ok pl, Ok ps => wu32 (obo c) (len pl) +++ wbytes pl +++ wu32 (obo c) (len ps) +++ wbytes ps
  | _, _ => Err StructError
  end.

(** A property that is written without a check whether it is there, as essence.py:1295-1311. *)
Definition wattr_of {A} (o : option A) (w : A -> writer) : writer :=
  match o with Some v => w v | None => Err AttributeErr end.

(** essence.py:1289-1302. *)
Definition wcomp_refs (c : octx) (o : rgba_descriptor) : writer :=
  match rgba_has_comp_min_ref o with
  | None => wnil
  | Some a =>
    wext 2 (wu8 66 +++ wbool a +++
            wu8 72 +++ wattr_of (rgba_comp_min_ref o) (wu32 (obo c)) +++
            wu8 66 +++ wattr_of (rgba_has_comp_max_ref o) wbool +++
            wu8 72 +++ wattr_of (rgba_comp_max_ref o) (wu32 (obo c)))
  end.

(** essence.py:1304-1311. *)
Definition walpha_refs (c : octx) (o : rgba_descriptor) : writer :=
  match rgba_alpha_min_ref o with
  | None => wnil
  | Some a =>
    wext 3 (wu8 72 +++ wu32 (obo c) a +++
            wu8 72 +++ wattr_of (rgba_alpha_max_ref o) (wu32 (obo c)))
  end.

(** essence.py:1260-1313. *)
Definition wrgba_descriptor (c : octx) (o : rgba_descriptor) : writer :=
  wdid_descriptor_base c (rgba_did o) +++
  wu8 2 +++ wu8 1 +++
  wpixel_layout c (rgba_pixel_layout o) +++
  wu32 (obo c) 0 +++
  wu32 (obo c) 0 +++
  wu32 (obo c) 0 +++
  wopt (rgba_frame_index_offset o) (fun v => wext 1 (wu8 77 +++ wu64 (obo c) v)) +++
  wcomp_refs c o +++
  walpha_refs c o +++
  wu8 3.

(** ** DataDescriptor (DATD), essence.py:1316-1350: neither reader nor writer has a closing
    tag, not even for a plain DATD object. *)

(** essence.py:1319-1325: the properties. *)
Record data_descriptor := {
  datd_file : media_file_descriptor;
  datd_is_offset_to_frame_indexes_valid : bool;
  datd_offset_to_frame_indexes : Z;
  datd_first_frame_offset : Z;
  datd_min_sample_size : Z;
  datd_max_sample_size : Z }.

(** [data_descriptor] with its references renamed by [f]; essence.py:1319-1325. *)
Definition data_descriptor_map (f : Z -> Z) (o : data_descriptor) : data_descriptor := {|
  datd_file := media_file_descriptor_map f (datd_file o);
  datd_is_offset_to_frame_indexes_valid := datd_is_offset_to_frame_indexes_valid o;
  datd_offset_to_frame_indexes := datd_offset_to_frame_indexes o;
  datd_first_frame_offset := datd_first_frame_offset o;
  datd_min_sample_size := datd_min_sample_size o;
  datd_max_sample_size := datd_max_sample_size o |}.

(** The references of [data_descriptor]; essence.py:1319-1325. *)
Definition data_descriptor_refs (o : data_descriptor) : list Z :=
  media_file_descriptor_refs (datd_file o).

(** What [data_descriptor] has to satisfy to be stored exactly; essence.py:1319-1325. *)
Definition data_descriptor_ok (o : data_descriptor) : Prop :=
  media_file_descriptor_ok (datd_file o).

(** essence.py:1328-1338. *)
Definition rdata_descriptor (i : ictx) : reader data_descriptor :=
  file <- rmedia_file_descriptor_base i ;;
  rtag 2 ;;; rtag 1 ;;;
  is_offset_to_frame_indexes_valid <- rbool ;;
  offset_to_frame_indexes <- ru64 (ibo i) ;;
  first_frame_offset <- rs32 (ibo i) ;;
  min_sample_size <- rs32 (ibo i) ;;
  max_sample_size <- rs32 (ibo i) ;;
  ret {| datd_file := file;
    datd_is_offset_to_frame_indexes_valid := is_offset_to_frame_indexes_valid;
    datd_offset_to_frame_indexes := offset_to_frame_indexes;
    datd_first_frame_offset := first_frame_offset; datd_min_sample_size := min_sample_size;
    datd_max_sample_size := max_sample_size |}.

(** essence.py:1340-1350. *)
Definition wdata_descriptor (c : octx) (o : data_descriptor) : writer :=
  wmedia_file_descriptor_base c (datd_file o) +++
  wu8 2 +++ wu8 1 +++
  wbool (datd_is_offset_to_frame_indexes_valid o) +++
  wu64 (obo c) (datd_offset_to_frame_indexes o) +++
  ws32 (obo c) (datd_first_frame_offset o) +++
  ws32 (obo c) (datd_min_sample_size o) +++
  ws32 (obo c) (datd_max_sample_size o).

(** ** ANCDataDescriptor (ANCD), essence.py:1352-1379: unlike DATD, it ends with a closing tag. *)

(** essence.py:1355-1357: the properties. *)
Record anc_data_descriptor := {
  ancd_data : data_descriptor;
  ancd_manifest_element_count : Z }.

(** [anc_data_descriptor] with its references renamed by [f]; essence.py:1355-1357. *)
Definition anc_data_descriptor_map (f : Z -> Z) (o : anc_data_descriptor)
  : anc_data_descriptor := {|
  ancd_data := data_descriptor_map f (ancd_data o);
  ancd_manifest_element_count := ancd_manifest_element_count o |}.

(** The references of [anc_data_descriptor]; essence.py:1355-1357. *)
Definition anc_data_descriptor_refs (o : anc_data_descriptor) : list Z :=
  data_descriptor_refs (ancd_data o).

(** What [anc_data_descriptor] has to satisfy to be stored exactly; essence.py:1355-1357. *)
Definition anc_data_descriptor_ok (o : anc_data_descriptor) : Prop :=
  data_descriptor_ok (ancd_data o).

(** essence.py:1361-1369. *)
Definition ranc_data_descriptor (i : ictx) : reader anc_data_descriptor :=
  data <- rdata_descriptor i ;;
  rtag 2 ;;; rtag 1 ;;;
  manifest_element_count <- rs32 (ibo i) ;;
  rtag 3 ;;;
  ret {| ancd_data := data; ancd_manifest_element_count := manifest_element_count |}.

(** essence.py:1371-1379. *)
Definition wanc_data_descriptor (c : octx) (o : anc_data_descriptor) : writer :=
  wdata_descriptor c (ancd_data o) +++
  wu8 2 +++ wu8 1 +++
  ws32 (obo c) (ancd_manifest_element_count o) +++
  wu8 3.
