(** The registered classes put together: class codes, dispatch by code, and the chunk of one
    object. Which classes are registered and under which code: the [register_class] decorators
    of the class files (utils.py:102-109). *)
From Coq Require Import ZArith List Bool.
From Verif Require Import Base IoCtx Text Exp10 MobId Storable Attributes Components TrackGroups
  Misc Essence BinModel.
Import ListNotations.
Open Scope Z_scope.

(** The registered classes, named by their codes (utils.py:102-109). *)
Inductive kind :=
| K_ATTR
| K_PRLS
| K_TMCS
| K_BVst
| K_ABIN
| K_BINF
| K_SEQU
| K_SCLP
| K_TCCP
| K_ECCP
| K_TRKR
| K_PRCL
| K_CTRL
| K_FILL
| K_MDES
| K_MDTP
| K_MDFM
| K_MDNG
| K_MDFL
| K_MULD
| K_WAVE
| K_AIFC
| K_PCMA
| K_MPGA
| K_DIDD
| K_CDCI
| K_MPGI
| K_JPED
| K_RGBA
| K_DATD
| K_ANCD
| K_FILE
| K_WINF
| K_URLL
| K_GRFX
| K_SHLP
| K_CCFX
| K_FXPS
| K_AVUP
| K_PRIT
| K_MSML
| K_APOS
| K_ABOB
| K_DIDP
| K_MPGP
| K_MCBR
| K_MCMR
| K_TMBC
| K_TKMN
| K_TKDS
| K_TKPS
| K_TKDA
| K_TKPA
| K_TRKG
| K_TKFX
| K_PVOL
| K_ASPI
| K_EQMB
| K_MASK
| K_STRB
| K_SPED
| K_REPT
| K_RSET
| K_TNFX
| K_SLCT
| K_CMPO.

(** All of them (utils.py:102-109). *)
Definition kinds : list kind :=
  [K_ATTR; K_PRLS; K_TMCS; K_BVst; K_ABIN; K_BINF; K_SEQU; K_SCLP;
   K_TCCP; K_ECCP; K_TRKR; K_PRCL; K_CTRL; K_FILL; K_MDES; K_MDTP;
   K_MDFM; K_MDNG; K_MDFL; K_MULD; K_WAVE; K_AIFC; K_PCMA; K_MPGA;
   K_DIDD; K_CDCI; K_MPGI; K_JPED; K_RGBA; K_DATD; K_ANCD; K_FILE;
   K_WINF; K_URLL; K_GRFX; K_SHLP; K_CCFX; K_FXPS; K_AVUP; K_PRIT;
   K_MSML; K_APOS; K_ABOB; K_DIDP; K_MPGP; K_MCBR; K_MCMR; K_TMBC;
   K_TKMN; K_TKDS; K_TKPS; K_TKDA; K_TKPA; K_TRKG; K_TKFX; K_PVOL;
   K_ASPI; K_EQMB; K_MASK; K_STRB; K_SPED; K_REPT; K_RSET; K_TNFX;
   K_SLCT; K_CMPO].

(** The codes, [class_id] of each class: ATTR attributes.py:23, PRLS attributes.py:134, TMCS attributes.py:161, BVst bin.py:75, ABIN bin.py:197, BINF bin.py:414, SEQU components.py:143, SCLP components.py:259, TCCP components.py:331, ECCP components.py:371, TRKR components.py:417, PRCL components.py:546, CTRL components.py:854, FILL components.py:932, MDES essence.py:16, MDTP essence.py:102, MDFM essence.py:128, MDNG essence.py:148, MDFL essence.py:168, MULD essence.py:207, WAVE essence.py:242, AIFC essence.py:274, PCMA essence.py:322, MPGA essence.py:441, DIDD essence.py:522, CDCI essence.py:987, MPGI essence.py:1067, JPED essence.py:1125, RGBA essence.py:1186, DATD essence.py:1318, ANCD essence.py:1354, FILE misc.py:79, WINF misc.py:85, URLL misc.py:91, GRFX misc.py:107, SHLP misc.py:141, CCFX misc.py:173, FXPS misc.py:242, AVUP misc.py:393, PRIT misc.py:442, MSML misc.py:536, APOS misc.py:606, ABOB misc.py:652, DIDP misc.py:692, MPGP misc.py:732, MCBR misc.py:785, MCMR misc.py:833, TMBC misc.py:884, TKMN misc.py:947, TKDS misc.py:979, TKPS misc.py:1029, TKDA misc.py:1072, TKPA misc.py:1184, TRKG trackgroups.py:90, TKFX trackgroups.py:259, PVOL trackgroups.py:341, ASPI trackgroups.py:437, EQMB trackgroups.py:637, MASK trackgroups.py:713, STRB trackgroups.py:745, SPED trackgroups.py:770, REPT trackgroups.py:835, RSET trackgroups.py:857, TNFX trackgroups.py:895, SLCT trackgroups.py:988, CMPO trackgroups.py:1026. *)
Definition class_id (k : kind) : bytes :=
  match k with
  | K_ATTR => [65; 84; 84; 82]
  | K_PRLS => [80; 82; 76; 83]
  | K_TMCS => [84; 77; 67; 83]
  | K_BVst => [66; 86; 115; 116]
  | K_ABIN => [65; 66; 73; 78]
  | K_BINF => [66; 73; 78; 70]
  | K_SEQU => [83; 69; 81; 85]
  | K_SCLP => [83; 67; 76; 80]
  | K_TCCP => [84; 67; 67; 80]
  | K_ECCP => [69; 67; 67; 80]
  | K_TRKR => [84; 82; 75; 82]
  | K_PRCL => [80; 82; 67; 76]
  | K_CTRL => [67; 84; 82; 76]
  | K_FILL => [70; 73; 76; 76]
  | K_MDES => [77; 68; 69; 83]
  | K_MDTP => [77; 68; 84; 80]
  | K_MDFM => [77; 68; 70; 77]
  | K_MDNG => [77; 68; 78; 71]
  | K_MDFL => [77; 68; 70; 76]
  | K_MULD => [77; 85; 76; 68]
  | K_WAVE => [87; 65; 86; 69]
  | K_AIFC => [65; 73; 70; 67]
  | K_PCMA => [80; 67; 77; 65]
  | K_MPGA => [77; 80; 71; 65]
  | K_DIDD => [68; 73; 68; 68]
  | K_CDCI => [67; 68; 67; 73]
  | K_MPGI => [77; 80; 71; 73]
  | K_JPED => [74; 80; 69; 68]
  | K_RGBA => [82; 71; 66; 65]
  | K_DATD => [68; 65; 84; 68]
  | K_ANCD => [65; 78; 67; 68]
  | K_FILE => [70; 73; 76; 69]
  | K_WINF => [87; 73; 78; 70]
  | K_URLL => [85; 82; 76; 76]
  | K_GRFX => [71; 82; 70; 88]
  | K_SHLP => [83; 72; 76; 80]
  | K_CCFX => [67; 67; 70; 88]
  | K_FXPS => [70; 88; 80; 83]
  | K_AVUP => [65; 86; 85; 80]
  | K_PRIT => [80; 82; 73; 84]
  | K_MSML => [77; 83; 77; 76]
  | K_APOS => [65; 80; 79; 83]
  | K_ABOB => [65; 66; 79; 66]
  | K_DIDP => [68; 73; 68; 80]
  | K_MPGP => [77; 80; 71; 80]
  | K_MCBR => [77; 67; 66; 82]
  | K_MCMR => [77; 67; 77; 82]
  | K_TMBC => [84; 77; 66; 67]
  | K_TKMN => [84; 75; 77; 78]
  | K_TKDS => [84; 75; 68; 83]
  | K_TKPS => [84; 75; 80; 83]
  | K_TKDA => [84; 75; 68; 65]
  | K_TKPA => [84; 75; 80; 65]
  | K_TRKG => [84; 82; 75; 71]
  | K_TKFX => [84; 75; 70; 88]
  | K_PVOL => [80; 86; 79; 76]
  | K_ASPI => [65; 83; 80; 73]
  | K_EQMB => [69; 81; 77; 66]
  | K_MASK => [77; 65; 83; 75]
  | K_STRB => [83; 84; 82; 66]
  | K_SPED => [83; 80; 69; 68]
  | K_REPT => [82; 69; 80; 84]
  | K_RSET => [82; 83; 69; 84]
  | K_TNFX => [84; 78; 70; 88]
  | K_SLCT => [83; 76; 67; 84]
  | K_CMPO => [67; 77; 80; 79]
  end.

(** Equality of byte strings (for the lookup of file.py:285). *)
Definition bytes_eqb (a b : bytes) : bool := if list_eq_dec Z.eq_dec a b then true else false.

(** utils.py:102-109, file.py:285: [AVBClaseID_dict.get(class_id)]. *)
Definition kind_of (cc : bytes) : option kind := find (fun k => bytes_eqb (class_id k) cc) kinds.

(** What the model knows of a class: its properties, its [read] and [write] methods, the references
    among its properties and the renaming of these (core.py:166-219). *)
Record class := {
  C_type : Type;
  C_read : ictx -> reader C_type;
  C_write : octx -> C_type -> writer;
  C_refs : C_type -> list Z;
  C_map : (Z -> Z) -> C_type -> C_type }.

(** The [read] and [write] methods by class; the lines are cited beside each of them. *)
Definition class_of (k : kind) : class :=
  match k with
  | K_ATTR => {| C_type := attributes; C_read := rattributes; C_write := wattributes; C_refs := attributes_refs; C_map := attributes_map |}
  | K_PRLS => {| C_type := parameter_list; C_read := rparameter_list; C_write := wparameter_list; C_refs := parameter_list_refs; C_map := parameter_list_map |}
  | K_TMCS => {| C_type := time_crumb_list; C_read := rtime_crumb_list; C_write := wtime_crumb_list; C_refs := time_crumb_list_refs; C_map := time_crumb_list_map |}
  | K_BVst => {| C_type := bin_view_setting; C_read := rbin_view_setting; C_write := wbin_view_setting; C_refs := bin_view_setting_refs; C_map := bin_view_setting_map |}
  | K_ABIN => {| C_type := bin; C_read := rbin; C_write := wbin; C_refs := bin_refs; C_map := bin_map |}
  | K_BINF => {| C_type := bin_first; C_read := rbin_first; C_write := wbin_first; C_refs := bin_first_refs; C_map := bin_first_map |}
  | K_SEQU => {| C_type := sequence; C_read := rsequence; C_write := wsequence; C_refs := sequence_refs; C_map := sequence_map |}
  | K_SCLP => {| C_type := source_clip; C_read := rsource_clip; C_write := wsource_clip; C_refs := source_clip_refs; C_map := source_clip_map |}
  | K_TCCP => {| C_type := timecode; C_read := rtimecode; C_write := wtimecode; C_refs := timecode_refs; C_map := timecode_map |}
  | K_ECCP => {| C_type := edgecode; C_read := redgecode; C_write := wedgecode; C_refs := edgecode_refs; C_map := edgecode_map |}
  | K_TRKR => {| C_type := track_ref; C_read := rtrack_ref; C_write := wtrack_ref; C_refs := track_ref_refs; C_map := track_ref_map |}
  | K_PRCL => {| C_type := param_clip; C_read := rparam_clip; C_write := wparam_clip; C_refs := param_clip_refs; C_map := param_clip_map |}
  | K_CTRL => {| C_type := control_clip; C_read := rcontrol_clip; C_write := wcontrol_clip; C_refs := control_clip_refs; C_map := control_clip_map |}
  | K_FILL => {| C_type := filler; C_read := rfiller; C_write := wfiller; C_refs := filler_refs; C_map := filler_map |}
  | K_MDES => {| C_type := media_descriptor; C_read := rmedia_descriptor; C_write := wmedia_descriptor; C_refs := media_descriptor_refs; C_map := media_descriptor_map |}
  | K_MDTP => {| C_type := tape_descriptor; C_read := rtape_descriptor; C_write := wtape_descriptor; C_refs := tape_descriptor_refs; C_map := tape_descriptor_map |}
  | K_MDFM => {| C_type := film_descriptor; C_read := rfilm_descriptor; C_write := wfilm_descriptor; C_refs := film_descriptor_refs; C_map := film_descriptor_map |}
  | K_MDNG => {| C_type := film_descriptor; C_read := rfilm_descriptor; C_write := wfilm_descriptor; C_refs := film_descriptor_refs; C_map := film_descriptor_map |}
  | K_MDFL => {| C_type := media_file_descriptor; C_read := rmedia_file_descriptor; C_write := wmedia_file_descriptor; C_refs := media_file_descriptor_refs; C_map := media_file_descriptor_map |}
  | K_MULD => {| C_type := multi_descriptor; C_read := rmulti_descriptor; C_write := wmulti_descriptor; C_refs := multi_descriptor_refs; C_map := multi_descriptor_map |}
  | K_WAVE => {| C_type := wave_descriptor; C_read := rwave_descriptor; C_write := wwave_descriptor; C_refs := wave_descriptor_refs; C_map := wave_descriptor_map |}
  | K_AIFC => {| C_type := aifc_descriptor; C_read := raifc_descriptor; C_write := waifc_descriptor; C_refs := aifc_descriptor_refs; C_map := aifc_descriptor_map |}
  | K_PCMA => {| C_type := pcma_descriptor; C_read := rpcma_descriptor; C_write := wpcma_descriptor; C_refs := pcma_descriptor_refs; C_map := pcma_descriptor_map |}
  | K_MPGA => {| C_type := mpga_descriptor; C_read := rmpga_descriptor; C_write := wmpga_descriptor; C_refs := mpga_descriptor_refs; C_map := mpga_descriptor_map |}
  | K_DIDD => {| C_type := did_descriptor; C_read := rdid_descriptor; C_write := wdid_descriptor; C_refs := did_descriptor_refs; C_map := did_descriptor_map |}
  | K_CDCI => {| C_type := cdci_descriptor; C_read := rcdci_descriptor; C_write := wcdci_descriptor; C_refs := cdci_descriptor_refs; C_map := cdci_descriptor_map |}
  | K_MPGI => {| C_type := mpgi_descriptor; C_read := rmpgi_descriptor; C_write := wmpgi_descriptor; C_refs := mpgi_descriptor_refs; C_map := mpgi_descriptor_map |}
  | K_JPED => {| C_type := jped_descriptor; C_read := rjped_descriptor; C_write := wjped_descriptor; C_refs := jped_descriptor_refs; C_map := jped_descriptor_map |}
  | K_RGBA => {| C_type := rgba_descriptor; C_read := rrgba_descriptor; C_write := wrgba_descriptor; C_refs := rgba_descriptor_refs; C_map := rgba_descriptor_map |}
  | K_DATD => {| C_type := data_descriptor; C_read := rdata_descriptor; C_write := wdata_descriptor; C_refs := data_descriptor_refs; C_map := data_descriptor_map |}
  | K_ANCD => {| C_type := anc_data_descriptor; C_read := ranc_data_descriptor; C_write := wanc_data_descriptor; C_refs := anc_data_descriptor_refs; C_map := anc_data_descriptor_map |}
  | K_FILE => {| C_type := file_locator; C_read := rfile_locator; C_write := wfile_locator; C_refs := file_locator_refs; C_map := file_locator_map |}
  | K_WINF => {| C_type := file_locator; C_read := rfile_locator; C_write := wfile_locator; C_refs := file_locator_refs; C_map := file_locator_map |}
  | K_URLL => {| C_type := url_locator; C_read := rurl_locator; C_write := wurl_locator; C_refs := url_locator_refs; C_map := url_locator_map |}
  | K_GRFX => {| C_type := graphic_effect; C_read := rgraphic_effect; C_write := wgraphic_effect; C_refs := graphic_effect_refs; C_map := graphic_effect_map |}
  | K_SHLP => {| C_type := shape_list; C_read := rshape_list; C_write := wshape_list; C_refs := shape_list_refs; C_map := shape_list_map |}
  | K_CCFX => {| C_type := color_correction_effect; C_read := rcolor_correction_effect; C_write := wcolor_correction_effect; C_refs := color_correction_effect_refs; C_map := color_correction_effect_map |}
  | K_FXPS => {| C_type := effect_param_list; C_read := reffect_param_list; C_write := weffect_param_list; C_refs := effect_param_list_refs; C_map := effect_param_list_map |}
  | K_AVUP => {| C_type := cf_user_param; C_read := rcf_user_param; C_write := wcf_user_param; C_refs := cf_user_param_refs; C_map := cf_user_param_map |}
  | K_PRIT => {| C_type := parameter_item; C_read := rparameter_item; C_write := wparameter_item; C_refs := parameter_item_refs; C_map := parameter_item_map |}
  | K_MSML => {| C_type := msm_locator; C_read := rmsm_locator; C_write := wmsm_locator; C_refs := msm_locator_refs; C_map := msm_locator_map |}
  | K_APOS => {| C_type := position; C_read := rposition; C_write := wposition; C_refs := position_refs; C_map := position_map |}
  | K_ABOB => {| C_type := bob_position; C_read := rbob_position; C_write := wbob_position; C_refs := bob_position_refs; C_map := bob_position_map |}
  | K_DIDP => {| C_type := did_position; C_read := rdid_position; C_write := wdid_position; C_refs := did_position_refs; C_map := did_position_map |}
  | K_MPGP => {| C_type := mpg_position; C_read := rmpg_position; C_write := wmpg_position; C_refs := mpg_position_refs; C_map := mpg_position_map |}
  | K_MCBR => {| C_type := bin_ref; C_read := rbin_ref; C_write := wbin_ref; C_refs := bin_ref_refs; C_map := bin_ref_map |}
  | K_MCMR => {| C_type := mob_ref; C_read := rmob_ref; C_write := wmob_ref; C_refs := mob_ref_refs; C_map := mob_ref_map |}
  | K_TMBC => {| C_type := marker; C_read := rmarker; C_write := wmarker; C_refs := marker_refs; C_map := marker_map |}
  | K_TKMN => {| C_type := tracker_manager; C_read := rtracker_manager; C_write := wtracker_manager; C_refs := tracker_manager_refs; C_map := tracker_manager_map |}
  | K_TKDS => {| C_type := tracker_data_slot; C_read := rtracker_data_slot; C_write := wtracker_data_slot; C_refs := tracker_data_slot_refs; C_map := tracker_data_slot_map |}
  | K_TKPS => {| C_type := tracker_parameter_slot; C_read := rtracker_parameter_slot; C_write := wtracker_parameter_slot; C_refs := tracker_parameter_slot_refs; C_map := tracker_parameter_slot_map |}
  | K_TKDA => {| C_type := tracker_data; C_read := rtracker_data; C_write := wtracker_data; C_refs := tracker_data_refs; C_map := tracker_data_map |}
  | K_TKPA => {| C_type := tracker_parameter; C_read := rtracker_parameter; C_write := wtracker_parameter; C_refs := tracker_parameter_refs; C_map := tracker_parameter_map |}
  | K_TRKG => {| C_type := track_group; C_read := rtrack_group; C_write := wtrack_group; C_refs := track_group_refs; C_map := track_group_map |}
  | K_TKFX => {| C_type := track_effect; C_read := rtrack_effect; C_write := wtrack_effect; C_refs := track_effect_refs; C_map := track_effect_map |}
  | K_PVOL => {| C_type := pan_volume_effect; C_read := rpan_volume_effect; C_write := wpan_volume_effect; C_refs := pan_volume_effect_refs; C_map := pan_volume_effect_map |}
  | K_ASPI => {| C_type := audio_suite_effect; C_read := raudio_suite_effect; C_write := waudio_suite_effect; C_refs := audio_suite_effect_refs; C_map := audio_suite_effect_map |}
  | K_EQMB => {| C_type := equalizer_multi_band; C_read := requalizer_multi_band; C_write := wequalizer_multi_band; C_refs := equalizer_multi_band_refs; C_map := equalizer_multi_band_map |}
  | K_MASK => {| C_type := capture_mask; C_read := rcapture_mask; C_write := wcapture_mask; C_refs := capture_mask_refs; C_map := capture_mask_map |}
  | K_STRB => {| C_type := strobe_effect; C_read := rstrobe_effect; C_write := wstrobe_effect; C_refs := strobe_effect_refs; C_map := strobe_effect_map |}
  | K_SPED => {| C_type := motion_effect; C_read := rmotion_effect; C_write := wmotion_effect; C_refs := motion_effect_refs; C_map := motion_effect_map |}
  | K_REPT => {| C_type := repeat_effect; C_read := rrepeat_effect; C_write := wrepeat_effect; C_refs := repeat_effect_refs; C_map := repeat_effect_map |}
  | K_RSET => {| C_type := essence_group; C_read := ressence_group; C_write := wessence_group; C_refs := essence_group_refs; C_map := essence_group_map |}
  | K_TNFX => {| C_type := transition_effect; C_read := rtransition_effect; C_write := wtransition_effect; C_refs := transition_effect_refs; C_map := transition_effect_map |}
  | K_SLCT => {| C_type := selector; C_read := rselector; C_write := wselector; C_refs := selector_refs; C_map := selector_map |}
  | K_CMPO => {| C_type := composition; C_read := rcomposition; C_write := wcomposition; C_refs := composition_refs; C_map := composition_map |}
  end.

(** An object of a registered class (file.py:285-290). *)
Record obj := Obj { okind : kind; oval : C_type (class_of okind) }.

(** The references among the properties of an object (core.py:136-163). *)
Definition obj_refs (o : obj) : list Z := C_refs (class_of (okind o)) (oval o).

(** The object with its references renamed (for ioctx.py:183-193). *)
Definition obj_map (f : Z -> Z) (o : obj) : obj :=
  Obj (okind o) (C_map (class_of (okind o)) f (oval o)).

(** [obj.write(buffer)] (file.py:329). *)
Definition wbody (c : octx) (o : obj) : writer := C_write (class_of (okind o)) c (oval o).

(** [object_instance.read(r)] (file.py:302). *)
Definition rbody (i : ictx) (k : kind) : reader obj :=
  v <- C_read (class_of k) i ;; ret (Obj k v).

(** file.py:325-336 [write_object] after the check that the object is of this document: the
    body has to end with the byte 3; then the code, the length and the body are written. *)
Definition wchunk (c : octx) (o : obj) : writer :=
  match wbody c o with
  | Err e => Err e
  | Ok data =>
    wassert (last data 0 =? 3) +++
    wfourcc (obo c) (class_id (okind o)) +++ wu32 (obo c) (len data) +++ wbytes data
  end.

(** file.py:285-323, the part of [read_object] after the chunk's code and data have been read:
    an unknown code is a [NotImplementedError], bytes left over an [AssertionError]. The
    accelerated readers are treated in Ext.v. *)
Definition robject (i : ictx) (cc : bytes) (data : bytes) : result obj :=
  match kind_of cc with
  | None => Err NotImplementedErr
  | Some k =>
    match rbody i k data with
    | Err e => Err e
    | Ok (o, []) => Ok o
    | Ok (_, _ :: _) => Err AssertionErr
    end
  end.
