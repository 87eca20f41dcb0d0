(** Model of the constructors of the classes whose new objects have everything their writer asks
    for, of a new document, and of putting a mob into a bin (src/avb/file.py, core.py,
    components.py, trackgroups.py, bin.py, essence.py, misc.py, attributes.py). The other classes
    have properties without default that [__init__] does not set; writing a new object of those is
    an [AttributeError] and not in this model. *)
From Coq Require Import ZArith String List Bool.
From Verif Require Import Base IoCtx Text Exp10 MobId Attributes Components TrackGroups Misc Essence BinModel
  Dates Objects FileModel Names Edited.
Import ListNotations.
Open Scope Z_scope.

(** components.py:18-36 [Component.__init__]: the defaults, the attributes made for it, and the
    arguments; None is the empty name. The default edit rate is the integer 25, which is written as
    the double is. *)
Definition new_component (attributes kind_id : Z) (rate : float64) : component := {|
  cpnt_left_bob := 0; cpnt_right_bob := 0; cpnt_media_kind_id := kind_id; cpnt_edit_rate := rate;
  cpnt_name := []; cpnt_effect_id := []; cpnt_attributes := attributes;
  cpnt_session_attrs := 0; cpnt_precomputed := 0; cpnt_param_list := None |}.

(** components.py:24 and 32, the default of [edit_rate]. *)
Definition default_rate : float64 := f_of_Z 25.

(** components.py:238-240, the default of [length]. *)
Definition new_clip (attributes kind_id : Z) (rate : float64) : clip :=
  {| clip_component := new_component attributes kind_id rate; clip_length := 0 |}.

(** trackgroups.py:92-102 [TrackGroup.__init__]. *)
Definition new_track_group (attributes kind_id : Z) (rate : float64) : track_group := {|
  trkg_component := new_component attributes kind_id rate; trkg_mc_mode := 0; trkg_length := 0;
  trkg_num_scalars := 0; trkg_tracks := [] |}.

(** A component with another [name], for trackgroups.py:1041. *)
Definition named (o : component) (name : str) : component := {|
  cpnt_left_bob := cpnt_left_bob o; cpnt_right_bob := cpnt_right_bob o; cpnt_media_kind_id := cpnt_media_kind_id o;
  cpnt_edit_rate := cpnt_edit_rate o; cpnt_name := name; cpnt_effect_id := cpnt_effect_id o;
  cpnt_attributes := cpnt_attributes o; cpnt_session_attrs := cpnt_session_attrs o;
  cpnt_precomputed := cpnt_precomputed o; cpnt_param_list := cpnt_param_list o |}.

(** trackgroups.py:1028-1056 [Composition.__init__]; [mob_id] is what [MobID.new()] gave, [now] the
    time stamp of the clock. *)
Definition new_composition (attributes : Z) (name : str) (type_id : Z) (mob_id : mobid) (now : Z) : composition := {|
  cmpo_group := {| trkg_component := named (new_component attributes 0 default_rate) name; trkg_mc_mode := 0;
    trkg_length := 0; trkg_num_scalars := 0; trkg_tracks := [] |};
  cmpo_last_modified := now; cmpo_mob_type_id := type_id; cmpo_usage_code := 0; cmpo_descriptor := 0;
  cmpo_creation_time := Some now; cmpo_mob_id := Some mob_id |}.

(** A line of bin.py:54-70. *)
Definition column (title : string) (format type : Z) : bin_column :=
  {| bcol_title := txt title; bcol_format := format; bcol_type := type; bcol_hidden := false |}.

(** bin.py:53-71 [default_bin_columns]. *)
Definition default_bin_columns : list bin_column :=
  [column "Color" 105 51; column "   " 0 200; column "Name" 20 201; column "Creation Date" 102 12;
   column "Duration" 100 4; column "Drive" 2 14; column "IN-OUT" 100 7; column "Mark IN" 100 5;
   column "Mark OUT" 100 6; column "Tracks" 2 1; column "Start" 100 2; column "Tape" 2 8; column "Video" 2 13;
   column "Plug-in" 2 133; column "TapeID" 2 50; column "Audio SR" 2 11; column "Comments" 2 40].

(** bin.py:16-22 and 83-90 [BinViewSetting.__init__]. *)
Definition new_view (attributes : Z) : bin_view_setting := {|
  bvst_setting := {| aset_name := txt "Untitled"; aset_kind := txt "Bin View"; aset_attr_count := 1; aset_attr_type := 20;
    aset_attributes := attributes |};
  bvst_columns := default_bin_columns; bvst_format_descriptors := Some [] |}.

(** bin.py:188-192, a new [SiftItem]. *)
Definition new_sift : sift_item := {| sift_method := 1; sift_string := []; sift_column := txt "Any" |}.

(** bin.py:199-235 [Bin.__init__]; [uid] is what [generate_uid] gave (utils.py:96-98). *)
Definition new_bin (view attributes uid : Z) : bin := {|
  abin_large_bin := false; abin_view_setting := view; abin_uid := uid; abin_items := [];
  abin_display_mask := 98999; abin_display_mode := 0; abin_sifted := false;
  abin_sifted_settings := repeat new_sift 6; abin_sort_columns := [];
  abin_mac_font := 1; abin_mac_font_size := 11; abin_mac_image_scale := 5;
  abin_home_rect := {| rc0 := 0; rc1 := 0; rc2 := 300; rc3 := 600 |};
  abin_background_color := {| rgb_r := 45568; rgb_g := 45568; rgb_b := 45568 |};
  abin_forground_color := {| rgb_r := 3328; rgb_g := 3328; rgb_b := 3328 |};
  abin_ql_image_scale := 6; abin_attributes := attributes; abin_was_iconic := false |}.

(** essence.py:18-26, the defaults. *)
Definition new_descriptor : media_descriptor := {|
  mdes_mob_kind := 0; mdes_locator := 0; mdes_intermediate := false; mdes_physical_media := 0;
  mdes_uuid := None; mdes_wchar := None; mdes_attributes := None |}.

(** Constructor calls, with their arguments and what they get from elsewhere: the classes with
    [edit_rate] and [media_kind] (components.py:32, 150, 268, trackgroups.py:100), a composition
    (trackgroups.py:1038), a bin (bin.py:221), and the classes without arguments. *)
Inductive timed := TSequence | TSourceClip | TTimecode | TTrackRef | TFiller | TTrackGroup | TEssenceGroup.
Inductive plain := PAttributes | PParameterList | PTimeCrumbList | PBinView | PDescriptor | PTape | PFilm | PNagra | PFileDescriptor | PUrl.
Inductive call :=
| NewTimed (c : timed) (rate : float64) (kind : option str)
| NewComposition (name mob_type : str) (mob_id : mobid) (now : Z)
| NewBin (uid : Z) | NewBinFirst (uid : Z)
| NewPlain (c : plain).

(** The object itself, components.py:145-152, 261-270, 333-337, 419-422, 931, trackgroups.py:92-102,
    859-861. *)
Definition new_timed (c : timed) (attributes kind_id : Z) (rate : float64) : obj :=
  match c with
  | TSequence => Obj K_SEQU {| sequ_component := new_component attributes kind_id rate; sequ_components := [] |}
  | TSourceClip => Obj K_SCLP {| sclp_clip := new_clip attributes kind_id rate; sclp_track_id := 0; sclp_start_time := 0;
      sclp_mob_id := Some (repeat 0 32) |}
  | TTimecode => Obj K_TCCP {| tccp_clip := new_clip attributes kind_id rate; tccp_flags := 0; tccp_fps := 25; tccp_start := 0 |}
  | TTrackRef => Obj K_TRKR {| trkr_clip := new_clip attributes kind_id rate; trkr_relative_scope := 0; trkr_relative_track := -1 |}
  | TFiller => Obj K_FILL {| fill_clip := new_clip attributes kind_id rate |}
  | TTrackGroup => Obj K_TRKG (new_track_group attributes kind_id rate)
  | TEssenceGroup => Obj K_RSET {| rset_group := new_track_group attributes kind_id rate; rset_rep_set_type := None |}
  end.

(** Classes without arguments: attributes.py:22-33 and 132-160, essence.py:18-26, 103-105, 127-129,
    147-149, 169-174, misc.py:90-93. The object [id] and those its constructor makes. *)
Definition new_plain (id : Z) (c : plain) : list obj :=
  match c with
  | PAttributes => [Obj K_ATTR []]
  | PParameterList => [Obj K_PRLS []]
  | PTimeCrumbList => [Obj K_TMCS []]
  | PBinView => [Obj K_BVst (new_view (id + 1)); Obj K_ATTR []]
  | PDescriptor => [Obj K_MDES new_descriptor]
  | PTape => [Obj K_MDTP {| mdtp_media := new_descriptor; mdtp_cframe := 0 |}]
  | PFilm => [Obj K_MDFM new_descriptor]
  | PNagra => [Obj K_MDNG new_descriptor]
  | PFileDescriptor => [Obj K_MDFL {| mdfl_media := new_descriptor; mdfl_edit_rate := default_rate; mdfl_length := 0;
      mdfl_is_omfi := 0; mdfl_data_offset := 0 |}]
  | PUrl => [Obj K_URLL tt]
  end.

(** file.py:67-85 [AVBFactory.from_name] with the constructor it runs: what is registered, in this
    order, the object itself first under [id] and then what its constructor makes under the numbers
    that follow. The items of a bin's [sifted_settings] have no class code and get no number. *)
Definition construct (id : Z) (c : call) : result (list obj) :=
  match c with
  | NewTimed c rate kind =>
    match set_media_kind kind with
    | Ok k => Ok [new_timed c (id + 1) k rate; Obj K_ATTR []]
    | Err e => Err e
    end
  | NewComposition name mob_type mob_id now =>
    match init_mob name (AText mob_type) with
    | Ok (AText n, t) => Ok [Obj K_CMPO (new_composition (id + 1) n t mob_id now); Obj K_ATTR []]
    | Ok (ANum _, _) => Err TypeErr
    | Err e => Err e
    end
  | NewBin uid => Ok [Obj K_ABIN (new_bin (id + 1) (id + 3) uid); Obj K_BVst (new_view (id + 2)); Obj K_ATTR []; Obj K_ATTR []]
  | NewBinFirst uid => Ok [Obj K_BINF {| binf_bin := new_bin (id + 1) (id + 3) uid; binf_unknown_s32 := 0 |};
      Obj K_BVst (new_view (id + 2)); Obj K_ATTR []; Obj K_ATTR []]
  | NewPlain c => Ok (new_plain id c)
  end.

(** file.py:57-88: a call in a document. After an exception the code has registered the object that
    was being made and its attributes, and their numbers are used; the model leaves the document as
    it was (nothing refers to those objects). *)
Definition create (s : editing) (c : call) : editing * result Z :=
  match construct (ed_next s + 1) c with
  | Ok l => (fold_left (fun s o => edit_step s (Make o)) l s, Ok (ed_next s + 1))
  | Err e => (s, Err e)
  end.

(** file.py:184-190 [setup_empty]. *)
Definition new_document (uid : Z) : editing :=
  match create edit_new (NewBin uid) with
  | (s, Ok i) => edit_step s (Root i)
  | (s, Err _) => s
  end.

(** bin.py:176-182, a new [BinItem] of a mob. *)
Definition new_item (mob : Z) : bin_item := {|
  item_mob := mob; item_x := -30000; item_y := -30000; item_keyframe := 0; item_user_placed := true |}.

(** bin.py:381-384: the bin with one more item. *)
Definition with_item (b : bin) (mob : Z) : bin := {|
  abin_large_bin := abin_large_bin b; abin_view_setting := abin_view_setting b; abin_uid := abin_uid b;
  abin_items := abin_items b ++ [new_item mob];
  abin_display_mask := abin_display_mask b; abin_display_mode := abin_display_mode b; abin_sifted := abin_sifted b;
  abin_sifted_settings := abin_sifted_settings b; abin_sort_columns := abin_sort_columns b;
  abin_mac_font := abin_mac_font b; abin_mac_font_size := abin_mac_font_size b; abin_mac_image_scale := abin_mac_image_scale b;
  abin_home_rect := abin_home_rect b; abin_background_color := abin_background_color b;
  abin_forground_color := abin_forground_color b; abin_ql_image_scale := abin_ql_image_scale b;
  abin_attributes := abin_attributes b; abin_was_iconic := abin_was_iconic b |}.

(** bin.py:381-384 [Bin.add_mob] on the content of the document: [items] is a plain list, so nothing
    is marked. The dictionary of bin.py:386-387 is in Mobs.v. *)
Definition add_mob_to_content (s : editing) (mob : Z) : editing :=
  match fetch s (ed_content s) with
  | (s', Ok (Obj K_ABIN b)) => edit_step s' (InPlace (ed_content s) (Obj K_ABIN (with_item b mob)))
  | (s', _) => s'
  end.

(** [f.content.add_mob(f.create.Composition(name, mob_type))], file.py:63-88 and bin.py:381-384. *)
Definition add_new_mob (s : editing) (m : call) : editing :=
  match create s m with
  | (s', Ok i) => add_mob_to_content s' i
  | (s', Err _) => s'
  end.
