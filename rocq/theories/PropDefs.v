(** Model of the properties of objects (src/avb/core.py:19-50 and 166-217, utils.py:100-116): which
    properties a class has, how they are registered, and what setting and getting an attribute does.
    The values are left open; the tables of the classes are transcribed. *)
From Coq Require Import ZArith String List Bool.
From Verif Require Import Base.
Import ListNotations.
Open Scope string_scope.
Open Scope list_scope.

(** What a name in the body of a class is: a method or other plain attribute, a [property] without
    or with a setter, or a slot (core.py:166-246 has all but the setters; those of components.py are
    found by the table below). *)
Inductive member := Plain | ReadOnly | Settable | Slot.

(** A class derived from [AVBObject] (core.py:166-170): its name, the class it is derived from, its
    [class_id] (empty for None), whether it is registered (utils.py:102-116), whether its body has a
    [propertydefs_dict] and [__slots__] (without those its objects have a [__dict__]), the names
    that its [propertydefs] have beyond those of the class it is derived from, and the names in its
    body. Types and defaults of the properties are left out. *)
Record pyclass := {
  pc_name : string; pc_parent : string; pc_code : string; pc_registered : bool; pc_own_dict : bool; pc_slots : bool;
  pc_defs : list string; pc_body : list (string * member) }.

(** A class followed by those it is derived from (the [__mro__] without [object]), in a list of
    classes that has the later ones first (core.py:166). *)
Fixpoint chain (l : list pyclass) (n : string) : list pyclass :=
  match l with
  | [] => []
  | c :: l' => if String.eqb (pc_name c) n then c :: chain l' (pc_parent c) else chain l' n
  end.

(** [cls.propertydefs] (core.py:167): [Parent.propertydefs + [...]] in the bodies, or inherited. *)
Definition propertydefs (l : list pyclass) (n : string) : list string := concat (map pc_defs (rev (chain (rev l) n))).

(** The class in whose body the [propertydefs_dict] of a class stands (core.py:168): its own or the
    one it inherits. *)
Definition dict_owner (l : list pyclass) (n : string) : string :=
  match find pc_own_dict (chain (rev l) n) with Some c => pc_name c | None => "" end.

(** An entry of a dictionary set (utils.py:107), the names in order. *)
Definition dict_add (l : list string) (n : string) : list string := if existsb (String.eqb n) l then l else l ++ [n].

(** utils.py:102-116 [register_class], [register_helper_class]: the [propertydefs_dict]s, by the class
    that has them, after one more class; and after all of them. *)
Definition register (l : list pyclass) (ds : string -> list string) (c : pyclass) : string -> list string :=
  if pc_registered c then
    fun o => if String.eqb o (dict_owner l (pc_name c)) then fold_left dict_add (propertydefs l (pc_name c)) (ds o) else ds o
  else ds.
(** See [register] (utils.py:102-116). *)
Definition registered (l : list pyclass) : string -> list string := fold_left (register l) l (fun _ => []).

(** What a name is for a class: the first body that has it decides (core.py:199-217, Python's
    attribute lookup). The attributes of [object] are left out; they begin with two underscores. *)
Fixpoint member_of (c : list pyclass) (n : string) : option member :=
  match c with
  | [] => None
  | x :: c' => match find (fun p => String.eqb (fst p) n) (pc_body x) with Some p => Some (snd p) | None => member_of c' n end
  end.

(** [property_data], an [OrderedDict]: looking up, and setting an entry, which keeps its place
    (core.py:35-50 and 202). *)
Fixpoint data_get {V} (d : list (string * V)) (n : string) : option V :=
  match d with
  | [] => None
  | (k, v) :: d' => if String.eqb k n then Some v else data_get d' n
  end.
(** See [data_get] (core.py:202). *)
Fixpoint data_set {V} (d : list (string * V)) (n : string) (v : V) : list (string * V) :=
  match d with
  | [] => [(n, v)]
  | (k, u) :: d' => if String.eqb k n then (k, v) :: d' else (k, u) :: data_set d' n v
  end.

(** What setting an attribute does: an entry of [property_data] and [mark_modified]; the setter of a
    [property] is run; the attribute goes in a slot, or in the [__dict__] of an object that has one;
    AttributeError (core.py:199-206). *)
Inductive set_end (V : Type) := Stored (d : list (string * V)) | RunsSetter | InSlot | InDict | Refused.
Arguments Stored {V}. Arguments RunsSetter {V}. Arguments InSlot {V}. Arguments InDict {V}. Arguments Refused {V}.

(** core.py:199-206 [__setattr__] of an object of class [n] with properties [d]. *)
Definition set_attr {V} (l : list pyclass) (n : string) (d : list (string * V)) (name : string) (v : V) : set_end V :=
  if existsb (String.eqb name) (registered l (dict_owner l n)) then Stored (data_set d name v)
  else match member_of (chain (rev l) n) name with
       | Some Settable => RunsSetter
       | Some ReadOnly => Refused
       | Some Slot => InSlot
       | Some Plain | None => if forallb pc_slots (chain (rev l) n) then Refused else InDict
       end.

(** What getting an attribute gives: something of the class, or of a slot; the value of a property;
    AttributeError (core.py:208-213). *)
Inductive get_end (V : Type) := OfClass | OfSlot | Value (v : V) | Missing.
Arguments OfClass {V}. Arguments OfSlot {V}. Arguments Value {V}. Arguments Missing {V}.

(** core.py:208-213 [__getattr__], which Python calls when a name is found nowhere else, and
    core.py:37-50: references are followed ([deref]). What was put in a [__dict__] is left out. *)
Definition get_attr {V} (deref : V -> V) (l : list pyclass) (n : string) (d : list (string * V)) (name : string) : get_end V :=
  match member_of (chain (rev l) n) name with
  | Some Slot => OfSlot
  | Some _ => OfClass
  | None => match data_get d name with Some v => Value (deref v) | None => Missing end
  end.

(** core.py:193-197 [get]. *)
Definition get_default {V} (deref : V -> V) (d : list (string * V)) (name : string) (default : V) : V :=
  match data_get d name with Some v => deref v | None => default end.

(** utils.py:102-105 and file.py:285: the class of a code; a later one replaces an earlier one. *)
Definition class_of_code (l : list pyclass) (code : string) : option pyclass :=
  find (fun c => pc_registered c && String.eqb (pc_code c) code) (rev l).

(** The classes, in the order in which they are defined (__init__.py:1-8):
    AVBObject core.py:166-167, Setting bin.py:13-22, BinViewSetting bin.py:74-80, BinItem
    bin.py:174-182, SiftItem bin.py:186-192, Bin bin.py:196-218, BinFirst bin.py:413-418, Component
    components.py:15-29, Sequence components.py:142-147, Clip components.py:235-240, SourceClip
    components.py:258-265, Timecode components.py:330-337, Edgecode components.py:370-379, TrackRef
    components.py:416-422, ParamControlPoint components.py:469-476, ParamControlPointProperty
    components.py:518-524, ParamClip components.py:544-553, ControlPoint components.py:831-838,
    ControlPointProperty components.py:842-847, ControlClip components.py:852-858, Filler
    components.py:930-933, Track trackgroups.py:30-44, TrackGroup trackgroups.py:89-97, TrackEffect
    trackgroups.py:258-275, PanVolumeEffect trackgroups.py:340-351, ASPIPlugin
    trackgroups.py:406-414, ASPIPluginChunk trackgroups.py:422-432, AudioSuitePluginEffect
    trackgroups.py:436-448, EqualizerBand trackgroups.py:624-632, EqualizerMultiBand
    trackgroups.py:636-643, TimeWarp trackgroups.py:689-694, CaptureMask trackgroups.py:712-718,
    StrobeEffect trackgroups.py:744-749, MotionEffect trackgroups.py:769-777, Repeat
    trackgroups.py:834-837, EssenceGroup trackgroups.py:856-861, TransitionEffect
    trackgroups.py:894-912, Selector trackgroups.py:987-993, Composition trackgroups.py:1025-1035,
    MediaDescriptor essence.py:15-26, TapeDescriptor essence.py:101-105, FilmDescriptor
    essence.py:127-130, NagraDescriptor essence.py:147-150, MediaFileDescriptor essence.py:167-174,
    MultiDescriptor essence.py:206-210, WaveDescriptor essence.py:241-245, AIFCDescriptor
    essence.py:273-278, PCMADescriptor essence.py:321-346, MPGADescriptor essence.py:440-454,
    DIDDescriptor essence.py:521-562, CDCIDescriptor essence.py:986-999, MPGIDescriptor
    essence.py:1066-1079, JPEGDescriptor essence.py:1124-1131, RGBADescriptor essence.py:1185-1197,
    DataDescriptor essence.py:1317-1325, ANCDataDescriptor essence.py:1353-1357, FileLocator
    misc.py:15-23, MacFileLocator misc.py:78-81, WinFileLocator misc.py:84-87, URLLocator
    misc.py:90-93, GraphicEffect misc.py:106-111, ShapeList misc.py:140-145, ColorCorrectionEffect
    misc.py:172-177, EffectParam misc.py:205-237, EffectParamList misc.py:241-249, CFUserParam
    misc.py:392-399, ParameterItem misc.py:441-452, MSMLocator misc.py:535-543, Position
    misc.py:605-610, BOBPosition misc.py:651-659, DIDPosition misc.py:691-699, MPGPosition
    misc.py:731-739, BinRef misc.py:784-792, MobRef misc.py:832-838, Marker misc.py:883-891,
    TrackerManager misc.py:946-952, TrackerDataSlot misc.py:978-984, TrackerParameterSlot
    misc.py:1028-1034, TrackerData misc.py:1071-1084, TrackerParameter misc.py:1183-1188. *)
Definition classes : list pyclass := [
  {| pc_name := "AVBObject"; pc_parent := ""; pc_code := ""; pc_registered := false; pc_own_dict := true; pc_slots := true;
     pc_defs := [];
     pc_body := [("__getattr__", Plain); ("__init__", Plain); ("__new__", Plain); ("__repr__", Plain); ("__setattr__", Plain); ("class_id", Plain); ("copy", Plain); ("get", Plain); ("get_property_def", Plain); ("mark_modified", Plain); ("media_kind", ReadOnly); ("propertydefs", Plain); ("propertydefs_dict", Plain); ("read", Plain); ("write", Plain); ("root", Slot); ("property_data", Slot); ("instance_id", Slot); ("__weakref__", Slot)] |};
  {| pc_name := "Setting"; pc_parent := "AVBObject"; pc_code := "ASET"; pc_registered := false; pc_own_dict := true; pc_slots := true;
     pc_defs := ["name"; "kind"; "attr_count"; "attr_type"; "attributes"];
     pc_body := [("class_id", Plain); ("propertydefs", Plain); ("propertydefs_dict", Plain); ("read", Plain); ("write", Plain)] |};
  {| pc_name := "BinViewSetting"; pc_parent := "Setting"; pc_code := "BVst"; pc_registered := true; pc_own_dict := true; pc_slots := true;
     pc_defs := ["columns"; "format_descriptors"];
     pc_body := [("__init__", Plain); ("class_id", Plain); ("propertydefs", Plain); ("propertydefs_dict", Plain); ("read", Plain); ("write", Plain)] |};
  {| pc_name := "BinItem"; pc_parent := "AVBObject"; pc_code := ""; pc_registered := true; pc_own_dict := true; pc_slots := true;
     pc_defs := ["mob"; "x"; "y"; "keyframe"; "user_placed"];
     pc_body := [("propertydefs", Plain); ("propertydefs_dict", Plain)] |};
  {| pc_name := "SiftItem"; pc_parent := "AVBObject"; pc_code := ""; pc_registered := true; pc_own_dict := true; pc_slots := true;
     pc_defs := ["method"; "string"; "column"];
     pc_body := [("propertydefs", Plain); ("propertydefs_dict", Plain)] |};
  {| pc_name := "Bin"; pc_parent := "AVBObject"; pc_code := "ABIN"; pc_registered := true; pc_own_dict := true; pc_slots := true;
     pc_defs := ["large_bin"; "view_setting"; "uid"; "items"; "display_mask"; "display_mode"; "sifted"; "sifted_settings"; "sort_columns"; "mac_font"; "mac_font_size"; "mac_image_scale"; "home_rect"; "background_color"; "forground_color"; "ql_image_scale"; "attributes"; "was_iconic"];
     pc_body := [("__init__", Plain); ("add_mob", Plain); ("class_id", Plain); ("compositionmobs", Plain); ("find_by_mob_id", Plain); ("mastermobs", Plain); ("mobs", ReadOnly); ("propertydefs", Plain); ("propertydefs_dict", Plain); ("read", Plain); ("toplevel", Plain); ("write", Plain); ("_mob_dict", Slot)] |};
  {| pc_name := "BinFirst"; pc_parent := "Bin"; pc_code := "BINF"; pc_registered := true; pc_own_dict := true; pc_slots := true;
     pc_defs := ["unknown_s32"];
     pc_body := [("class_id", Plain); ("propertydefs", Plain); ("propertydefs_dict", Plain); ("read", Plain); ("write", Plain)] |};
  {| pc_name := "Component"; pc_parent := "AVBObject"; pc_code := "COMP"; pc_registered := false; pc_own_dict := true; pc_slots := true;
     pc_defs := ["left_bob"; "right_bob"; "media_kind_id"; "edit_rate"; "name"; "effect_id"; "attributes"; "session_attrs"; "precomputed"; "param_list"];
     pc_body := [("__init__", Plain); ("class_id", Plain); ("media_kind", Settable); ("propertydefs", Plain); ("propertydefs_dict", Plain); ("read", Plain); ("write", Plain)] |};
  {| pc_name := "Sequence"; pc_parent := "Component"; pc_code := "SEQU"; pc_registered := true; pc_own_dict := true; pc_slots := true;
     pc_defs := ["components"];
     pc_body := [("__init__", Plain); ("class_id", Plain); ("length", ReadOnly); ("nearest_component_at_time", Plain); ("nearest_index_at_time", Plain); ("positions", Plain); ("propertydefs", Plain); ("propertydefs_dict", Plain); ("read", Plain); ("write", Plain)] |};
  {| pc_name := "Clip"; pc_parent := "Component"; pc_code := "CLIP"; pc_registered := false; pc_own_dict := true; pc_slots := true;
     pc_defs := ["length"];
     pc_body := [("class_id", Plain); ("propertydefs", Plain); ("propertydefs_dict", Plain); ("read", Plain); ("write", Plain)] |};
  {| pc_name := "SourceClip"; pc_parent := "Clip"; pc_code := "SCLP"; pc_registered := true; pc_own_dict := true; pc_slots := true;
     pc_defs := ["track_id"; "start_time"; "mob_id"];
     pc_body := [("__init__", Plain); ("class_id", Plain); ("mob", ReadOnly); ("propertydefs", Plain); ("propertydefs_dict", Plain); ("read", Plain); ("track", ReadOnly); ("write", Plain)] |};
  {| pc_name := "Timecode"; pc_parent := "Clip"; pc_code := "TCCP"; pc_registered := true; pc_own_dict := true; pc_slots := true;
     pc_defs := ["flags"; "fps"; "start"];
     pc_body := [("class_id", Plain); ("propertydefs", Plain); ("propertydefs_dict", Plain); ("read", Plain); ("write", Plain)] |};
  {| pc_name := "Edgecode"; pc_parent := "Clip"; pc_code := "ECCP"; pc_registered := true; pc_own_dict := true; pc_slots := true;
     pc_defs := ["header"; "film_kind"; "code_format"; "base_perf"; "start_ec"];
     pc_body := [("class_id", Plain); ("propertydefs", Plain); ("propertydefs_dict", Plain); ("read", Plain); ("write", Plain)] |};
  {| pc_name := "TrackRef"; pc_parent := "Clip"; pc_code := "TRKR"; pc_registered := true; pc_own_dict := true; pc_slots := true;
     pc_defs := ["relative_scope"; "relative_track"];
     pc_body := [("class_id", Plain); ("propertydefs", Plain); ("propertydefs_dict", Plain); ("read", Plain); ("write", Plain)] |};
  {| pc_name := "ParamControlPoint"; pc_parent := "AVBObject"; pc_code := ""; pc_registered := true; pc_own_dict := true; pc_slots := true;
     pc_defs := ["offset"; "timescale"; "value"; "pp"];
     pc_body := [("base_frame", ReadOnly); ("point_properties", ReadOnly); ("propertydefs", Plain); ("propertydefs_dict", Plain); ("tangents", ReadOnly); ("time", ReadOnly)] |};
  {| pc_name := "ParamControlPointProperty"; pc_parent := "AVBObject"; pc_code := ""; pc_registered := true; pc_own_dict := true; pc_slots := true;
     pc_defs := ["code"; "type"; "value"];
     pc_body := [("name", ReadOnly); ("propertydefs", Plain); ("propertydefs_dict", Plain); ("type_name", ReadOnly)] |};
  {| pc_name := "ParamClip"; pc_parent := "Clip"; pc_code := "PRCL"; pc_registered := true; pc_own_dict := true; pc_slots := true;
     pc_defs := ["interp_kind"; "value_type"; "extrap_kind"; "control_points"; "fields"];
     pc_body := [("class_id", Plain); ("integrate", Plain); ("interp", ReadOnly); ("nearest_index", Plain); ("propertydefs", Plain); ("propertydefs_dict", Plain); ("read", Plain); ("value_at", Plain); ("value_type_name", ReadOnly); ("write", Plain)] |};
  {| pc_name := "ControlPoint"; pc_parent := "AVBObject"; pc_code := ""; pc_registered := true; pc_own_dict := true; pc_slots := true;
     pc_defs := ["offset"; "time_scale"; "value"; "pp"];
     pc_body := [("propertydefs", Plain); ("propertydefs_dict", Plain)] |};
  {| pc_name := "ControlPointProperty"; pc_parent := "AVBObject"; pc_code := ""; pc_registered := true; pc_own_dict := true; pc_slots := true;
     pc_defs := ["code"; "value"];
     pc_body := [("propertydefs", Plain); ("propertydefs_dict", Plain)] |};
  {| pc_name := "ControlClip"; pc_parent := "Clip"; pc_code := "CTRL"; pc_registered := true; pc_own_dict := true; pc_slots := true;
     pc_defs := ["interp_kind"; "control_points"];
     pc_body := [("class_id", Plain); ("propertydefs", Plain); ("propertydefs_dict", Plain); ("read", Plain); ("write", Plain)] |};
  {| pc_name := "Filler"; pc_parent := "Clip"; pc_code := "FILL"; pc_registered := true; pc_own_dict := true; pc_slots := true;
     pc_defs := [];
     pc_body := [("class_id", Plain); ("propertydefs_dict", Plain); ("read", Plain); ("write", Plain)] |};
  {| pc_name := "Track"; pc_parent := "AVBObject"; pc_code := ""; pc_registered := true; pc_own_dict := true; pc_slots := true;
     pc_defs := ["index"; "attributes"; "session_attr"; "component"; "filler_proxy"; "bob_data"; "control_code"; "control_sub_code"; "start_pos"; "read_only"; "lock_number"];
     pc_body := [("flags", ReadOnly); ("media_kind", ReadOnly); ("propertydefs", Plain); ("propertydefs_dict", Plain)] |};
  {| pc_name := "TrackGroup"; pc_parent := "Component"; pc_code := "TRKG"; pc_registered := true; pc_own_dict := true; pc_slots := true;
     pc_defs := ["mc_mode"; "length"; "num_scalars"; "tracks"];
     pc_body := [("__init__", Plain); ("class_id", Plain); ("dependant_mobs", Plain); ("propertydefs", Plain); ("propertydefs_dict", Plain); ("read", Plain); ("write", Plain)] |};
  {| pc_name := "TrackEffect"; pc_parent := "TrackGroup"; pc_code := "TKFX"; pc_registered := true; pc_own_dict := true; pc_slots := true;
     pc_defs := ["left_length"; "right_length"; "info_version"; "info_current"; "info_smooth"; "info_color_item"; "info_quality"; "info_is_reversed"; "info_aspect_on"; "keyframes"; "info_force_software"; "info_never_hardware"; "trackman"];
     pc_body := [("class_id", Plain); ("propertydefs", Plain); ("propertydefs_dict", Plain); ("read", Plain); ("write", Plain)] |};
  {| pc_name := "PanVolumeEffect"; pc_parent := "TrackEffect"; pc_code := "PVOL"; pc_registered := true; pc_own_dict := true; pc_slots := true;
     pc_defs := ["level"; "pan"; "suppress_validation"; "level_set"; "pan_set"; "supports_seperate_gain"; "is_trim_gain_effect"];
     pc_body := [("class_id", Plain); ("propertydefs", Plain); ("propertydefs_dict", Plain); ("read", Plain); ("write", Plain)] |};
  {| pc_name := "ASPIPlugin"; pc_parent := "AVBObject"; pc_code := ""; pc_registered := true; pc_own_dict := true; pc_slots := true;
     pc_defs := ["name"; "manufacturer_id"; "product_id"; "plugin_id"; "chunks"];
     pc_body := [("__init__", Plain); ("propertydefs", Plain); ("propertydefs_dict", Plain)] |};
  {| pc_name := "ASPIPluginChunk"; pc_parent := "AVBObject"; pc_code := ""; pc_registered := true; pc_own_dict := true; pc_slots := true;
     pc_defs := ["version"; "manufacturer_id"; "product_id"; "plugin_id"; "chunk_id"; "name"; "data"];
     pc_body := [("propertydefs", Plain); ("propertydefs_dict", Plain)] |};
  {| pc_name := "AudioSuitePluginEffect"; pc_parent := "TrackEffect"; pc_code := "ASPI"; pc_registered := true; pc_own_dict := true; pc_slots := true;
     pc_defs := ["plugins"; "mob_id"; "mark_in"; "mark_out"; "tracks_to_affect"; "rendering_mode"; "padding_secs"; "preset_path"];
     pc_body := [("class_id", Plain); ("propertydefs", Plain); ("propertydefs_dict", Plain); ("read", Plain); ("write", Plain)] |};
  {| pc_name := "EqualizerBand"; pc_parent := "AVBObject"; pc_code := ""; pc_registered := true; pc_own_dict := true; pc_slots := true;
     pc_defs := ["type"; "freq"; "gain"; "q"; "enable"];
     pc_body := [("propertydefs", Plain); ("propertydefs_dict", Plain)] |};
  {| pc_name := "EqualizerMultiBand"; pc_parent := "TrackEffect"; pc_code := "EQMB"; pc_registered := true; pc_own_dict := true; pc_slots := true;
     pc_defs := ["bands"; "effect_enable"; "filter_name"];
     pc_body := [("class_id", Plain); ("propertydefs", Plain); ("propertydefs_dict", Plain); ("read", Plain); ("write", Plain)] |};
  {| pc_name := "TimeWarp"; pc_parent := "TrackGroup"; pc_code := "WARP"; pc_registered := false; pc_own_dict := true; pc_slots := true;
     pc_defs := ["phase_offset"];
     pc_body := [("class_id", Plain); ("propertydefs", Plain); ("propertydefs_dict", Plain); ("read", Plain); ("write", Plain)] |};
  {| pc_name := "CaptureMask"; pc_parent := "TimeWarp"; pc_code := "MASK"; pc_registered := true; pc_own_dict := true; pc_slots := true;
     pc_defs := ["is_double"; "mask_bits"];
     pc_body := [("class_id", Plain); ("propertydefs", Plain); ("propertydefs_dict", Plain); ("read", Plain); ("write", Plain)] |};
  {| pc_name := "StrobeEffect"; pc_parent := "TimeWarp"; pc_code := "STRB"; pc_registered := true; pc_own_dict := true; pc_slots := true;
     pc_defs := ["strobe_value"];
     pc_body := [("class_id", Plain); ("propertydefs", Plain); ("propertydefs_dict", Plain); ("read", Plain); ("write", Plain)] |};
  {| pc_name := "MotionEffect"; pc_parent := "TimeWarp"; pc_code := "SPED"; pc_registered := true; pc_own_dict := true; pc_slots := true;
     pc_defs := ["speed_ratio"; "offset_adjust"; "source_param_list"; "new_source_calculation"];
     pc_body := [("class_id", Plain); ("propertydefs", Plain); ("propertydefs_dict", Plain); ("read", Plain); ("write", Plain)] |};
  {| pc_name := "Repeat"; pc_parent := "TimeWarp"; pc_code := "REPT"; pc_registered := true; pc_own_dict := true; pc_slots := true;
     pc_defs := [];
     pc_body := [("class_id", Plain); ("propertydefs_dict", Plain); ("read", Plain); ("write", Plain)] |};
  {| pc_name := "EssenceGroup"; pc_parent := "TrackGroup"; pc_code := "RSET"; pc_registered := true; pc_own_dict := true; pc_slots := true;
     pc_defs := ["rep_set_type"];
     pc_body := [("class_id", Plain); ("propertydefs", Plain); ("propertydefs_dict", Plain); ("read", Plain); ("write", Plain)] |};
  {| pc_name := "TransitionEffect"; pc_parent := "TrackGroup"; pc_code := "TNFX"; pc_registered := true; pc_own_dict := true; pc_slots := true;
     pc_defs := ["cutpoint"; "left_length"; "right_length"; "info_version"; "info_current"; "info_smooth"; "info_color_item"; "info_quality"; "info_is_reversed"; "info_aspect_on"; "keyframes"; "info_force_software"; "info_never_hardware"; "trackman"];
     pc_body := [("class_id", Plain); ("propertydefs", Plain); ("propertydefs_dict", Plain); ("read", Plain); ("write", Plain)] |};
  {| pc_name := "Selector"; pc_parent := "TrackGroup"; pc_code := "SLCT"; pc_registered := true; pc_own_dict := true; pc_slots := true;
     pc_defs := ["is_ganged"; "selected"];
     pc_body := [("class_id", Plain); ("components", Plain); ("propertydefs", Plain); ("propertydefs_dict", Plain); ("read", Plain); ("write", Plain)] |};
  {| pc_name := "Composition"; pc_parent := "TrackGroup"; pc_code := "CMPO"; pc_registered := true; pc_own_dict := true; pc_slots := true;
     pc_defs := ["last_modified"; "mob_type_id"; "usage_code"; "descriptor"; "creation_time"; "mob_id"];
     pc_body := [("__init__", Plain); ("class_id", Plain); ("mob_type", ReadOnly); ("propertydefs", Plain); ("propertydefs_dict", Plain); ("read", Plain); ("usage", ReadOnly); ("write", Plain)] |};
  {| pc_name := "MediaDescriptor"; pc_parent := "AVBObject"; pc_code := "MDES"; pc_registered := true; pc_own_dict := true; pc_slots := true;
     pc_defs := ["mob_kind"; "locator"; "intermediate"; "physical_media"; "uuid"; "wchar"; "attributes"];
     pc_body := [("class_id", Plain); ("propertydefs", Plain); ("propertydefs_dict", Plain); ("read", Plain); ("write", Plain)] |};
  {| pc_name := "TapeDescriptor"; pc_parent := "MediaDescriptor"; pc_code := "MDTP"; pc_registered := true; pc_own_dict := false; pc_slots := true;
     pc_defs := ["cframe"];
     pc_body := [("class_id", Plain); ("propertydefs", Plain); ("read", Plain); ("write", Plain)] |};
  {| pc_name := "FilmDescriptor"; pc_parent := "MediaDescriptor"; pc_code := "MDFM"; pc_registered := true; pc_own_dict := false; pc_slots := true;
     pc_defs := [];
     pc_body := [("class_id", Plain); ("read", Plain); ("write", Plain)] |};
  {| pc_name := "NagraDescriptor"; pc_parent := "MediaDescriptor"; pc_code := "MDNG"; pc_registered := true; pc_own_dict := false; pc_slots := true;
     pc_defs := [];
     pc_body := [("class_id", Plain); ("read", Plain); ("write", Plain)] |};
  {| pc_name := "MediaFileDescriptor"; pc_parent := "MediaDescriptor"; pc_code := "MDFL"; pc_registered := true; pc_own_dict := false; pc_slots := true;
     pc_defs := ["edit_rate"; "length"; "is_omfi"; "data_offset"];
     pc_body := [("class_id", Plain); ("propertydefs", Plain); ("read", Plain); ("write", Plain)] |};
  {| pc_name := "MultiDescriptor"; pc_parent := "MediaFileDescriptor"; pc_code := "MULD"; pc_registered := true; pc_own_dict := false; pc_slots := true;
     pc_defs := ["descriptors"];
     pc_body := [("class_id", Plain); ("propertydefs", Plain); ("read", Plain); ("write", Plain)] |};
  {| pc_name := "WaveDescriptor"; pc_parent := "MediaFileDescriptor"; pc_code := "WAVE"; pc_registered := true; pc_own_dict := false; pc_slots := true;
     pc_defs := ["summary"];
     pc_body := [("class_id", Plain); ("propertydefs", Plain); ("read", Plain); ("write", Plain)] |};
  {| pc_name := "AIFCDescriptor"; pc_parent := "MediaFileDescriptor"; pc_code := "AIFC"; pc_registered := true; pc_own_dict := false; pc_slots := true;
     pc_defs := ["summary"; "data_pos"];
     pc_body := [("class_id", Plain); ("propertydefs", Plain); ("read", Plain); ("write", Plain)] |};
  {| pc_name := "PCMADescriptor"; pc_parent := "MediaFileDescriptor"; pc_code := "PCMA"; pc_registered := true; pc_own_dict := false; pc_slots := true;
     pc_defs := ["channels"; "quantization_bits"; "sample_rate"; "locked"; "audio_ref_level"; "electro_spatial_formulation"; "dial_norm"; "coding_format"; "block_align"; "sequence_offset"; "average_bps"; "has_peak_envelope_data"; "peak_envelope_version"; "peak_envelope_format"; "points_per_peak_value"; "peak_envelope_block_size"; "peak_channel_count"; "peak_frame_count"; "peak_of_peaks_offset"; "peak_envelope_timestamp"; "ebu_timestamp"; "timecode_framerate"];
     pc_body := [("class_id", Plain); ("propertydefs", Plain); ("read", Plain); ("write", Plain)] |};
  {| pc_name := "MPGADescriptor"; pc_parent := "MediaFileDescriptor"; pc_code := "MPGA"; pc_registered := true; pc_own_dict := false; pc_slots := true;
     pc_defs := ["channels"; "quantization_bits"; "sample_rate"; "locked"; "audio_ref_level"; "electro_spatial_formulation"; "dial_norm"; "coding_format"; "bit_rate"; "sub_frame_alignment"; "origin"];
     pc_body := [("class_id", Plain); ("propertydefs", Plain); ("read", Plain); ("write", Plain)] |};
  {| pc_name := "DIDDescriptor"; pc_parent := "MediaFileDescriptor"; pc_code := "DIDD"; pc_registered := true; pc_own_dict := false; pc_slots := true;
     pc_defs := ["stored_height"; "stored_width"; "sampled_height"; "sampled_width"; "sampled_x_offset"; "sampled_y_offset"; "display_height"; "display_width"; "display_x_offset"; "display_y_offset"; "frame_layout"; "aspect_ratio"; "line_map"; "alpha_transparency"; "uniformness"; "did_image_size"; "next_did_desc"; "compress_method"; "resolution_id"; "image_alignment_factor"; "frame_index_byte_order"; "frame_sample_size"; "first_frame_offset"; "client_fill_start"; "client_fill_end"; "offset_to_rle_frame_index"; "frame_start_offset"; "valid_box"; "essence_box"; "source_box"; "framing_box"; "reformatting_option"; "transfer_characteristic"; "color_primaries"; "coding_equations"; "essence_compression"; "essence_element_size_kind"; "frame_checked_with_mapper"];
     pc_body := [("class_id", Plain); ("propertydefs", Plain); ("read", Plain); ("write", Plain)] |};
  {| pc_name := "CDCIDescriptor"; pc_parent := "DIDDescriptor"; pc_code := "CDCI"; pc_registered := true; pc_own_dict := false; pc_slots := true;
     pc_defs := ["horizontal_subsampling"; "vertical_subsampling"; "component_width"; "color_sitting"; "black_ref_level"; "white_ref_level"; "color_range"; "frame_index_offset"; "alpha_sampled_width"; "ignore_bw"];
     pc_body := [("class_id", Plain); ("propertydefs", Plain); ("read", Plain); ("write", Plain)] |};
  {| pc_name := "MPGIDescriptor"; pc_parent := "CDCIDescriptor"; pc_code := "MPGI"; pc_registered := true; pc_own_dict := false; pc_slots := true;
     pc_defs := ["mpeg_version"; "profile"; "gop_structure"; "stream_type"; "random_access"; "leading_discard"; "trailing_discard"; "min_gop_length"; "max_gop_length"; "sequence_hdr"];
     pc_body := [("class_id", Plain); ("propertydefs", Plain); ("read", Plain); ("write", Plain)] |};
  {| pc_name := "JPEGDescriptor"; pc_parent := "CDCIDescriptor"; pc_code := "JPED"; pc_registered := true; pc_own_dict := false; pc_slots := true;
     pc_defs := ["jpeg_table_id"; "jpeg_frame_index_offset"; "quantization_tables"; "image_start_align"];
     pc_body := [("class_id", Plain); ("propertydefs", Plain); ("read", Plain); ("write", Plain)] |};
  {| pc_name := "RGBADescriptor"; pc_parent := "DIDDescriptor"; pc_code := "RGBA"; pc_registered := true; pc_own_dict := false; pc_slots := true;
     pc_defs := ["pixel_layout"; "palette"; "frame_index_offset"; "has_comp_min_ref"; "comp_min_ref"; "has_comp_max_ref"; "comp_max_ref"; "alpha_min_ref"; "alpha_max_ref"];
     pc_body := [("class_id", Plain); ("propertydefs", Plain); ("read", Plain); ("write", Plain)] |};
  {| pc_name := "DataDescriptor"; pc_parent := "MediaFileDescriptor"; pc_code := "DATD"; pc_registered := true; pc_own_dict := false; pc_slots := true;
     pc_defs := ["is_offset_to_frame_indexes_valid"; "offset_to_frame_indexes"; "first_frame_offset"; "min_sample_size"; "max_sample_size"];
     pc_body := [("class_id", Plain); ("propertydefs", Plain); ("read", Plain); ("write", Plain)] |};
  {| pc_name := "ANCDataDescriptor"; pc_parent := "DataDescriptor"; pc_code := "ANCD"; pc_registered := true; pc_own_dict := false; pc_slots := true;
     pc_defs := ["manifest_element_count"];
     pc_body := [("class_id", Plain); ("propertydefs", Plain); ("read", Plain); ("write", Plain)] |};
  {| pc_name := "FileLocator"; pc_parent := "AVBObject"; pc_code := "FILE"; pc_registered := false; pc_own_dict := true; pc_slots := true;
     pc_defs := ["path"; "path_posix"; "path_utf8"; "path2_utf8"];
     pc_body := [("class_id", Plain); ("propertydefs", Plain); ("propertydefs_dict", Plain); ("read", Plain); ("write", Plain)] |};
  {| pc_name := "MacFileLocator"; pc_parent := "FileLocator"; pc_code := "FILE"; pc_registered := true; pc_own_dict := true; pc_slots := true;
     pc_defs := [];
     pc_body := [("class_id", Plain); ("propertydefs_dict", Plain)] |};
  {| pc_name := "WinFileLocator"; pc_parent := "FileLocator"; pc_code := "WINF"; pc_registered := true; pc_own_dict := true; pc_slots := true;
     pc_defs := [];
     pc_body := [("class_id", Plain); ("propertydefs_dict", Plain)] |};
  {| pc_name := "URLLocator"; pc_parent := "AVBObject"; pc_code := "URLL"; pc_registered := true; pc_own_dict := true; pc_slots := true;
     pc_defs := [];
     pc_body := [("class_id", Plain); ("propertydefs_dict", Plain); ("read", Plain); ("write", Plain)] |};
  {| pc_name := "GraphicEffect"; pc_parent := "AVBObject"; pc_code := "GRFX"; pc_registered := true; pc_own_dict := true; pc_slots := true;
     pc_defs := ["pict_data"];
     pc_body := [("class_id", Plain); ("propertydefs", Plain); ("propertydefs_dict", Plain); ("read", Plain); ("write", Plain)] |};
  {| pc_name := "ShapeList"; pc_parent := "AVBObject"; pc_code := "SHLP"; pc_registered := true; pc_own_dict := true; pc_slots := false;
     pc_defs := ["shape_data"];
     pc_body := [("class_id", Plain); ("propertydefs", Plain); ("propertydefs_dict", Plain); ("read", Plain); ("write", Plain)] |};
  {| pc_name := "ColorCorrectionEffect"; pc_parent := "AVBObject"; pc_code := "CCFX"; pc_registered := true; pc_own_dict := true; pc_slots := true;
     pc_defs := ["color_correction"];
     pc_body := [("class_id", Plain); ("propertydefs", Plain); ("propertydefs_dict", Plain); ("read", Plain); ("write", Plain)] |};
  {| pc_name := "EffectParam"; pc_parent := "AVBObject"; pc_code := ""; pc_registered := true; pc_own_dict := true; pc_slots := true;
     pc_defs := ["percent_time"; "level"; "pos_x"; "floor_x"; "ceil_x"; "pos_y"; "floor_y"; "ceil_y"; "scale_x"; "scale_y"; "crop_left"; "crop_right"; "crop_top"; "crop_bottom"; "box"; "box_xscale"; "box_yscale"; "box_xpos"; "box_ypos"; "border_width"; "border_soft"; "splill_gain2"; "splill_gain"; "splill_soft2"; "splill_soft"; "enable_key_flags"; "colors"; "user_param"; "selected"];
     pc_body := [("propertydefs", Plain); ("propertydefs_dict", Plain)] |};
  {| pc_name := "EffectParamList"; pc_parent := "AVBObject"; pc_code := "FXPS"; pc_registered := true; pc_own_dict := true; pc_slots := true;
     pc_defs := ["orig_length"; "window_offset"; "keyframe_size"; "parameters"];
     pc_body := [("class_id", Plain); ("propertydefs", Plain); ("propertydefs_dict", Plain); ("read", Plain); ("write", Plain)] |};
  {| pc_name := "CFUserParam"; pc_parent := "AVBObject"; pc_code := "AVUP"; pc_registered := true; pc_own_dict := true; pc_slots := true;
     pc_defs := ["byte_order"; "uuid"; "data"];
     pc_body := [("class_id", Plain); ("propertydefs", Plain); ("propertydefs_dict", Plain); ("read", Plain); ("write", Plain)] |};
  {| pc_name := "ParameterItem"; pc_parent := "AVBObject"; pc_code := "PRIT"; pc_registered := true; pc_own_dict := true; pc_slots := true;
     pc_defs := ["uuid"; "value_type"; "value"; "name"; "enable"; "control_track"; "contribs_to_sig"];
     pc_body := [("class_id", Plain); ("parameter_name", ReadOnly); ("propertydefs", Plain); ("propertydefs_dict", Plain); ("read", Plain); ("value_type_name", ReadOnly); ("write", Plain)] |};
  {| pc_name := "MSMLocator"; pc_parent := "AVBObject"; pc_code := "MSML"; pc_registered := true; pc_own_dict := true; pc_slots := true;
     pc_defs := ["last_known_volume"; "domain_type"; "mob_id"; "last_known_volume_utf8"];
     pc_body := [("class_id", Plain); ("propertydefs", Plain); ("propertydefs_dict", Plain); ("read", Plain); ("write", Plain)] |};
  {| pc_name := "Position"; pc_parent := "AVBObject"; pc_code := "APOS"; pc_registered := true; pc_own_dict := true; pc_slots := true;
     pc_defs := ["mob_id"];
     pc_body := [("class_id", Plain); ("propertydefs", Plain); ("propertydefs_dict", Plain); ("read", Plain); ("write", Plain)] |};
  {| pc_name := "BOBPosition"; pc_parent := "Position"; pc_code := "ABOB"; pc_registered := true; pc_own_dict := true; pc_slots := true;
     pc_defs := ["sample_num"; "length"; "track_type"; "track_index"];
     pc_body := [("class_id", Plain); ("propertydefs", Plain); ("propertydefs_dict", Plain); ("read", Plain); ("write", Plain)] |};
  {| pc_name := "DIDPosition"; pc_parent := "BOBPosition"; pc_code := "DIDP"; pc_registered := true; pc_own_dict := true; pc_slots := true;
     pc_defs := ["strip"; "offset"; "byte_length"; "spos_invalid"];
     pc_body := [("class_id", Plain); ("propertydefs", Plain); ("propertydefs_dict", Plain); ("read", Plain); ("write", Plain)] |};
  {| pc_name := "MPGPosition"; pc_parent := "DIDPosition"; pc_code := "MPGP"; pc_registered := true; pc_own_dict := true; pc_slots := true;
     pc_defs := ["trailing_discards"; "need_seq_hdr"; "leader_length"; "fields"];
     pc_body := [("class_id", Plain); ("propertydefs", Plain); ("propertydefs_dict", Plain); ("read", Plain); ("write", Plain)] |};
  {| pc_name := "BinRef"; pc_parent := "AVBObject"; pc_code := "MCBR"; pc_registered := true; pc_own_dict := true; pc_slots := true;
     pc_defs := ["uid_high"; "uid_low"; "name"; "name_utf8"];
     pc_body := [("class_id", Plain); ("propertydefs", Plain); ("propertydefs_dict", Plain); ("read", Plain); ("write", Plain)] |};
  {| pc_name := "MobRef"; pc_parent := "AVBObject"; pc_code := "MCMR"; pc_registered := true; pc_own_dict := true; pc_slots := true;
     pc_defs := ["position"; "mob_id"];
     pc_body := [("class_id", Plain); ("propertydefs", Plain); ("propertydefs_dict", Plain); ("read", Plain); ("write", Plain)] |};
  {| pc_name := "Marker"; pc_parent := "MobRef"; pc_code := "TMBC"; pc_registered := true; pc_own_dict := true; pc_slots := true;
     pc_defs := ["comp_offset"; "attributes"; "color"; "handled_codes"];
     pc_body := [("class_id", Plain); ("propertydefs", Plain); ("propertydefs_dict", Plain); ("read", Plain); ("write", Plain)] |};
  {| pc_name := "TrackerManager"; pc_parent := "AVBObject"; pc_code := "TKMN"; pc_registered := true; pc_own_dict := true; pc_slots := true;
     pc_defs := ["data_slots"; "param_slots"];
     pc_body := [("class_id", Plain); ("propertydefs", Plain); ("propertydefs_dict", Plain); ("read", Plain); ("write", Plain)] |};
  {| pc_name := "TrackerDataSlot"; pc_parent := "AVBObject"; pc_code := "TKDS"; pc_registered := true; pc_own_dict := true; pc_slots := true;
     pc_defs := ["tracker_data"; "track_fg"];
     pc_body := [("class_id", Plain); ("propertydefs", Plain); ("propertydefs_dict", Plain); ("read", Plain); ("write", Plain)] |};
  {| pc_name := "TrackerParameterSlot"; pc_parent := "AVBObject"; pc_code := "TKPS"; pc_registered := true; pc_own_dict := true; pc_slots := true;
     pc_defs := ["settings"; "params"];
     pc_body := [("class_id", Plain); ("propertydefs", Plain); ("propertydefs_dict", Plain); ("read", Plain); ("write", Plain)] |};
  {| pc_name := "TrackerData"; pc_parent := "AVBObject"; pc_code := "TKDA"; pc_registered := true; pc_own_dict := true; pc_slots := true;
     pc_defs := ["settings"; "clip_version"; "clips"; "offset_tracking"; "smoothing"; "jitter_removal"; "filter_amount"; "clip5"; "clip6"];
     pc_body := [("class_id", Plain); ("propertydefs", Plain); ("propertydefs_dict", Plain); ("read", Plain); ("write", Plain)] |};
  {| pc_name := "TrackerParameter"; pc_parent := "AVBObject"; pc_code := "TKPA"; pc_registered := true; pc_own_dict := true; pc_slots := true;
     pc_defs := ["settings"];
     pc_body := [("class_id", Plain); ("propertydefs", Plain); ("propertydefs_dict", Plain); ("read", Plain); ("write", Plain)] |} ].

(** The names that the methods of a class assign on [self], by the class whose body has the methods:
    [self.x = ...] and [self.x += ...]. What they assign on helper objects is left out. The lines of
    the first and last assignment:
    AVBObject core.py:174-175, Setting bin.py:31-36, BinViewSetting bin.py:85-114, Bin
    bin.py:224-305, BinFirst bin.py:427-427, Component components.py:34-137, Sequence
    components.py:152-161, Clip components.py:248-248, SourceClip components.py:270-286, Timecode
    components.py:347-353, Edgecode components.py:389-394, TrackRef components.py:431-432, ParamClip
    components.py:562-612, ControlClip components.py:867-869, TrackGroup trackgroups.py:102-115,
    TrackEffect trackgroups.py:284-302, PanVolumeEffect trackgroups.py:360-373, ASPIPlugin
    trackgroups.py:419-419, AudioSuitePluginEffect trackgroups.py:457-533, EqualizerMultiBand
    trackgroups.py:655-666, TimeWarp trackgroups.py:702-702, CaptureMask trackgroups.py:727-728,
    StrobeEffect trackgroups.py:757-757, MotionEffect trackgroups.py:788-800, EssenceGroup
    trackgroups.py:873-873, TransitionEffect trackgroups.py:921-945, Selector
    trackgroups.py:1002-1003, Composition trackgroups.py:1041-1078, MediaDescriptor
    essence.py:35-58, TapeDescriptor essence.py:114-114, MediaFileDescriptor essence.py:183-186,
    MultiDescriptor essence.py:220-220, WaveDescriptor essence.py:258-258, AIFCDescriptor
    essence.py:291-295, PCMADescriptor essence.py:355-387, MPGADescriptor essence.py:463-481,
    DIDDescriptor essence.py:571-764, CDCIDescriptor essence.py:1008-1026, MPGIDescriptor
    essence.py:1088-1099, JPEGDescriptor essence.py:1140-1149, RGBADescriptor essence.py:1219-1253,
    DataDescriptor essence.py:1334-1338, ANCDataDescriptor essence.py:1367-1367, FileLocator
    misc.py:32-43, GraphicEffect misc.py:123-123, ShapeList misc.py:156-156, ColorCorrectionEffect
    misc.py:189-189, EffectParamList misc.py:258-263, CFUserParam misc.py:408-419, ParameterItem
    misc.py:461-479, MSMLocator misc.py:555-566, Position misc.py:624-624, BOBPosition
    misc.py:668-671, DIDPosition misc.py:708-711, MPGPosition misc.py:748-750, BinRef
    misc.py:801-808, MobRef misc.py:849-853, Marker misc.py:900-916, TrackerManager misc.py:961-962,
    TrackerDataSlot misc.py:994-1002, TrackerParameterSlot misc.py:1044-1048, TrackerData
    misc.py:1094-1121, TrackerParameter misc.py:1198-1198. *)
Definition assigned : list (string * list string) := [
  ("AVBObject", ["root"; "property_data"]);
  ("Setting", ["name"; "kind"; "attr_count"; "attr_type"; "attributes"]);
  ("BinViewSetting", ["name"; "kind"; "attributes"; "format_descriptors"; "columns"]);
  ("Bin", ["view_setting"; "uid"; "items"; "sort_columns"; "sifted_settings"; "attributes"; "_mob_dict"; "display_mask"; "display_mode"; "sifted"; "mac_font"; "mac_font_size"; "mac_image_scale"; "home_rect"; "background_color"; "forground_color"; "ql_image_scale"; "was_iconic"; "large_bin"]);
  ("BinFirst", ["unknown_s32"]);
  ("Component", ["attributes"; "media_kind"; "edit_rate"; "left_bob"; "right_bob"; "media_kind_id"; "name"; "effect_id"; "session_attrs"; "precomputed"; "param_list"]);
  ("Sequence", ["components"]);
  ("Clip", ["length"]);
  ("SourceClip", ["mob_id"; "track_id"; "start_time"]);
  ("Timecode", ["flags"; "fps"; "start"]);
  ("Edgecode", ["header"; "film_kind"; "code_format"; "base_perf"; "start_ec"]);
  ("TrackRef", ["relative_scope"; "relative_track"]);
  ("ParamClip", ["interp_kind"; "value_type"; "control_points"; "extrap_kind"; "fields"]);
  ("ControlClip", ["interp_kind"; "control_points"]);
  ("TrackGroup", ["tracks"; "mc_mode"; "length"; "num_scalars"]);
  ("TrackEffect", ["left_length"; "right_length"; "info_version"; "info_current"; "info_smooth"; "info_color_item"; "info_quality"; "info_is_reversed"; "info_aspect_on"; "keyframes"; "info_force_software"; "info_never_hardware"; "trackman"]);
  ("PanVolumeEffect", ["level"; "pan"; "suppress_validation"; "level_set"; "pan_set"; "supports_seperate_gain"; "is_trim_gain_effect"]);
  ("ASPIPlugin", ["chunks"]);
  ("AudioSuitePluginEffect", ["plugins"; "mark_in"; "mark_out"; "tracks_to_affect"; "rendering_mode"; "padding_secs"; "mob_id"; "preset_path"]);
  ("EqualizerMultiBand", ["bands"; "effect_enable"; "filter_name"]);
  ("TimeWarp", ["phase_offset"]);
  ("CaptureMask", ["is_double"; "mask_bits"]);
  ("StrobeEffect", ["strobe_value"]);
  ("MotionEffect", ["speed_ratio"; "offset_adjust"; "source_param_list"; "new_source_calculation"]);
  ("EssenceGroup", ["rep_set_type"]);
  ("TransitionEffect", ["cutpoint"; "left_length"; "right_length"; "info_version"; "info_current"; "info_smooth"; "info_color_item"; "info_quality"; "info_is_reversed"; "info_aspect_on"; "keyframes"; "info_force_software"; "info_never_hardware"; "trackman"]);
  ("Selector", ["is_ganged"; "selected"]);
  ("Composition", ["name"; "mob_id"; "last_modified"; "creation_time"; "mob_type_id"; "usage_code"; "descriptor"]);
  ("MediaDescriptor", ["mob_kind"; "locator"; "intermediate"; "physical_media"; "uuid"; "wchar"; "attributes"]);
  ("TapeDescriptor", ["cframe"]);
  ("MediaFileDescriptor", ["edit_rate"; "length"; "is_omfi"; "data_offset"]);
  ("MultiDescriptor", ["descriptors"]);
  ("WaveDescriptor", ["summary"]);
  ("AIFCDescriptor", ["summary"; "data_pos"]);
  ("PCMADescriptor", ["channels"; "quantization_bits"; "sample_rate"; "locked"; "audio_ref_level"; "electro_spatial_formulation"; "dial_norm"; "coding_format"; "block_align"; "sequence_offset"; "average_bps"; "has_peak_envelope_data"; "peak_envelope_version"; "peak_envelope_format"; "points_per_peak_value"; "peak_envelope_block_size"; "peak_channel_count"; "peak_frame_count"; "peak_of_peaks_offset"; "peak_envelope_timestamp"; "ebu_timestamp"; "timecode_framerate"]);
  ("MPGADescriptor", ["channels"; "quantization_bits"; "sample_rate"; "locked"; "audio_ref_level"; "electro_spatial_formulation"; "dial_norm"; "coding_format"; "bit_rate"; "sub_frame_alignment"; "origin"]);
  ("DIDDescriptor", ["stored_height"; "stored_width"; "sampled_height"; "sampled_width"; "sampled_x_offset"; "sampled_y_offset"; "display_height"; "display_width"; "display_x_offset"; "display_y_offset"; "frame_layout"; "aspect_ratio"; "line_map"; "alpha_transparency"; "uniformness"; "did_image_size"; "next_did_desc"; "compress_method"; "resolution_id"; "image_alignment_factor"; "frame_index_byte_order"; "frame_sample_size"; "first_frame_offset"; "client_fill_start"; "client_fill_end"; "offset_to_rle_frame_index"; "frame_start_offset"; "valid_box"; "essence_box"; "source_box"; "framing_box"; "reformatting_option"; "transfer_characteristic"; "color_primaries"; "coding_equations"; "essence_compression"; "essence_element_size_kind"; "frame_checked_with_mapper"]);
  ("CDCIDescriptor", ["horizontal_subsampling"; "vertical_subsampling"; "component_width"; "color_sitting"; "black_ref_level"; "white_ref_level"; "color_range"; "frame_index_offset"; "alpha_sampled_width"; "ignore_bw"]);
  ("MPGIDescriptor", ["mpeg_version"; "profile"; "gop_structure"; "stream_type"; "random_access"; "leading_discard"; "trailing_discard"; "min_gop_length"; "max_gop_length"; "sequence_hdr"]);
  ("JPEGDescriptor", ["jpeg_table_id"; "jpeg_frame_index_offset"; "quantization_tables"; "image_start_align"]);
  ("RGBADescriptor", ["pixel_layout"; "frame_index_offset"; "has_comp_min_ref"; "comp_min_ref"; "has_comp_max_ref"; "comp_max_ref"; "alpha_min_ref"; "alpha_max_ref"]);
  ("DataDescriptor", ["is_offset_to_frame_indexes_valid"; "offset_to_frame_indexes"; "first_frame_offset"; "min_sample_size"; "max_sample_size"]);
  ("ANCDataDescriptor", ["manifest_element_count"]);
  ("FileLocator", ["path"; "path_posix"; "path_utf8"; "path2_utf8"]);
  ("GraphicEffect", ["pict_data"]);
  ("ShapeList", ["shape_data"]);
  ("ColorCorrectionEffect", ["color_correction"]);
  ("EffectParamList", ["orig_length"; "window_offset"; "keyframe_size"; "parameters"]);
  ("CFUserParam", ["byte_order"; "uuid"; "data"]);
  ("ParameterItem", ["uuid"; "value_type"; "name"; "enable"; "control_track"; "value"; "contribs_to_sig"]);
  ("MSMLocator", ["last_known_volume"; "domain_type"; "mob_id"; "last_known_volume_utf8"]);
  ("Position", ["mob_id"]);
  ("BOBPosition", ["sample_num"; "length"; "track_type"; "track_index"]);
  ("DIDPosition", ["strip"; "offset"; "byte_length"; "spos_invalid"]);
  ("MPGPosition", ["trailing_discards"; "need_seq_hdr"; "fields"]);
  ("BinRef", ["uid_high"; "uid_low"; "name"; "name_utf8"]);
  ("MobRef", ["position"; "mob_id"]);
  ("Marker", ["comp_offset"; "attributes"; "color"; "handled_codes"]);
  ("TrackerManager", ["data_slots"; "param_slots"]);
  ("TrackerDataSlot", ["tracker_data"; "track_fg"]);
  ("TrackerParameterSlot", ["settings"; "params"]);
  ("TrackerData", ["settings"; "clip_version"; "clips"; "offset_tracking"; "smoothing"; "jitter_removal"; "filter_amount"; "clip5"; "clip6"]);
  ("TrackerParameter", ["settings"]) ].
