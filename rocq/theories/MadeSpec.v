(** What constructors are to be given and what they are to make. A specification; nothing here is
    code of the repository. *)
From Coq Require Import ZArith String List Bool.
From Verif Require Import Base IoCtx Text Exp10 MobId Storable Fits Components TrackGroups BinModel Dates Objects FileModel Names Made.
Import ListNotations.
Open Scope Z_scope.

(** The media kinds that can be named. *)
Definition kind_names : list (option str) :=
  None :: map (fun s => Some (txt s))
    ["picture"; "sound"; "timecode"; "edgecode"; "attribute"; "effectdata"; "DescriptiveMetadata"; "DataEssenceTrack"]%string.

(** The mob types. *)
Definition type_names : list str := map txt ["CompositionMob"; "MasterMob"; "SourceMob"]%string.

(** Arguments that are in range: a rate with a stored form that reads back as the same rate, a known
    media kind, a known mob type, a mob ID of 32 bytes, a time stamp of 32 bits, a number of 64. A bare
    [TrackGroup] is left out: its chunk has no end (C63_bare_refuted). *)
Definition rate_ok (r : float64) : Prop := fits_exp10 r /\ exp10_stable r.
Definition call_ok (c : call) : Prop :=
  match c with
  | NewTimed c r k => c <> TTrackGroup /\ rate_ok r /\ In k kind_names
  | NewComposition _ t m now => In t type_names /\ mobid_wf m /\ fits_date now
  | NewBin u | NewBinFirst u => fits_u64 u
  | NewPlain _ => True
  end.

(** The class codes, by the names of the classes. *)
Definition call_code (c : call) : string :=
  match c with
  | NewTimed TSequence _ _ => "SEQU" | NewTimed TSourceClip _ _ => "SCLP" | NewTimed TTimecode _ _ => "TCCP"
  | NewTimed TTrackRef _ _ => "TRKR" | NewTimed TFiller _ _ => "FILL" | NewTimed TTrackGroup _ _ => "TRKG"
  | NewTimed TEssenceGroup _ _ => "RSET"
  | NewComposition _ _ _ _ => "CMPO" | NewBin _ => "ABIN" | NewBinFirst _ => "BINF"
  | NewPlain PAttributes => "ATTR" | NewPlain PParameterList => "PRLS" | NewPlain PTimeCrumbList => "TMCS"
  | NewPlain PBinView => "BVst" | NewPlain PDescriptor => "MDES" | NewPlain PTape => "MDTP" | NewPlain PFilm => "MDFM"
  | NewPlain PNagra => "MDNG" | NewPlain PFileDescriptor => "MDFL" | NewPlain PUrl => "URLL"
  end%string.

(** A mob to be put into a bin. *)
Record mob_args := { ma_name : str; ma_type : str; ma_id : mobid; ma_now : Z }.
Definition mob_call (m : mob_args) : call := NewComposition (ma_name m) (ma_type m) (ma_id m) (ma_now m).

(** A composition without tracks of this type, ID and time. *)
Definition shows_mob (c : composition) (m : mob_args) : Prop :=
  mob_type (cmpo_mob_type_id c) = Ok (ma_type m) /\ cmpo_mob_id c = Some (ma_id m) /\
  cmpo_last_modified c = ma_now m /\ cmpo_creation_time c = Some (ma_now m) /\ trkg_tracks (cmpo_group c) = [].
