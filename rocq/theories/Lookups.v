(** Model of the lookups between objects: the mob and the track a source clip shows
    (src/avb/components.py), the components of a selector (trackgroups.py), the objects of given
    classes and the bytes of a chunk as text (file.py). *)
From Coq Require Import ZArith List Bool.
From Verif Require Import Base IoCtx Text MobId Attributes Components TrackGroups BinModel Objects Dates FileModel Names.
Import ListNotations.
Open Scope Z_scope.

(** What a class inherits of [Component] (components.py:15, 142, 235-930; trackgroups.py:89-1025):
    [None] for the classes that do not derive from it. *)
Definition component_in (k : kind) : C_type (class_of k) -> option component :=
  match k as k return C_type (class_of k) -> option component with
  | K_SEQU => fun x => Some (sequ_component x)
  | K_SCLP => fun x => Some (clip_component (sclp_clip x))
  | K_TCCP => fun x => Some (clip_component (tccp_clip x))
  | K_ECCP => fun x => Some (clip_component (eccp_clip x))
  | K_TRKR => fun x => Some (clip_component (trkr_clip x))
  | K_PRCL => fun x => Some (clip_component (prcl_clip x))
  | K_CTRL => fun x => Some (clip_component (ctrl_clip x))
  | K_FILL => fun x => Some (clip_component (fill_clip x))
  | K_TRKG => fun x => Some (trkg_component x)
  | K_TKFX => fun x => Some (trkg_component (tkfx_group x))
  | K_PVOL => fun x => Some (trkg_component (tkfx_group (pvol_effect x)))
  | K_ASPI => fun x => Some (trkg_component (tkfx_group (aspi_effect x)))
  | K_EQMB => fun x => Some (trkg_component (tkfx_group (eqmb_effect x)))
  | K_MASK => fun x => Some (trkg_component (warp_group (mask_warp x)))
  | K_STRB => fun x => Some (trkg_component (warp_group (strb_warp x)))
  | K_SPED => fun x => Some (trkg_component (warp_group (sped_warp x)))
  | K_REPT => fun x => Some (trkg_component (warp_group (rept_warp x)))
  | K_RSET => fun x => Some (trkg_component (rset_group x))
  | K_TNFX => fun x => Some (trkg_component (tnfx_group x))
  | K_SLCT => fun x => Some (trkg_component (slct_group x))
  | K_CMPO => fun x => Some (trkg_component (cmpo_group x))
  | _ => fun _ => None
  end.

(** [obj.media_kind]: components.py:95-116, and core.py:244-246 for what is no component. *)
Definition object_kind (o : obj) : option str :=
  match component_in (okind o) (oval o) with
  | Some c => media_kind (cpnt_media_kind_id c)
  | None => None
  end.

(** [==] of two media kinds, texts or None (components.py:326). *)
Definition same_kind (a b : option str) : bool :=
  match a, b with
  | Some x, Some y => str_eqb x y
  | None, None => true
  | _, _ => false
  end.

(** Following a reference to an object (utils.py:20-28): how it ends is given by [get]. *)
Definition store := Z -> result obj.

(** [root.content], as far as it is a bin: its items (bin.py:219-259, 412-440). Other objects and
    None have no [find_by_mob_id]. *)
Definition bin_items (content : option obj) : result (list bin_item) :=
  match content with
  | Some (Obj K_ABIN b) => Ok (abin_items b)
  | Some (Obj K_BINF b) => Ok (abin_items (binf_bin b))
  | _ => Err AttributeErr
  end.

(** [mob.mob_id] of what an item of a bin refers to (bin.py:377, trackgroups.py:1034 and 1094-1097).
    Simplified: besides compositions some other classes have a [mob_id], which are not met here. *)
Definition item_mob_id (get : store) (a : Z) : result mobid :=
  if a =? 0 then Err AttributeErr
  else match get a with
       | Err e => Err e
       | Ok (Obj K_CMPO c) => match cmpo_mob_id c with Some id => Ok id | None => Err AttributeErr end
       | Ok _ => Err AttributeErr
       end.

(** bin.py:372-379 with [_mob_dict] empty at first: all items are entered, a later one in the place
    of an earlier one with the same id, then [id] is looked up. What a table made before does is
    in Mobs.v. *)
Fixpoint find_mob (get : store) (id : mobid) (items : list bin_item) (found : option Z) : result (option Z) :=
  match items with
  | [] => Ok found
  | it :: items' =>
    match item_mob_id get (item_mob it) with
    | Err e => Err e
    | Ok i => find_mob get id items' (if zlist_eqb i id then Some (item_mob it) else found)
    end
  end.

(** components.py:314-319 [SourceClip.mob]. A [MobID] is always true, also the one of zeros
    (mobid.py has no [__bool__] and no [__len__]). *)
Definition clip_mob (get : store) (content : option obj) (s : source_clip) : result (option Z) :=
  match sclp_mob_id s with
  | None => Ok None
  | Some id =>
    match bin_items content with
    | Err e => Err e
    | Ok items => find_mob get id items None
    end
  end.

(** components.py:325-327, the loop over the tracks: the number of the track returned. A property a
    track does not have raises [AttributeError] when it is read. *)
Fixpoint find_track (get : store) (s : source_clip) (tracks : list track) (k : nat) : result (option nat) :=
  match tracks with
  | [] => Ok None
  | t :: tracks' =>
    match trak_index t with
    | None => Err AttributeErr
    | Some i =>
      if negb (i =? sclp_track_id s) then find_track get s tracks' (S k)
      else match trak_component t with
           | None => Err AttributeErr
           | Some c =>
             if c =? 0 then find_track get s tracks' (S k)
             else match get c with
                  | Err e => Err e
                  | Ok o => if same_kind (media_kind (cpnt_media_kind_id (clip_component (sclp_clip s)))) (object_kind o)
                            then Ok (Some k) else find_track get s tracks' (S k)
                  end
           end
    end
  end.

(** [mob.tracks] (components.py:325, trackgroups.py:96). Simplified like [item_mob_id]. *)
Definition mob_tracks (o : obj) : result (list track) :=
  match o with Obj K_CMPO c => Ok (trkg_tracks (cmpo_group c)) | _ => Err AttributeErr end.

(** components.py:321-327 [SourceClip.track]: the mob and the number of the track in it. *)
Definition clip_track (get : store) (content : option obj) (s : source_clip) : result (option (Z * nat)) :=
  match clip_mob get content s with
  | Err e => Err e
  | Ok None => Ok None
  | Ok (Some a) =>
    match get a with
    | Err e => Err e
    | Ok o =>
      match mob_tracks o with
      | Err e => Err e
      | Ok ts =>
        match find_track get s ts O with
        | Err e => Err e
        | Ok None => Ok None
        | Ok (Some k) => Ok (Some (a, k))
        end
      end
    end
  end.

(** trackgroups.py:1020-1022 [Selector.components], the references, run to the end. *)
Definition selector_components (s : selector) : result (list Z) :=
  rmap (fun t => match trak_component t with Some c => Ok c | None => Err AttributeErr end)
    (trkg_tracks (slct_group s)).

(** [class_id in class_id_list] (file.py:378). *)
Definition listed (ids : list bytes) (cc : bytes) : bool := existsb (zlist_eqb cc) ids.

(** file.py:376-379 [iter_class_ids], the generator run to its end: each object with its number.
    The chunks are read as the loop comes to them. *)
Fixpoint iter_from (d : opened) (ids : list bytes) (l : list Z) : result (list (option obj)) :=
  match l with
  | [] => Ok []
  | i :: l' =>
    match read_chunk d i with
    | Err e => Err e
    | Ok c =>
      if listed ids (ck_id c)
      then match read_object d i with
           | Err e => Err e
           | Ok o => match iter_from d ids l' with Ok os => Ok (o :: os) | Err e => Err e end
           end
      else iter_from d ids l'
    end
  end.

(** file.py:376-379 over all chunks (372-374). *)
Definition iter_class_ids (d : opened) (ids : list bytes) : result (list (option obj)) :=
  iter_from d ids (range_from 0 (S (length (of_positions d)))).

(** A hexadecimal digit and [binascii.hexlify] (file.py:47). *)
Definition hex_digit (n : Z) : Z := if n <? 10 then 48 + n else 87 + n.
Definition hexlify (b : bytes) : bytes := flat_map (fun x => [hex_digit (x / 16); hex_digit (x mod 16)]) b.

(** file.py:41-47 [AVBChunk.hex]: the code reversed and the size little endian in either byte order
    (ioctx.py:84-91 [reverse_str]). *)
Definition chunk_hex (d : opened) (c : chunk) : bytes :=
  hexlify (rev (ck_id c) ++ enc LE 4 (ck_size c) ++ chunk_data d c).
