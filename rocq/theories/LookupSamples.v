(** A bin with compositions and clips, for the cases shown beside the theorems. *)
From Coq Require Import ZArith String List Bool.
From Verif Require Import Base IoCtx RoundTrip Text Exp10 MobId Storable Attributes Components TrackGroups BinModel Fits Saved SavedProofs
  Samples Dates Objects ObjSpec ObjProofs ObjTheory FileModel SampleDocs ResaveSamples Names Lookups LookupSpec.
Import ListNotations.
Open Scope Z_scope.

(** A component of a media kind, a filler and a clip of that kind, the clip naming a mob. *)
Definition of_kind (k : Z) : component := {|
  cpnt_left_bob := 0; cpnt_right_bob := 0; cpnt_media_kind_id := k; cpnt_edit_rate := sample_rate;
  cpnt_name := [69]; cpnt_effect_id := [70]; cpnt_attributes := 0;
  cpnt_session_attrs := 0; cpnt_precomputed := 0; cpnt_param_list := None |}.
Definition filler_of (k : Z) : obj := Obj K_FILL {| fill_clip := {| clip_component := of_kind k; clip_length := 25 |} |}.
Definition clip_of (k track : Z) (id : option mobid) : source_clip := {|
  sclp_clip := {| clip_component := of_kind k; clip_length := 50 |};
  sclp_track_id := track; sclp_start_time := 5; sclp_mob_id := id |}.

(** A track, a composition of tracks and a bin of compositions. *)
Definition track_of (index : option Z) (c : Z) : track := {|
  trak_index := index; trak_attributes := None; trak_session_attr := None; trak_component := Some c;
  trak_filler_proxy := None; trak_bob_data := None; trak_control_code := None; trak_control_sub_code := None;
  trak_start_pos := None; trak_read_only := None; trak_lock_number := Some 0 |}.
Definition comp_of (id : mobid) (ts : list track) : obj := Obj K_CMPO {|
  cmpo_group := {| trkg_component := of_kind 0; trkg_mc_mode := 1; trkg_length := 50; trkg_num_scalars := 0; trkg_tracks := ts |};
  cmpo_last_modified := 10; cmpo_mob_type_id := 1; cmpo_usage_code := 0; cmpo_descriptor := 0;
  cmpo_creation_time := Some 38; cmpo_mob_id := Some id |}.
Definition item_of (m : Z) : bin_item := {|
  item_mob := m; item_x := 1; item_y := 2; item_keyframe := 3; item_user_placed := true |}.
Definition bin_of (ms : list Z) : obj := Obj K_ABIN {|
  abin_large_bin := false; abin_view_setting := 0; abin_uid := 29; abin_items := map item_of ms;
  abin_display_mask := 36; abin_display_mode := 43; abin_sifted := true;
  abin_sifted_settings := repeat sample_sift_item 6; abin_sort_columns := [];
  abin_mac_font := 50; abin_mac_font_size := 57; abin_mac_image_scale := 64; abin_home_rect := sample_rect;
  abin_background_color := sample_rgb; abin_forground_color := sample_rgb; abin_ql_image_scale := 71;
  abin_attributes := 0; abin_was_iconic := true |}.

Definition id_a : mobid := repeat 7 32.
Definition id_b : mobid := repeat 9 32.

(** Picture and sound fillers 1 and 2; clip 3 shows track 1 of the mob with the second id;
    composition 10 holds the clip; 20 and 21 have the same id. *)
Definition lookup_mem : list (Z * obj) :=
  [(1, filler_of 1); (2, filler_of 2); (3, Obj K_SCLP (clip_of 1 1 (Some id_b)));
   (10, comp_of id_a [track_of (Some 1) 3]); (20, comp_of id_b [track_of (Some 1) 1]);
   (21, comp_of id_b [track_of (Some 1) 2; track_of (Some 2) 1; track_of (Some 1) 1]);
   (50, bin_of [20; 21; 10])].
Definition lookup_doc : document := doc_of lookup_mem 50.

Lemma lookup_mem_ok : Forall (fun p => obj_ok (snd p)) lookup_mem.
Proof.
  unfold lookup_mem. repeat (apply Forall_cons; [cbn [snd]; split; [reflexivity|]|]); [..|apply Forall_nil];
    cbn [ok_of okind oval filler_of clip_of comp_of bin_of]; sample_ok.
Qed.

(** Saved big endian and opened: the clip is object 5 then and the composition it finds object 4. *)
Definition lookup_ops := save 7 cet BE lookup_doc.
Lemma lookup_ends : snd lookup_ops = None.
Proof. vm_compute. reflexivity. Qed.
Lemma lookup_again : match open_file (run_ops (fst lookup_ops)) with
  | Ok (t, Some root) =>
    match read_object t 5 with
    | Ok (Some (Obj K_SCLP s)) => clip_track (in_file t) (Some root) s
    | _ => Err ValueErr
    end
  | _ => Err ValueErr
  end = Ok (Some (4, 2%nat)).
Proof. vm_compute. reflexivity. Qed.

(** Classes of the file, asked for by code. *)
Definition kinds_found (ids : list bytes) : result (list (option kind)) :=
  match open_table (run_ops (fst lookup_ops)) with
  | Ok t => match iter_class_ids t ids with Ok os => Ok (map (option_map okind) os) | Err e => Err e end
  | Err e => Err e
  end.
Lemma lookup_classes : kinds_found [class_id K_SCLP; class_id K_CMPO] = Ok [Some K_CMPO; Some K_CMPO; Some K_SCLP; Some K_CMPO].
Proof. vm_compute. reflexivity. Qed.

(** It has 8 chunks with the header, and every object can be read. *)
Lemma lookup_chunks : match open_table (run_ops (fst lookup_ops)) with
  | Ok t =>
    match chunks t with
    | Ok cs => Nat.eqb (length cs) 8 &&
        forallb (fun i => match read_object t (Z.of_nat i) with Ok _ => true | Err _ => false end) (seq 0 8)
    | Err _ => false
    end
  | Err _ => false
  end = true.
Proof. vm_compute. reflexivity. Qed.

(** The first object of the small file of ResaveSamples.v, which is little endian, as text. *)
Lemma small_text : match open_table small_file with
  | Ok t => match read_chunk t 1 with Ok c => Some (hd_bo (of_head t), chunk_hex t c) | Err _ => None end
  | Err _ => None
  end = Some (LE, txt "525454411200000002010100000001000000" ++ txt "01004efdffffff03").
Proof. vm_compute. reflexivity. Qed.
