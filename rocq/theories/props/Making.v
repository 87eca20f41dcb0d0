(** C63: what is made new can be saved. Made.v has the constructors of the classes whose new objects
    are complete, the document that [AVBFile()] gives, and [Bin.add_mob]; [call_ok] (MadeSpec.v) says
    which arguments are in range. *)
From Coq Require Import ZArith String List Bool Lia.
From Verif Require Import Base IoCtx RoundTrip Text TextProofs Exp10 MobId Storable Fits Attributes Components TrackGroups Misc Essence BinModel Dates Objects ObjSpec ObjProofs
  ObjTheory FileModel FileSpec SaveProofs Names NamesProofs Lookups ResaveSpec Opened Edited EditSpec EditProofs Made MadeSpec MadeProofs MadeTheory.
From Verif.props Require Import Saves.
Import ListNotations.
Open Scope Z_scope.

(** A constructor given arguments in range makes an object of its class and perhaps some more. All of
    them are fit to be stored exactly, they refer to nothing but each other, each of the others is
    referred to exactly once, and in a save in which the objects made are numbered they can be
    written. *)
Theorem C63_made : forall id c, 0 <= id -> call_ok c -> exists o l,
  construct id c = Ok (o :: l) /\ class_id (okind o) = txt (call_code c) /\
  Forall obj_ok (o :: l) /\
  (forall x r, In x (o :: l) -> In r (obj_refs x) -> r = 0 \/ id < r <= id + len l) /\
  (forall r, id < r <= id + len l -> count_occ Z.eq_dec (flat_map obj_refs (o :: l)) r = 1%nat) /\
  (forall ctx x, (forall r, id < r <= id + len l -> fits_ref ctx r) -> In x (o :: l) -> obj_fits ctx x).
Proof.
  intros id c Hid H. destruct empty_attributes as [A Af].
  assert (forall o, obj_ok o -> Forall obj_ok [o; Obj K_ATTR []]) as two by (intros o Ho; constructor; [exact Ho|constructor; [exact A|constructor]]).
  destruct c as [c r k|name t m now|u|u|c].
  - destruct H as (N & R & K). destruct (known_kind k K) as (n & E & _ & F). eexists. eexists.
    split; [cbn [construct]; rewrite E; reflexivity|]. split; [destruct c; reflexivity|].
    split; [apply two; now apply new_timed_ok|]. change (len [Obj K_ATTR []]) with 1. split; [|split].
    + intros x y [<-|[<-|[]]] Hy; [|destruct Hy]. apply timed_refs in Hy as [->| ->]; [now left|right; lia].
    + intros y Hy. assert (y = id + 1) as -> by lia. destruct c; occurs_once.
    + intros ctx x G [<-|[<-|[]]]; [|apply Af]. apply new_timed_fits; [exact R|exact F|apply G; lia].
  - destruct H as (Ht & Hm & Hd). destruct (known_type name t Ht) as (n & E & _ & F & S & T). eexists. eexists.
    split; [cbn [construct]; rewrite E; reflexivity|]. split; [reflexivity|].
    split; [apply two; now apply new_composition_ok|]. change (len [Obj K_ATTR []]) with 1. split; [|split].
    + intros x y [<-|[<-|[]]] Hy; [|destruct Hy]. rewrite composition_refs_are in Hy. cbn [In] in Hy. intuition lia.
    + intros y Hy. assert (y = id + 1) as -> by lia. occurs_once.
    + intros ctx x G [<-|[<-|[]]]; [|apply Af]. apply new_composition_fits; [exact T|exact F|exact Hd|apply G; lia].
  - eexists. eexists. split; [reflexivity|]. split; [reflexivity|].
    change (len [Obj K_BVst (new_view (id + 2)); Obj K_ATTR []; Obj K_ATTR []]) with 3. split; [|split; [|split]].
    + constructor; [|constructor; [apply new_view_ok|apply two; exact A]].
      split; [reflexivity|]. rewrite new_bin_with. apply bin_with_ok. cbn. lia.
    + intros x y [<-|[<-|[<-|[<-|[]]]]] Hy; [| |destruct Hy..].
      * unfold obj_refs in Hy. cbn in Hy. intuition lia.
      * unfold obj_refs in Hy. cbn in Hy. intuition lia.
    + intros y Hy. assert (y = id + 1 \/ y = id + 2 \/ y = id + 3) as [->|[->| ->]] by lia; occurs_once.
    + intros ctx x G [<-|[<-|[<-|[<-|[]]]]]; [| |apply Af..].
      * unfold obj_fits. cbn [okind oval fits_of]. rewrite new_bin_with.
        apply bin_with_fits; [cbn; lia|exact H|apply G; lia|apply G; lia|constructor].
      * apply new_view_fits, G. lia.
  - eexists. eexists. split; [reflexivity|]. split; [reflexivity|].
    change (len [Obj K_BVst (new_view (id + 2)); Obj K_ATTR []; Obj K_ATTR []]) with 3. split; [|split; [|split]].
    + constructor; [|constructor; [apply new_view_ok|apply two; exact A]].
      split; [reflexivity|]. cbn [okind oval ok_of]. unfold bin_first_ok. cbn [binf_bin]. rewrite new_bin_with. apply bin_with_ok. cbn. lia.
    + intros x y [<-|[<-|[<-|[<-|[]]]]] Hy; [| |destruct Hy..].
      * unfold obj_refs in Hy. cbn in Hy. intuition lia.
      * unfold obj_refs in Hy. cbn in Hy. intuition lia.
    + intros y Hy. assert (y = id + 1 \/ y = id + 2 \/ y = id + 3) as [->|[->| ->]] by lia; occurs_once.
    + intros ctx x G [<-|[<-|[<-|[<-|[]]]]]; [| |apply Af..].
      * unfold obj_fits. cbn [okind oval fits_of]. split; [|cbn; unfold fits_s32; lia]. cbn [binf_bin]. rewrite new_bin_with.
        apply bin_with_fits; [cbn; lia|exact H|apply G; lia|apply G; lia|constructor].
      * apply new_view_fits, G. lia.
  - destruct (new_plain id c) as [|o l] eqn:E; [destruct c; discriminate E|]. exists o, l.
    split; [cbn [construct]; now rewrite E|]. pose proof (new_plain_ok id c) as P. rewrite E in P.
    split; [destruct c; injection E as <- _; reflexivity|]. split; [exact P|]. split; [|split].
    + intros x y Hx Hy. destruct c; injection E as <- <-; cbn [In] in Hx;
        repeat (destruct Hx as [<-|Hx]; [cbn in Hy; change (len [Obj K_ATTR []]) with 1; intuition lia|]); destruct Hx.
    + intros y Hy. destruct c; injection E as <- <-; try (unfold len in Hy; cbn in Hy; lia).
      change (len [Obj K_ATTR []]) with 1 in Hy. assert (y = id + 1) as -> by lia. occurs_once.
    + intros ctx x G Hx. rewrite <- E in Hx. apply (new_plain_fits id c ctx x); [|exact Hx]. intros ->. apply G.
      injection E as _ <-. change (len [Obj K_ATTR []]) with 1. lia.
Qed.
Print Assumptions C63_made.

(** The arguments are to be found in the object: the edit rate and the media kind of a component, and
    the name is empty. *)
Theorem C63_arguments : forall id c r k o l, construct id (NewTimed c r k) = Ok (o :: l) ->
  object_kind o = k /\ exists x, component_in (okind o) (oval o) = Some x /\ cpnt_edit_rate x = r /\ cpnt_name x = [] /\
    cpnt_attributes x = id + 1 /\ l = [Obj K_ATTR []].
Proof.
  intros id c r k o l H. cbn [construct] in H. destruct (set_media_kind k) as [n|] eqn:E; [|discriminate H].
  assert (media_kind n = k) as K.
  { unfold set_media_kind in E. destruct k as [v|]; [|injection E as <-; reflexivity].
    repeat match type of E with context [str_eqb v ?w] =>
      destruct (str_eqb v w) eqn:Q; [injection E as <-; apply str_eqb_eq in Q; subst v; reflexivity|clear Q] end. discriminate E. }
  injection H as <- <-. destruct c; cbn [new_timed okind oval]; (split; [exact K|]); eexists; (split; [reflexivity|]); now repeat split.
Qed.
Print Assumptions C63_arguments.

(** A composition has the type, the ID and the time it was made with, and no tracks. *)
Theorem C63_composition : forall id m, call_ok (mob_call m) -> exists c l,
  construct id (mob_call m) = Ok (Obj K_CMPO c :: l) /\ shows_mob c m.
Proof.
  intros id m (Ht & _ & _). destruct (known_type (ma_name m) _ Ht) as (n & E & T & _). eexists. eexists.
  unfold mob_call. cbn [construct]. rewrite E. split; [reflexivity|]. repeat (split; [first [exact T|reflexivity]|]). reflexivity.
Qed.
Print Assumptions C63_composition.

(** Media kinds and mob types that have no name are refused. *)
Theorem C63_refused : forall id,
  (forall c r k, ~ In k kind_names -> construct id (NewTimed c r k) = Err ValueErr) /\
  (forall n t m now, ~ In t type_names -> construct id (NewComposition n t m now) = Err TypeErr).
Proof.
  intros id. split.
  - intros c r k H. cbn [construct]. destruct k as [v|]; [|exfalso; apply H; now left]. unfold set_media_kind.
    repeat match goal with |- context [str_eqb v ?w] =>
      destruct (str_eqb v w) eqn:Q; [exfalso; apply H; apply str_eqb_eq in Q; subst v; unfold kind_names; cbn [map In]; tauto|clear Q] end. reflexivity.
  - intros n t m now H. cbn [construct init_mob].
    repeat match goal with |- context [str_eqb t ?w] =>
      destruct (str_eqb t w) eqn:Q; [exfalso; apply H; apply str_eqb_eq in Q; subst t; unfold type_names; cbn [map In]; tauto|clear Q] end. reflexivity.
Qed.
Print Assumptions C63_refused.

(** A name given to a composition is not kept: the type of the mob is put in its place. *)
Theorem C63_name_refuted : exists id m c l, call_ok (mob_call m) /\ construct id (mob_call m) = Ok (Obj K_CMPO c :: l) /\
  cpnt_name (trkg_component (cmpo_group c)) <> ma_name m /\ cpnt_name (trkg_component (cmpo_group c)) = ma_type m.
Proof.
  exists 1, {| ma_name := txt "Scene 1"; ma_type := txt "MasterMob"; ma_id := repeat 0 32; ma_now := 0 |}. eexists. eexists.
  split; [split; [cbn; tauto|split; [apply zero_id|unfold fits_date; cbn; lia]]|].
  split; [vm_compute; reflexivity|]. split; [vm_compute; discriminate|reflexivity].
Qed.
Print Assumptions C63_name_refuted.

(** A bare track group can be made but never saved: its chunk does not end as a chunk has to. *)
Theorem C63_bare_refuted : exists r k, rate_ok r /\ In k kind_names /\ forall id, exists o l, construct id (NewTimed TTrackGroup r k) = Ok (o :: l) /\
  forall bo self h m kids, exists e, In (Err e) (write_object bo self h m {| nd_doc := self; nd_id := id; nd_obj := o; nd_kids := kids |}).
Proof.
  exists default_rate, None. split; [apply default_rate_ok|]. split; [now left|]. intros id. eexists. eexists. split; [reflexivity|].
  intros bo self h m kids. unfold write_object. cbn [nd_doc nd_obj]. rewrite Z.eqb_refl.
  destruct (wbody (save_octx bo h m) _) as [data|e] eqn:E; [|exists e; now left]. exists AssertionErr. left.
  assert (last data 0 = 0) as ->; [|reflexivity].
  unfold wbody in E. cbn [okind oval new_timed class_of C_write] in E. unfold wtrack_group in E.
  cbn [new_track_group trkg_component trkg_mc_mode trkg_length trkg_num_scalars trkg_tracks wlist] in E.
  match type of E with _ +++ ?w = _ => replace w with (Ok (A := bytes) [2; 8; 0; 0; 0; 0; 0; 0; 0; 0; 0; 0; 0; 0; 0]) in E by (destruct bo; reflexivity) end.
  destruct (wcomponent _ _) as [x|]; [|discriminate E]. cbn [wcat] in E. injection E as <-. rewrite last_app_ne by discriminate. reflexivity.
Qed.
Print Assumptions C63_bare_refuted.

(** ** New documents *)

(** A new document with any number of new mobs put into its bin, one after the other: saving it
    completes, in either byte order and whatever order the objects are walked in, and opening the file
    shows a bin with the number the document was given, the default columns, and the mobs in the order
    they were added, each an object of its own with the type, ID and time it was made with. *)
Theorem C63_saved : forall lim z bo self kids version saved u ms,
  fits_u64 u -> len ms <= 65535 -> Forall (fun m => call_ok (mob_call m)) ms -> follows kids -> (2 < lim)%nat ->
  (exists v, mac_encode version = Ok v) -> 0 <= to_timestamp z saved < 2 ^ 32 ->
  exists o t b,
    save lim z bo (edit_doc (fold_left add_new_mob (map mob_call ms) (new_document u)) self kids version saved) = (o, None) /\
    open_file (run_ops o) = Ok (t, Some (Obj K_ABIN b)) /\ hd_bo (of_head t) = bo /\ abin_uid b = u /\
    Forall2 (fun it m => exists c, read_object t (item_mob it) = Ok (Some (Obj K_CMPO c)) /\ shows_mob c m) (abin_items b) ms /\
    NoDup (map item_mob (abin_items b)) /\
    exists v, read_object t (abin_view_setting b) = Ok (Some (Obj K_BVst v)) /\
      map bcol_title (bvst_columns v) = map txt
        ["Color"; "   "; "Name"; "Creation Date"; "Duration"; "Drive"; "IN-OUT"; "Mark IN"; "Mark OUT"; "Tracks"; "Start"; "Tape"; "Video";
         "Plug-in"; "TapeID"; "Audio SR"; "Comments"]%string.
Proof.
  intros lim z bo self kids version saved u ms Hu L F K Hl V T.
  set (d := edit_doc _ self kids version saved).
  pose proof (document_made u ms F) as M. unfold new_document_with in M.
  destruct (doc_saves self kids version saved u ms _ M lim z bo Hu L F K Hl V T) as (o & S). fold d in S.
  destruct (doc_facts self kids version saved u ms _ M L F K) as (W & I & A). fold d in W, I, A.
  destruct (C25_reopens lim z bo d o W I A S) as (order & t & _ & B & ND & O & R & _ & C).
  destruct C as (nd & E & P); [unfold d; cbn [edit_doc dc_content]; rewrite (md_content _ _ _ M); discriminate|].
  destruct (doc_reached self kids version saved u ms _ M) as (D1 & H1 & D2 & H2 & D3). fold d in D1, H1, D2, H2, D3.
  assert (dc_content d = 1) as C1 by apply (md_content _ _ _ M). rewrite C1, H1 in E. injection E as <-.
  cbn [nd_obj] in P.
  exists o, t, (bin_map (number order) (bin_with 2 4 u (map mob_at (seq 0 (length ms))))). split; [exact S|]. split; [exact P|]. split; [exact B|].
  rewrite bin_with_items. cbv zeta. cbn [bin_map abin_uid abin_items abin_view_setting new_bin]. split; [reflexivity|].
  set (ids := map mob_at (seq 0 (length ms))).
  assert (map item_mob (map (bin_item_map (number order)) (map new_item ids)) = map (number order) ids) as EI.
  { rewrite !map_map. apply map_ext. reflexivity. }
  assert (forall k m, nth_error ms k = Some m -> In (mob_at k) order) as IO.
  { intros k m Hk. apply O. now destruct (D3 k m Hk) as (D & _). }
  split; [|split].
  - apply Forall2_nth.
    { unfold ids. now rewrite !map_length, seq_length. }
    intros k it m Hk Hm. destruct (D3 k m Hm) as (D & nd & c & Hc & Ec & Sc).
    rewrite nth_error_map, nth_error_map in Hk. unfold ids in Hk. rewrite nth_error_map in Hk.
    assert (k < length ms)%nat as Lk by (apply nth_error_Some; congruence).
    rewrite (nth_error_nth' _ 0%nat) in Hk by (now rewrite seq_length). rewrite seq_nth in Hk by exact Lk. cbn [option_map] in Hk.
    injection Hk as <-. cbn [bin_item_map new_item item_mob].
    exists (composition_map (number order) c). split; [|exact (shows_mapped _ _ _ Sc)].
    rewrite (R (mob_at k) nd D Hc), Ec. reflexivity.
  - rewrite EI. apply NoDup_map_on; [|apply mobs_distinct].
    intros x y Hx Hy Exy. apply in_map_iff in Hx as (kx & <- & Hx). apply in_seq in Hx.
    destruct (nth_error ms kx) as [m|] eqn:Em; [|apply nth_error_None in Em; lia].
    exact (number_inj order _ _ (IO kx m Em) Exy).
  - eexists. split; [exact (R 2 _ D2 H2)|]. reflexivity.
Qed.
Print Assumptions C63_saved.

(** Two mobs of the same name and type in a new bin, walked in the order of the references. *)
Example C63_saved_case :
  fits_u64 77 /\ Forall (fun m => call_ok (mob_call m)) two_mobs /\
  follows (fun _ o => filter (fun r => negb (r =? 0)) (obj_refs o)) /\
  ed_next (fold_left add_new_mob (map mob_call two_mobs) (new_document 77)) = 8.
Proof.
  split; [unfold fits_u64; lia|]. split; [|split; [|reflexivity]].
  - assert (forall b, 0 <= b <= 255 -> mobid_wf (repeat b 32)) as W.
    { intros b Hb. split; [apply repeat_length|]. apply Forall_forall. intros x Hx. apply repeat_spec in Hx. subst x. unfold is_byte. lia. }
    constructor; [|constructor; [|constructor]]; (split; [cbn [type_names map In ma_type]; tauto|]); (split; [apply W; lia|unfold fits_date; cbn; lia]).
  - intros n o b. rewrite filter_In. split; intros [H1 H2]; (split; [exact H1|]).
    + apply negb_true_iff, Z.eqb_neq in H2. exact H2.
    + apply negb_true_iff, Z.eqb_neq, H2.
Qed.

(** A clip at 25 frames per second with sound. *)
Example C63_made_case : call_ok (NewTimed TSourceClip default_rate (Some (txt "sound"))) /\
  exists l, construct 9 (NewTimed TSourceClip default_rate (Some (txt "sound"))) = Ok l /\ length l = 2%nat.
Proof.
  split; [|eexists; split; vm_compute; reflexivity]. split; [discriminate|]. split; [apply default_rate_ok|]. cbn [kind_names map In]. tauto.
Qed.

(** Names that are refused. *)
Example C63_refused_case : ~ In (Some (txt "video")) kind_names /\ ~ In (txt "Master") type_names.
Proof. split; intros H; vm_compute in H; repeat (destruct H as [H|H]; [discriminate H|]); destruct H. Qed.
