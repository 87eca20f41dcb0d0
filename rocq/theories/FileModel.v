(** Model of src/avb/file.py: opening a file, the object table, and saving a document. *)
From Coq Require Import ZArith List Bool.
From Verif Require Import Base IoCtx Text Storable Dates Objects.
Import ListNotations.
Open Scope Z_scope.

(** ** Marks, file.py:90-92 and the literals of [__init__] and [write_header] *)
Definition order_mark (bo : border) : bytes := match bo with LE => [6; 0] | BE => [0; 6] end.
(** [b'Domain'] (file.py:92). *)
Definition magic : bytes := [68; 111; 109; 97; 105; 110].
(** [b'OBJD'], [b'ATob'], [b'ATve'] (file.py:146, 162 and 163). *)
Definition cc_OBJD : bytes := [79; 66; 74; 68].
(** [b'ATob'], file.py:162. *)
Definition cc_ATob : bytes := [65; 84; 111; 98].
(** [b'ATve'], file.py:163. *)
Definition cc_ATve : bytes := [65; 84; 118; 101].
(** [u'AObjDoc'] (file.py:147). *)
Definition doc_name : str := [65; 79; 98; 106; 68; 111; 99].
(** file.py:155 and 217-220. *)
Definition mark_II : Z := 0x49494949.
(** [0x4D4D4D4D], file.py:155 and 220. *)
Definition mark_MM : Z := 0x4D4D4D4D.

(** Equality of byte strings and texts (file.py:129-163). *)
Fixpoint zlist_eqb (a b : list Z) : bool :=
  match a, b with
  | [], [] => true
  | x :: a', y :: b' => (x =? y) && zlist_eqb a' b'
  | _, _ => false
  end.

(** ** Opening *)

(** What the header says up to [root_index] (file.py:126-157). *)
Record head := { hd_bo : border; hd_text : str; hd_count : Z; hd_root : Z }.

(** file.py:127-152: byte order mark, magic, document name, text of the save time, number of
    objects, number of the root. *)
Definition rhead : reader head :=
  m <- fread 2 ;;
  bo <- (if zlist_eqb m (order_mark LE) then ret LE
         else if zlist_eqb m (order_mark BE) then ret BE else fail ValueErr) ;;
  g <- fread 6 ;;
  (if zlist_eqb g magic then ret tt else fail ValueErr) ;;;
  cc <- rfourcc bo ;; rassert (zlist_eqb cc cc_OBJD) ;;;
  nm <- rstr bo ;; rassert (zlist_eqb nm doc_name) ;;;
  t <- ru8 ;; rassert (t =? 4) ;;;
  txt <- rstr bo ;;
  n <- ru32 bo ;;
  r <- ru32 bo ;;
  ret {| hd_bo := bo; hd_text := txt; hd_count := n; hd_root := r |}.

(** file.py:154-168: mark, time stamp, codes, creator version, reserved bytes. The last four and
    the last sixteen bytes are skipped by a [read] whose result is not looked at. *)
Definition rhead_rest (bo : border) : reader (Z * str) :=
  v <- ru32 bo ;; rassert ((v =? mark_II) || (v =? mark_MM)) ;;;
  t <- ru32 bo ;;
  _s <- fread 4 ;;
  a <- rfourcc bo ;; rassert (zlist_eqb a cc_ATob) ;;;
  b <- rfourcc bo ;; rassert (zlist_eqb b cc_ATve) ;;;
  ver <- rstr bo ;;
  _r <- fread 16 ;;
  ret (t, ver).

(** file.py:175-180, the loop over the object table: [pos] is [f.tell()]. A seek beyond the end
    of the file is allowed, the next read then finds nothing. *)
Fixpoint scan (n : nat) (bo : border) (file : bytes) (pos : Z) : result (list Z) :=
  match n with
  | O => Ok []
  | S n' =>
    match (_c <- fread 4 ;; ru32 bo) (skipn (Z.to_nat pos) file) with
    | Err e => Err e
    | Ok (size, _) =>
      match scan n' bo file (pos + 8 + size) with Ok l => Ok (pos :: l) | Err e => Err e end
    end
  end.

(** An opened [AVBFile]: the bytes of the file, the header, the position after the header and
    [object_positions] without its first entry (file.py:126-173). *)
Record opened := {
  of_file : bytes;
  of_head : head;
  of_stamp : Z;
  of_version : str;
  of_start : Z;
  of_positions : list Z }.

(** file.py:126-180. *)
Definition open_table (file : bytes) : result opened :=
  match rhead file with
  | Err e => Err e
  | Ok (h, b1) =>
    match rhead_rest (hd_bo h) b1 with
    | Err e => Err e
    | Ok ((t, ver), b2) =>
      match scan (Z.to_nat (hd_count h)) (hd_bo h) file (len file - len b2) with
      | Err e => Err e
      | Ok l => Ok {| of_file := file; of_head := h; of_stamp := t; of_version := ver;
                      of_start := len file - len b2; of_positions := l |}
      end
    end
  end.

(** The context of the readers: [check_refs] is set, [len(object_positions)] is the number of
    objects and one (file.py:105 and 172). *)
Definition of_ictx (d : opened) : ictx :=
  {| ibo := hd_bo (of_head d); inobj := Some (hd_count (of_head d) + 1) |}.

(** [self.object_positions[index]] for an index from 1 on (file.py:270). *)
Definition position (d : opened) (index : Z) : result Z :=
  match nth_error (of_positions d) (Z.to_nat (index - 1)) with
  | Some p => Ok p
  | None => Err IndexErr
  end.

(** file.py:252-256 and 275-279: class code and size at a position. *)
Definition rchunk_head (bo : border) : reader (bytes * Z) :=
  b <- take 8 ;;
  ret (match bo with LE => rev (firstn 4 b) | BE => firstn 4 b end, dec bo (skipn 4 b)).

(** A chunk: code, position of its data, size (file.py:29-35). *)
Record chunk := { ck_id : bytes; ck_pos : Z; ck_size : Z }.

(** file.py:243-260 [read_chunk]. Chunk 0 is the header from the code [OBJD] on (file.py:170). *)
Definition read_chunk (d : opened) (index : Z) : result chunk :=
  if index =? 0 then Ok {| ck_id := cc_OBJD; ck_pos := 8; ck_size := of_start d - 8 |}
  else
    match position d index with
    | Err e => Err e
    | Ok pos =>
      match rchunk_head (hd_bo (of_head d)) (skipn (Z.to_nat pos) (of_file d)) with
      | Err e => Err e
      | Ok ((cc, size), _) => Ok {| ck_id := cc; ck_pos := pos + 8; ck_size := size |}
      end
    end.

(** file.py:37-39 [AVBChunk.read]. *)
Definition chunk_data (d : opened) (c : chunk) : bytes :=
  firstn (Z.to_nat (ck_size c)) (skipn (Z.to_nat (ck_pos c)) (of_file d)).

(** [range(n)] from [i] on (file.py:175). *)
Fixpoint range_from (i : Z) (n : nat) : list Z :=
  match n with O => [] | S n' => i :: range_from (i + 1) n' end.

(** [f(x)] for each [x], stopping at the first exception (as file.py:175-180). *)
Fixpoint rmap {A B} (f : A -> result B) (l : list A) : result (list B) :=
  match l with
  | [] => Ok []
  | x :: l' =>
    match f x with
    | Err e => Err e
    | Ok y => match rmap f l' with Ok ys => Ok (y :: ys) | Err e => Err e end
    end
  end.

(** file.py:372-374 [chunks], the generator run to its end. *)
Definition chunks (d : opened) : result (list chunk) :=
  rmap (read_chunk d) (range_from 0 (S (length (of_positions d)))).

(** file.py:262-323 [read_object], without the cache: with it the object returned is the one
    returned before, see DocModel.v. A short chunk fails the assertion of line 283. *)
Definition read_object (d : opened) (index : Z) : result (option obj) :=
  if index =? 0 then Ok None
  else
    match position d index with
    | Err e => Err e
    | Ok pos =>
      match rchunk_head (hd_bo (of_head d)) (skipn (Z.to_nat pos) (of_file d)) with
      | Err e => Err e
      | Ok ((cc, size), b) =>
        let data := firstn (Z.to_nat size) b in
        if len data =? size then
          match robject (of_ictx d) cc data with Ok o => Ok (Some o) | Err e => Err e end
        else Err AssertionErr
      end
    end.

(** file.py:103-182, [AVBFile(fileobject)]: the table and [self.content]. The accelerated readers
    are treated in Ext.v. *)
Definition open_file (file : bytes) : result (opened * option obj) :=
  match open_table file with
  | Err e => Err e
  | Ok d => match read_object d (hd_root (of_head d)) with Ok o => Ok (d, o) | Err e => Err e end
  end.

(** ** Documents in memory *)

(** An object in memory: the document it belongs to, its [instance_id], its class and properties
    with references to other objects as addresses (0 for None), and the addresses of the objects
    that [walk_references] meets in its properties, in that order and as often as it meets them
    (core.py:136-162: the order is that in which the properties were set; the items of a list that
    is an object of its own are met twice). *)
Record node := { nd_doc : Z; nd_id : Z; nd_obj : obj; nd_kids : list Z }.

(** Memory. Getting hold of an object may fail: a reference of an opened document is loaded from
    its file when it is followed (utils.py:20-28). *)
Definition heap := Z -> result node.

(** A document: which one it is, its memory, [content] (0 for None), [creator_version] and
    [last_save] (file.py:102-119 and 184-193). *)
Record document := {
  dc_self : Z;
  dc_heap : heap;
  dc_content : Z;
  dc_version : str;
  dc_saved : Z }.

(** core.py:136-163 [walk_references] from an object: the objects yielded and how it ended. The
    generators are nested as deep as the references; [lim] bounds the nesting, as Python's
    recursion limit does ([OutOfFuel] stands for [RecursionError]; the limit is in objects here,
    in frames there, of which an object takes one or more). *)
Fixpoint walk (lim : nat) (h : heap) (a : Z) : list Z * option exn :=
  match lim with
  | O => ([], Some OutOfFuel)
  | S lim' =>
    match h a with
    | Err e => ([], Some e)
    | Ok nd =>
      let '(l, s) := (fix walks (ks : list Z) : list Z * option exn :=
        match ks with
        | [] => ([], None)
        | k :: ks' =>
          match walk lim' h k with
          | (l, Some e) => (l, Some e)
          | (l, None) => let '(l', s) := walks ks' in (l ++ l', s)
          end
        end) (nd_kids nd) in
      match s with Some e => (l, Some e) | None => (l ++ [a], None) end
    end
  end.

(** ** Saving *)

(** A step of a save that reaches the file: bytes added at the end, or bytes put over others (after
    a [seek]) (file.py:348-370). *)
Inductive fop := Append (b : bytes) | Overwrite (pos : Z) (b : bytes).

(** [b] over what is at [pos] (file.py:365-367). *)
Definition overwrite (file : bytes) (pos : Z) (b : bytes) : bytes :=
  firstn (Z.to_nat pos) file ++ b ++ skipn (Z.to_nat pos + length b) file.

(** One step of a save on the file, file.py:354-368. *)
Definition apply_op (file : bytes) (o : fop) : bytes :=
  match o with Append b => file ++ b | Overwrite pos b => overwrite file pos b end.

(** The file after some steps; [io.open(path, 'wb')] empties it first (file.py:354-368). *)
Definition run_ops (l : list fop) : bytes := fold_left apply_op l [].

(** Writers run one after the other: what was added and the exception that stopped it, if any (as
    file.py:200-239). *)
Fixpoint run_writers (l : list writer) : list fop * option exn :=
  match l with
  | [] => ([], None)
  | Err e :: _ => ([], Some e)
  | Ok b :: l' => let '(o, s) := run_writers l' in (Append b :: o, s)
  end.

(** file.py:202-212, the header before the two counts. *)
Definition head_before (z : zone) (bo : border) (d : document) : list writer :=
  [ wbytes (order_mark bo); wbytes magic; wfourcc bo cc_OBJD; wstr bo doc_name; wu8 4;
    wstr bo (save_text (dc_saved d)) ].

(** file.py:214-215. *)
Definition head_counts (bo : border) : list writer := [ wu32 bo 0; wu32 bo 0 ].

(** file.py:217-239, the header after the two counts. The version is cut to 30 bytes and padded
    with blanks to 30. *)
Definition head_after (z : zone) (bo : border) (d : document) : list writer :=
  [ wu32 bo (match bo with LE => mark_II | BE => mark_MM end);
    wdatetime z bo (dc_saved d); wu32 bo 0; wfourcc bo cc_ATob; wfourcc bo cc_ATve ] ++
  match mac_encode (dc_version d) with
  | Err e => [Err e]
  | Ok v => [ wu16 bo 30; wbytes (firstn 30 v); wbytes (repeat 32 (30 - length (firstn 30 v)));
              wbytes (repeat 0 16) ]
  end.

(** [ref_mapping]: instance ids to chunk numbers (file.py:350). *)
Definition mapping := Z -> option Z.

(** The context of the writers: a reference leads to an object, whose number is looked up by its
    instance id (ioctx.py:183-193). *)
Definition save_octx (bo : border) (h : heap) (m : mapping) : octx :=
  {| obo := bo;
     orefs := fun r => match h r with Ok nd => m (nd_id nd) | Err _ => None end |}.

(** file.py:325-336 [write_object], the document check included: another document is not being
    saved, so its [octx] is None. *)
Definition write_object (bo : border) (self : Z) (h : heap) (m : mapping) (nd : node) : list writer :=
  if nd_doc nd =? self then
    match wbody (save_octx bo h m) (nd_obj nd) with
    | Err e => [Err e]
    | Ok data =>
      [ wassert (last data 0 =? 3); wfourcc bo (class_id (okind (nd_obj nd)));
        wu32 bo (len data); wbytes data ]
    end
  else [Err ValueErr].

(** What [write] keeps on the document object besides the document itself: [ref_mapping],
    [next_chunk_id] and the byte order of [octx], if a save is running (file.py:349-352). *)
Record session := { ss_doc : document; ss_map : mapping; ss_next : Z; ss_octx : option border }.

(** file.py:356-362, the loop over the objects yielded; [m] is [ref_mapping] and [next] is
    [next_chunk_id]. *)
Fixpoint save_loop (bo : border) (self : Z) (h : heap) (l : list Z) (m : mapping) (next : Z)
  : list fop * option exn * mapping * Z :=
  match l with
  | [] => ([], None, m, next)
  | a :: l' =>
    match h a with
    | Err e => ([], Some e, m, next)
    | Ok nd =>
      match m (nd_id nd) with
      | Some _ => save_loop bo self h l' m next
      | None =>
        let m' := fun i => if i =? nd_id nd then Some (next + 1) else m i in
        match run_writers (write_object bo self h m' nd) with
        | (o, Some e) => (o, Some e, m', next + 1)
        | (o, None) =>
          let '(o', s, m2, n) := save_loop bo self h l' m' (next + 1) in (o ++ o', s, m2, n)
        end
      end
    end
  end.

(** file.py:364-368, the counts put in place at [pos]; both are [next_chunk_id]. *)
Definition save_counts (bo : border) (pos : Z) (next : Z) : list fop * option exn :=
  match wu32 bo next with
  | Err e => ([], Some e)
  | Ok b => ([Overwrite pos b; Overwrite (pos + 4) b], None)
  end.

(** file.py:348-370 [write]: the steps on the file, the exception, if any, and what is left on the
    document object. The objects are written as the walk yields them, so an exception of the walk
    comes after they have been written. The buffering of the file object is not modelled: a step
    is a call of [f.write]. *)
Definition write (lim : nat) (z : zone) (bo : border) (ss : session)
  : list fop * option exn * session :=
  let d := ss_doc ss in
  let st0 := {| ss_doc := d; ss_map := fun _ => None; ss_next := 0; ss_octx := Some bo |} in
  let leave st := {| ss_doc := ss_doc st; ss_map := ss_map st; ss_next := ss_next st; ss_octx := None |} in
  let '(o1, s1) := run_writers (head_before z bo d) in
  match s1 with
  | Some e => (o1, Some e, leave st0)
  | None =>
    let '(o2, s2) := run_writers (head_counts bo ++ head_after z bo d) in
    match s2 with
    | Some e => (o1 ++ o2, Some e, leave st0)
    | None =>
      let '(l, ws) := if dc_content d =? 0 then ([], None) else walk lim (dc_heap d) (dc_content d) in
      let '(o3, s3, m, n) := save_loop bo (dc_self d) (dc_heap d) l (ss_map st0) (ss_next st0) in
      let st1 := leave {| ss_doc := d; ss_map := m; ss_next := n; ss_octx := Some bo |} in
      match s3 with
      | Some e => (o1 ++ o2 ++ o3, Some e, st1)
      | None =>
        match ws with
        | Some e => (o1 ++ o2 ++ o3, Some e, st1)
        | None =>
          let '(o4, s4) := save_counts bo (len (run_ops o1)) n in
          (o1 ++ o2 ++ o3 ++ o4, s4, st1)
        end
      end
    end
  end.

(** A document object fresh from [AVBFile()] (file.py:103-119). *)
Definition new_session (d : document) : session :=
  {| ss_doc := d; ss_map := fun _ => None; ss_next := 0; ss_octx := None |}.

(** The steps and the exception of a save (file.py:348-370). *)
Definition save (lim : nat) (z : zone) (bo : border) (d : document) : list fop * option exn :=
  fst (write lim z bo (new_session d)).
