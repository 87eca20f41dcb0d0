(** What a file and a document are, independently of the code that reads and writes them. *)
From Coq Require Import ZArith List Bool.
From Verif Require Import Base IoCtx Text Dates Objects ObjSpec FileModel.
Import ListNotations.
Open Scope Z_scope.

(** ** Files *)

(** A stored object: code and data. *)
Definition stored : Type := bytes * bytes.

Definition stored_ok (s : stored) : Prop := length (fst s) = 4%nat /\ len (snd s) < 2 ^ 32.

(** Its bytes: the code (back to front in little-endian files), the length in four bytes, the
    data. *)
Definition stored_bytes (bo : border) (s : stored) : bytes :=
  (match bo with LE => rev (fst s) | BE => fst s end) ++ enc bo 4 (len (snd s)) ++ snd s.

(** [hdr] is a header: whatever follows it, it is read as [h], [t] and [ver], and what follows is
    left. *)
Definition header_of (hdr : bytes) (h : head) (t : Z) (ver : str) : Prop :=
  forall rest, exists b, rhead (hdr ++ rest) = Ok (h, b) /\ rhead_rest (hd_bo h) b = Ok ((t, ver), rest).

(** Objects one after the other from [pos] on: code, position of the data, size. *)
Fixpoint layout (pos : Z) (l : list stored) : list chunk :=
  match l with
  | [] => []
  | s :: l' =>
    {| ck_id := fst s; ck_pos := pos + 8; ck_size := len (snd s) |}
    :: layout (pos + 8 + len (snd s)) l'
  end.

(** The chunk that stands for the header: from the code OBJD, after the two marks, to the first
    object. *)
Definition header_chunk (n : Z) : chunk := {| ck_id := [79; 66; 74; 68]; ck_pos := 8; ck_size := n - 8 |}.

(** The bytes of a file from [pos] on, [n] of them. *)
Definition slice (file : bytes) (pos n : Z) : bytes := firstn (Z.to_nat n) (skipn (Z.to_nat pos) file).

(** ** Documents *)

(** The object at [a] refers to the object at [b]. *)
Definition refers (h : heap) (a b : Z) : Prop :=
  exists nd, h a = Ok nd /\ In b (obj_refs (nd_obj nd)) /\ b <> 0.

Inductive reach (h : heap) (a : Z) : Z -> Prop :=
| reach_self : reach h a a
| reach_step : forall b c, reach h a b -> refers h b c -> reach h a c.

(** In one step or more. *)
Definition reach_plus (h : heap) (a c : Z) : Prop := exists b, refers h a b /\ reach h b c.

(** The objects of a document: those reachable from its content. *)
Definition in_doc (d : document) (a : Z) : Prop := dc_content d <> 0 /\ reach (dc_heap d) (dc_content d) a.

(** The walk meets exactly the objects that are referred to (in any order, any number of times). *)
Definition walks_refs (d : document) : Prop := forall a nd, in_doc d a -> dc_heap d a = Ok nd ->
  forall b, In b (nd_kids nd) <-> In b (obj_refs (nd_obj nd)) /\ b <> 0.

(** Different objects have different instance ids. *)
Definition ids_distinct (d : document) : Prop := forall a b na nb, in_doc d a -> in_doc d b ->
  dc_heap d a = Ok na -> dc_heap d b = Ok nb -> nd_id na = nd_id nb -> a = b.

(** Every object satisfies the side conditions of its class. *)
Definition all_ok (d : document) : Prop := forall a nd, in_doc d a -> dc_heap d a = Ok nd ->
  obj_ok (nd_obj nd).

(** A writing context in which every reference has a number. *)
Definition all_numbered (bo : border) : octx := {| obo := bo; orefs := fun _ => Some 1 |}.

(** The objects are among those listed (so there are finitely many), all can be got hold of, all
    belong to the document, their properties are in range, and their chunks are shorter than
    4 GiB. *)
Definition saveable (bo : border) (d : document) (F : list Z) : Prop :=
  len F < 2 ^ 32 /\ forall a, in_doc d a -> In a F /\ exists nd, dc_heap d a = Ok nd /\
    nd_doc nd = dc_self d /\ obj_fits (all_numbered bo) (nd_obj nd) /\
    forall data, wbody (all_numbered bo) (nd_obj nd) = Ok data -> len data < 2 ^ 32.

(** The header is in range: a version that can be stored in Mac Roman and a time stamp of 32 bits. *)
Definition header_fits (z : zone) (d : document) : Prop :=
  (exists v, mac_encode (dc_version d) = Ok v) /\ 0 <= to_timestamp z (dc_saved d) < 2 ^ 32.

(** No object can be reached from itself. *)
Definition acyclic (d : document) : Prop := forall a, in_doc d a -> ~ reach_plus (dc_heap d) a a.

(** The number of [a] in a list of addresses: 1 for the first, 0 if it is not there. *)
Fixpoint number (l : list Z) (a : Z) : Z :=
  match l with
  | [] => 0
  | x :: l' => if x =? a then 1 else match number l' a with 0 => 0 | n => n + 1 end
  end.

(** The address with number [n]; 0 for 0. *)
Definition numbered (l : list Z) (n : Z) : Z := if n <=? 0 then 0 else nth (Z.to_nat (n - 1)) l 0.

(** A text without its leading and trailing NULs. *)
Fixpoint drop_nuls (s : str) : str := match s with c :: s' => if c =? 0 then drop_nuls s' else s | [] => [] end.
Definition trim_nuls (s : str) : str := rev (drop_nuls (rev (drop_nuls s))).

(** ** Interrupted saves *)

(** The states the file goes through: some steps done and, of the next, if it adds to the end, some
    of its bytes. *)
Definition interrupted (ops : list fop) (file : bytes) : Prop :=
  exists done next rest, ops = done ++ next :: rest /\
    (file = run_ops done \/ exists b k, next = Append b /\ file = run_ops done ++ firstn k b).

(** What opening shows: no document. *)
Definition shows_nothing (file : bytes) : Prop :=
  (exists e, open_file file = Err e) \/ (exists t, open_file file = Ok (t, None)).
