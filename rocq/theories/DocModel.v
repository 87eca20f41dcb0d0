(** Model of a document's bookkeeping (src/avb/file.py, core.py, attributes.py): the factory, the
    object cache, the set of modified objects and what marks an object as modified. What an object
    holds is abstract here: a number stands for the contents of an object together with those of
    the helper objects, plain lists and byte blobs inside it. Addresses are numbers; an address
    given to an object is not used again. *)
From Coq Require Import ZArith List Bool.
From Verif Require Import Base.
Import ListNotations.
Open Scope Z_scope.

(** The classes as far as marking goes: [AVBObject]s with a class id; helper classes, whose class id
    is None; [Attributes]; [ParameterList] and [TimeCrumbList] (core.py:66-72, 184-186 and
    attributes.py:32-34). *)
Inductive kind := KObject | KHelper | KAttributes | KRefList.

(** An object: its class, [instance_id] once set, and its contents (core.py:166-176). *)
Record cell := { c_kind : kind; c_id : option Z; c_val : Z }.

(** What is read from an opened file at an index: the class, the assignments its reader makes one
    after the other (the contents after each), and how reading ends (file.py:262-323). *)
Record stored := { st_kind : kind; st_steps : list Z; st_end : option exn }.

(** The document object: whether it was opened from a file, [len(object_positions) - 1] and the
    chunks (constants of the document), the objects alive, [object_cache], [modified_objects],
    [next_object_id], [content], [reading] and the next free address (file.py:102-119). *)
Record doc := {
  d_open : bool;
  d_count : Z;
  d_disk : Z -> stored;
  d_cells : Z -> option cell;
  d_cache : Z -> option Z;
  d_modified : Z -> option Z;
  d_next : Z;
  d_content : option Z;
  d_reading : bool;
  d_addr : Z }.

(** Assignment to one component (file.py:195-196). *)
Definition put {V} (f : Z -> V) (k : Z) (v : V) : Z -> V := fun x => if x =? k then v else f x.

(** The document with another value of the objects alive, core.py:172-176. *)
Definition with_cells (d : doc) (c : Z -> option cell) : doc :=
  {| d_open := d_open d; d_count := d_count d; d_disk := d_disk d; d_cells := c; d_cache := d_cache d; d_modified := d_modified d;
     d_next := d_next d; d_content := d_content d; d_reading := d_reading d; d_addr := d_addr d |}.
(** The document with another value of [object_cache], file.py:305. *)
Definition with_cache (d : doc) (c : Z -> option Z) : doc :=
  {| d_open := d_open d; d_count := d_count d; d_disk := d_disk d; d_cells := d_cells d; d_cache := c; d_modified := d_modified d;
     d_next := d_next d; d_content := d_content d; d_reading := d_reading d; d_addr := d_addr d |}.
(** The document with another value of [modified_objects], file.py:196. *)
Definition with_modified (d : doc) (m : Z -> option Z) : doc :=
  {| d_open := d_open d; d_count := d_count d; d_disk := d_disk d; d_cells := d_cells d; d_cache := d_cache d; d_modified := m;
     d_next := d_next d; d_content := d_content d; d_reading := d_reading d; d_addr := d_addr d |}.
(** The document with another value of [next_object_id], file.py:173. *)
Definition with_next (d : doc) (n : Z) : doc :=
  {| d_open := d_open d; d_count := d_count d; d_disk := d_disk d; d_cells := d_cells d; d_cache := d_cache d; d_modified := d_modified d;
     d_next := n; d_content := d_content d; d_reading := d_reading d; d_addr := d_addr d |}.
(** The document with another value of [content], file.py:182 and 188. *)
Definition with_content (d : doc) (c : option Z) : doc :=
  {| d_open := d_open d; d_count := d_count d; d_disk := d_disk d; d_cells := d_cells d; d_cache := d_cache d; d_modified := d_modified d;
     d_next := d_next d; d_content := c; d_reading := d_reading d; d_addr := d_addr d |}.
(** The document with another value of [reading], file.py:288 and 316. *)
Definition with_reading (d : doc) (r : bool) : doc :=
  {| d_open := d_open d; d_count := d_count d; d_disk := d_disk d; d_cells := d_cells d; d_cache := d_cache d; d_modified := d_modified d;
     d_next := d_next d; d_content := d_content d; d_reading := r; d_addr := d_addr d |}.

(** A new object ([__new__]): nothing but its address and class (core.py:172-176). *)
Definition alloc (d : doc) (k : kind) : doc * Z :=
  ({| d_open := d_open d; d_count := d_count d; d_disk := d_disk d;
      d_cells := put (d_cells d) (d_addr d) (Some {| c_kind := k; c_id := None; c_val := 0 |});
      d_cache := d_cache d; d_modified := d_modified d; d_next := d_next d; d_content := d_content d;
      d_reading := d_reading d; d_addr := d_addr d + 1 |}, d_addr d).

(** The object at an address with its contents or its identity replaced (core.py:199-206). *)
Definition set_val (d : doc) (a v : Z) : doc :=
  match d_cells d a with
  | Some c => with_cells d (put (d_cells d) a (Some {| c_kind := c_kind c; c_id := c_id c; c_val := v |}))
  | None => d
  end.
(** [instance_id] set, file.py:78 and 306. *)
Definition set_id (d : doc) (a i : Z) : doc :=
  match d_cells d a with
  | Some c => with_cells d (put (d_cells d) a (Some {| c_kind := c_kind c; c_id := Some i; c_val := c_val c |}))
  | None => d
  end.

(** file.py:195-196 [add_modified]: an object without [instance_id] is an [AttributeError]. *)
Definition add_modified (d : doc) (a : Z) : doc * option exn :=
  match d_cells d a with
  | Some c => match c_id c with
              | Some i => (with_modified d (put (d_modified d) i (Some a)), None)
              | None => (d, Some AttributeErr)
              end
  | None => (d, Some AttributeErr)
  end.

(** Whether an object has its [instance_id] (core.py:185). *)
Definition has_id (d : doc) (a : Z) : bool :=
  match d_cells d a with Some c => match c_id c with Some _ => true | None => false end | None => false end.

(** core.py:184-186 [AVBObject.mark_modified]. *)
Definition mark_object (d : doc) (a : Z) : doc * option exn :=
  if negb (d_reading d) && has_id d a then add_modified d a else (d, None).

(** attributes.py:32-34 [Attributes.mark_modified], and core.py:66-72 [AVBRefList.mark_modified]
    for the two list classes that have a class id. *)
Definition mark_self (d : doc) (a : Z) : doc * option exn :=
  if negb (d_reading d) then add_modified d a else (d, None).

(** core.py:66-72 [AVBRefList.mark_modified] for a plain [AVBRefList] with the parent given. *)
Definition mark_parent (d : doc) (parent : option Z) : doc * option exn :=
  if negb (d_reading d) then match parent with Some a => add_modified d a | None => (d, None) end else (d, None).

(** How the contents of an object can be changed (core.py:199-206). *)
Inductive way :=
| ByProperty     (* core.py:199-206: a property is assigned *)
| BySelf         (* attributes.py:36-51, core.py:80-130: an entry of an [Attributes], [ParameterList] or [TimeCrumbList] *)
| ByRefList      (* core.py:80-130: an entry of an [AVBRefList] whose parent is the object *)
| Unseen.        (* in place: an entry of a plain list (such as [tracks] or [items]), a property of a helper
                    object (such as [Track] or [BinItem]: core.py:185, no instance id), an entry of an
                    [AVBRefList] without parent, a byte of a blob *)

(** The contents change and then the object is marked (core.py:199-206). *)
Definition change (d : doc) (w : way) (a v : Z) : doc * option exn :=
  let d' := set_val d a v in
  match w with
  | ByProperty => mark_object d' a
  | BySelf => mark_self d' a
  | ByRefList => mark_parent d' (Some a)
  | Unseen => (d', None)
  end.

(** The way a reader of a class assigns (file.py:288-302). *)
Definition reader_way (k : kind) : way :=
  match k with KObject | KHelper => ByProperty | KAttributes | KRefList => BySelf end.

(** The assignments of a reader (file.py:302). *)
Fixpoint assigns (d : doc) (w : way) (a : Z) (vs : list Z) : doc * option exn :=
  match vs with
  | [] => (d, None)
  | v :: vs' => match change d w a v with
                | (d', None) => assigns d' w a vs'
                | (d', Some e) => (d', Some e)
                end
  end.

(** An object nobody holds any more goes away, and its entry of the weak cache with it
    (file.py:110). *)
Definition drop (d : doc) (a : Z) : doc :=
  with_cache (with_cells d (put (d_cells d) a None))
    (fun i => match d_cache d i with Some b => if b =? a then None else Some b | None => None end).

(** file.py:262-323 [read_object] with the cache and the [reading] flag. None of the readers loads
    another object while it reads. An object whose reader fails is held by nobody. *)
Definition load (d : doc) (i : Z) : doc * result (option Z) :=
  if i =? 0 then (d, Ok None) else
  match d_cache d i with
  | Some a => (d, Ok (Some a))
  | None =>
    if negb (d_open d) then (d, Err AttributeErr)
    else if (i <? - (d_count d + 1)) || (d_count d <? i) then (d, Err IndexErr)
    else
      let s := d_disk d i in
      let d1 := with_reading d true in
      let '(d2, a) := alloc d1 (st_kind s) in
      let '(d3, e) := assigns d2 (reader_way (st_kind s)) a (st_steps s) in
      match e, st_end s with
      | None, None =>
        let d4 := with_cache d3 (put (d_cache d3) i (Some a)) in
        (with_reading (set_id d4 a i) false, Ok (Some a))
      | Some e, _ => (drop (with_reading d3 false) a, Err e)
      | None, Some e => (drop (with_reading d3 false) a, Err e)
      end
  end.

(** utils.py:20-27 [AVBObjectRef.value]. *)
Definition follow (d : doc) (i : Z) : doc * result (option Z) :=
  if i <=? 0 then (d, Ok None) else load d i.

(** file.py:67-85 [AVBFactory.from_name] for a class that is known; [vs] are the contents after
    each assignment of [__init__] (further objects an [__init__] makes are further creations). *)
Definition create (d : doc) (k : kind) (vs : list Z) : doc * Z * option exn :=
  let '(d1, a) := alloc d k in
  let d2 := match k with
    | KHelper => d1
    | _ => let i := d_next d1 + 1 in
           let d2 := set_id (with_next d1 i) a i in
           let d3 := with_modified d2 (put (d_modified d2) i (Some a)) in
           with_cache d3 (put (d_cache d3) i (Some a))
    end in
  let '(d4, e) := assigns d2 (reader_way k) a vs in (d4, a, e).

(** The objects the document holds itself; others stay only as long as somebody else holds them
    (file.py:111 and 182). *)
Definition held (d : doc) (a : Z) : bool :=
  match d_content d with Some c => c =? a | None => false end ||
  match d_cells d a with
  | Some c => match c_id c with
              | Some i => match d_modified d i with Some b => b =? a | None => false end
              | None => false
              end
  | None => false
  end.

(** What can happen to a document. [Forget a]: nobody outside the document holds [a] any more
    (file.py:102-323). *)
Inductive doc_op :=
| Load (i : Z) | Create (k : kind) (vs : list Z) | Change (w : way) (a v : Z) | Content (a : option Z) | Forget (a : Z).

(** One of these steps, file.py:102-323. *)
Definition doc_step (d : doc) (o : doc_op) : doc :=
  match o with
  | Load i => fst (follow d i)
  | Create k vs => fst (fst (create d k vs))
  | Change w a v => fst (change d w a v)
  | Content a => with_content d a
  | Forget a => if held d a then d else drop d a
  end.

(** file.py:103-112 and 172-173, the bookkeeping of a document: an opened one with [n] objects, or
    a new one (no objects; [next_object_id] is 0). *)
Definition opened_doc (n : Z) (disk : Z -> stored) : doc :=
  {| d_open := true; d_count := n; d_disk := disk; d_cells := fun _ => None; d_cache := fun _ => None; d_modified := fun _ => None;
     d_next := n + 1; d_content := None; d_reading := false; d_addr := 1 |}.
(** A document object before anything is made, file.py:105-112. *)
Definition empty_doc : doc :=
  {| d_open := false; d_count := 0; d_disk := fun _ => {| st_kind := KObject; st_steps := []; st_end := None |};
     d_cells := fun _ => None; d_cache := fun _ => None; d_modified := fun _ => None;
     d_next := 0; d_content := None; d_reading := false; d_addr := 1 |}.
