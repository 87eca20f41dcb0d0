(** Model of a document that is opened, edited and saved (src/avb/file.py, core.py, utils.py): the
    objects alive with their contents, what keeps them alive, and what a save sees. DocModel.v has
    the bookkeeping in more detail but leaves contents open; here a change replaces the contents of
    an object as a whole. An object is known by its [instance_id], references inside contents too:
    a reference of an object that was read is the number of a chunk, which becomes the
    [instance_id] of the object read from it (file.py:306). *)
From Coq Require Import ZArith List Bool.
From Verif Require Import Base Text Dates Objects FileModel.
Import ListNotations.
Open Scope Z_scope.

(** file.py:102-119 and 172-182: the file that was opened, if any; the objects alive
    ([object_cache]); [modified_objects]; [next_object_id]; [content] (0 for None). *)
Record editing := {
  ed_file : option opened;
  ed_live : Z -> option obj;
  ed_modified : Z -> bool;
  ed_next : Z;
  ed_content : Z }.

(** What can happen to a document:
    - [Follow i]: a reference is followed (utils.py:20-28);
    - [Make o]: an object is made through the factory; [o] are its contents after [__init__]
      (file.py:67-85);
    - [Assign i o]: an object is got hold of and a property, an entry of an [Attributes] or of a
      list is assigned (core.py:199-206, 80-130, attributes.py:36-51); [o] are its contents then;
    - [InPlace i o]: the same, changed in a way nothing notices (an item of a plain list, a property
      of a helper object: core.py:184-186);
    - [Root i]: [content] is set (file.py:182 and 188);
    - [Collect i]: the garbage collector comes by after the program has let go of an object; the
      model lets this happen at any time (file.py:110: the cache holds its entries weakly). *)
Inductive edit :=
| Follow (i : Z) | Make (o : obj) | Assign (i : Z) (o : obj) | InPlace (i : Z) (o : obj) | Root (i : Z) | Collect (i : Z).

(** One key of a dictionary assigned, or removed (file.py:196 and 305). *)
Definition upd {V} (f : Z -> V) (k : Z) (v : V) : Z -> V := fun x => if x =? k then v else f x.

(** file.py:262-323 [read_object] without the cache: what the file holds. A document that was not
    opened has no file (file.py:185; [object_positions] is missing then). *)
Definition from_file (f : option opened) (i : Z) : result obj :=
  match f with
  | None => Err AttributeErr
  | Some t => match read_object t i with
              | Ok (Some o) => Ok o
              | Ok None => Err AttributeErr
              | Err e => Err e
              end
  end.

(** file.py:262-306: the object of the cache, or the one that is read and cached. *)
Definition fetch (s : editing) (i : Z) : editing * result obj :=
  match ed_live s i with
  | Some o => (s, Ok o)
  | None =>
    match from_file (ed_file s) i with
    | Ok o => ({| ed_file := ed_file s; ed_live := upd (ed_live s) i (Some o); ed_modified := ed_modified s;
                  ed_next := ed_next s; ed_content := ed_content s |}, Ok o)
    | Err e => (s, Err e)
    end
  end.

(** A change of contents, with or without [add_modified] (core.py:199-206, file.py:195-196). An
    assignment does not change the class of an object: others do nothing. *)
Definition replace (s : editing) (i : Z) (o : obj) (mark : bool) : editing :=
  match fetch s i with
  | (s', Ok old) =>
    if zlist_eqb (class_id (okind o)) (class_id (okind old))
    then {| ed_file := ed_file s'; ed_live := upd (ed_live s') i (Some o);
            ed_modified := if mark then upd (ed_modified s') i true else ed_modified s';
            ed_next := ed_next s'; ed_content := ed_content s' |}
    else s'
  | (s', Err _) => s'
  end.

(** One of these steps: file.py:67-85 for [Make]; [modified_objects] and [content] hold their objects,
    so those are never collected (file.py:111 and 182). *)
Definition edit_step (s : editing) (e : edit) : editing :=
  match e with
  | Follow i => fst (fetch s i)
  | Make o =>
    let i := ed_next s + 1 in
    {| ed_file := ed_file s; ed_live := upd (ed_live s) i (Some o); ed_modified := upd (ed_modified s) i true;
       ed_next := i; ed_content := ed_content s |}
  | Assign i o => replace s i o true
  | InPlace i o => replace s i o false
  | Root i =>
    {| ed_file := ed_file s; ed_live := ed_live s; ed_modified := ed_modified s; ed_next := ed_next s; ed_content := i |}
  | Collect i =>
    if ed_modified s i || (i =? ed_content s) then s
    else {| ed_file := ed_file s; ed_live := upd (ed_live s) i None; ed_modified := ed_modified s;
            ed_next := ed_next s; ed_content := ed_content s |}
  end.

(** A document just opened: [content] has been read (file.py:103-182; here it is read when it is
    first used, which is the same). *)
Definition edit_opened (t : opened) : editing :=
  {| ed_file := Some t; ed_live := fun _ => None; ed_modified := fun _ => false;
     ed_next := hd_count (of_head t) + 1; ed_content := hd_root (of_head t) |}.

(** A document just made, before [setup_empty] makes its bin (file.py:103-119). *)
Definition edit_new : editing :=
  {| ed_file := None; ed_live := fun _ => None; ed_modified := fun _ => false; ed_next := 0; ed_content := 0 |}.

(** file.py:348-370 and core.py:136-162: what a save sees when it gets hold of an object. [kids]: the
    order of the walk is left open, as in Opened.v. *)
Definition edit_heap (s : editing) (self : Z) (kids : Z -> obj -> list Z) : heap := fun i =>
  match snd (fetch s i) with
  | Ok o => Ok {| nd_doc := self; nd_id := i; nd_obj := o; nd_kids := kids i o |}
  | Err e => Err e
  end.

(** The document a save is started on; [creator_version] and [last_save] are given (file.py:184-193). *)
Definition edit_doc (s : editing) (self : Z) (kids : Z -> obj -> list Z) (version : str) (saved : Z) : document :=
  {| dc_self := self; dc_heap := edit_heap s self kids; dc_content := ed_content s;
     dc_version := version; dc_saved := saved |}.
