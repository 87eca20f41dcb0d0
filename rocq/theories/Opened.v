(** Model of the document a file opens as: what src/avb/file.py and src/avb/utils.py hand out while
    it is walked and saved again. *)
From Coq Require Import ZArith List.
From Verif Require Import Base Dates Objects FileModel.
Import ListNotations.
Open Scope Z_scope.

(** file.py:262-323 [read_object] as references reach it (utils.py:20-28): the address of an object
    is its number in the file. Line 306 sets [instance_id] to that number, so an object that was
    dropped from the cache and is read again still has the same id; [root] is the file (line 290).
    The order in which [walk_references] meets the references (core.py:136-162) is left open:
    [kids]. A reference that is None is not followed (core.py:150); the case is here because the
    function is total. *)
Definition load (t : opened) (self : Z) (kids : Z -> obj -> list Z) : heap := fun n =>
  match read_object t n with
  | Ok (Some o) => Ok {| nd_doc := self; nd_id := n; nd_obj := o; nd_kids := kids n o |}
  | Ok None => Err AttributeErr
  | Err e => Err e
  end.

(** file.py:126-182, an [AVBFile] that was opened, as a document: content, creator version and save
    time are those of the file. *)
Definition opened_doc (z : zone) (t : opened) (self : Z) (kids : Z -> obj -> list Z) : document :=
  {| dc_self := self; dc_heap := load t self kids; dc_content := hd_root (of_head t);
     dc_version := of_version t; dc_saved := from_timestamp z (of_stamp t) |}.

(** core.py:136-162, the references of an object that was read, in the order in which
    [walk_references] follows them. The values of [property_data] are in the order in which [read]
    assigned them, for chunks the library has written the order of the [_refs] of the class; a
    list property is assigned before its items are read. A parameter list or time crumb list is
    both a list and an object: a property that holds one has its items walked by line 153 and again
    by lines 138 and 158 (for the content of a document only the latter, which changes nothing, as
    [write] skips what it has written). A reference that is None is not followed (line 150). *)
Definition read_kids (_ : Z) (o : obj) : list Z :=
  filter (fun r => negb (r =? 0))
    match okind o with
    | K_PRLS | K_TMCS => obj_refs o ++ obj_refs o
    | _ => obj_refs o
    end.
