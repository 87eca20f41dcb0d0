(** Model of a document whose file was closed (src/avb/file.py): [close] and the end of a [with]
    block. The objects in memory stay, others cannot be read any more. *)
From Coq Require Import ZArith List Bool.
From Verif Require Import Base Text Dates Objects FileModel Edited.
Import ListNotations.
Open Scope Z_scope.

(** file.py:103-182: a document after [avb.open(path)]; the content has been read and is held. *)
Definition just_opened (t : opened) : editing := fst (fetch (edit_opened t) (hd_root (of_head t))).

(** file.py:262-283 [read_object] without the cache once [close] has been called (file.py:381-383):
    [seek] of a closed file raises ValueError, after the position has been looked up. A document
    that was not opened has no file to close. *)
Definition from_closed (f : option opened) (i : Z) : result obj :=
  match f with
  | None => Err AttributeErr
  | Some t => if i =? 0 then Err AttributeErr
              else match position t i with Ok _ => Err ValueErr | Err e => Err e end
  end.

(** file.py:262-268: the object of the cache, or the exception. *)
Definition fetch_closed (s : editing) (i : Z) : result obj :=
  match ed_live s i with Some o => Ok o | None => from_closed (ed_file s) i end.

(** A step of Edited.v after [close]: an object that cannot be got hold of is not changed
    (core.py:199-206: the property is assigned to an object the program has); one that is got hold of
    is in memory already; the other steps do not need the file (file.py:67-85 and 195-196). *)
Definition closed_step (s : editing) (e : edit) : editing :=
  match e with
  | Follow _ => s
  | Assign i _ | InPlace i _ => match fetch_closed s i with Ok _ => edit_step s e | Err _ => s end
  | Make _ | Root _ | Collect _ => edit_step s e
  end.

(** file.py:348-370 after [close]: what a save sees (as [edit_heap]), and the document it is started
    on (as [edit_doc]). *)
Definition closed_heap (s : editing) (self : Z) (kids : Z -> obj -> list Z) : heap := fun i =>
  match fetch_closed s i with
  | Ok o => Ok {| nd_doc := self; nd_id := i; nd_obj := o; nd_kids := kids i o |}
  | Err e => Err e
  end.

(** file.py:348-370, see [closed_heap]. *)
Definition closed_doc (s : editing) (self : Z) (kids : Z -> obj -> list Z) (version : str) (saved : Z) : document :=
  {| dc_self := self; dc_heap := closed_heap s self kids; dc_content := ed_content s;
     dc_version := version; dc_saved := saved |}.
