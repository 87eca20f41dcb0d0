(** Model of what a reference tells about the object it leads to: src/avb/utils.py:12-41. *)
From Coq Require Import ZArith List.
From Verif Require Import Base Objects FileModel.
Import ListNotations.
Open Scope Z_scope.

(** utils.py:20-27 [AVBObjectRef.value]; [debug_copy_refs] is False, and the object is read as
    without a cache (FileModel.v). *)
Definition ref_value (t : opened) (index : Z) : result (option obj) :=
  if index <=? 0 then Ok None else read_object t index.

(** utils.py:37-41 [AVBObjectRef.valid]; [object_positions] has the header as its first entry
    (file.py:170-180). *)
Definition ref_is_valid (t : opened) (index : Z) : bool :=
  if 1 + len (of_positions t) <=? index then false else true.

(** The bytes [b'NULL'] (utils.py:32). *)
Definition cc_NULL : bytes := [78; 85; 76; 76].

(** utils.py:29-35 [AVBObjectRef.class_id], for indexes that are not negative; [check] is
    [root.check_refs]. *)
Definition ref_class_id (check : bool) (t : opened) (index : Z) : result (option bytes) :=
  if negb check then Ok (Some cc_NULL)
  else if ref_is_valid t index then
    match read_chunk t index with Ok c => Ok (Some (ck_id c)) | Err e => Err e end
  else Ok None.
