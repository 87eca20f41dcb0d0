(** Model of a document opened with the accelerated readers: src/avb/file.py:126-132 and 262-323 with
    [fast_readers] filled, as it is by default where the extension was built. *)
From Coq Require Import ZArith List.
From Verif Require Import Base IoCtx Objects FileModel Opened Ext ExtSpec.
Import ListNotations.
Open Scope Z_scope.

(** file.py:266-283, the code and the data of a chunk. A short chunk fails the assertion of line
    283. The number 0 is that of no chunk (line 263). *)
Definition chunk_at (t : opened) (n : Z) : result (bytes * bytes) :=
  match position t n with
  | Err e => Err e
  | Ok pos =>
    match rchunk_head (hd_bo (of_head t)) (skipn (Z.to_nat pos) (of_file t)) with
    | Err e => Err e
    | Ok ((cc, size), b) =>
      let data := firstn (Z.to_nat size) b in
      if len data =? size then Ok (cc, data) else Err AssertionErr
    end
  end.

(** file.py:128-134: the accelerated readers are for little endian files only. *)
Definition fast_readers (bo : border) (k : kind) : option (bytes -> ext_result) :=
  match bo with LE => ext_read k | BE => None end.

(** file.py:285-307, an object made of the data of a chunk. An accelerated reader sets properties of
    the object by their names; the object is the one that has these and no others ([exactly]). No
    bytes are looked for behind it (line 304 is in the other branch). *)
Definition fast_object (t : opened) (n : Z) (o : obj) : Prop :=
  n <> 0 /\ exists cc data k, chunk_at t n = Ok (cc, data) /\ kind_of cc = Some k /\
  match fast_readers (hd_bo (of_head t)) k with
  | Some f => exists d v, f data = ExtOk d /\ exactly k v d /\ o = Obj k v
  | None => robject (of_ictx t) cc data = Ok o
  end.

(** Memory as in [load], Opened.v. Numbers below 1 are those of no object. *)
Definition fast_heap (t : opened) (self : Z) (kids : Z -> obj -> list Z) (h : heap) : Prop :=
  forall n, 0 < n -> match h n with
  | Ok nd => exists o, fast_object t n o /\
      nd = {| nd_doc := self; nd_id := n; nd_obj := o; nd_kids := kids n o |}
  | Err _ => forall o, ~ fast_object t n o
  end.

(** The document [d] of an opened file with another memory. *)
Definition with_heap (d : document) (h : heap) : document :=
  {| dc_self := dc_self d; dc_heap := h; dc_content := dc_content d; dc_version := dc_version d;
     dc_saved := dc_saved d |}.
