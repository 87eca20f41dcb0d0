(** Model of a save step by step (src/avb/file.py, core.py): the objects are loaded while the file is
    being written. FileModel.v has the walk first and the writing after it, which is the same as long
    as loading gives the same at any moment; it need not when the file being written is the one the
    document was opened from. *)
From Coq Require Import ZArith List Bool.
From Verif Require Import Base IoCtx Text Dates Objects FileModel Edited.
Import ListNotations.
Open Scope Z_scope.

(** What getting hold of an object gives, once these steps of the save have been done (utils.py:20-28
    and file.py:262-283: an object that is not in memory is read from [self.f]). *)
Definition view := list fop -> heap.

(** core.py:136-162 and file.py:356-362 run in turns, as the generator makes them: an object is
    loaded, its references are walked, then it is yielded and, unless it has a number already,
    written; while it is written its references are followed again (ioctx.py:183-193). [done] are
    the steps so far, [m] is [ref_mapping], [n] is [next_chunk_id]; [lim] is as in [walk]. *)
Fixpoint stream (lim : nat) (bo : border) (self : Z) (v : view) (a : Z) (done : list fop) (m : mapping) (n : Z)
  : list fop * option exn * mapping * Z :=
  match lim with
  | O => (done, Some OutOfFuel, m, n)
  | S lim' =>
    match v done a with
    | Err e => (done, Some e, m, n)
    | Ok nd =>
      let '(done1, s, m1, n1) :=
        (fix streams (ks : list Z) (done : list fop) (m : mapping) (n : Z) : list fop * option exn * mapping * Z :=
          match ks with
          | [] => (done, None, m, n)
          | k :: ks' =>
            match stream lim' bo self v k done m n with
            | (done1, Some e, m1, n1) => (done1, Some e, m1, n1)
            | (done1, None, m1, n1) => streams ks' done1 m1 n1
            end
          end) (nd_kids nd) done m n in
      match s with
      | Some e => (done1, Some e, m1, n1)
      | None =>
        match m1 (nd_id nd) with
        | Some _ => (done1, None, m1, n1)
        | None =>
          let m2 := fun i => if i =? nd_id nd then Some (n1 + 1) else m1 i in
          let '(o, s) := run_writers (write_object bo self (v done1) m2 nd) in (done1 ++ o, s, m2, n1 + 1)
        end
      end
    end
  end.

(** file.py:348-370 [write]: the steps and the exception, if any. The memory of [d] is not looked at,
    [v] stands for it. *)
Definition save_over (lim : nat) (z : zone) (bo : border) (d : document) (v : view) : list fop * option exn :=
  let '(o1, s1) := run_writers (head_before z bo d) in
  match s1 with
  | Some e => (o1, Some e)
  | None =>
    let '(o2, s2) := run_writers (head_counts bo ++ head_after z bo d) in
    match s2 with
    | Some e => (o1 ++ o2, Some e)
    | None =>
      let '(o3, s3, _, n) :=
        if dc_content d =? 0 then (o1 ++ o2, None, fun _ => None, 0)
        else stream lim bo (dc_self d) v (dc_content d) (o1 ++ o2) (fun _ => None) 0 in
      match s3 with
      | Some e => (o3, Some e)
      | None => let '(o4, s4) := save_counts bo (len (run_ops o1)) n in (o3 ++ o4, s4)
      end
    end
  end.

(** An opened document whose file is being changed: objects in memory are as they are, others are
    read with the table made when the file was opened (file.py:172-180) from the file as it is at
    that moment. The file object has a buffer, and so has the one that is written to (file.py:124 and
    354), so what it shows is left open: [f]. *)
Definition seen (s : editing) (f : list fop -> option opened) (self : Z) (kids : Z -> obj -> list Z) : view :=
  fun done => edit_heap {| ed_file := f done; ed_live := ed_live s; ed_modified := ed_modified s;
                           ed_next := ed_next s; ed_content := ed_content s |} self kids.

(** The table of an opened file over other bytes (file.py:172 and 270-282). *)
Definition with_bytes (t : opened) (b : bytes) : opened :=
  {| of_file := b; of_head := of_head t; of_stamp := of_stamp t; of_version := of_version t;
     of_start := of_start t; of_positions := of_positions t |}.

(** file.py:124 and 354 for the same path: [io.open(path, 'wb')] empties the file; of what was
    written since, the first [shown done] bytes have reached it. *)
Definition itself (t : opened) (shown : list fop -> nat) : list fop -> option opened :=
  fun done => Some (with_bytes t (firstn (shown done) (run_ops done))).
