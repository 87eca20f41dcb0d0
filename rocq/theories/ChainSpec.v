(** Documents that are saved, opened and saved again, any number of times. A specification; nothing
    here is code of the repository. *)
From Coq Require Import ZArith List.
From Verif Require Import Base IoCtx Dates Objects FileModel FileSpec ResaveSpec Opened.
Import ListNotations.
Open Scope Z_scope.

(** The files that come from a document by saving it, opening the file and saving that, and so on.
    Byte order, recursion limit, time zone and the order of walking may be others each time. *)
Inductive saved_again (d : document) : bytes -> Prop :=
| saved_first : forall lim z bo o, save lim z bo d = (o, None) -> saved_again d (run_ops o)
| saved_more : forall file t lim z bo self kids o,
    saved_again d file -> open_table file = Ok t -> follows kids ->
    save lim z bo (opened_doc z t self kids) = (o, None) -> saved_again d (run_ops o).

(** Where objects are to be found: in a document, in a file that is open. *)
Definition places := Z -> option obj.
Definition in_document (d : document) : places := fun a => match dc_heap d a with Ok nd => Some (nd_obj nd) | Err _ => None end.
Definition in_file (t : opened) : places := fun n => match read_object t n with Ok r => r | Err _ => None end.

(** What is at [a] here and at [b] there looks the same to anyone who follows at most [n] references
    in a row: both are None, or both are objects of one class whose properties other than references
    are equal, and reference by reference what they lead to looks the same. (A track without lock
    number counts as one with the number 0: C25_equal has the exact statement.) *)
Fixpoint alike (n : nat) (here there : places) (a b : Z) : Prop :=
  match n with
  | O => True
  | S n' =>
    (a = 0 /\ b = 0) \/
    (a <> 0 /\ b <> 0 /\ exists o o', here a = Some o /\ there b = Some o' /\
      obj_map (fun _ => 0) o = obj_map (fun _ => 0) o' /\
      Forall2 (alike n' here there) (obj_refs o) (obj_refs o'))
  end.

(** A chain of saves on one machine: room, time zone and the order of walking stay the same. The
    byte order of the last file is given. *)
Inductive saved_with (lim : nat) (z : zone) (kids : Z -> obj -> list Z) (d : document) : border -> bytes -> Prop :=
| with_first : forall bo o, save lim z bo d = (o, None) -> saved_with lim z kids d bo (run_ops o)
| with_more : forall bo bo' file t self o,
    saved_with lim z kids d bo file -> open_table file = Ok t ->
    save lim z bo' (opened_doc z t self kids) = (o, None) -> saved_with lim z kids d bo' (run_ops o).
