(** Results, byte readers, byte writers and the loops the readers are made of.
    Nothing here is specific to one class of the format. *)
From Coq Require Import ZArith List Bool.
Import ListNotations.
Open Scope Z_scope.

(** The Python exceptions that the modelled code can raise.
    [RefErr] is the bare [Exception("object not written yet")] of ioctx.py:189,
    [GenericErr] any other bare [Exception], [OutOfFuel] marks fuel exhaustion of a
    loop of the model (proved unreachable where it matters). *)
Inductive exn :=
| StructError | AssertionErr | ValueErr | AttributeErr | TypeErr | KeyErr | IndexErr
| UnicodeErr | NotImplementedErr | OverflowErr | ZeroDivisionErr | NameErr | RefErr | GenericErr
| OutOfFuel.

(** A Python call: a value or an exception, as at file.py:308-314. *)
Inductive result (A : Type) : Type :=
| Ok (a : A)
| Err (e : exn).
Arguments Ok {A} a.
Arguments Err {A} e.

(** No line of its own: an exception passes through every call, as in file.py:308-314. *)
Definition rbind {A B} (m : result A) (k : A -> result B) : result B :=
  match m with Ok a => k a | Err e => Err e end.

(** Byte strings: Python [bytes]/[bytearray]; each element stands for a byte 0..255
    (ioctx.py:98-99). *)
Definition bytes := list Z.

(** What an element of [bytes] is, ioctx.py:98-99. A specification. *)
Definition is_byte (x : Z) : Prop := 0 <= x < 256.

(** A reader works on what is left of the file object [f] (ioctx.py, all [read_*]):
    it returns its value and what is left afterwards. *)
Definition reader (A : Type) : Type := bytes -> result (A * bytes).

(** A reader that is done: [return], as ioctx.py:100. *)
Definition ret {A} (a : A) : reader A := fun b => Ok (a, b).

(** [raise], as ioctx.py:181. *)
Definition fail {A} (e : exn) : reader A := fun _ => Err e.

(** Statement after statement of a reader, as ioctx.py:128-132. *)
Definition bind {A B} (r : reader A) (k : A -> reader B) : reader B :=
  fun b => match r b with Ok (a, b') => k a b' | Err e => Err e end.

Declare Scope reader_scope.
Delimit Scope reader_scope with reader.
Notation "x <- r ;; k" := (bind r (fun x => k))
  (at level 61, r at next level, right associativity) : reader_scope.
Notation "' p <- r ;; k" := (bind r (fun x => match x with p => k end))
  (at level 61, p pattern, r at next level, right associativity) : reader_scope.
Notation "r ;;; k" := (bind r (fun _ => k))
  (at level 61, right associativity) : reader_scope.
Open Scope reader_scope.

(** A writer yields the bytes appended to the output buffer, or an exception (all [write_*] of
    ioctx.py, as 102-104). *)
Definition writer := result bytes.

(** Statement after statement of a writer, as ioctx.py:172-174. *)
Definition wcat (a b : writer) : writer :=
  match a with
  | Ok x => match b with Ok y => Ok (x ++ y) | Err e => Err e end
  | Err e => Err e
  end.
Infix "+++" := wcat (right associativity, at level 60).

(** A writer that writes nothing: [return], as ioctx.py:164-166. *)
Definition wnil : writer := Ok [].

(** [f.write(data)] for a byte string (as ioctx.py:174). *)
Definition wbytes (b : bytes) : writer := Ok b.

(** [assert cond] in a writer (as ioctx.py:392-395). *)
Definition wassert (c : bool) : writer := if c then wnil else Err AssertionErr.

(** [assert cond] in a reader (as ioctx.py:208). *)
Definition rassert (c : bool) : reader unit := if c then ret tt else fail AssertionErr.

(** [if hasattr(self, 'x'): ...] (as components.py:89-93). *)
Definition wopt {A} (o : option A) (w : A -> writer) : writer :=
  match o with Some v => w v | None => wnil end.

(** [for x in l: w(x)] (as components.py:176-177). *)
Fixpoint wlist {A} (w : A -> writer) (l : list A) : writer :=
  match l with [] => wnil | x :: l' => w x +++ wlist w l' end.

(** [for i in range(n): r(f)], collecting the results (as components.py:162-165). *)
Fixpoint rlist {A} (n : nat) (r : reader A) : reader (list A) :=
  match n with
  | O => ret []
  | S n' => x <- r ;; l <- rlist n' r ;; ret (x :: l)
  end.

(** [for x in xs: r(x)], one reader per element of a list that is already there (as
    trackgroups.py:163-165). *)
Fixpoint rmapm {A B} (r : A -> reader B) (xs : list A) : reader (list B) :=
  match xs with
  | [] => ret []
  | x :: xs' => y <- r x ;; l <- rmapm r xs' ;; ret (y :: l)
  end.

(** Number of bytes or elements as an integer: Python [len] (as ioctx.py:172). *)
Definition len {A} (l : list A) : Z := Z.of_nat (length l).

(** [f.read(n)]: at most [n] bytes, fewer at the end of the data, everything if [n < 0] (as
    ioctx.py:158). *)
Definition fread (n : Z) : reader bytes := fun b =>
  if n <? 0 then Ok (b, [])
  else let k := Z.to_nat (Z.min n (len b)) in Ok (firstn k b, skipn k b).

(** [unpack(fmt, f.read(n))] for a format of [n] bytes: a short read is [struct.error] (as
    ioctx.py:98-99). *)
Definition take (n : nat) : reader bytes := fun b =>
  if Nat.ltb (length b) n then Err StructError else Ok (firstn n b, skipn n b).
