(** Model of [AVBRefList] (src/avb/core.py:51-133): a Python list whose entries are references of
    the opened file, index numbers, objects or None. *)
From Coq Require Import ZArith List Bool.
From Verif Require Import Base.
Import ListNotations.
Open Scope Z_scope.

(** An entry: an [AVBObjectRef] at some address with its index, a number, an object, or None
    (core.py:113-119). *)
Inductive entry := ERef (addr index : Z) | ENum (n : Z) | EObj (addr : Z) | ENone.

(** utils.py:20-27 [AVBObjectRef.value]; [load] is [root.read_object] (addresses of objects). *)
Definition ref_value (load : Z -> result (option Z)) (index : Z) : result (option Z) :=
  if index <=? 0 then Ok None else load index.

(** core.py:113-119 [AVBRefList.deref]. *)
Definition deref (load : Z -> result (option Z)) (e : entry) : result (option Z) :=
  match e with
  | ERef _ i => ref_value load i
  | ENum n => ref_value load n
  | EObj a => Ok (Some a)
  | ENone => Ok None
  end.

(** The comparison of [list.remove], [in] and [index]: same object or equal numbers. Objects that
    are themselves lists or dictionaries compare by content in Python; that is not modelled
    (core.py:92-94). *)
Definition entry_eqb (a b : entry) : bool :=
  match a, b with
  | ERef x _, ERef y _ => x =? y
  | ENum x, ENum y => x =? y
  | EObj x, EObj y => x =? y
  | ENone, ENone => true
  | _, _ => false
  end.

(** Python's own list: position of an index, which may count from the end (core.py:96-99 and
    121-130). *)
Definition py_index (n i : Z) : option nat :=
  let j := if i <? 0 then i + n else i in
  if (0 <=? j) && (j <? n) then Some (Z.to_nat j) else None.

(** [list.insert]: the position is clamped (core.py:88-90). *)
Definition py_clamp (n i : Z) : nat :=
  let j := if i <? 0 then i + n else i in Z.to_nat (Z.min n (Z.max 0 j)).

(** [list.remove] (core.py:92-94). *)
Fixpoint py_remove (x : entry) (l : list entry) : option (list entry) :=
  match l with
  | [] => None
  | e :: l' => if entry_eqb e x then Some l' else
      match py_remove x l' with Some r => Some (e :: r) | None => None end
  end.

(** The calls (core.py:80-134). *)
Inductive list_op :=
| LAppend (x : entry) | LExtend (xs : list entry) | LInsert (i : Z) (x : entry) | LRemove (x : entry)
| LPop (i : Z) | LClear | LSort | LReverse | LGet (i : Z) | LSet (i : Z) (x : entry) | LDel (i : Z).

(** What a call leaves: the list, what it returns (None where nothing) or raises, and whether
    [mark_modified] was called (core.py:80-134). *)
Record list_end := { le_list : list entry; le_answer : result (option Z); le_marked : bool }.

(** A call that returns, core.py:80-134. *)
Definition done (l : list entry) : list_end := {| le_list := l; le_answer := Ok None; le_marked := true |}.
(** A call that raises, core.py:80-134. *)
Definition failed (l : list entry) (e : exn) : list_end := {| le_list := l; le_answer := Err e; le_marked := false |}.

(** core.py:80-133, one call. Slices are in Slices.v. *)
Definition list_call (load : Z -> result (option Z)) (l : list entry) (o : list_op) : list_end :=
  match o with
  | LExtend xs => done (l ++ xs)                       (* core.py:80-82 *)
  | LAppend x => done (l ++ [x])                       (* core.py:84-86 *)
  | LInsert i x =>                                     (* core.py:88-90 *)
    let k := py_clamp (len l) i in done (firstn k l ++ x :: skipn k l)
  | LRemove x =>                                       (* core.py:92-94 *)
    match py_remove x l with Some r => done r | None => failed l ValueErr end
  | LPop i =>                                          (* core.py:96-99: taken out before it is loaded *)
    match py_index (len l) i with
    | None => failed l IndexErr
    | Some k =>
      let r := firstn k l ++ skipn (S k) l in
      match deref load (nth k l ENone) with
      | Ok v => {| le_list := r; le_answer := Ok v; le_marked := true |}
      | Err e => failed r e
      end
    end
  | LClear | LSort | LReverse => done l                (* core.py:101-111: [super(...)] without a call *)
  | LGet i =>                                          (* core.py:121-122 *)
    match py_index (len l) i with
    | None => failed l IndexErr
    | Some k => {| le_list := l; le_answer := deref load (nth k l ENone); le_marked := false |}
    end
  | LSet i x =>                                        (* core.py:124-126 *)
    match py_index (len l) i with
    | None => failed l IndexErr
    | Some k => done (firstn k l ++ x :: skipn (S k) l)
    end
  | LDel i =>                                          (* core.py:128-130 *)
    match py_index (len l) i with
    | None => failed l IndexErr
    | Some k => done (firstn k l ++ skipn (S k) l)
    end
  end.

(** core.py:132-134 [__iter__]: what a loop over the list sees. *)
Definition view (load : Z -> result (option Z)) (l : list entry) : list (result (option Z)) := map (deref load) l.

(** [x in l]: inherited from [list], so entries are not loaded (core.py:52-55). *)
Definition list_in (x : entry) (l : list entry) : bool := existsb (fun e => entry_eqb e x) l.
