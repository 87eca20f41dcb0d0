(** Model of copying objects between documents (src/avb/core.py, attributes.py, file.py).
    Everything changeable has an address; references ([AVBObjectRef]) count as the objects they lead
    to (loading is in DocModel.v). *)
From Coq Require Import ZArith List Bool.
From Verif Require Import Base.
Import ListNotations.
Open Scope Z_scope.

(** A value of a property, list or dictionary: None, a number, a text, [bytes], something else that
    cannot be changed (a date, a float, a UUID), or something changeable, by address
    (core.py:221-242). *)
Inductive value := VNone | VInt (n : Z) | VText (n : Z) | VBytes (n : Z) | VFixed (n : Z) | VRef (a : Z).

(** Something changeable: an [AVBObject] (its document, class and [property_data]), an [AVBRefList]
    (document, class, parent and entries), an [Attributes], a plain list, a [bytearray], or
    something else (a mob ID, a dictionary of a column; what is in it is a number here).
    core.py:37-63, 166-176; attributes.py:22-30. *)
Inductive thing :=
| TObject (root cls : Z) (props : list (Z * value))
| TRefList (root cls : Z) (parent : option Z) (items : list value)
| TAttrs (root : Z) (items : list (Z * value))
| TList (items : list value)
| TBlob (data : Z)
| TOther (data : Z).

(** What there is: the things by address, and the next free address (core.py:221-242). *)
Record store := { s_mem : Z -> option thing; s_new : Z }.

(** A dictionary lookup (core.py:223). *)
Fixpoint get {V} (l : list (Z * V)) (k : Z) : option V :=
  match l with [] => None | (k', v) :: l' => if k' =? k then Some v else get l' k end.

(** A dictionary assignment: in place, or at the end (core.py:225). *)
Fixpoint set {V} (l : list (Z * V)) (k : Z) (v : V) : list (Z * V) :=
  match l with [] => [(k, v)] | (k', u) :: l' => if k' =? k then (k, v) :: l' else (k', u) :: set l' k v end.

(** A change of the thing at an address (core.py:225-240). *)
Definition update (s : store) (a : Z) (f : thing -> thing) : store :=
  {| s_mem := fun x => if x =? a then option_map f (s_mem s a) else s_mem s x; s_new := s_new s |}.

(** A new thing (core.py:222 and 233). *)
Definition new_thing (s : store) (t : thing) : store * Z :=
  ({| s_mem := fun x => if x =? s_new s then Some t else s_mem s x; s_new := s_new s + 1 |}, s_new s).

(** A value put into a thing: under a key, or at the end of a list (core.py:225-240). *)
Definition add (k : Z) (w : value) (t : thing) : thing :=
  match t with
  | TObject r c p => TObject r c (set p k w)
  | TRefList r c par l => TRefList r c par (l ++ [w])
  | TAttrs r p => TAttrs r (set p k w)
  | TList l => TList (l ++ [w])
  | TBlob _ | TOther _ => t
  end.

(** A default of a class: a value (the very same object for every instance: core.py:178-182), or a
    new thing of the document (the calls of [create] in the [__init__]s: bin.py:83-90, 221-235,
    components.py:32-36, 150-152, 268-270, trackgroups.py:100-102, 1038-1056). The objects such a
    new thing makes in turn (the [SiftItem]s in the list of a bin, the contents of its
    [BinViewSetting]) are left out. *)
Inductive default := DValue (v : value) | DNew (t : Z -> thing).

(** The registered classes (utils.py:100-116): whether [__init__] can be called without arguments
    (trackgroups.py:417: not for [ASPIPlugin]) and the properties it sets, in order. *)
Record class := { c_noargs : bool; c_defaults : list (Z * default) }.
(** The registered classes by their numbers, utils.py:102-115. *)
Definition classes := Z -> option class.

(** The assignments of an [__init__] (core.py:178-182). *)
Fixpoint init (s : store) (root b : Z) (l : list (Z * default)) : store :=
  match l with
  | [] => s
  | (k, DValue v) :: l' => init (update s b (add k v)) root b l'
  | (k, DNew t) :: l' =>
    let '(s1, x) := new_thing s (t root) in init (update s1 b (add k (VRef x))) root b l'
  end.

(** file.py:67-85 [from_name] for an [AVBObject] class (its bookkeeping is in DocModel.v). *)
Definition make (cl : classes) (s : store) (root c : Z) : store * result Z :=
  match cl c with
  | None => (s, Err ValueErr)
  | Some i =>
    let '(s1, b) := new_thing s (TObject root c []) in
    if c_noargs i then (init s1 root b (c_defaults i), Ok b) else (s1, Err TypeErr)
  end.

(** The entries [l] converted one by one and put into the thing at [b] (core.py:223-240). *)
Fixpoint fill (conv : store -> value -> store * result value) (s : store) (b : Z) (l : list (Z * value))
  : store * option exn :=
  match l with
  | [] => (s, None)
  | (k, v) :: l' =>
    match conv s v with
    | (s1, Err e) => (s1, Some e)
    | (s1, Ok w) => fill conv (update s1 b (add k w)) b l'
    end
  end.

(** Entries of a list, without keys (core.py:74-78). *)
Definition keyless (l : list value) : list (Z * value) := map (pair 0) l.

(** [x.copy(root)] where [cp] copies what has the method: an [AVBObject], an [AVBRefList] or an
    [Attributes]. [list.copy], [dict.copy] and [bytearray.copy] take no argument; other values have
    no [copy] ([TOther] is taken to be a mob ID here) (core.py:224-237). *)
Definition call_copy (cp : store -> Z -> store * result Z) (s : store) (v : value) : store * result value :=
  match v with
  | VRef x =>
    match s_mem s x with
    | Some (TObject _ _ _) | Some (TRefList _ _ _ _) | Some (TAttrs _ _) =>
      match cp s x with (s1, Ok y) => (s1, Ok (VRef y)) | (s1, Err e) => (s1, Err e) end
    | Some (TList _) | Some (TBlob _) => (s, Err TypeErr)
    | _ => (s, Err AttributeErr)
    end
  | _ => (s, Err AttributeErr)
  end.

(** core.py:235-238, an entry of a plain list. *)
Definition list_entry (cp : store -> Z -> store * result Z) (s : store) (v : value) : store * result value :=
  match v with
  | VRef x => match s_mem s x with Some (TObject _ _ _) => call_copy cp s v | _ => (s, Ok v) end
  | _ => (s, Ok v)
  end.

(** core.py:229, the parent of a list set. *)
Definition set_parent (b : Z) (t : thing) : thing :=
  match t with TRefList r c _ l => TRefList r c (Some b) l | _ => t end.

(** core.py:224-240, a property of an [AVBObject] for the new object [b]. A plain list is made and
    filled before it is assigned here, in the code it is assigned first. *)
Definition property (cp : store -> Z -> store * result Z) (b : Z) (s : store) (v : value) : store * result value :=
  match v with
  | VRef x =>
    match s_mem s x with
    | Some (TRefList _ _ parent _) =>
      match call_copy cp s v with
      | (s1, Ok (VRef y)) => (match parent with Some _ => update s1 y (set_parent b) | None => s1 end, Ok (VRef y))
      | r => r
      end
    | Some (TObject _ _ _) | Some (TAttrs _ _) => call_copy cp s v
    | Some (TList l) =>
      let '(s1, y) := new_thing s (TList []) in
      match fill (list_entry cp) s1 y (keyless l) with
      | (s2, None) => (s2, Ok (VRef y))
      | (s2, Some e) => (s2, Err e)
      end
    | _ => (s, Ok v)
    end
  | _ => (s, Ok v)
  end.

(** attributes.py:55-65, an entry of an [Attributes]. *)
Definition attribute (cp : store -> Z -> store * result Z) (s : store) (v : value) : store * result value :=
  match v with
  | VInt _ | VText _ => (s, Ok v)
  | VBytes _ => (s, Err ValueErr)
  | VRef x =>
    match s_mem s x with
    | Some (TBlob d) => let '(s1, y) := new_thing s (TBlob d) in (s1, Ok (VRef y))
    | _ => call_copy cp s v
    end
  | _ => call_copy cp s v
  end.

(** core.py:74-78 [AVBRefList.copy], core.py:221-242 [AVBObject.copy] and attributes.py:53-66
    [Attributes.copy], to the document [root]. [lim] is the recursion limit, counted in objects; the
    error for it is [OutOfFuel]. *)
Fixpoint copy (lim : nat) (cl : classes) (root : Z) (s : store) (a : Z) {struct lim} : store * result Z :=
  match lim with
  | O => (s, Err OutOfFuel)
  | S lim' =>
    let finish b r := match r with (s2, None) => (s2, Ok b) | (s2, Some e) => (s2, Err e) end in
    match s_mem s a with
    | Some (TObject _ c p) =>
      match make cl s root c with
      | (s1, Err e) => (s1, Err e)
      | (s1, Ok b) => finish b (fill (property (copy lim' cl root) b) s1 b p)
      end
    | Some (TRefList _ c _ l) =>
      let '(s1, b) := new_thing s (TRefList root c None []) in
      finish b (fill (call_copy (copy lim' cl root)) s1 b (keyless l))
    | Some (TAttrs _ p) =>
      let '(s1, b) := new_thing s (TAttrs root []) in
      finish b (fill (attribute (copy lim' cl root)) s1 b p)
    | _ => (s, Err AttributeErr)
    end
  end.
