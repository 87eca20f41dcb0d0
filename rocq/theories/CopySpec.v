(** What a copy is, independently of the code that makes it. *)
From Coq Require Import ZArith List Bool.
From Verif Require Import Base Copy.
Import ListNotations.
Open Scope Z_scope.

Definition memory := Z -> option thing.

(** Objects, reference lists and attribute dictionaries, as opposed to plain data. *)
Definition object_like (t : thing) : Prop := match t with TObject _ _ _ | TRefList _ _ _ _ | TAttrs _ _ => True | _ => False end.

(** The document a thing belongs to is [root] (plain data belongs to none). *)
Definition belongs (root : Z) (t : thing) : Prop :=
  match t with TObject r _ _ | TRefList r _ _ _ | TAttrs r _ => r = root | _ => True end.

(** The values in a thing. *)
Definition values (t : thing) : list value :=
  match t with
  | TObject _ _ p | TAttrs _ p => map snd p
  | TRefList _ _ _ l | TList l => l
  | TBlob _ | TOther _ => []
  end.

(** [a] leads to [b] through contents (not through the parent of a list). *)
Inductive leads (m : memory) (a : Z) : Z -> Prop :=
| leads_self : leads m a a
| leads_step : forall b t c, leads m a b -> m b = Some t -> In (VRef c) (values t) -> leads m a c.

(** Equal to depth [n]: values that cannot be changed are the same; objects have the same class and
    the second has every property of the first, with an equal value; reference lists have the same
    class and equal entries; attribute dictionaries have the same keys in the same order, with equal
    values; lists have equal entries; other data is the same. *)
Fixpoint equal (n : nat) (m : memory) (v w : value) : Prop :=
  match n with
  | O => True
  | S n' =>
    match v, w with
    | VRef x, VRef y =>
      match m x, m y with
      | Some (TObject _ c p), Some (TObject _ c' p') =>
        c = c' /\ forall k u, get p k = Some u -> exists u', get p' k = Some u' /\ equal n' m u u'
      | Some (TRefList _ c _ l), Some (TRefList _ c' _ l') => c = c' /\ Forall2 (equal n' m) l l'
      | Some (TAttrs _ p), Some (TAttrs _ p') => map fst p = map fst p' /\ Forall2 (equal n' m) (map snd p) (map snd p')
      | Some (TList l), Some (TList l') => Forall2 (equal n' m) l l'
      | Some (TBlob d), Some (TBlob d') => d = d'
      | Some (TOther d), Some (TOther d') => d = d'
      | _, _ => False
      end
    | _, _ => v = w
    end
  end.

(** Nothing object-like can be reached: data only. *)
Definition data_only (m : memory) (a : Z) : Prop := forall b t, leads m a b -> m b = Some t -> ~ object_like t.

(** [m] is in order up to [old]: references do not dangle, keys are not repeated. *)
Definition in_order (m : memory) (old : Z) : Prop := forall a t, a < old -> m a = Some t ->
  (forall b, In (VRef b) (values t) -> b < old /\ exists u, m b = Some u) /\
  match t with TObject _ _ p | TAttrs _ p => NoDup (map fst p) | _ => True end.

(** Plain lists hold objects and data, as those of all the classes do. *)
Definition lists_plain (m : memory) (old : Z) : Prop := forall a l b, a < old -> m a = Some (TList l) -> In (VRef b) l ->
  (exists r c p, m b = Some (TObject r c p)) \/ data_only m b.

(** The defaults of the classes are data that is there from the beginning, or new things of the
    document with data in them. *)
Definition defaults_plain (cl : classes) (m : memory) (old : Z) : Prop := forall c i k d, cl c = Some i -> In (k, d) (c_defaults i) ->
  match d with
  | DValue v => forall b, v = VRef b -> b < old /\ (exists u, m b = Some u) /\ data_only m b
  | DNew t => forall root, belongs root (t root) /\ forall b, In (VRef b) (values (t root)) -> b < old /\ (exists u, m b = Some u) /\ data_only m b
  end.

(** Copying the thing at the first address takes copying the thing at the second. *)
Inductive needs (m : memory) : Z -> Z -> Prop :=
| needs_property : forall x y r c p t, m x = Some (TObject r c p) -> In (VRef y) (map snd p) -> m y = Some t -> object_like t -> needs m x y
| needs_in_list : forall x y z r c p l r' c' p', m x = Some (TObject r c p) -> In (VRef z) (map snd p) -> m z = Some (TList l) ->
    In (VRef y) l -> m y = Some (TObject r' c' p') -> needs m x y
| needs_item : forall x y r c par l t, m x = Some (TRefList r c par l) -> In (VRef y) l -> m y = Some t -> object_like t -> needs m x y
| needs_attribute : forall x y r p t, m x = Some (TAttrs r p) -> In (VRef y) (map snd p) -> m y = Some t -> object_like t -> needs m x y.

(** Nothing about the thing itself keeps it from being copied: its class can be made without
    arguments, the entries of a reference list are all there, the attributes are numbers, texts,
    [bytearray]s or objects. *)
Definition copyable (cl : classes) (m : memory) (x : Z) : Prop :=
  match m x with
  | Some (TObject _ c _) => exists i, cl c = Some i /\ c_noargs i = true
  | Some (TRefList _ _ _ l) => forall v, In v l -> exists y t, v = VRef y /\ m y = Some t /\ object_like t
  | Some (TAttrs _ p) => forall v, In v (map snd p) ->
      match v with VInt _ | VText _ => True | VRef y => exists t, m y = Some t /\ (object_like t \/ exists d, t = TBlob d) | _ => False end
  | _ => False
  end.

(** Everything copying the thing takes copying of. *)
Inductive needs_all (m : memory) (a : Z) : Z -> Prop :=
| needs_self : needs_all m a a
| needs_more : forall x y, needs_all m a x -> needs m x y -> needs_all m a y.

(** There is no endless chain of things to copy (in particular, no circle). *)
Definition ends (m : memory) (a : Z) : Prop := Acc (fun y x => needs m x y) a.

(** What there is before a copy is in order. *)
Record sound (cl : classes) (s : store) : Prop := {
  so_order : in_order (s_mem s) (s_new s);
  so_lists : lists_plain (s_mem s) (s_new s);
  so_defaults : defaults_plain cl (s_mem s) (s_new s) }.
