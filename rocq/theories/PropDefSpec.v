(** Which properties a class is said to have. A specification; nothing here is code of the
    repository. *)
From Coq Require Import ZArith String List Bool.
From Verif Require Import Base Objects Ext ExtSpec PropDefs.
Import ListNotations.
Open Scope string_scope.
Open Scope list_scope.

(** A class has the properties it lists and those of the class it is derived from. *)
Inductive has_property (l : list pyclass) : string -> string -> Prop :=
| own_property : forall c n, In c l -> In n (pc_defs c) -> has_property l (pc_name c) n
| inherited_property : forall c n, In c l -> has_property l (pc_parent c) n -> has_property l (pc_name c) n.

(** A class is another one or derived from it. *)
Inductive is_a (l : list pyclass) : string -> string -> Prop :=
| is_itself : forall n, is_a l n n
| is_derived : forall c b, In c l -> is_a l (pc_parent c) b -> is_a l (pc_name c) b.

(** The attributes that are no properties and that can be set: the slots, and a setter. *)
Definition other_attributes : list string :=
  ["root"; "property_data"; "instance_id"; "__weakref__"; "_mob_dict"; "media_kind"].

(** A code as text. *)
Fixpoint code_text (b : bytes) : string :=
  match b with
  | [] => EmptyString
  | x :: b' => String (Ascii.ascii_of_nat (Z.to_nat x)) (code_text b')
  end.

(** The class of the tracks, and of the parameters, that an object owns (trackgroups.py:30,
    misc.py:205). *)
Definition child_class (name : string) : string := if String.eqb name "tracks" then "Track" else "EffectParam".
