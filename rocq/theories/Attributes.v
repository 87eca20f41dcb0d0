(** Model of src/avb/attributes.py: attribute dictionaries and the two list classes. *)
From Coq Require Import ZArith List Bool.
From Verif Require Import Base IoCtx Text Storable.
Import ListNotations.
Open Scope Z_scope.

(** A value of an attribute dictionary. [None] is the reference 0 (attributes.py:113-115,
    ioctx.py:184-185). Values of other Python types are not storable and not modelled. *)
Inductive attr_value :=
| AInt (v : Z)
| AStr (v : str)
| ARef (r : Z)
| ABob (v : bytes).

(** The dictionary, in insertion order (an [OrderedDict]) (attributes.py:21-30). *)
Definition attributes := list (str * attr_value).

(** A value with its reference renamed by [f]; attributes.py:96-130. *)
Definition attr_value_map (f : Z -> Z) (v : attr_value) : attr_value :=
  match v with ARef r => ARef (f r) | _ => v end.

(** [attributes] with its references renamed by [f]; attributes.py:24. *)
Definition attributes_map (f : Z -> Z) (o : attributes) : attributes :=
  map (fun p => (fst p, attr_value_map f (snd p))) o.

(** The references of [attributes]; attributes.py:24. *)
Definition attributes_refs (o : attributes) : list Z :=
  flat_map (fun p => match snd p with ARef r => [r] | _ => [] end) o.

(** What a value has to satisfy to be stored exactly; attributes.py:68-130. *)
Definition attr_value_ok (v : attr_value) : Prop :=
  match v with AStr s => str_ok s | _ => True end.

(** Keys are distinct (always true of a dictionary); keys and texts are storable;
    attributes.py:24. *)
Definition attributes_ok (o : attributes) : Prop :=
  NoDup (map fst o) /\ Forall (fun p => str_ok (fst p) /\ attr_value_ok (snd p)) o.

(** Equality of the keys of a dictionary; attributes.py:36-38. *)
Definition str_eqb (a b : str) : bool := if list_eq_dec Z.eq_dec a b then true else false.

(** [d[key] = value] of an [OrderedDict]: an existing key keeps its place (attributes.py:36-38). *)
Fixpoint dict_set {V} (d : list (str * V)) (k : str) (v : V) : list (str * V) :=
  match d with
  | [] => [(k, v)]
  | (k', v') :: d' => if str_eqb k' k then (k, v) :: d' else (k', v') :: dict_set d' k v
  end.

(** attributes.py:76-90: one entry. *)
Definition rattr (i : ictx) : reader (str * attr_value) :=
  attr_type <- ru32 (ibo i) ;;
  attr_name <- rstr (ibo i) ;;
  if attr_type =? 1 then v <- rs32 (ibo i) ;; ret (attr_name, AInt v)
  else if attr_type =? 2 then v <- rstr (ibo i) ;; ret (attr_name, AStr v)
  else if attr_type =? 3 then v <- rref i ;; ret (attr_name, ARef v)
  else if attr_type =? 4 then
    size <- ru32 (ibo i) ;; v <- fread size ;; ret (attr_name, ABob v)
  else fail GenericErr.

(** attributes.py:68-94 [Attributes.read]. *)
Definition rattributes (i : ictx) : reader attributes :=
  rtag 2 ;;; rtag 1 ;;;
  count <- ru32 (ibo i) ;;
  l <- rlist (Z.to_nat count) (rattr i) ;;
  rtag 3 ;;;
  ret (fold_left (fun d p => dict_set d (fst p) (snd p)) l []).

(** attributes.py:102-128: one entry. *)
Definition wattr (c : octx) (p : str * attr_value) : writer :=
  let '(key, value) := p in
  match value with
  | AInt v => wu32 (obo c) 1 +++ wstr (obo c) key +++ ws32 (obo c) v
  | AStr v => wu32 (obo c) 2 +++ wstr (obo c) key +++ wstr (obo c) v
  | ARef r => wu32 (obo c) 3 +++ wstr (obo c) key +++ wref c r
  | ABob v => wu32 (obo c) 4 +++ wstr (obo c) key +++ wu32 (obo c) (len v) +++ wbytes v
  end.

(** attributes.py:96-130 [Attributes.write]. *)
Definition wattributes (c : octx) (o : attributes) : writer :=
  wu8 2 +++ wu8 1 +++ wu32 (obo c) (len o) +++ wlist (wattr c) o +++ wu8 3.

(** attributes.py:132-157 [ParameterList]. *)
Definition parameter_list := list Z.
(** [parameter_list] with its references renamed by [f]; attributes.py:132-157. *)
Definition parameter_list_map (f : Z -> Z) (o : parameter_list) : parameter_list := map f o.
(** The references of [parameter_list]; attributes.py:132-157. *)
Definition parameter_list_refs (o : parameter_list) : list Z := o.
(** What [parameter_list] has to satisfy to be stored exactly; attributes.py:132-157. *)
Definition parameter_list_ok (o : parameter_list) : Prop := True.

(** attributes.py:136-146 [ParameterList.read]. *)
Definition rparameter_list (i : ictx) : reader parameter_list :=
  rtag 2 ;;; rtag 1 ;;;
  count <- rs32 (ibo i) ;;
  l <- rlist (Z.to_nat count) (rref i) ;;
  rtag 3 ;;; ret l.

(** attributes.py:148-157 [ParameterList.write]. *)
Definition wparameter_list (c : octx) (o : parameter_list) : writer :=
  wu8 2 +++ wu8 1 +++ ws32 (obo c) (len o) +++ wlist (wref c) o +++ wu8 3.

(** attributes.py:159-185 [TimeCrumbList]. *)
Definition time_crumb_list := list Z.
(** [time_crumb_list] with its references renamed by [f]; attributes.py:159-185. *)
Definition time_crumb_list_map (f : Z -> Z) (o : time_crumb_list) : time_crumb_list := map f o.
(** The references of [time_crumb_list]; attributes.py:159-185. *)
Definition time_crumb_list_refs (o : time_crumb_list) : list Z := o.
(** What [time_crumb_list] has to satisfy to be stored exactly; attributes.py:159-185. *)
Definition time_crumb_list_ok (o : time_crumb_list) : Prop := True.

(** attributes.py:164-174 [TimeCrumbList.read]. *)
Definition rtime_crumb_list (i : ictx) : reader time_crumb_list :=
  rtag 2 ;;; rtag 1 ;;;
  count <- rs16 (ibo i) ;;
  l <- rlist (Z.to_nat count) (rref i) ;;
  rtag 3 ;;; ret l.

(** attributes.py:176-185 [TimeCrumbList.write]. *)
Definition wtime_crumb_list (c : octx) (o : time_crumb_list) : writer :=
  wu8 2 +++ wu8 1 +++ ws16 (obo c) (len o) +++ wlist (wref c) o +++ wu8 3.
