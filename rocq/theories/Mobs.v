(** Model of the mob lookup of a bin (src/avb/bin.py) and of the listing of dependent mobs
    (src/avb/trackgroups.py). Mobs are addresses; a mob ID is a number (mobid.py:332-365: two
    [MobID]s are equal, and hash alike, when their bytes are). *)
From Coq Require Import ZArith List Bool.
From Verif Require Import Base.
Import ListNotations.
Open Scope Z_scope.

(** What the lookup uses of a bin: the mobs of [items] in order (None for an item without mob) and
    [_mob_dict], last entry of a key first. Other items and properties are not needed
    (bin.py:372-410). *)
Record mobs_bin := { b_items : list (option Z); b_dict : list (Z * Z) }.

(** [d.get(key, None)] on such a table (bin.py:379). *)
Fixpoint dict_get (d : list (Z * Z)) (key : Z) : option Z :=
  match d with
  | [] => None
  | (k, v) :: d' => if k =? key then Some v else dict_get d' key
  end.

(** bin.py:376-377, the loop that fills [_mob_dict]; [mob.mob_id] on None is an [AttributeError],
    and the entries made before it stay. [mid] gives the [mob_id] of a mob. *)
Fixpoint build_dict (mid : Z -> Z) (items : list (option Z)) (d : list (Z * Z)) : list (Z * Z) * option exn :=
  match items with
  | [] => (d, None)
  | None :: _ => (d, Some AttributeErr)
  | Some m :: items' => build_dict mid items' ((mid m, m) :: d)
  end.

(** bin.py:372-379 [Bin.find_by_mob_id]: the bin afterwards and the mob, None, or the exception. *)
Definition find_by_mob_id (mid : Z -> Z) (b : mobs_bin) (id : Z) : mobs_bin * result (option Z) :=
  match b_dict b with
  | _ :: _ => (b, Ok (dict_get (b_dict b) id))
  | [] =>
    let '(d, s) := build_dict mid (b_items b) [] in
    ({| b_items := b_items b; b_dict := d |},
     match s with Some e => Err e | None => Ok (dict_get d id) end)
  end.

(** bin.py:381-389 [Bin.add_mob], for a mob that is not None. *)
Definition add_mob (mid : Z -> Z) (b : mobs_bin) (m : Z) : mobs_bin :=
  {| b_items := b_items b ++ [Some m];
     b_dict := match b_dict b with [] => [] | _ :: _ => (mid m, m) :: b_dict b end |}.

(** bin.py:391-394 [Bin.mobs], the generator run to its end. *)
Definition bin_mobs (b : mobs_bin) : list (option Z) := b_items b.

(** What the filters need of a mob: [mob_type] as its code and [usage_code] (bin.py:396-409). *)
Record mob_kind := { mk_type : Z; mk_usage : Z }.

(** [mob.mob_type] of an item's mob: None has no such attribute and unknown codes raise
    (trackgroups.py:1148-1157). *)
Definition item_type (kind : Z -> mob_kind) (i : option Z) : result (Z * mob_kind) :=
  match i with
  | None => Err AttributeErr
  | Some m => let t := mk_type (kind m) in
    if (t =? 1) || (t =? 2) || (t =? 3) then Ok (m, kind m) else Err ValueErr
  end.

(** The loop common to bin.py:396-409: the mobs yielded and the exception that ended it. *)
Fixpoint filter_mobs (kind : Z -> mob_kind) (keep : mob_kind -> bool) (items : list (option Z)) : list Z * option exn :=
  match items with
  | [] => ([], None)
  | i :: items' =>
    match item_type kind i with
    | Err e => ([], Some e)
    | Ok (m, k) =>
      let '(l, s) := filter_mobs kind keep items' in
      (if keep k then m :: l else l, s)
    end
  end.

(** bin.py:396-399 [Bin.toplevel]. *)
Definition toplevel (kind : Z -> mob_kind) (b : mobs_bin) : list Z * option exn :=
  filter_mobs kind (fun k => (mk_type k =? 1) && (mk_usage k =? 0)) (b_items b).

(** bin.py:401-404 [Bin.compositionmobs]. *)
Definition compositionmobs (kind : Z -> mob_kind) (b : mobs_bin) : list Z * option exn :=
  filter_mobs kind (fun k => mk_type k =? 1) (b_items b).

(** bin.py:406-409 [Bin.mastermobs]. *)
Definition mastermobs (kind : Z -> mob_kind) (b : mobs_bin) : list Z * option exn :=
  filter_mobs kind (fun k => mk_type k =? 2) (b_items b).

(** ** Dependent mobs *)

(** [visited], the stack with its end first, and what has been yielded, last first
    (trackgroups.py:233-234). *)
Record walk_state := { w_visited : list Z; w_stack : list Z; w_out : list Z }.

(** [x in visited] (trackgroups.py:245 and 251). *)
Definition visitedb (v : list Z) (x : Z) : bool := existsb (Z.eqb x) v.

(** trackgroups.py:236-254, one turn of the loop of [dependant_mobs] with a stack that is not
    empty. [refs m] are the mobs ([obj.mob], None left out) of the source clips that
    [walk_references] meets from [m], in that order; [mid] gives mob IDs; [self] is the mob asked. *)
Definition walk_turn (refs : Z -> list Z) (mid : Z -> Z) (self : Z) (s : walk_state) (mob : Z) (rest : list Z) : walk_state :=
  let new := filter (fun r => negb (visitedb (w_visited s) (mid r))) (refs mob) in
  match new with
  | _ :: _ => {| w_visited := w_visited s; w_stack := rev new ++ mob :: rest; w_out := w_out s |}
  | [] =>
    if visitedb (w_visited s) (mid mob)
    then {| w_visited := w_visited s; w_stack := rest; w_out := w_out s |}
    else {| w_visited := mid mob :: w_visited s; w_stack := rest;
            w_out := if mob =? self then w_out s else mob :: w_out s |}
  end.

(** trackgroups.py:228-254 [dependant_mobs]: the mobs yielded, in order, if the loop ends within
    [n] turns ([OutOfFuel] if it does not). *)
Fixpoint walk_loop (n : nat) (refs : Z -> list Z) (mid : Z -> Z) (self : Z) (s : walk_state) : result (list Z) :=
  match w_stack s with
  | [] => Ok (rev (w_out s))
  | mob :: rest =>
    match n with
    | O => Err OutOfFuel
    | S n' => walk_loop n' refs mid self (walk_turn refs mid self s mob rest)
    end
  end.

(** trackgroups.py:228-254 [dependant_mobs] from its start. *)
Definition dependant_mobs (n : nat) (refs : Z -> list Z) (mid : Z -> Z) (self : Z) : result (list Z) :=
  walk_loop n refs mid self {| w_visited := []; w_stack := [self]; w_out := [] |}.
