(** What a program that edits a document means to have: the objects with their contents, as if
    everything stayed in memory for good. A specification; nothing here is code of the repository. *)
From Coq Require Import ZArith List Bool.
From Verif Require Import Base Text Dates Objects FileModel Edited.
Import ListNotations.
Open Scope Z_scope.

(** The objects by identity, which of them were made or assigned to, the last identity given and
    the content. *)
Record meant := {
  mt_objects : Z -> result obj;
  mt_assigned : Z -> Prop;
  mt_next : Z;
  mt_content : Z }.

(** An object with other contents. *)
Definition now_is (w : meant) (i : Z) (o : obj) (assigned : Prop) : meant :=
  {| mt_objects := fun x => if Z.eq_dec x i then Ok o else mt_objects w x;
     mt_assigned := fun x => mt_assigned w x \/ (x = i /\ assigned);
     mt_next := mt_next w; mt_content := mt_content w |}.

(** Contents that an object can have without changing its class. *)
Definition suits (w : meant) (i : Z) (o : obj) : bool :=
  match mt_objects w i with
  | Ok old => if list_eq_dec Z.eq_dec (class_id (okind o)) (class_id (okind old)) then true else false
  | Err _ => false
  end.

(** Looking at objects and letting them go means nothing. *)
Definition mean_step (w : meant) (e : edit) : meant :=
  match e with
  | Follow _ | Collect _ => w
  | Make o => now_is {| mt_objects := mt_objects w; mt_assigned := mt_assigned w; mt_next := mt_next w + 1;
                        mt_content := mt_content w |} (mt_next w + 1) o True
  | Assign i o => if suits w i o then now_is w i o True else w
  | InPlace i o => if suits w i o then now_is w i o False else w
  | Root i => {| mt_objects := mt_objects w; mt_assigned := mt_assigned w; mt_next := mt_next w; mt_content := i |}
  end.

(** What a document means that was opened, and one that was made. *)
Definition mean_opened (t : opened) : meant :=
  {| mt_objects := fun i => match read_object t i with
       | Ok (Some o) => Ok o | Ok None => Err AttributeErr | Err e => Err e end;
     mt_assigned := fun _ => False; mt_next := hd_count (of_head t) + 1; mt_content := hd_root (of_head t) |}.
Definition mean_new : meant :=
  {| mt_objects := fun _ => Err AttributeErr; mt_assigned := fun _ => False; mt_next := 0; mt_content := 0 |}.

(** Changes in place are made only to objects that were made by the program, or assigned to, before. *)
Fixpoint careful (w : meant) (h : list edit) : Prop :=
  match h with
  | [] => True
  | e :: h' => match e with InPlace i _ => mt_assigned w i | _ => True end /\ careful (mean_step w e) h'
  end.

(** The document meant. *)
Definition meant_doc (w : meant) (self : Z) (kids : Z -> obj -> list Z) (version : str) (saved : Z) : document :=
  {| dc_self := self; dc_content := mt_content w; dc_version := version; dc_saved := saved;
     dc_heap := fun i => match mt_objects w i with
       | Ok o => Ok {| nd_doc := self; nd_id := i; nd_obj := o; nd_kids := kids i o |}
       | Err e => Err e end |}.

(** The contents an edit brings along, and the object it changes. *)
Definition brings (e : edit) (o : obj) : Prop :=
  match e with Make o' | Assign _ o' | InPlace _ o' => o' = o | _ => False end.
Definition touches (w : meant) (e : edit) (i : Z) : Prop :=
  match e with Make _ => i = mt_next w + 1 | Assign j _ | InPlace j _ => i = j | _ => False end.

(** No edit of the list changes an object. *)
Fixpoint leaves (w : meant) (h : list edit) (i : Z) : Prop :=
  match h with
  | [] => True
  | e :: h' => ~ touches w e i /\ leaves (mean_step w e) h' i
  end.

(** Edits that do more than look or let go. *)
Definition acts (e : edit) : bool := match e with Follow _ | Collect _ => false | _ => true end.
