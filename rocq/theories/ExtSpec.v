(** Specification: the extensions an object has after a history. *)
From stdpp Require Export gmap.
From Verif Require Import Base Ext.

(** The number of extensions created before. *)
Fixpoint created (h : list xop) : nat := match h with [] => 0 | XAdd _ _ _ _ :: h => S (created h) | XRemove _ :: h => created h end.
(** The extension of a type: the last one added, unless it was removed since. *)
Fixpoint latest (h : list xop) (t : string) : option nat :=
  match h with
  | [] => None
  | XAdd _ t' _ _ :: h' => if bool_decide (t = t') then Some (created h') else latest h' t
  | XRemove t' :: h' => if bool_decide (t = t') then None else latest h' t
  end.
(** The operation is accepted: the extension was made for this object. *)
Definition accepted (self : nat) (o : xop) : Prop :=
  match o with XAdd _ _ ow f => f = true /\ (ow = Some self \/ ow = None) | XRemove _ => True end.
(** Extensions are named after their type: [nm] gives the name. *)
Definition named (nm : string -> string) (o : xop) : Prop := match o with XAdd n t _ _ => n = nm t | XRemove _ => True end.
(** The name determines the type. *)
Definition typed (ty : string -> string) (o : xop) : Prop := match o with XAdd n t _ _ => t = ty n | XRemove _ => True end.
