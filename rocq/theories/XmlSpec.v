(** Specification of reading XML documents. *)
From Verif Require Export Xml.

(** Documents: an element written <a/> has no children. *)
Fixpoint wf_xml (t : xml) : Prop :=
  match t with Elem _ _ e cs => (e = true -> cs = []) /\ (fix all l := match l with [] => True | x :: l' => wf_xml x /\ all l' end) cs | _ => True end.
Definition is_elem (t : xml) : bool := match t with Elem _ _ _ _ => true | _ => false end.
Definition elements (l : list xml) : list xml := filter (fun t => is_elem t = true) l.
(** The element without texts and comments. *)
Fixpoint skeleton (t : xml) : xml :=
  match t with
  | Elem n a e cs => Elem n a e ((fix sk l := match l with [] => [] | x :: l' => if is_elem x then skeleton x :: sk l' else sk l' end) cs)
  | _ => t
  end.
(** The last text among the direct children. *)
Definition last_text (l : list xml) : string := default "" (last (omap (fun t => match t with Text s => Some s | _ => None end) l)).
(** The events after which the reader stands on the last event of the element. *)
Definition end_of (t : xml) : event := match t with Elem n a true _ => EStart n a true | Elem n _ false _ => EEnd n | Text s => EText s | Other => EOther end.
(** Some non-empty element strictly inside is named [name]. *)
Fixpoint names_nonempty (name : string) (t : xml) : Prop :=
  match t with
  | Elem n _ e cs => (n = name /\ e = false) \/ e = false /\ (fix any l := match l with [] => False | x :: l' => names_nonempty name x \/ any l' end) cs
  | _ => False
  end.
