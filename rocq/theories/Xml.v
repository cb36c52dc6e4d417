(** Reading XML (src/xml/XmlStreamReader.cpp).

    The underlying libxml2 reader is represented by the events it delivers: a cursor is the list of the events from the current one to the end
    of the document. Names are local names (getLocalName ignores the prefix). Malformed documents (errors of libxml2) are not part of the
    model: reading goes on until the end of the document, after which xmlTextReaderLocalName has no node. *)
From stdpp Require Export list strings.
From Verif Require Export Base.

Notation "'letp!' p ':=' e1 'in' e2" := (result_bind (fun p => e2) e1) (at level 200, p strict pattern, e1 at level 200, e2 at level 200, right associativity).

(** Node types the code distinguishes: element (with attributes; [empty]: written <a/>), end of element, text, anything else. *)
Inductive event := EStart (name : string) (attrs : list (string * string)) (empty : bool) | EEnd (name : string) | EText (s : string) | EOther.
Notation cursor := (list event).
Inductive xml := Elem (name : string) (attrs : list (string * string)) (empty : bool) (children : list xml) | Text (s : string) | Other.
(** The events of a document; an element written <a/> gives one event. *)
Fixpoint events (t : xml) : list event :=
  match t with
  | Elem n a true _ => [EStart n a true]
  | Elem n a false cs => EStart n a false :: mjoin (events <$> cs) ++ [EEnd n]
  | Text s => [EText s]
  | Other => [EOther]
  end.
(** xmlTextReaderRead. *)
Definition xread (c : cursor) : cursor := tl c.
(** getLocalName (124-131) on a node that exists, and the end of the document. *)
Definition no_node : string := "Element does not have any local name".
Definition local_name (c : cursor) : result string :=
  match c with [] => Throw no_node | EStart n _ _ :: _ | EEnd n :: _ => Ok n | EText _ :: _ => Ok "#text" | EOther :: _ => Ok "#comment" end.
(** getAttributeValue / getOptionalAttributeValue for strings: XmlStreamReader.cpp:96-109, 196-206. *)
Definition attr (c : cursor) (name : string) : result (option string) :=
  match c with
  | EStart _ a _ :: _ => Ok (snd <$> (snd <$> list_find (fun kv => fst kv = name) a))
  | _ => Throw "Unexpected node type"
  end.
Definition attr_value (c : cursor) (name : string) : result string :=
  let! v := attr c name in match v with Some v => Ok v | None => Throw ("Attribute " +:+ name +:+ " does not exists") end.
Definition attr_or (c : cursor) (name d : string) : result string := let! v := attr c name in Ok (default d v).
(** readCharacters (267-270) and getText (254-265). *)
Definition read_characters (c : cursor) : result (string * cursor) :=
  match xread c with EText s :: l => Ok (s, EText s :: l) | _ => Throw "Unexpected node type" end.

Section handler.
  Context {S : Type} (handler : S -> cursor -> result (S * cursor)).
  (** The loop of readUntilEndElement (289-307): [text] is the last text, the cursor is on the node just read. *)
  Fixpoint until_loop (fuel : nat) (name text : string) (s : S) (c : cursor) : result (string * S * cursor) :=
    match fuel with
    | 0 => OutOfFuel
    | Datatypes.S fuel' =>
      match c with
      | [] => Throw no_node
      | EText t :: _ => until_loop fuel' name t s (xread c)
      | EOther :: _ => until_loop fuel' name text s (xread c)
      | EEnd n :: _ => if String.eqb n name then Ok (text, s, c) else until_loop fuel' name text s (xread c)
      | EStart _ _ _ :: _ => letp! (s', c') := handler s c in until_loop fuel' name text s' (xread c')
      end
    end.
  (** readUntilEndElement: XmlStreamReader.cpp:276-314. *)
  Definition read_until (fuel : nat) (name : string) (s : S) (c : cursor) : result (string * S * cursor) :=
    match c with
    | [] => Throw ("An error occurred while reading <" +:+ name +:+ ">")
    | EStart _ _ true :: _ => Ok ("", s, c)
    | _ => until_loop fuel name "" s (xread c)
    end.
End handler.
(** readUntilEndElement without handler: XmlStreamReader.cpp:272-274. *)
Definition skip_until (fuel : nat) (name : string) (c : cursor) : result (string * cursor) :=
  letp! (t, _, c') := read_until (fun (_ : unit) c => Ok (tt, c)) fuel name tt c in Ok (t, c').
(** readUntilNextElement: XmlStreamReader.cpp:316-324 (at the end of the document it just stops). *)
Fixpoint next_loop (c : cursor) : cursor := match c with [] => [] | EStart _ _ _ :: _ => c | _ :: c' => next_loop c' end.
Definition read_until_next (c : cursor) : cursor := next_loop (xread c).

(** The way all readers of the library are written: a handler that reads each child with readUntilEndElement again (generic version: the
    element is returned with the elements inside it). *)
Fixpoint read_tree (fuel : nat) (c : cursor) : result (xml * cursor) :=
  match fuel with
  | 0 => OutOfFuel
  | S fuel' =>
    match c with
    | EStart n a e :: _ =>
      letp! (_, cs, c') := read_until (fun cs c => letp! (t, c') := read_tree fuel' c in Ok (cs ++ [t], c')) fuel' n [] c in
      Ok (Elem n a e cs, c')
    | _ => Throw "Unexpected node type"
    end
  end.
