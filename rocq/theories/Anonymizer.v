(** Model of the anonymizer: src/iidm/converter/SimpleAnonymizer.cpp. *)
From Coq Require Export Ascii.
From Verif Require Export Base.

(** std::string: its characters. *)
Notation str := (list ascii).
(** getAlpha: 58-69; the loop on n, [acc] being result.  [fuel] at least n. *)
Fixpoint alpha_loop (fuel n : nat) (acc : str) : str :=
  match fuel with
  | O => acc
  | S f =>
    match n with
    | O => acc
    | S m => alpha_loop f ((m - m mod 26) / 26) (ascii_of_nat (m mod 26 + 65) :: acc)
    end
  end.
Definition get_alpha (n : nat) : str := alpha_loop n n [].

(** Mapping = boost::bimap<std::string, std::string> (SimpleAnonymizer.hpp): the pairs, in no particular order. *)
Notation mapping := (list (str * str)).
Definition bm_left (m : mapping) (s : str) : option str := snd <$> (snd <$> list_find (fun p => p.1 = s) m).
Definition bm_right (m : mapping) (c : str) : option str := fst <$> (snd <$> list_find (fun p => p.2 = c) m).
(** bimap::insert: nothing if one of the two keys is present. *)
Definition bm_insert (s c : str) (m : mapping) : mapping :=
  match bm_left m s, bm_right m c with None, None => (s, c) :: m | _, _ => m end.

(** anonymizeString: 28-40. *)
Definition anonymize (s : str) (m : mapping) : str * mapping :=
  if bool_decide (s = []) then ([], m)
  else match bm_left m s with
       | Some c => (c, m)
       | None => let c := get_alpha (length m + 1) in (c, bm_insert s c m)
       end.
(** deanonymizeString: 46-56. *)
Definition deanonymize (c : str) (m : mapping) : result str :=
  if bool_decide (c = []) then Ok []
  else match bm_right m c with Some s => Ok s | None => Throw "Mapping not found for anonymized string" end.

(** boost::split with is_any_of(";") and std::getline: the pieces between the separators; getline does not give a last empty piece. *)
Fixpoint split_on (sep : ascii) (s : str) : list str :=
  match s with
  | [] => [[]]
  | a :: s' => if bool_decide (a = sep) then [] :: split_on sep s'
               else match split_on sep s' with w :: ws => (a :: w) :: ws | [] => [[a]] end
  end.
Definition newline : ascii := "010"%char.
Definition get_lines (s : str) : list str :=
  let l := split_on newline s in match last l with Some [] => take (pred (length l)) l | _ => l end.
(** read: 75-88. *)
Fixpoint read_lines (ls : list str) (m : mapping) : result unit * mapping :=
  match ls with
  | [] => (Ok tt, m)
  | l :: ls' => match split_on ";" l with
                | [a; b] => read_lines ls' (bm_insert a b m)
                | _ => (Throw "Invalid line", m)
                end
  end.
Definition read_mapping (s : str) (m : mapping) : result unit * mapping := read_lines (get_lines s) m.
(** write: 90-94, for a given order of the pairs; the left view lists them in the order of the strings, the theorems are for every
    order. *)
Definition write_pairs (l : mapping) : str := concat (map (fun p => p.1 ++ ";"%char :: p.2 ++ [newline]) l).

(** Histories of an anonymizer. *)
Inductive aop := AAnon (s : str) | ARead (file : str).
Definition a_step (m : mapping) (o : aop) : mapping :=
  match o with AAnon s => (anonymize s m).2 | ARead f => (read_mapping f m).2 end.
Definition a_run (ops : list aop) : mapping := fold_left a_step ops [].
