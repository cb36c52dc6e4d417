(** Model of the files that Network::writeXml and Network::readXml use (src/iidm/Network.cpp:48-70, src/iidm/converter/xml/NetworkXml.cpp:
    202-282, 284-346): the document, and beside it the correspondence table of an anonymized export.

    Simplifications: the document is that of NetXml.v, without extensions and at the level of detail of the voltage levels; what is in a
    file whose writing was interrupted, or that two streams have written, is not said, except that it cannot be read; nothing else uses
    the files during a call. *)
From stdpp Require Export gmap strings sorting.
From Verif Require Export Options Anonymizer NetXml.

(** boost::filesystem::path::filename, for the names that have an extension: what follows the last slash. *)
Definition file_name (p : str) : str := default [] (last (split_on "/"%char p)).
(** boost::filesystem::path::extension: from the last dot on; nothing for "." and "..". *)
Fixpoint from_dot (s : str) : str :=
  match s with [] => [] | c :: s' => match from_dot s' with [] => if bool_decide (c = "."%char) then s else [] | r => r end end.
Definition extension (name : str) : str := if bool_decide (name ∈ [["."%char]; ["."%char; "."%char]]) then [] else from_dot name.
(** replace_extension("csv"): NetworkXml.cpp:227, 340. *)
Definition dot_csv : str := [".";"c";"s";"v"]%char.
Definition csv_path (p : str) : str := take (length p - length (extension (file_name p))) p ++ dot_csv.

(** The contents of a file: a document, a text, or something else. *)
Inductive file := FDoc (y : xml) | FText (s : str) | FOther.
(** The files, and those that can be opened for reading, for writing. *)
Notation disk := (gmap str file).
Record rights := mkRights { can_read : str -> bool; can_write : str -> bool }.

(** The left view of the bimap: in the order of the strings (SimpleAnonymizer.cpp:90-94). *)
Definition pair_le (p q : str * str) : Prop := str_lt (string_of_list_ascii q.1) (string_of_list_ascii p.1) = false.
Global Instance pair_le_dec p q : Decision (pair_le p q).
Proof. unfold pair_le. apply _. Defined.
Definition sorted (m : mapping) : mapping := merge_sort pair_le m.

(** What the options say to the writer of NetXml.v; [minus], [b]: what the writer computes with doubles (NetXml.v). *)
Definition writer_opts (o : xopts) (v : ver) (minus : string -> string -> string) (b : part -> fval -> string) : opts :=
  Opts v (bool_decide (xo_behavior o = 0)) minus b.
(** Network::writeXml(path, network, options): Network.cpp:60-66; NetworkXml::write: NetworkXml.cpp:284-346. *)
Definition write_xml (rs : rights) (minus : string -> string -> string) (b : part -> fval -> string) (path : str) (n : network) (o : xopts) (d : disk) : result unit * disk :=
  if can_write rs path then
    (* the stream is opened: the file is empty *)
    let d1 := <[path := FOther]> d in
    match file_version o with
    | Ok v =>
      match write_network (writer_opts o v minus b) (xo_anonymized o) n with
      | Ok (y, m) =>
        if xo_anonymized o then
          let csv := csv_path path in
          if can_write rs csv then
            let table := FText (write_pairs (sorted (default [] m))) in
            (Ok tt, if bool_decide (csv = path) then d1 else <[csv := table]> (<[path := FDoc y]> d))
          else (Throw "Unable to open file for writing", <[path := FDoc y]> d)
        else (Ok tt, <[path := FDoc y]> d)
      | Throw e => (Throw e, d1) | UB => (UB, d1) | OutOfFuel => (OutOfFuel, d1)
      end
    | Throw e => (Throw e, d1) | UB => (UB, d1) | OutOfFuel => (OutOfFuel, d1)
    end
  else (Throw "Unable to open file for writing", d).
(** The anonymizer of a reading: NetworkXml.cpp:227-239. *)
Definition read_table (rs : rights) (csv : str) (d : disk) : result (option mapping) :=
  match d !! csv with
  | None => Ok None
  | Some f =>
    if can_read rs csv then
      match f with
      | FText s => let '(r, m) := read_mapping s [] in let! _ := r in Ok (Some m)
      | _ => Throw "Invalid line"
      end
    else Throw "Unable to open file for reading"
  end.
(** Network::readXml(path, options): Network.cpp:48-54; NetworkXml::read: NetworkXml.cpp:202-282. *)
Definition read_xml (rs : rights) (path : str) (d : disk) : result network :=
  match d !! path with
  | Some f =>
    if can_read rs path then
      match f with
      | FDoc y => let! mf := read_table rs (csv_path path) d in read_network (length (events y)) mf (events y)
      | _ => Throw "XML error"
      end
    else Throw "Unable to open file for reading"
  | None => Throw "Unable to open file for reading"
  end.
