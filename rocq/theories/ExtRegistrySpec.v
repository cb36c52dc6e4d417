(** What C69 says, in terms of the providers that are found and of the files of the directory. *)
From Verif Require Import ExtRegistry.

(** A library file of the directory that loadExtensions has to load: asked for by the pattern, not loaded yet. *)
Definition chosen (es : list dentry) (path : string) : Prop :=
  exists e, e ∈ es /\ d_regular e = true /\ d_matches e = true /\ d_canonical e = path.
Definition to_load (disk : string -> dll) (rg : registry) (es : list dentry) (path : string) (names : list string) : Prop :=
  chosen es path /\ rg_libraries rg !! path = None /\ disk path = Library names.
(** No extension has two serializers: neither in a library, nor in two libraries, nor in a library and in the registry. *)
Definition no_conflict (disk : string -> dll) (rg : registry) (es : list dentry) : Prop :=
  forall path names, to_load disk rg es path names ->
    NoDup names /\
    (forall n, n ∈ names -> find_provider rg n = None) /\
    (forall path' names' n, to_load disk rg es path' names' -> path <> path' -> n ∈ names -> n ∉ names').

(** The histories of the registry of a program. *)
Definition reachable (rg : registry) : Prop := exists os, rg = rgrun rg_init os.
(** The calls of a history that load directories find no conflict. *)
Fixpoint careful (rg : registry) (os : list rgop) : Prop :=
  match os with
  | [] => True
  | o :: os' =>
    match o with OLoad disk (Directory es) => no_conflict disk rg es | _ => True end /\ careful (fst (rgstep rg o)) os'
  end.
(** The file a provider comes from. *)
Definition file_of (p : provider) : option string := fst <$> p_code p.
