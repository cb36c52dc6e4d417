(** The registry of the extension serializers: src/iidm/ExtensionProviders.cpp, include/powsybl/iidm/ExtensionProviders.hpp.

    Simplifications, valid for the whole file:
    - a provider is its name and where its code is: in the program, or in a library mapped for one call of loadLibrary (the [nat] numbers
      the mappings: boost::dll::shared_library is a reference-counted handle on the mapping of a file);
    - the mapping of a library lives as long as a handle on it: no other part of the program holds one, so it lives after loadLibrary if
      and only if the handle has been copied in m_loadedLibraries;
    - createSerializers() gives non-null providers, does not throw, and has the type loadLibrary expects (the libraries of /repo/extensions
      declare std::vector<std::unique_ptr<ExtensionProvider>>, loadLibrary calls it as std::vector<std::unique_ptr<ExtensionXmlSerializer>>). *)
From stdpp Require Export gmap strings list.
From Verif Require Export Base.

(** ExtensionProvider: m_extensionName (ExtensionProvider.hpp:71), and where the code of its functions is. *)
Record provider := mkProvider { p_name : string; p_code : option (string * nat) }.
#[global] Instance provider_eq_dec : EqDecision provider. Proof. solve_decision. Defined.
(** What boost::dll finds in a file: not a library (system_error), a library without the symbol createSerializers, or the names of the
    extensions its serializers are for. *)
Inductive dll := NotALibrary | NoSymbol | Library (names : list string).
(** What loadExtensions sees of an entry of a directory: is_regular_file, regex_match, canonical path (ExtensionProviders.cpp:89-90). *)
Record dentry := mkEntry { d_regular : bool; d_matches : bool; d_canonical : string }.
(** What the path given to loadExtensions is (ExtensionProviders.cpp:80-86). *)
Inductive target := Missing | NotADirectory | Directory (entries : list dentry).

(** m_providers and m_loadedLibraries (ExtensionProviders.hpp:62-64); the number of mappings made so far. *)
Record registry := mkReg { rg_providers : gmap string provider; rg_libraries : gmap string nat; rg_mappings : nat }.

(** A call returns or throws, and leaves a registry in both cases. *)
Definition rgres : Type := registry * result unit.

(** registerExtension: ExtensionProviders.cpp:118-128; std::map::emplace does nothing when the key exists. *)
Definition register (rg : registry) (p : provider) : rgres :=
  match rg_providers rg !! p_name p with
  | Some _ => (rg, Throw "Extension is already registered")
  | None => (mkReg (<[p_name p := p]> (rg_providers rg)) (rg_libraries rg) (rg_mappings rg), Ok tt)
  end.
(** The loop of loadLibrary: ExtensionProviders.cpp:105-107. *)
Fixpoint register_all (rg : registry) (ps : list provider) : rgres :=
  match ps with
  | [] => (rg, Ok tt)
  | p :: ps' =>
    match register rg p with
    | (rg', Ok _) => register_all rg' ps'
    | (rg', r) => (rg', r)
    end
  end.
(** loadLibrary: ExtensionProviders.cpp:95-116; the PowsyblException of registerExtension is not a boost::system::system_error. *)
Definition load_library (disk : string -> dll) (rg : registry) (path : string) : rgres :=
  match rg_libraries rg !! path with
  | Some _ => (rg, Ok tt)
  | None =>
    match disk path with
    | NotALibrary => (rg, Ok tt)
    | NoSymbol => (rg, Ok tt)
    | Library names =>
      let k := rg_mappings rg in
      match register_all (mkReg (rg_providers rg) (rg_libraries rg) (S k)) ((fun n => mkProvider n (Some (path, k))) <$> names) with
      | (rg', Ok _) => (mkReg (rg_providers rg') (<[path := k]> (rg_libraries rg')) (rg_mappings rg'), Ok tt)
      | (rg', r) => (rg', r)
      end
    end
  end.
(** The loop of loadExtensions: ExtensionProviders.cpp:88-92, in the order of the directory_iterator. *)
Fixpoint load_entries (disk : string -> dll) (rg : registry) (es : list dentry) : rgres :=
  match es with
  | [] => (rg, Ok tt)
  | e :: es' =>
    if d_regular e && d_matches e then
      match load_library disk rg (d_canonical e) with
      | (rg', Ok _) => load_entries disk rg' es'
      | (rg', r) => (rg', r)
      end
    else load_entries disk rg es'
  end.
(** loadExtensions: ExtensionProviders.cpp:78-93. *)
Definition load_extensions (disk : string -> dll) (rg : registry) (t : target) : rgres :=
  match t with
  | Missing => (rg, Throw "Path does not exist")
  | NotADirectory => (rg, Throw "Path is not a directory")
  | Directory es => load_entries disk rg es
  end.

(** The constructor: ExtensionProviders.cpp:29-32 (LoadDetailXmlSerializer.cpp:28, SlackTerminalXmlSerializer.cpp). *)
Definition rg_init : registry :=
  fst (register_all (mkReg ∅ ∅ 0) [mkProvider "detail" None; mkProvider "slackTerminal" None]).

(** findProvider and findProviderOrThrowException: ExtensionProviders.cpp:34-53. *)
Definition find_provider (rg : registry) (name : string) : option provider := rg_providers rg !! name.
Definition find_provider_or_throw (rg : registry) (name : string) : result provider :=
  match rg_providers rg !! name with None => Throw "No provider found for extension" | Some p => Ok p end.
(** A call of a virtual function of a provider found (read, write, getExtensionName through the table of its class, the destructor): it
    runs code of the library, which must still be mapped. *)
Definition use (rg : registry) (p : provider) : result string :=
  match p_code p with
  | None => Ok (p_name p)
  | Some (path, k) => if bool_decide (rg_libraries rg !! path = Some k) then Ok (p_name p) else UB
  end.
(** The end of the program: m_providers is destroyed first, then m_loadedLibraries (ExtensionProviders.hpp:62-64). *)
Definition destroy (rg : registry) : result unit :=
  foldr (fun x r => let! _ := use rg x.2 in r) (Ok tt) (map_to_list (rg_providers rg)).

(** The public functions that change the registry.  The files on the disk may change between two calls, not during one. *)
Inductive rgop := ORegister (name : string) | OLoad (disk : string -> dll) (t : target).
Definition rgstep (rg : registry) (o : rgop) : rgres :=
  match o with
  | ORegister name => register rg (mkProvider name None)
  | OLoad disk t => load_extensions disk rg t
  end.
Fixpoint rgrun (rg : registry) (os : list rgop) : registry :=
  match os with
  | [] => rg
  | o :: os' => rgrun (fst (rgstep rg o)) os'
  end.
