(** Messages and loggers: include/powsybl/stdcxx/format.hxx, include/powsybl/logging/Logger.hxx, src/logging/*.cpp.

    Simplifications: arguments are their texts (what operator<< prints); of the directives of boost::format, the code uses %N% and %%:
    what a text with another directive gives is not modelled and is [FOther]; a message of a logger is its level and its text, without
    the time; the console is the list of what was printed. *)
From stdpp Require Export gmap strings list.
From Coq Require Export Ascii.
From Verif Require Export Base.

(** ** stdcxx::format *)
(** What a format call does: a text, or one of the exceptions of boost::format. *)
Inductive fout := FText (t : string) | FBadFormat | FTooFew | FTooMany | FOther.
Inductive piece := PLit (c : ascii) | PArg (n : nat).
Inductive parsed := PsOk (l : list piece) | PsBad | PsOther.
Definition pcons (p : piece) (x : parsed) : parsed := match x with PsOk l => PsOk (p :: l) | e => e end.
Definition percent : ascii := "%"%char.
(** The value of a decimal digit. *)
Definition digit_of (c : ascii) : option nat :=
  let n := nat_of_ascii c in if (48 <=? n) && (n <=? 57) then Some (n - 48) else None.
(** Where the parser of boost::format is: in the text, after a %, after a % and digits. *)
Inductive pmode := MText | MMark | MDigits (n : nat).
(** The constructor boost::format(message): format.hxx:36. *)
Fixpoint fparse (m : pmode) (f : string) : parsed :=
  match m, f with
  | MText, EmptyString => PsOk []
  | MText, String c f' => if bool_decide (c = percent) then fparse MMark f' else pcons (PLit c) (fparse MText f')
  | _, EmptyString => PsBad
  | MMark, String c f' =>
    if bool_decide (c = percent) then pcons (PLit percent) (fparse MText f')
    else match digit_of c with Some d => fparse (MDigits d) f' | None => PsOther end
  | MDigits n, String c f' =>
    if bool_decide (c = percent) then match n with O => PsOther | S k => pcons (PArg k) (fparse MText f') end
    else match digit_of c with Some d => fparse (MDigits (10 * n + d)) f' | None => PsOther end
  end.
(** The number of arguments that the directives ask for. *)
Fixpoint asked_args (l : list piece) : nat :=
  match l with [] => 0 | PLit _ :: l' => asked_args l' | PArg k :: l' => Nat.max (S k) (asked_args l') end.
Fixpoint render (l : list piece) (args : list string) : string :=
  match l with
  | [] => ""
  | PLit c :: l' => String c (render l' args)
  | PArg k :: l' => (match args !! k with Some a => a | None => "" end) +:+ render l' args
  end.
(** stdcxx::format(message, args...): format.hxx:24-40; an argument too many throws when it is given, one too few at str(). *)
Definition sformat (f : string) (args : list string) : fout :=
  match fparse MText f with
  | PsBad => FBadFormat
  | PsOther => FOther
  | PsOk l => if asked_args l <? length args then FTooMany else if length args <? asked_args l then FTooFew else FText (render l args)
  end.

(** ** Loggers *)
(** Level.hpp:18-24. *)
Inductive level := LvTrace | LvDebug | LvInfo | LvWarn | LvError.
Definition level_num (l : level) : nat := match l with LvTrace => 0 | LvDebug => 1 | LvInfo => 2 | LvWarn => 3 | LvError => 4 end.
(** NoopLogger.cpp:14-36, ConsoleLogger.cpp:18-48, ContainerLogger.cpp:14-50. *)
Inductive lkind := LkNoop | LkConsole (l : level) | LkContainer.
Record logger := mkLogger { lg_kind : lkind; lg_out : list (level * string) }.
(** is...Enabled. *)
Definition log_enabled (k : lkind) (l : level) : bool :=
  match k with LkNoop => false | LkConsole m => level_num m <=? level_num l | LkContainer => true end.
(** log(level, message). *)
Definition log_write (g : logger) (l : level) (t : string) : logger :=
  match lg_kind g with LkNoop => g | _ => mkLogger (lg_kind g) (lg_out g ++ [(l, t)]) end.
(** The result of a call: nothing, or the exception of boost::format; a text whose directives are not modelled is [None]. *)
Definition fout_result (o : fout) : option (result string) :=
  match o with
  | FText t => Some (Ok t)
  | FBadFormat => Some (Throw "boost::bad_format_string: format-string is ill-formed")
  | FTooFew => Some (Throw "boost::too_few_args: format-string referred to more arguments than were passed")
  | FTooMany => Some (Throw "boost::too_many_args: format-string referred to fewer arguments than were passed")
  | FOther => None
  end.
(** debug, error, info, trace, warn: Logger.hxx:19-52. *)
Definition log_call (g : logger) (l : level) (f : string) (args : list string) : option (result unit * logger) :=
  if log_enabled (lg_kind g) l
  then match fout_result (sformat f args) with
       | Some (Ok t) => Some (Ok tt, log_write g l t)
       | Some (Throw e) => Some (Throw e, g)
       | Some _ => Some (UB, g)
       | None => None
       end
  else Some (Ok tt, g).

(** A place of the code where a text is formatted: file, line, the text, the number of arguments. *)
Record site := mkSite { st_file : string; st_line : nat; st_text : string; st_args : nat }.
(** How a text goes to a logger: logger.level(text, args...), or logger.level(stdcxx::format(text, args...)). *)
Inductive passing := Direct | Twice.
Definition site_log (g : logger) (l : level) (p : passing) (s : site) (args : list string) : option (result unit * logger) :=
  match p with
  | Direct => log_call g l (st_text s) args
  | Twice =>
    match fout_result (sformat (st_text s) args) with
    | Some (Ok t) => log_call g l t []
    | Some (Throw e) => Some (Throw e, g)
    | Some _ => Some (UB, g)
    | None => None
    end
  end.

(** ** LoggerFactory *)
(** LoggerFactory::m_loggers, a std::map. *)
Notation loggers := (gmap string logger).
(** name.rfind("::") and name.substr(0, pos): LoggerFactory.cpp:40-43; [None]: npos. *)
Definition starts_colons (s : string) : bool := match s with String ":" (String ":" _) => true | _ => false end.
Fixpoint before_last_colons (s : string) : option string :=
  match s with
  | EmptyString => None
  | String c s' =>
    match before_last_colons s' with
    | Some p => Some (String c p)
    | None => if starts_colons s then Some "" else None
    end
  end.
(** getLoggerByName: LoggerFactory.cpp:31-46; the name under which the logger is, [None] for the default logger. *)
Fixpoint find_logger (fuel : nat) (m : loggers) (name : string) : result (option string) :=
  match fuel with
  | O => OutOfFuel
  | S k =>
    match m !! name with
    | Some _ => Ok (Some name)
    | None => match before_last_colons name with Some p => find_logger k m p | None => Ok None end
    end
  end.
Definition get_logger (m : loggers) (name : string) : result (option string) := find_logger (S (String.length name)) m name.
(** The operations of the factory, and a call on the logger that getLogger(name) gives: addLogger: LoggerFactory.cpp:16-19 (std::map::insert
    keeps what is there), removeLogger: 48-51. *)
Inductive gop := GAdd (name : string) (k : lkind) | GRemove (name : string) | GLog (name : string) (l : level) (f : string) (args : list string).
Definition gstep (m : loggers) (o : gop) : option (result unit * loggers) :=
  match o with
  | GAdd n k => Some (Ok tt, match m !! n with Some _ => m | None => <[n := mkLogger k []]> m end)
  | GRemove n => Some (Ok tt, delete n m)
  | GLog n l f args =>
    match get_logger m n with
    | Ok (Some p) =>
      match m !! p with
      | Some g => match log_call g l f args with Some (r, g') => Some (r, <[p := g']> m) | None => None end
      | None => Some (UB, m)
      end
    | Ok None => Some (Ok tt, m)
    | Throw e => Some (Throw e, m)
    | UB => Some (UB, m)
    | OutOfFuel => Some (OutOfFuel, m)
    end
  end.
