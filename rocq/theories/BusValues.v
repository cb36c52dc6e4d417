(** Voltages of buses: getV and setV of the buses of the two views (src/iidm/CalculatedBus.cpp, MergedBus.cpp, ConfiguredBus.cpp,
    NodeTerminal.cpp).  getAngle, setAngle and the component numbers have the same code on other attributes.

    Simplifications, valid for the whole file:
    - the values are those of the working variant (the arrays over the variants are in Variants.v); NaN is [None], any other double an
      element of [A], [neg] tells which are negative;
    - checkValidity, which throws once the cache the bus comes from is invalidated, is left out: the calls are on buses just obtained;
    - the terminal of a CalculatedBus (m_terminalRef) is computed when it is used and not when the bus is built: the positions of the
      switches do not change in between, since changing one invalidates the bus. *)
From Verif Require Export NodeTopo BusTopo NodeGroups.

Section values.
  Context {A : Type} (neg : A -> bool).
  Notation value := (option A).

  (** checkVoltage: ValidationUtils.cpp:400-405. *)
  Definition check_voltage (x : value) : result unit :=
    match x with Some a => if neg a then Throw "voltage cannot be < 0" else Ok tt | None => Ok tt end.

  (** ** Node-breaker voltage levels *)
  (** m_v of the terminals. *)
  Notation nvals := (nterm -> value).
  (** The assignment of NodeTerminal.cpp:133. *)
  Definition nt_set (t : nterm) (x : value) (f : nvals) : nvals := fun t' => if decide (t' = t) then x else f t'.
  (** NodeTerminal::setV: NodeTerminal.cpp:130-136. *)
  Definition nt_set_v (t : nterm) (x : value) (f : nvals) : result unit * nvals :=
    match check_voltage x with Ok _ => (Ok tt, nt_set t x f) | e => (e, f) end.
  (** CalculatedBus::setV: CalculatedBus.cpp:154-161; an exception leaves the loop with the values set so far. *)
  Fixpoint terms_set (ts : list nterm) (x : value) (f : nvals) : result unit * nvals :=
    match ts with
    | [] => (Ok tt, f)
    | t :: ts' => match nt_set_v t x f with (Ok _, f') => terms_set ts' x f' | (e, f') => (e, f') end
    end.
  Definition cb_set_v (b : cbus) (x : value) (f : nvals) : result unit * nvals := terms_set (cb_terms b) x f.
  (** CalculatedBus::getV: CalculatedBus.cpp:110-114; [r] is m_terminalRef. *)
  Definition cb_get_v (r : option nterm) (f : nvals) : value := match r with Some t => f t | None => None end.

  (** ** Bus-breaker voltage levels *)
  (** m_v of the configured buses. *)
  Notation bvals := (nat -> value).
  (** ConfiguredBus::setV: ConfiguredBus.cpp:206-212. *)
  Definition conf_set (u : nat) (x : value) (f : bvals) : result unit * bvals :=
    match check_voltage x with Ok _ => (Ok tt, fun u' => if decide (u' = u) then x else f u') | e => (e, f) end.
  (** MergedBus::setV: MergedBus.cpp:176-183, over m_buses. *)
  Fixpoint merged_set (us : list nat) (x : value) (f : bvals) : result unit * bvals :=
    match us with
    | [] => (Ok tt, f)
    | u :: us' => match conf_set u x f with (Ok _, f') => merged_set us' x f' | (e, f') => (e, f') end
    end.
  (** MergedBus::getV: MergedBus.cpp:112-119. *)
  Fixpoint merged_get (us : list nat) (f : bvals) : value :=
    match us with
    | [] => None
    | u :: us' => match f u with Some a => Some a | None => merged_get us' f end
    end.
End values.

(** ** The terminal a calculated bus reads *)
(** The traverser of findTerminal, CalculatedBus.cpp:44-54.  Its state is the terminal found, or the exception that leaves the
    traversal ([UB], the use of a destroyed switch, likewise); nothing is asked any more after either. *)
Definition ft_found (g : graph nterm string) (cur : result nbvar) (e v2 : nat) : option (result nterm) :=
  match eq_open g cur e with
  | Ok true => None
  | Ok false =>
    match g_vertex_object g v2 with
    | Ok (Some t) => Some (Ok t)
    | Ok None => None
    | Throw m => Some (Throw m)
    | UB => Some UB
    | OutOfFuel => Some OutOfFuel
    end
  | Throw m => Some (Throw m)
  | UB => Some UB
  | OutOfFuel => Some OutOfFuel
  end.
Definition ft_visit (g : graph nterm string) (cur : result nbvar) (s : option (result nterm)) (v1 e v2 : nat) : option (result nterm) * bool :=
  match s with
  | Some r => (Some r, false)
  | None =>
    match ft_found g cur e v2 with
    | Some r => (Some r, false)
    | None => (None, match eq_open g cur e with Ok false => true | _ => false end)
    end
  end.
(** findTerminal: CalculatedBus.cpp:37-58; [n] is nodes.front(). *)
Definition find_terminal (n : nat) (ts : list nterm) : nbact (option nterm) :=
  match ts with
  | t :: _ => aret (Some t)
  | [] => fun st =>
    let cur := (aget st).1 in
    (do! x := gact (fun g => g_traverse (ft_visit g cur) g n None) in
     alift (match x.2 with
            | None => Ok None
            | Some (Ok t) => Ok (Some t)
            | Some (Throw m) => Throw m
            | Some UB => UB
            | Some OutOfFuel => OutOfFuel
            end)) st
  end.
