(** The four functions of MultiVariantObject, class by class, and the variant manager that calls them on the objects of a network:
    every vector that a class holds, statement by statement, with the calls to the base class and to the parts of the object (terminals,
    tap changers, generation of a dangling line, extensions).  Variants.v has the manager over single vectors.

    Simplifications: a value is any [A]; a cell is [None] when it was cleared (BusTerminal, ConfiguredBus), or is a null pointer
    (VariantArray) or a null reference (SlackTerminal); the legs of a transformer are parts with a class of their own, the statements
    being in ThreeWindingsTransformer.cpp; parts are added but never removed or replaced; initVariantArraySize, which no function uses,
    is left out. *)
From stdpp Require Export gmap strings.
From Verif Require Export Base Variants.

(** The classes, those of the headers in include/powsybl/iidm and src/iidm that hold vectors per variant or parts that do. *)
Inductive cls :=
| KNodeTerminal | KBusTerminal | KRatioTapChanger | KPhaseTapChanger | KGeneration | KLeg | KLoadDetail | KSlackTerminal | KOtherExtension
| KGenerator | KLoad | KBattery | KShunt | KSvc | KVsc | KLcc | KBusbarSection | KDanglingLine | KLine | KTieLine
| KTwoWindings | KThreeWindings | KHvdcLine | KSwitch | KConfiguredBus | KNodeBreaker | KBusBreaker | KSubstation | KNetwork.
#[global] Instance cls_eq_dec : EqDecision cls.
Proof. solve_decision. Defined.
(** The functions: allocateVariantArrayElement, deleteVariantArrayElement, extendVariantArraySize, reduceVariantArraySize
    (MultiVariantObject.hpp:25-31). *)
Inductive vfn := FAlloc | FDelete | FExtend | FReduce.
#[global] Instance vfn_eq_dec : EqDecision vfn.
Proof. solve_decision. Defined.
Inductive vargs := AAlloc (idx : list nat) (src : nat) | ADelete (i : nat) | AExtend (n src : nat) | AReduce (n : nat).
Definition fn_of (a : vargs) : vfn := match a with AAlloc _ _ => FAlloc | ADelete _ => FDelete | AExtend _ _ => FExtend | AReduce _ => FReduce end.

(** The statements. *)
Inductive stmt :=
| Copy (ms : list string)   (* for (index : indexes) { m[index] = m[sourceIndex]; for every m } *)
| Grow (m : string)         (* m.resize(m.size() + number, m[sourceIndex]) *)
| Shrink (m : string)       (* m.resize(m.size() - number) *)
| Resize (m : string)       (* m.resize(number) *)
| Clear (m : string)        (* m[index] = "", m[index].clear(), m[index].reset() *)
| PtrCopy (m : string)      (* VariantArray::allocateVariantArrayElement with the copy of the source: VariantArray.hxx:41-51 *)
| PtrGrow (m : string)      (* VariantArray::extendVariantArraySize with the copy of the source: VariantArray.hxx:58-63 *)
| PtrShrink (m : string)    (* VariantArray::reduceVariantArraySize: VariantArray.hxx:77-80 *)
| PtrClear (m : string)     (* VariantArray::deleteVariantArrayElement: VariantArray.hxx:53-56 *)
| Each (slot : string).     (* the same function on every part of that kind *)

(** Identifiable.cpp:75-97, 165-171: the extensions; Container, VoltageLevel and Bus do not redefine the functions. *)
Definition identifiable (f : vfn) : list stmt := [Each "extensions"].
(** Connectable.cpp:22-28, 37-51, 87-93; Injection, Branch, HvdcConverterStation do not redefine them. *)
Definition connectable (f : vfn) : list stmt := identifiable f ++ [Each "terminals"].
(** Terminal.cpp:33-38, 44-46, 52-55, 97-100. *)
Definition terminal (f : vfn) : list stmt :=
  match f with
  | FAlloc => [Copy ["m_p"; "m_q"]]
  | FDelete => []
  | FExtend => [Grow "m_p"; Grow "m_q"]
  | FReduce => [Shrink "m_p"; Shrink "m_q"]
  end.
(** TapChanger.hxx:39-57, 160-164. *)
Definition tap_changer (f : vfn) : list stmt :=
  match f with
  | FAlloc => [Copy ["m_tapPosition"; "m_regulating"; "m_targetDeadband"]]
  | FDelete => []
  | FExtend => [Grow "m_tapPosition"; Grow "m_regulating"; Grow "m_targetDeadband"]
  | FReduce => [Shrink "m_tapPosition"; Shrink "m_regulating"; Shrink "m_targetDeadband"]
  end.
(** The functions of each class, the calls to the base class being [connectable f] or [identifiable f]. *)
Definition code (c : cls) (f : vfn) : list stmt :=
  match c with
  (* NodeTerminal.cpp:34-52, 102-110 *)
  | KNodeTerminal => terminal f ++
    match f with
    | FAlloc => [Copy ["m_v"; "m_connectedComponentNumber"; "m_synchronousComponentNumber"; "m_angle"]]
    | FDelete => []
    | FExtend => [Grow "m_v"; Grow "m_connectedComponentNumber"; Grow "m_synchronousComponentNumber"; Grow "m_angle"]
    | FReduce => [Shrink "m_v"; Shrink "m_connectedComponentNumber"; Shrink "m_synchronousComponentNumber"; Shrink "m_angle"]
    end
  (* BusTerminal.cpp:30-50, 96-101 *)
  | KBusTerminal => terminal f ++
    match f with
    | FAlloc => [Copy ["m_connected"; "m_connectableBusId"]]
    | FDelete => [Clear "m_connectableBusId"]
    | FExtend => [Grow "m_connected"; Grow "m_connectableBusId"]
    | FReduce => [Shrink "m_connected"; Shrink "m_connectableBusId"]
    end
  (* RatioTapChanger.cpp:26-38, 48-52 *)
  | KRatioTapChanger => tap_changer f ++
    match f with FAlloc => [Copy ["m_targetV"]] | FDelete => [] | FExtend => [Grow "m_targetV"] | FReduce => [Shrink "m_targetV"] end
  (* PhaseTapChanger.cpp:28-40, 50-54 *)
  | KPhaseTapChanger => tap_changer f ++
    match f with FAlloc => [Copy ["m_regulationValue"]] | FDelete => [] | FExtend => [Grow "m_regulationValue"] | FReduce => [Shrink "m_regulationValue"] end
  (* DanglingLineGeneration.cpp:35-42, 52-57, 87-92 *)
  | KGeneration =>
    match f with
    | FAlloc => [Copy ["m_targetP"; "m_targetQ"; "m_voltageRegulationOn"; "m_targetV"]]
    | FDelete => []
    | FExtend => [Grow "m_targetP"; Grow "m_targetQ"; Grow "m_voltageRegulationOn"; Grow "m_targetV"]
    | FReduce => [Shrink "m_targetP"; Shrink "m_targetQ"; Shrink "m_voltageRegulationOn"; Shrink "m_targetV"]
    end
  (* ThreeWindingsTransformer.cpp:30-37, 43-50, 56-63, 151-158 *)
  | KLeg => [Each "ratio"; Each "phase"]
  (* LoadDetail.cpp:32-39, 54-63, 91-96 *)
  | KLoadDetail =>
    match f with
    | FAlloc => [Copy ["m_fixedActivePower"; "m_fixedReactivePower"; "m_variableActivePower"; "m_variableReactivePower"]]
    | FDelete => []
    | FExtend => [Grow "m_fixedActivePower"; Grow "m_fixedReactivePower"; Grow "m_variableActivePower"; Grow "m_variableReactivePower"]
    | FReduce => [Shrink "m_fixedActivePower"; Shrink "m_fixedReactivePower"; Shrink "m_variableActivePower"; Shrink "m_variableReactivePower"]
    end
  (* SlackTerminal.cpp:29-34, 51-57, 84-86 *)
  | KSlackTerminal =>
    match f with FAlloc => [Copy ["m_terminals"]] | FDelete => [Clear "m_terminals"] | FExtend => [Grow "m_terminals"] | FReduce => [Resize "m_terminals"] end
  (* the other extensions are not MultiVariantObjects: Identifiable.cpp:77, 85, 93, 167 *)
  | KOtherExtension => []
  (* Generator.cpp:35-53, 113-120 *)
  | KGenerator => connectable f ++
    match f with
    | FAlloc => [Copy ["m_voltageRegulatorOn"; "m_activePowerSetpoint"; "m_reactivePowerSetpoint"; "m_voltageSetpoint"]]
    | FDelete => []
    | FExtend => [Grow "m_voltageRegulatorOn"; Grow "m_activePowerSetpoint"; Grow "m_reactivePowerSetpoint"; Grow "m_voltageSetpoint"]
    | FReduce => [Shrink "m_voltageRegulatorOn"; Shrink "m_activePowerSetpoint"; Shrink "m_reactivePowerSetpoint"; Shrink "m_voltageSetpoint"]
    end
  (* Load.cpp:26-40, 60-65; Battery.cpp:26-40, 64-69 *)
  | KLoad | KBattery => connectable f ++
    match f with FAlloc => [Copy ["m_p0"; "m_q0"]] | FDelete => [] | FExtend => [Grow "m_p0"; Grow "m_q0"] | FReduce => [Shrink "m_p0"; Shrink "m_q0"] end
  (* ShuntCompensator.cpp:31-49, 113-120 *)
  | KShunt => connectable f ++
    match f with
    | FAlloc => [Copy ["m_sectionCount"; "m_voltageRegulatorOn"; "m_targetV"; "m_targetDeadband"]]
    | FDelete => []
    | FExtend => [Grow "m_sectionCount"; Grow "m_voltageRegulatorOn"; Grow "m_targetV"; Grow "m_targetDeadband"]
    | FReduce => [Shrink "m_sectionCount"; Shrink "m_voltageRegulatorOn"; Shrink "m_targetV"; Shrink "m_targetDeadband"]
    end
  (* StaticVarCompensator.cpp:31-47, 83-89 *)
  | KSvc => connectable f ++
    match f with
    | FAlloc => [Copy ["m_voltageSetpoint"; "m_reactivePowerSetpoint"; "m_regulationMode"]]
    | FDelete => []
    | FExtend => [Grow "m_voltageSetpoint"; Grow "m_reactivePowerSetpoint"; Grow "m_regulationMode"]
    | FReduce => [Shrink "m_voltageSetpoint"; Shrink "m_reactivePowerSetpoint"; Shrink "m_regulationMode"]
    end
  (* VscConverterStation.cpp:26-42, 66-72 *)
  | KVsc => connectable f ++
    match f with
    | FAlloc => [Copy ["m_voltageRegulatorOn"; "m_reactivePowerSetpoint"; "m_voltageSetpoint"]]
    | FDelete => []
    | FExtend => [Grow "m_voltageRegulatorOn"; Grow "m_reactivePowerSetpoint"; Grow "m_voltageSetpoint"]
    | FReduce => [Shrink "m_voltageRegulatorOn"; Shrink "m_reactivePowerSetpoint"; Shrink "m_voltageSetpoint"]
    end
  (* not redefined *)
  | KLcc | KBusbarSection | KLine | KTieLine => connectable f
  (* DanglingLine.cpp:39-61, 113-122; deleteVariantArrayElement is not redefined *)
  | KDanglingLine => connectable f ++
    match f with
    | FAlloc => [Copy ["m_p0"; "m_q0"]; Each "generation"]
    | FDelete => []
    | FExtend => [Grow "m_p0"; Grow "m_q0"; Each "generation"]
    | FReduce => [Shrink "m_p0"; Shrink "m_q0"; Each "generation"]
    end
  (* TwoWindingsTransformer.cpp:33-64, 160-169 *)
  | KTwoWindings => connectable f ++ [Each "ratio"; Each "phase"]
  (* ThreeWindingsTransformer.cpp:27-64, 148-159 *)
  | KThreeWindings => connectable f ++ [Each "legs"]
  (* HvdcLine.cpp:30-37, 44-49, 116-121 *)
  | KHvdcLine => identifiable f ++
    match f with
    | FAlloc => [Copy ["m_convertersMode"; "m_activePowerSetpoint"]]
    | FDelete => []
    | FExtend => [Grow "m_convertersMode"; Grow "m_activePowerSetpoint"]
    | FReduce => [Shrink "m_convertersMode"; Shrink "m_activePowerSetpoint"]
    end
  (* Switch.cpp:25-39, 75-80 *)
  | KSwitch => identifiable f ++
    match f with FAlloc => [Copy ["m_open"; "m_retained"]] | FDelete => [] | FExtend => [Grow "m_open"; Grow "m_retained"] | FReduce => [Shrink "m_open"; Shrink "m_retained"] end
  (* ConfiguredBus.cpp:46-72, 167-175 *)
  | KConfiguredBus => identifiable f ++
    match f with
    | FAlloc => [Copy ["m_terminals"; "m_v"; "m_angle"; "m_connectedComponentNumber"; "m_synchronousComponentNumber"]]
    | FDelete => [Clear "m_terminals"]
    | FExtend => [Grow "m_terminals"; Grow "m_v"; Grow "m_angle"; Grow "m_connectedComponentNumber"; Grow "m_synchronousComponentNumber"]
    | FReduce => [Shrink "m_terminals"; Shrink "m_v"; Shrink "m_angle"; Shrink "m_connectedComponentNumber"; Shrink "m_synchronousComponentNumber"]
    end
  (* NodeBreakerVoltageLevel.cpp:50-53, 124-127, 191-194, 351-354; BusBreakerVoltageLevel.cpp:55-58, 103-106, 136-139, 291-294;
     Network.cpp:95-111, 662-666 *)
  | KNodeBreaker | KBusBreaker | KNetwork => identifiable f ++
    match f with FAlloc => [PtrCopy "m_variants"] | FDelete => [PtrClear "m_variants"] | FExtend => [PtrGrow "m_variants"] | FReduce => [PtrShrink "m_variants"] end
  (* not redefined *)
  | KSubstation => identifiable f
  end.

(** The vectors of each class, inherited ones included, from the headers. *)
Definition plain (l : list string) : list (string * vkind) := map (fun m => (m, VPlain)) l.
Definition members (c : cls) : list (string * vkind) :=
  match c with
  (* Terminal.hpp:116-118, NodeTerminal.hpp:90-96 *)
  | KNodeTerminal => plain ["m_p"; "m_q"; "m_v"; "m_angle"; "m_connectedComponentNumber"; "m_synchronousComponentNumber"]
  (* BusTerminal.hpp:84-86 *)
  | KBusTerminal => plain ["m_p"; "m_q"; "m_connected"] ++ [("m_connectableBusId", VClear)]
  (* TapChanger.hpp:104-108, RatioTapChanger.hpp:52, PhaseTapChanger.hpp:57 *)
  | KRatioTapChanger => plain ["m_tapPosition"; "m_regulating"; "m_targetDeadband"; "m_targetV"]
  | KPhaseTapChanger => plain ["m_tapPosition"; "m_regulating"; "m_targetDeadband"; "m_regulationValue"]
  (* DanglingLineGeneration.hpp:76-82 *)
  | KGeneration => plain ["m_targetP"; "m_targetQ"; "m_targetV"; "m_voltageRegulationOn"]
  | KLeg | KOtherExtension | KLcc | KBusbarSection | KLine | KTieLine | KTwoWindings | KThreeWindings | KSubstation => []
  (* LoadDetail.hpp:64-70, SlackTerminal.hpp:70 *)
  | KLoadDetail => plain ["m_fixedActivePower"; "m_fixedReactivePower"; "m_variableActivePower"; "m_variableReactivePower"]
  | KSlackTerminal => [("m_terminals", VSlack)]
  (* Generator.hpp:102-108 *)
  | KGenerator => plain ["m_voltageRegulatorOn"; "m_activePowerSetpoint"; "m_reactivePowerSetpoint"; "m_voltageSetpoint"]
  (* Load.hpp:52-54, Battery.hpp:52-54, DanglingLine.hpp:93-95 *)
  | KLoad | KBattery | KDanglingLine => plain ["m_p0"; "m_q0"]
  (* ShuntCompensator.hpp:89-97 *)
  | KShunt => plain ["m_sectionCount"; "m_voltageRegulatorOn"; "m_targetV"; "m_targetDeadband"]
  (* StaticVarCompensator.hpp:77-83 *)
  | KSvc => plain ["m_voltageSetpoint"; "m_reactivePowerSetpoint"; "m_regulationMode"]
  (* VscConverterStation.hpp:52-56 *)
  | KVsc => plain ["m_voltageRegulatorOn"; "m_reactivePowerSetpoint"; "m_voltageSetpoint"]
  (* HvdcLine.hpp:105-107 *)
  | KHvdcLine => plain ["m_convertersMode"; "m_activePowerSetpoint"]
  (* Switch.hpp:66-68 *)
  | KSwitch => plain ["m_open"; "m_retained"]
  (* ConfiguredBus.hpp:88-96 *)
  | KConfiguredBus => ("m_terminals", VClear) :: plain ["m_v"; "m_angle"; "m_connectedComponentNumber"; "m_synchronousComponentNumber"]
  (* the variants of voltage levels and networks: VariantArray.hpp:59 *)
  | KNodeBreaker | KBusBreaker | KNetwork => [("m_variants", VPtr)]
  end.
(** The parts of each class, with their classes. *)
Definition is_extension (c : cls) : bool := match c with KLoadDetail | KSlackTerminal | KOtherExtension => true | _ => false end.
Definition is_terminal (c : cls) : bool := match c with KNodeTerminal | KBusTerminal => true | _ => false end.
Definition is_identifiable (c : cls) : bool :=
  match c with KNodeTerminal | KBusTerminal | KRatioTapChanger | KPhaseTapChanger | KGeneration | KLeg | KLoadDetail | KSlackTerminal | KOtherExtension => false | _ => true end.
Definition is_connectable (c : cls) : bool :=
  is_identifiable c && match c with KHvdcLine | KSwitch | KConfiguredBus | KNodeBreaker | KBusBreaker | KSubstation | KNetwork => false | _ => true end.
Definition slot_ok (c : cls) (slot : string) (d : cls) : bool :=
  (bool_decide (slot = "extensions") && is_identifiable c && is_extension d) ||
  (bool_decide (slot = "terminals") && is_connectable c && is_terminal d) ||
  (bool_decide (slot = "generation") && bool_decide (c = KDanglingLine) && bool_decide (d = KGeneration)) ||
  (bool_decide (slot = "ratio") && bool_decide (c = KTwoWindings \/ c = KLeg) && bool_decide (d = KRatioTapChanger)) ||
  (bool_decide (slot = "phase") && bool_decide (c = KTwoWindings \/ c = KLeg) && bool_decide (d = KPhaseTapChanger)) ||
  (bool_decide (slot = "legs") && bool_decide (c = KThreeWindings) && bool_decide (d = KLeg)).

(** An object with its vectors and its parts. *)
Inductive vtree (B : Type) := VTree (c : cls) (vecs : gmap string B) (parts : list (string * vtree B)).
Arguments VTree {B} _ _ _.
Definition t_cls {B} (t : vtree B) : cls := match t with VTree c _ _ => c end.
Definition t_vecs {B} (t : vtree B) : gmap string B := match t with VTree _ v _ => v end.
Definition t_parts {B} (t : vtree B) : list (string * vtree B) := match t with VTree _ _ p => p end.
Fixpoint depth {B} (t : vtree B) : nat := match t with VTree _ _ ps => S (fold_right (fun p n => Nat.max (depth p.2) n) 0 ps) end.

Section run.
  Context {A : Type}.
  Notation vec := (list (option A)).
  Notation vecs := (gmap string vec).

  (** A member that the object does not have is [UB]; it does not occur. *)
  Definition upd (m : string) (g : vec -> result vec) (s : vecs) : result vecs :=
    match s !! m with Some v => let! v' := g v in Ok (<[m := v']> s) | None => UB end.
  (** m[i] = m[src] *)
  Definition assign (i src : nat) (v : vec) : result vec := let! x := vget v src in vset v i x.
  Fixpoint assign_all (ms : list string) (i src : nat) (s : vecs) : result vecs :=
    match ms with [] => Ok s | m :: ms' => let! s' := upd m (assign i src) s in assign_all ms' i src s' end.
  Fixpoint copy_loop (idx : list nat) (src : nat) (ms : list string) (s : vecs) : result vecs :=
    match idx with [] => Ok s | i :: idx' => let! s' := assign_all ms i src s in copy_loop idx' src ms s' end.
  (** m.resize(m.size() + n, m[src]) *)
  Definition grow (n src : nat) (v : vec) : result vec := let! x := vget v src in Ok (resize (length v + n) x v).
  (** m.resize(m.size() - n): the subtraction is unsigned, the size too large. *)
  Definition shrink (n : nat) (v : vec) : result vec := if n <=? length v then Ok (resize (length v - n) None v) else Throw "length_error".
  (** m_variants[i] = m_variants[src]->copy() *)
  Definition ptr_copy (src : nat) (v : vec) : result (option A) := let! x := vget v src in match x with Some _ => Ok x | None => UB end.
  Fixpoint ptr_assign (idx : list nat) (src : nat) (v : vec) : result vec :=
    match idx with [] => Ok v | i :: idx' => let! x := ptr_copy src v in let! v' := vset v i x in ptr_assign idx' src v' end.
  Fixpoint ptr_grow (n src : nat) (v : vec) : result vec :=
    match n with 0 => Ok v | S n' => let! x := ptr_copy src v in ptr_grow n' src (v ++ [x]) end.

  Definition stmt_run (a : vargs) (st : stmt) (s : vecs) : result vecs :=
    match st, a with
    | Copy ms, AAlloc idx src => copy_loop idx src ms s
    | Grow m, AExtend n src => upd m (grow n src) s
    | Shrink m, AReduce n => upd m (shrink n) s
    | Resize m, AReduce n => upd m (fun v => Ok (resize n None v)) s
    | Clear m, ADelete i => upd m (fun v => vset v i None) s
    | PtrCopy m, AAlloc idx src => upd m (ptr_assign idx src) s
    | PtrGrow m, AExtend n src => upd m (ptr_grow n src) s
    | PtrShrink m, AReduce n => upd m (shrink n) s
    | PtrClear m, ADelete i => upd m (fun v => vset v i None) s
    | _, _ => UB
    end.
  Fixpoint each (g : vtree vec -> result (vtree vec)) (slot : string) (ps : list (string * vtree vec)) : result (list (string * vtree vec)) :=
    match ps with
    | [] => Ok []
    | (sl, t) :: ps' => let! t' := (if bool_decide (sl = slot) then g t else Ok t) in let! r := each g slot ps' in Ok ((sl, t') :: r)
    end.
  Fixpoint exec (a : vargs) (g : vtree vec -> result (vtree vec)) (l : list stmt) (s : vecs) (ps : list (string * vtree vec)) : result (vecs * list (string * vtree vec)) :=
    match l with
    | [] => Ok (s, ps)
    | Each slot :: l' => let! ps' := each g slot ps in exec a g l' s ps'
    | st :: l' => let! s' := stmt_run a st s in exec a g l' s' ps
    end.
  (** A call of the function on an object; the fuel is its depth. *)
  Fixpoint call (d : nat) (a : vargs) (t : vtree vec) : result (vtree vec) :=
    match d with
    | 0 => OutOfFuel
    | S d' => match t with VTree c s ps => let! r := exec a (call d' a) (code c (fn_of a)) s ps in Ok (VTree c r.1 r.2) end
    end.
  Definition call_obj (a : vargs) (t : vtree vec) : result (vtree vec) := call (depth t) a t.
  Fixpoint call_all (a : vargs) (ts : list (vtree vec)) : result (list (vtree vec)) :=
    match ts with [] => Ok [] | t :: ts' => let! t' := call_obj a t in let! r := call_all a ts' in Ok (t' :: r) end.

  (** ** The manager over the objects, as in Variants.v. *)
  Record tm := mkTm { tm_ids : gmap string nat; tm_unused : list nat; tm_size : nat; tm_work : option nat; tm_objs : list (vtree vec) }.
  Definition tm_init : tm := mkTm {[ initial_id := 0 ]} [] 1 (Some 0) [].
  (** allocateVariantArrayElement: VariantManager.cpp:42-57. *)
  Definition tm_alloc (src : nat) (recycled overwritten : list nat) (ts : list (vtree vec)) : result (list (vtree vec)) :=
    let! ts1 := (if bool_decide (recycled = []) then Ok ts else call_all (AAlloc recycled src) ts) in
    if bool_decide (overwritten = []) then Ok ts1 else call_all (AAlloc overwritten src) ts1.
  (** cloneVariant: VariantManager.cpp:82-129. *)
  Definition tm_clone (s : tm) (source : string) (targets : list string) (ow : bool) : tm * result unit :=
    match targets with
    | [] => (s, Throw "Empty target variant id list")
    | _ =>
      match tm_ids s !! source with
      | None => (s, Throw "Variant not found")
      | Some src =>
        let c := clone_loop targets ow (mkC (tm_ids s) (tm_unused s) (tm_size s) 0 [] [] false) in
        let s' ts := mkTm (c_ids c) (c_unused c) (c_size c) (tm_work s) ts in
        if c_throw c then (s' (tm_objs s), Throw "Target variant already exists")
        else
          match (let! ts := tm_alloc src (c_rec c) (c_over c) (tm_objs s) in
                 if c_ext c =? 0 then Ok ts else call_all (AExtend (c_ext c) src) ts) with
          | Ok ts => (s' ts, Ok tt)
          | Throw m => (s' (tm_objs s), Throw m)
          | UB => (s' (tm_objs s), UB)
          | OutOfFuel => (s' (tm_objs s), OutOfFuel)
          end
      end
    end.
  (** removeVariant: VariantManager.cpp:201-246. *)
  Definition tm_remove (s : tm) (id : string) : tm * result unit :=
    if bool_decide (id = initial_id) then (s, Throw "Removing initial variant is forbidden")
    else match tm_ids s !! id with
    | None => (s, Throw "Variant not found")
    | Some i =>
      let ids := delete id (tm_ids s) in
      if i =? tm_size s - 1 then
        let (unused, count) := vm_trim i (tm_unused s) 1 in
        match call_all (AReduce count) (tm_objs s) with
        | Ok ts => (mkTm ids unused (tm_size s - count) (reset_if (tm_work s) i) ts, Ok tt)
        | Throw m => (mkTm ids unused (tm_size s) (tm_work s) (tm_objs s), Throw m)
        | UB => (mkTm ids unused (tm_size s) (tm_work s) (tm_objs s), UB)
        | OutOfFuel => (mkTm ids unused (tm_size s) (tm_work s) (tm_objs s), OutOfFuel)
        end
      else
        let unused := sset_insert i (tm_unused s) in
        match call_all (ADelete i) (tm_objs s) with
        | Ok ts => (mkTm ids unused (tm_size s) (reset_if (tm_work s) i) ts, Ok tt)
        | Throw m => (mkTm ids unused (tm_size s) (tm_work s) (tm_objs s), Throw m)
        | UB => (mkTm ids unused (tm_size s) (tm_work s) (tm_objs s), UB)
        | OutOfFuel => (mkTm ids unused (tm_size s) (tm_work s) (tm_objs s), OutOfFuel)
        end
    end.
  (** setWorkingVariant: VariantManager.cpp:248-253. *)
  Definition tm_set_working (s : tm) (id : string) : tm * result unit :=
    match tm_ids s !! id with
    | None => (s, Throw "Variant not found")
    | Some i => (mkTm (tm_ids s) (tm_unused s) (tm_size s) (Some i) (tm_objs s), Ok tt)
    end.
  Definition tm_index (s : tm) : result nat := match tm_work s with Some i => Ok i | None => Throw "Variant index not set" end.

  (** A vector: the number of the object, the way to the part, the name. *)
  Record loc := mkLoc { l_obj : nat; l_path : list nat; l_member : string }.
  Fixpoint part_at {B} (t : vtree B) (p : list nat) : option (vtree B) :=
    match p with [] => Some t | i :: p' => match t_parts t !! i with Some (_, u) => part_at u p' | None => None end end.
  Definition vec_at {B} (ts : list (vtree B)) (l : loc) : option (cls * B) :=
    match ts !! l_obj l with
    | Some t => match part_at t (l_path l) with Some u => match t_vecs u !! l_member l with Some v => Some (t_cls u, v) | None => None end | None => None end
    | None => None
    end.
  Fixpoint part_upd {B} (g : vtree B -> vtree B) (p : list nat) (t : vtree B) : vtree B :=
    match p with
    | [] => g t
    | i :: p' => match t with VTree c s ps => VTree c s (alter (fun q : string * vtree B => (q.1, part_upd g p' q.2)) i ps) end
    end.
  Definition set_vec {B} (m : string) (v : B) (t : vtree B) : vtree B := match t with VTree c s ps => VTree c (<[m := v]> s) ps end.
  Definition put_vec {B} (l : loc) (v : B) (ts : list (vtree B)) : list (vtree B) := alter (part_upd (set_vec (l_member l) v) (l_path l)) (l_obj l) ts.
  Definition kind_of (c : cls) (m : string) : vkind := match list_find (fun p => p.1 = m) (members c) with Some (_, (_, k)) => k | None => VPlain end.

  (** Reading and writing in the working variant: e.g. Terminal.cpp:73-75, 108-121. *)
  Definition tm_read (s : tm) (l : loc) : result (option A) :=
    match vec_at (tm_objs s) l with
    | None => Throw "no such attribute"
    | Some (c, v) => let! i := tm_index s in let! x := vget v i in match kind_of c (l_member l), x with VPtr, None => UB | _, _ => Ok x end
    end.
  Definition tm_write (s : tm) (l : loc) (x : A) : tm * result unit :=
    match vec_at (tm_objs s) l with
    | None => (s, Throw "no such attribute")
    | Some (_, v) =>
      match (let! i := tm_index s in vset v i (Some x)) with
      | Ok v' => (mkTm (tm_ids s) (tm_unused s) (tm_size s) (tm_work s) (put_vec l v' (tm_objs s)), Ok tt)
      | Throw m => (s, Throw m)
      | UB => (s, UB)
      | OutOfFuel => (s, OutOfFuel)
      end
    end.
  (** Creation: vectors of the size of the manager (e.g. Terminal.cpp:21-25), VariantArray.hxx:22-31. *)
  Definition fresh_vec (s : tm) (k : vkind) (x : A) : vec :=
    match k with
    | VPtr => map (fun i => if bool_decide (i ∈ map snd (map_to_list (tm_ids s))) then Some x else None) (seq 0 (tm_size s))
    | _ => replicate (tm_size s) (Some x)
    end.
  Fixpoint build (s : tm) (t : vtree A) : vtree vec :=
    match t with VTree c vs ps => VTree c (map_imap (fun m x => Some (fresh_vec s (kind_of c m) x)) vs) (map (fun p => (p.1, build s p.2)) ps) end.
  (** A new object; a new part of an object (newRatioTapChanger, newGeneration, newExtension, ...). *)
  Definition tm_new (s : tm) (t : vtree A) : tm := mkTm (tm_ids s) (tm_unused s) (tm_size s) (tm_work s) (tm_objs s ++ [build s t]).
  Definition add_part {B} (slot : string) (u : vtree B) (t : vtree B) : vtree B := match t with VTree c s ps => VTree c s (ps ++ [(slot, u)]) end.
  Definition tm_attach (s : tm) (o : nat) (p : list nat) (slot : string) (u : vtree A) : tm :=
    mkTm (tm_ids s) (tm_unused s) (tm_size s) (tm_work s) (alter (part_upd (add_part slot (build s u)) p) o (tm_objs s)).

  Inductive tmop :=
  | TmClone (source : string) (targets : list string) (ow : bool) | TmRemove (id : string) | TmSetWorking (id : string)
  | TmWrite (l : loc) (x : A) | TmNew (t : vtree A) | TmAttach (o : nat) (p : list nat) (slot : string) (u : vtree A).
  Definition tm_step (s : tm) (o : tmop) : tm * result unit :=
    match o with
    | TmClone src ts ow => tm_clone s src ts ow
    | TmRemove id => tm_remove s id
    | TmSetWorking id => tm_set_working s id
    | TmWrite l x => tm_write s l x
    | TmNew t => (tm_new s t, Ok tt)
    | TmAttach o p slot u => (tm_attach s o p slot u, Ok tt)
    end.
End run.
Arguments tm : clear implicits.
Arguments tmop : clear implicits.
