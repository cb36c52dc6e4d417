(** Model of the variant management: src/iidm/VariantManager.cpp, MultipleVariantContext.cpp,
    VariantArray.hxx and the per-variant arrays of the multi-variant objects. *)
From stdpp Require Export gmap.
From Verif Require Export Base.

(** ** Per-variant arrays
    Every multi-variant object holds vectors indexed by the variant index.  A cell is [option A]:
    [None] is a null pointer (VariantArray), a null reference (SlackTerminal) or a cleared value. *)
Inductive vkind :=
| VPlain      (* plain values: Terminal.cpp:33-55/97-100, Generator.cpp:35-53/113-120, Load, Battery, Switch, taps,
                 LoadDetail.cpp:32-63/91-96, ...: deleteVariantArrayElement does nothing *)
| VPtr        (* VariantArray<unique_ptr>: include/powsybl/iidm/VariantArray.hxx:22-80 (networks, voltage levels) *)
| VClear      (* plain values that deleteVariantArrayElement empties: BusTerminal::m_connectableBusId (BusTerminal.cpp:39-43),
                 ConfiguredBus::m_terminals (ConfiguredBus.cpp:58-62) *)
| VSlack.     (* SlackTerminal.cpp:29-34, 51-57, 84-86 *)
#[global] Instance vkind_eq_dec : EqDecision vkind.
Proof. solve_decision. Defined.

Section variants.
  Context {A : Type}.

  Record vobj := mkVobj { vo_kind : vkind; vo_arr : list (option A) }.

  (** Reading the source cell of a copy.  VariantArray.hxx:49-51 dereferences the pointer. *)
  Definition cell_copy (k : vkind) (a : list (option A)) (src : nat) : result (option A) :=
    let! x := vget a src in
    match k, x with
    | VPtr, None => UB
    | _, _ => Ok x
    end.

  (** allocateVariantArrayElement(indexes, source): e.g. Terminal.cpp:33-38, VariantArray.hxx:41-46. *)
  Fixpoint arr_alloc (k : vkind) (idx : list nat) (src : nat) (a : list (option A)) : result (list (option A)) :=
    match idx with
    | [] => Ok a
    | i :: l => let! x := cell_copy k a src in let! a' := vset a i x in arr_alloc k l src a'
    end.

  (** extendVariantArraySize(init, number, source): e.g. Terminal.cpp:52-55, VariantArray.hxx:58-63,
      SlackTerminal.cpp:55-57. *)
  Definition arr_extend (k : vkind) (n src : nat) (a : list (option A)) : result (list (option A)) :=
    let! x := cell_copy k a src in Ok (a ++ replicate n x).

  (** reduceVariantArraySize(number): [resize(size() - number)], e.g. Terminal.cpp:97-100; the subtraction is
      unsigned: a too large [number] makes resize throw std::length_error.
      SlackTerminal.cpp:84-86: [resize(number)]. *)
  Definition arr_reduce (k : vkind) (n : nat) (a : list (option A)) : result (list (option A)) :=
    match k with
    | VSlack => Ok (resize n None a)
    | _ => if n <=? length a then Ok (take (length a - n) a) else Throw "length_error"
    end.

  (** deleteVariantArrayElement(index): Terminal.cpp:44-46 (nothing), VariantArray.hxx:53-56, BusTerminal.cpp:39-43, SlackTerminal.cpp:51-53. *)
  Definition arr_delete (k : vkind) (i : nat) (a : list (option A)) : result (list (option A)) :=
    match k with
    | VPlain => Ok a
    | _ => vset a i None
    end.

  (** The loops [for (auto& multiVariantObject : m_network.getStatefulObjects())]. *)
  Fixpoint for_objs (f : vkind -> list (option A) -> result (list (option A))) (os : list vobj) : result (list vobj) :=
    match os with
    | [] => Ok []
    | o :: t => let! a := f (vo_kind o) (vo_arr o) in let! t' := for_objs f t in Ok (mkVobj (vo_kind o) a :: t')
    end.

  (** ** The manager *)
  Record vm := mkVm {
    vm_ids : gmap string nat;        (* m_variantsById: VariantManager.hpp:93 *)
    vm_unused : list nat;            (* m_unusedIndexes (std::set): VariantManager.hpp:95 *)
    vm_size : nat;                   (* m_variantArraySize: VariantManager.hpp:87 *)
    vm_work : option nat;            (* MultipleVariantContext::m_index *)
    vm_objs : list vobj              (* the stateful objects of the network *)
  }.

  (** getInitialVariantId: VariantManager.cpp:142-146. *)
  Definition initial_id : string := "InitialVariant".

  (** VariantManager(Network&): VariantManager.cpp:27-33. *)
  Definition vm_init : vm := mkVm {[ initial_id := 0 ]} [] 1 (Some 0) [].

  (** The loop of VariantManager.cpp:97-117 over the targets.  [c_throw] tells that it threw. *)
  Record cstate := mkC {
    c_ids : gmap string nat; c_unused : list nat; c_size : nat;
    c_ext : nat; c_rec : list nat; c_over : list nat; c_throw : bool
  }.
  Fixpoint clone_loop (targets : list string) (ow : bool) (c : cstate) : cstate :=
    match targets with
    | [] => c
    | t :: ts =>
      match c_ids c !! t with
      | Some i =>
        if ow then clone_loop ts ow (mkC (c_ids c) (c_unused c) (c_size c) (c_ext c) (c_rec c) (sset_insert i (c_over c)) false)
        else mkC (c_ids c) (c_unused c) (c_size c) (c_ext c) (c_rec c) (c_over c) true
      | None =>
        match c_unused c with
        | [] => clone_loop ts ow (mkC (<[t := c_size c]> (c_ids c)) [] (S (c_size c)) (S (c_ext c)) (c_rec c) (c_over c) false)
        | i :: u => clone_loop ts ow (mkC (<[t := i]> (c_ids c)) u (c_size c) (c_ext c) (sset_insert i (c_rec c)) (c_over c) false)
        end
      end
    end.

  (** allocateVariantArrayElement: VariantManager.cpp:42-57. *)
  Definition vm_alloc (src : nat) (recycled overwritten : list nat) (os : list vobj) : result (list vobj) :=
    let! os1 := (if bool_decide (recycled = []) then Ok os else for_objs (fun k => arr_alloc k recycled src) os) in
    if bool_decide (overwritten = []) then Ok os1 else for_objs (fun k => arr_alloc k overwritten src) os1.

  (** cloneVariant(source, targets, mayOverwrite): VariantManager.cpp:82-129.
      When the object loops do not return normally, the state returned is the one of the manager. *)
  Definition vm_clone (s : vm) (source : string) (targets : list string) (ow : bool) : vm * result unit :=
    match targets with
    | [] => (s, Throw "Empty target variant id list")
    | _ =>
      match vm_ids s !! source with
      | None => (s, Throw "Variant not found")
      | Some src =>
        let c := clone_loop targets ow (mkC (vm_ids s) (vm_unused s) (vm_size s) 0 [] [] false) in
        let s' os := mkVm (c_ids c) (c_unused c) (c_size c) (vm_work s) os in
        if c_throw c then (s' (vm_objs s), Throw "Target variant already exists")
        else
          match (let! os := vm_alloc src (c_rec c) (c_over c) (vm_objs s) in
                 if c_ext c =? 0 then Ok os else for_objs (fun k => arr_extend k (c_ext c) src) os) with
          | Ok os => (s' os, Ok tt)
          | Throw m => (s' (vm_objs s), Throw m)
          | UB => (s' (vm_objs s), UB)
          | OutOfFuel => (s' (vm_objs s), OutOfFuel)
          end
      end
    end.

  (** The loop of VariantManager.cpp:217-226: [i] counts down from the removed index. *)
  Fixpoint vm_trim (i : nat) (unused : list nat) (count : nat) : list nat * nat :=
    match i with
    | O => (unused, count)
    | S j => if sset_mem j unused then vm_trim j (sset_erase j unused) (S count) else (unused, count)
    end.

  (** resetIfVariantIndexIs: MultipleVariantContext.cpp:31-35. *)
  Definition reset_if (w : option nat) (i : nat) : option nat :=
    if bool_decide (w = Some i) then None else w.

  (** removeVariant: VariantManager.cpp:201-246. *)
  Definition vm_remove (s : vm) (id : string) : vm * result unit :=
    if bool_decide (id = initial_id) then (s, Throw "Removing initial variant is forbidden")
    else match vm_ids s !! id with
    | None => (s, Throw "Variant not found")
    | Some i =>
      let ids := delete id (vm_ids s) in
      if i =? vm_size s - 1 then
        let (unused, count) := vm_trim i (vm_unused s) 1 in
        match for_objs (fun k => arr_reduce k count) (vm_objs s) with
        | Ok os => (mkVm ids unused (vm_size s - count) (reset_if (vm_work s) i) os, Ok tt)
        | Throw m => (mkVm ids unused (vm_size s) (vm_work s) (vm_objs s), Throw m)
        | UB => (mkVm ids unused (vm_size s) (vm_work s) (vm_objs s), UB)
        | OutOfFuel => (mkVm ids unused (vm_size s) (vm_work s) (vm_objs s), OutOfFuel)
        end
      else
        let unused := sset_insert i (vm_unused s) in
        match for_objs (fun k => arr_delete k i) (vm_objs s) with
        | Ok os => (mkVm ids unused (vm_size s) (reset_if (vm_work s) i) os, Ok tt)
        | Throw m => (mkVm ids unused (vm_size s) (vm_work s) (vm_objs s), Throw m)
        | UB => (mkVm ids unused (vm_size s) (vm_work s) (vm_objs s), UB)
        | OutOfFuel => (mkVm ids unused (vm_size s) (vm_work s) (vm_objs s), OutOfFuel)
        end
    end.

  (** setWorkingVariant: VariantManager.cpp:248-253. *)
  Definition vm_set_working (s : vm) (id : string) : vm * result unit :=
    match vm_ids s !! id with
    | None => (s, Throw "Variant not found")
    | Some i => (mkVm (vm_ids s) (vm_unused s) (vm_size s) (Some i) (vm_objs s), Ok tt)
    end.

  (** getVariantIndex(): MultipleVariantContext.cpp:20-25. *)
  Definition vm_index (s : vm) : result nat :=
    match vm_work s with Some i => Ok i | None => Throw "Variant index not set" end.

  (** Reading a per-variant value of object [k] (e.g. Terminal::getP, Terminal.cpp:73-75; VariantArray.hxx:65-75).
      Some classes use [at] and throw instead of the undefined behaviour of [operator[]]. *)
  Definition vobj_read (o : vobj) (i : nat) : result (option A) :=
    let! x := vget (vo_arr o) i in
    match vo_kind o, x with
    | VPtr, None => UB
    | _, _ => Ok x
    end.
  Definition vm_read (s : vm) (k : nat) : result (option A) :=
    match vm_objs s !! k with
    | None => Throw "no such object"
    | Some o => let! i := vm_index s in vobj_read o i
    end.

  (** Writing a per-variant value (e.g. Terminal::setP, Terminal.cpp:108-121). *)
  Definition vobj_write (o : vobj) (i : nat) (x : option A) : result vobj :=
    let! a := vset (vo_arr o) i x in Ok (mkVobj (vo_kind o) a).
  Definition vm_write (s : vm) (k : nat) (x : A) : vm * result unit :=
    match vm_objs s !! k with
    | None => (s, Throw "no such object")
    | Some o =>
      match (let! i := vm_index s in vobj_write o i (Some x)) with
      | Ok o' => (mkVm (vm_ids s) (vm_unused s) (vm_size s) (vm_work s) (<[k := o']> (vm_objs s)), Ok tt)
      | Throw m => (s, Throw m)
      | UB => (s, UB)
      | OutOfFuel => (s, OutOfFuel)
      end
    end.

  (** forEachVariant: VariantManager.cpp:131-140 with the function [write x into object k];
      VariantContextGuard.cpp:16-23 saves and restores the working index.  The map iteration order is not
      observable here. *)
  Definition vm_foreach_write (s : vm) (k : nat) (x : A) : vm * result unit :=
    match vm_index s with
    | Ok w =>
      let step (acc : vm * result unit) (id_i : string * nat) :=
        match acc.2 with
        | Ok _ => vm_write (mkVm (vm_ids acc.1) (vm_unused acc.1) (vm_size acc.1) (Some id_i.2) (vm_objs acc.1)) k x
        | _ => acc
        end in
      let r := foldl step (s, Ok tt) (map_to_list (vm_ids s)) in
      (mkVm (vm_ids r.1) (vm_unused r.1) (vm_size r.1) (Some w) (vm_objs r.1), r.2)
    | Throw m => (s, Throw m)
    | _ => (s, UB)
    end.

  (** Creation of a multi-variant object: plain vectors have one value per slot (e.g. Terminal.cpp:21-25),
      a VariantArray only fills the slots of live variants (VariantArray.hxx:22-31). *)
  Definition new_array (s : vm) (k : vkind) (x : A) : list (option A) :=
    match k with
    | VPtr => map (fun i => if bool_decide (i ∈ map snd (map_to_list (vm_ids s))) then Some x else None) (seq 0 (vm_size s))
    | _ => replicate (vm_size s) (Some x)
    end.
  Definition vm_new (s : vm) (k : vkind) (x : A) : vm :=
    mkVm (vm_ids s) (vm_unused s) (vm_size s) (vm_work s) (vm_objs s ++ [mkVobj k (new_array s k x)]).

  (** VariantArray(owner, VariantArray&&): VariantArray.hxx:33-40 dereferences every slot. *)
  Definition ptr_move (a : list (option A)) : result (list (option A)) :=
    foldr (fun x acc => let! l := acc in match x with None => UB | Some _ => Ok (x :: l) end) (Ok []) a.

  (** getWorkingVariantId: VariantManager.cpp:186-195 dereferences the iterator found. *)
  Definition vm_working_id (s : vm) : result string :=
    let! i := vm_index s in
    match list_find (fun p => p.2 = i) (map_to_list (vm_ids s)) with
    | Some (_, (id, _)) => Ok id
    | None => UB
    end.

  (** ** Histories *)
  Inductive vop :=
  | VClone (source : string) (targets : list string) (ow : bool)
  | VRemove (id : string)
  | VSetWorking (id : string)
  | VWrite (k : nat) (x : A)
  | VForEachWrite (k : nat) (x : A)
  | VNew (kd : vkind) (x : A).

  Definition vm_step (s : vm) (o : vop) : vm * result unit :=
    match o with
    | VClone src ts ow => vm_clone s src ts ow
    | VRemove id => vm_remove s id
    | VSetWorking id => vm_set_working s id
    | VWrite k x => vm_write s k x
    | VForEachWrite k x => vm_foreach_write s k x
    | VNew kd x => (vm_new s kd x, Ok tt)
    end.
  Definition vm_run (ops : list vop) (s : vm) : vm := foldl (fun s o => (vm_step s o).1) s ops.
End variants.
Arguments vobj : clear implicits.
Arguments vm : clear implicits.
Arguments vop : clear implicits.
