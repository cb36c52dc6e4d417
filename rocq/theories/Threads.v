(** Variants of several networks used by several threads (src/iidm/VariantManager.cpp, MultipleVariantContext.cpp,
    ThreadLocalMultipleVariantContext.cpp).

    Each operation of the manager holds the mutex of its network (VariantManager.cpp:93, 187, 204, 249), and the thread-local index is only
    accessed by its own thread: a concurrent execution is an interleaving of whole operations. The per-variant arrays of the objects are those of
    Variants.v and play no role here: the networks are taken without objects. *)
From stdpp Require Export gmap.
From Verif Require Export Variants.

(** A network: its variants (the field [vm_work] is MultipleVariantContext::m_index) and whether the context is the thread-local one. *)
Record tnet := mkTNet { tn_vm : vm unit; tn_multi : bool }.
(** [w_tls]: ThreadLocalMultipleVariantContext::m_index, static thread_local (ThreadLocalMultipleVariantContext.cpp:19): one value per thread,
    whatever the network. *)
Record world := mkWorld { w_nets : list tnet; w_tls : gmap nat nat }.
Definition with_work (s : vm unit) (w : option nat) : vm unit := mkVm (vm_ids s) (vm_unused s) (vm_size s) w (vm_objs s).
Definition set_tls (t : nat) (w : option nat) (m : gmap nat nat) : gmap nat nat := match w with Some i => <[t := i]> m | None => delete t m end.
(** m_variantContext->getVariantIndex() etc. as seen by thread [t]. *)
Definition ctx (w : world) (t : nat) (n : tnet) : option nat := if tn_multi n then w_tls w !! t else vm_work (tn_vm n).
(** Runs an operation of the manager of network [k] in thread [t]. *)
Definition on_net (w : world) (t k : nat) (f : vm unit -> vm unit * result string) : world * result string :=
  match w_nets w !! k with
  | None => (w, Throw "no such network")
  | Some n =>
    let r := f (with_work (tn_vm n) (ctx w t n)) in
    if tn_multi n then (mkWorld (<[k := mkTNet (with_work r.1 (vm_work (tn_vm n))) true]> (w_nets w)) (set_tls t (vm_work r.1) (w_tls w)), r.2)
    else (mkWorld (<[k := mkTNet r.1 false]> (w_nets w)) (w_tls w), r.2)
  end.
Definition quietly (r : vm unit * result unit) : vm unit * result string :=
  (r.1, match r.2 with Ok _ => Ok "" | Throw m => Throw m | UB => UB | OutOfFuel => OutOfFuel end).
(** getWorkingVariantId: VariantManager.cpp:186-195 (it->first on the end of the map is undefined). *)
Definition vm_working (s : vm unit) : vm unit * result string :=
  (s, match vm_work s with
      | None => Throw "Variant index not set"
      | Some i => match list_find (fun e => e.2 = i) (map_to_list (vm_ids s)) with Some (_, e) => Ok e.1 | None => UB end
      end).
Inductive wop := WNew | WAllow (k : nat) (allow : bool) | WClone (k : nat) (src : string) (targets : list string) (ow : bool) | WRemove (k : nat) (id : string)
  | WSet (k : nat) (id : string) | WGet (k : nat).
(** allowVariantMultiThreadAccess: VariantManager.cpp:59-76. *)
Definition w_allow (w : world) (t k : nat) (allow : bool) : world * result string :=
  match w_nets w !! k with
  | None => (w, Throw "no such network")
  | Some n =>
    if allow then
      if tn_multi n then (w, Ok "")
      else (mkWorld (<[k := mkTNet (tn_vm n) true]> (w_nets w)) (match vm_work (tn_vm n) with Some i => <[t := i]> (w_tls w) | None => w_tls w end), Ok "")
    else
      if tn_multi n then (mkWorld (<[k := mkTNet (with_work (tn_vm n) (Some (default 0 (w_tls w !! t)))) false]> (w_nets w)) (w_tls w), Ok "")
      else (w, Ok "")
  end.
(** One operation by thread [t]. *)
Definition w_step (w : world) (t : nat) (o : wop) : world * result string :=
  match o with
  | WNew => (mkWorld (w_nets w ++ [mkTNet vm_init false]) (w_tls w), Ok "")
  | WAllow k b => w_allow w t k b
  | WClone k src ts ow => on_net w t k (fun s => quietly (vm_clone s src ts ow))
  | WRemove k id => on_net w t k (fun s => quietly (vm_remove s id))
  | WSet k id => on_net w t k (fun s => quietly (vm_set_working s id))
  | WGet k => on_net w t k vm_working
  end.
(** An execution: the operations in order with their threads; the answers, most recent last. *)
Fixpoint w_run (w : world) (h : list (nat * wop)) : world * list (nat * wop * result string) :=
  match h with
  | [] => (w, [])
  | (t, o) :: h' => let r := w_step w t o in let r' := w_run r.1 h' in (r'.1, (t, o, r.2) :: r'.2)
  end.
(** The process at its start. *)
Definition w_init : world := mkWorld [] ∅.
