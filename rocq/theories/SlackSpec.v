(** Specification of the slack terminals, independent of the arrays of the model: each variant has at most one slack terminal per
    voltage level. *)
From stdpp Require Import gmap list.
From Verif Require Import Base Variants Slack.

Record slspec := mkSs {
  ss_live : gset string;                       (* the variants *)
  ss_work : option string;                     (* the working variant *)
  ss_slack : string -> string -> option term;  (* the slack terminal of a variant in a voltage level *)
  ss_ext : gset string                         (* the voltage levels with the extension *)
}.
Definition ss_init : slspec := mkSs {[ "InitialVariant" ]} (Some "InitialVariant") (fun _ _ => None) ∅.

(** The terminal chosen in a bus: the first busbar section, else the first injection, else the first branch, else the first
    transformer with three windings. *)
Definition first_of (cs : list tclass) (ts : list term) : option term := head (filter (fun t => t_class t ∈ cs) ts).
Definition chosen (ts : list term) : option term :=
  match first_of [CBusbar] ts with
  | Some t => Some t
  | None => match first_of [CInjection; CHvdc] ts with
    | Some t => Some t
    | None => match first_of [CBranch] ts with
      | Some t => Some t
      | None => first_of [CThree] ts
      end
    end
  end.

Definition change (f : string -> string -> option term) (v vl : string) (t : option term) : string -> string -> option term :=
  fun v' vl' => if decide (v' = v /\ vl' = vl) then t else f v' vl'.
Definition used (p : slspec) (vl : string) : bool := existsb (fun v => bool_decide (is_Some (ss_slack p v vl))) (elements (ss_live p)).
(** The extension of [vl] does not stay when no variant has a slack terminal. *)
Definition clean_up (p : slspec) (vl : string) : slspec :=
  mkSs (ss_live p) (ss_work p) (ss_slack p) (if used p vl then ss_ext p else ss_ext p ∖ {[ vl ]}).
Definition right_level (vl : string) (t : option term) : bool :=
  match t with Some t => bool_decide (t_vl t = vl) | None => true end.

(** The slack terminal of [vl] becomes [t] in the working variant only. *)
Definition ss_reset (p : slspec) (vl : string) (t : option term) : slspec * bool :=
  if bool_decide (vl ∉ ss_ext p) && bool_decide (t = None) then (p, true)
  else match ss_work p with
  | Some w => if right_level vl t then (clean_up (mkSs (ss_live p) (ss_work p) (change (ss_slack p) w vl t) ({[ vl ]} ∪ ss_ext p)) vl, true)
              else (p, false)
  | None => (p, false)
  end.

Definition ss_step (p : slspec) (o : slop) : slspec * bool :=
  match o with
  | SClone src ts ow =>
    if bool_decide (src ∉ ss_live p \/ ts = []) || (negb ow && bool_decide (Exists (fun t => t ∈ ss_live p) ts)) then (p, false)
    else (mkSs (list_to_set ts ∪ ss_live p) (ss_work p) (fun v vl => if decide (v ∈ ts) then ss_slack p src vl else ss_slack p v vl) (ss_ext p), true)
  | SRemove id =>
    if bool_decide (id = "InitialVariant" \/ id ∉ ss_live p) then (p, false)
    else (mkSs (ss_live p ∖ {[ id ]}) (if bool_decide (ss_work p = Some id) then None else ss_work p) (ss_slack p) (ss_ext p), true)
  | SSetWorking id => if bool_decide (id ∈ ss_live p) then (mkSs (ss_live p) (Some id) (ss_slack p) (ss_ext p), true) else (p, false)
  | SAdd vl t =>
    match ss_work p, t with
    | Some w, Some _ =>
      if right_level vl t
      then (mkSs (ss_live p) (ss_work p) (fun v vl' => if decide (vl' = vl) then if decide (v = w) then t else None else ss_slack p v vl') ({[ vl ]} ∪ ss_ext p), true)
      else (p, false)
    | _, _ => (p, false)
    end
  | SSet vl t clean =>
    match ss_work p with
    | Some w =>
      if bool_decide (vl ∈ ss_ext p) && right_level vl t
      then let p' := mkSs (ss_live p) (ss_work p) (change (ss_slack p) w vl t) (ss_ext p) in (if clean then clean_up p' vl else p', true)
      else (p, false)
    | None => (p, false)
    end
  | SReset vl t => ss_reset p vl t
  | SResetAll vls =>
    match ss_work p with
    | Some w => (foldl clean_up (mkSs (ss_live p) (ss_work p) (fun v vl => if decide (v = w /\ vl ∈ vls) then None else ss_slack p v vl) (ss_ext p)) vls, true)
    | None => (p, bool_decide (Forall (fun vl => vl ∉ ss_ext p) vls))
    end
  | SAttach vl ts => match chosen ts with Some t => ss_reset p vl (Some t) | None => (p, false) end
  end.

Definition outcome (b : bool) (r : result unit) : Prop := if b then r = Ok tt else exists m, r = Throw m.

(** What getExtension<SlackTerminal>().getTerminal() gives under the working variant. *)
Definition ss_get (p : slspec) (vl : string) : option (option term) :=
  w ← ss_work p; if decide (vl ∈ ss_ext p) then Some (ss_slack p w vl) else None.

(** The calls covered.  cloneVariant: one target, or distinct targets that are all new or may be overwritten (C10).
    removeVariant: when a voltage level has a slack terminal, either the slot of the variant is not the last one of the arrays, or as
    many slots are dropped as are kept; otherwise SlackTerminal::reduceVariantArraySize leaves an array of the wrong size (C11). *)
Definition sl_safe (s : slst) (o : slop) : Prop :=
  match o with
  | SClone _ ts ow => length ts <= 1 \/ (NoDup ts /\ (ow = true \/ forall t, t ∈ ts -> vm_ids (sl_vm s) !! t = None))
  | SRemove id => sl_names s = [] \/ forall i, vm_ids (sl_vm s) !! id = Some i ->
      i <> vm_size (sl_vm s) - 1 \/ vm_size (sl_vm s) = 2 * (vm_trim i (vm_unused (sl_vm s)) 1).2
  | _ => True
  end.

(** The model and the specification after the same calls. *)
Inductive sl_hist : slst -> slspec -> Prop :=
| slh_init : sl_hist sl_init ss_init
| slh_step s p o : sl_hist s p -> sl_safe s o -> sl_hist (sl_step s o).1 (ss_step p o).1.
