(** Specification of the variants, independent of the model: every variant id has its own complete set of values,
    there is at most one working variant. *)
From stdpp Require Import gmap.
From Verif Require Import Base Variants.

Section spec.
  Context {A : Type}.

  Record vspec := mkSp {
    sp_vals : gmap string (list A);   (* variant id -> value of object 0, 1, ... *)
    sp_work : option string           (* the working variant *)
  }.
  Definition sp_init : vspec := mkSp {[ "InitialVariant" := [] ]} (Some "InitialVariant").

  (** One operation; the boolean tells whether it succeeds.  A failing operation changes nothing. *)
  Definition sp_step (p : vspec) (o : vop A) : vspec * bool :=
    match o with
    | VClone src ts ow =>
      match sp_vals p !! src with
      | None => (p, false)
      | Some v =>
        if bool_decide (ts = []) then (p, false)
        else if negb ow && bool_decide (Exists (fun t => is_Some (sp_vals p !! t)) ts) then (p, false)
        else (mkSp (foldr (fun t m => <[t := v]> m) (sp_vals p) ts) (sp_work p), true)
      end
    | VRemove id =>
      if bool_decide (id = "InitialVariant" \/ sp_vals p !! id = None) then (p, false)
      else (mkSp (delete id (sp_vals p)) (if bool_decide (sp_work p = Some id) then None else sp_work p), true)
    | VSetWorking id =>
      if bool_decide (sp_vals p !! id = None) then (p, false) else (mkSp (sp_vals p) (Some id), true)
    | VWrite k x =>
      match sp_work p with
      | None => (p, false)
      | Some w =>
        match sp_vals p !! w with
        | None => (p, false)
        | Some l => if k <? length l then (mkSp (<[w := <[k := x]> l]> (sp_vals p)) (sp_work p), true) else (p, false)
        end
      end
    | VForEachWrite k x =>
      match sp_work p with
      | None => (p, false)
      | Some w =>
        match sp_vals p !! w with
        | None => (p, false)
        | Some l => if k <? length l then (mkSp ((fun l => <[k := x]> l) <$> sp_vals p) (sp_work p), true) else (p, false)
        end
      end
    | VNew _ x => (mkSp ((fun l => l ++ [x]) <$> sp_vals p) (sp_work p), true)
    end.

  (** What a read of object [k] returns. *)
  Definition sp_read (p : vspec) (k : nat) : option A := w ← sp_work p; l ← sp_vals p !! w; l !! k.

  (** Calls covered: a cloneVariant call has at most one target, or distinct targets that are all new or may be
      overwritten; no SlackTerminal extension exists. *)
  Definition sp_safe (p : vspec) (o : vop A) : Prop :=
    match o with
    | VClone _ ts ow =>
      length ts <= 1 \/ (NoDup ts /\ (ow = true \/ forall t, t ∈ ts -> sp_vals p !! t = None))
    | VNew k _ => k <> VSlack
    | _ => True
    end.

  (** Histories. *)
  Fixpoint sp_all_safe (ops : list (vop A)) (p : vspec) : Prop :=
    match ops with
    | [] => True
    | o :: ops => sp_safe p o /\ sp_all_safe ops (sp_step p o).1
    end.
  Fixpoint sp_run (ops : list (vop A)) (p : vspec) : vspec * list bool :=
    match ops with
    | [] => (p, [])
    | o :: ops => let q := sp_step p o in let r := sp_run ops q.1 in (r.1, q.2 :: r.2)
    end.
  Fixpoint vm_exec (ops : list (vop A)) (s : vm A) : vm A * list (result unit) :=
    match ops with
    | [] => (s, [])
    | o :: ops => let q := vm_step s o in let r := vm_exec ops q.1 in (r.1, q.2 :: r.2)
    end.

  (** The outcome of a call is the specified one: normal return, or an exception. *)
  Definition outcome (b : bool) (r : result unit) : Prop :=
    if b then r = Ok tt else exists m, r = Throw m.
End spec.
Arguments vspec : clear implicits.
