(** Specification of the variants of a network, independent of the vectors and of the functions of the classes: every variant has its
    own complete copy of all the objects, parts and attributes, one value per attribute. *)
From stdpp Require Import gmap strings.
From Verif Require Import Base Variants VariantCode.

(** The objects that exist: every object has the attributes of its class, and parts that its class may have. *)
Fixpoint shaped {B} (t : vtree B) : Prop :=
  match t with
  | VTree c s ps =>
    (forall m, is_Some (s !! m) <-> m ∈ map fst (members c)) /\
    (fix go (ps : list (string * vtree B)) : Prop := match ps with [] => True | p :: ps' => (slot_ok c p.1 (t_cls p.2) = true /\ shaped p.2) /\ go ps' end) ps
  end.
(** No SlackTerminal extension, see C11. *)
Fixpoint no_slack {B} (t : vtree B) : Prop :=
  match t with
  | VTree c _ ps => c <> KSlackTerminal /\ (fix go (ps : list (string * vtree B)) : Prop := match ps with [] => True | p :: ps' => no_slack p.2 /\ go ps' end) ps
  end.

Section spec.
  Context {A : Type}.
  Record tspec := mkTs {
    ts_vals : gmap string (list (vtree A));   (* variant id -> the objects with the values of their attributes *)
    ts_work : option string
  }.
  Definition ts_init : tspec := mkTs {[ "InitialVariant" := [] ]} (Some "InitialVariant").

  (** One operation; the boolean tells whether it succeeds.  A failing operation changes nothing. *)
  Definition ts_step (p : tspec) (o : tmop A) : tspec * bool :=
    match o with
    | TmClone src ts ow =>
      match ts_vals p !! src with
      | None => (p, false)
      | Some v =>
        if bool_decide (ts = []) then (p, false)
        else if negb ow && bool_decide (Exists (fun t => is_Some (ts_vals p !! t)) ts) then (p, false)
        else (mkTs (foldr (fun t m => <[t := v]> m) (ts_vals p) ts) (ts_work p), true)
      end
    | TmRemove id =>
      match ts_vals p !! id with
      | None => (p, false)
      | Some _ =>
        if bool_decide (id = "InitialVariant") then (p, false)
        else (mkTs (delete id (ts_vals p)) (if bool_decide (ts_work p = Some id) then None else ts_work p), true)
      end
    | TmSetWorking id => match ts_vals p !! id with None => (p, false) | Some _ => (mkTs (ts_vals p) (Some id), true) end
    | TmWrite l x =>
      match ts_work p with
      | None => (p, false)
      | Some w =>
        match ts_vals p !! w with
        | None => (p, false)
        | Some objs => match vec_at objs l with Some _ => (mkTs (<[w := put_vec l x objs]> (ts_vals p)) (ts_work p), true) | None => (p, false) end
        end
      end
    | TmNew t => (mkTs ((fun objs => objs ++ [t]) <$> ts_vals p) (ts_work p), true)
    | TmAttach o q slot u => (mkTs ((fun objs => alter (part_upd (add_part slot u) q) o objs) <$> ts_vals p) (ts_work p), true)
    end.
  (** What reading an attribute gives. *)
  Definition ts_read (p : tspec) (l : loc) : option A := w ← ts_work p; objs ← ts_vals p !! w; snd <$> vec_at objs l.

  (** The calls covered: as in C08 for cloneVariant; new objects and parts are those of the classes. *)
  Definition ts_safe (p : tspec) (o : tmop A) : Prop :=
    match o with
    | TmClone _ ts ow => length ts <= 1 \/ (NoDup ts /\ (ow = true \/ forall t, t ∈ ts -> ts_vals p !! t = None))
    | TmNew t => shaped t /\ no_slack t
    | TmAttach o q slot u => shaped u /\ no_slack u /\
      forall id objs, ts_vals p !! id = Some objs -> exists t v, objs !! o = Some t /\ part_at t q = Some v /\ slot_ok (t_cls v) slot (t_cls u) = true
    | _ => True
    end.
  Fixpoint ts_all_safe (ops : list (tmop A)) (p : tspec) : Prop :=
    match ops with [] => True | o :: ops' => ts_safe p o /\ ts_all_safe ops' (ts_step p o).1 end.
  Fixpoint ts_run (ops : list (tmop A)) (p : tspec) : tspec * list bool :=
    match ops with [] => (p, []) | o :: ops' => let q := ts_step p o in let r := ts_run ops' q.1 in (r.1, q.2 :: r.2) end.
  Fixpoint tm_exec (ops : list (tmop A)) (s : tm A) : tm A * list (result unit) :=
    match ops with [] => (s, []) | o :: ops' => let q := tm_step s o in let r := tm_exec ops' q.1 in (r.1, q.2 :: r.2) end.
End spec.
Arguments tspec : clear implicits.
