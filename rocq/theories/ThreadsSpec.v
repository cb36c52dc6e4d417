(** Specification: what each thread has selected. *)
From Verif Require Export Threads.

(** The variant thread [t] has selected after the events [evs] (most recent first): the last one it selected, unless it was removed since. *)
Fixpoint selected (initial : gmap nat string) (evs : list (nat * wop * result string)) (t : nat) : option string :=
  match evs with
  | [] => initial !! t
  | (t', WSet _ id, Ok _) :: evs' => if bool_decide (t = t') then Some id else selected initial evs' t
  | (t', WRemove _ id, Ok _) :: evs' => if bool_decide (t = t' /\ selected initial evs' t = Some id) then None else selected initial evs' t
  | _ :: evs' => selected initial evs' t
  end.
(** Each thread uses one network only: [own t]. *)
Definition uses_own (own : nat -> nat) (e : nat * wop) : Prop :=
  match e.2 with WClone k _ _ _ | WRemove k _ | WSet k _ | WGet k => k = own e.1 | WNew | WAllow _ _ => False end.
(** No variant is removed while another thread of the same network has it selected. *)
Fixpoint removals_fine (own : nat -> nat) (initial : gmap nat string) (evs : list (nat * wop * result string)) : Prop :=
  match evs with
  | [] => True
  | (t, WRemove k id, Ok _) :: evs' => (forall t', t' <> t -> own t' = k -> selected initial evs' t' <> Some id) /\ removals_fine own initial evs'
  | _ :: evs' => removals_fine own initial evs'
  end.
