(** What the voltages of the buses must be, in the words of [NodeTopoSpec]. *)
From stdpp Require Import gmap.
From Verif Require Import Base Graph GraphSpec Equip NodeTopo NodeTopoSpec NodeGroupsSpec BusValues.

(** A terminal sits on one node (NodeTerminal.hpp: m_node). *)
Definition one_node (s : sgraph nterm string) : Prop := forall n n' t, term_at s n t -> term_at s n' t -> n = n'.

(** The voltage is NaN or not negative. *)
Definition acceptable {A} (neg : A -> bool) (x : option A) : Prop := forall a, x = Some a -> neg a = false.

(** getV of bus [b], whose first node is [n0], answers [x] when the terminals hold [f]; it leaves the voltage level as it was. *)
Definition reads {A} (st : nbst) (n0 : nat) (b : cbus) (f : nterm -> option A) (x : option A) : Prop :=
  exists r st', find_terminal n0 (cb_terms b) st = (Ok r, st') /\ cb_get_v r f = x /\ nbg st' = nbg st /\ e_vars st' = e_vars st /\ e_cur st' = e_cur st.
