(** The terminals that can stand for a node, and the nodes of a bus, in the words of [NodeTopoSpec]. *)
From stdpp Require Import gmap.
From Verif Require Import Base GraphSpec NodeTopo NodeTopoSpec.

Section spec.
  Context (s : sgraph nterm string) (sw : gmap string (bool * bool)).
  Definition has_terminal (n : nat) : Prop := exists t, term_at s n t.

  (** A step through an internal connection or a closed switch to a node without terminal. *)
  Definition free_step (a b : nat) : Prop := link BusView s sw a b /\ ~ has_terminal b.
  (** [m] is a node with a terminal, other than [n], and no other terminal is met on the way from [n]. *)
  Definition nearest (n m : nat) : Prop :=
    m <> n /\ has_terminal m /\ exists a, rtc free_step n a /\ link BusView s sw a m.
End spec.
