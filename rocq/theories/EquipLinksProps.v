(** C61: equipments and the links (switches, internal connections) of their voltage levels. *)
From Verif Require Import EquipNet EquipNetSpec EquipNetProofs EquipNetProps EquipLinksProofs.

(** Link number [k] of level [vl] is between nodes, or between buses. *)
Definition node_link (nt : net) (vl : string) (k n1 n2 : nat) : Prop := exists sub vs es, n_levels nt !! vl = Some (sub, LNode vs es) /\ es !! k = Some (n1, n2).
Definition bus_link (nt : net) (vl : string) (k : nat) (b1 b2 : string) : Prop := exists sub bs es, n_levels nt !! vl = Some (sub, LBus bs es) /\ es !! k = Some (b1, b2).
Definition has_node (nt : net) (vl : string) (n : nat) : Prop := exists sub vs es, n_levels nt !! vl = Some (sub, LNode vs es) /\ is_Some (vs !! n).

(** After any history, the ends of a link are nodes of the level, or buses of the level: removing an equipment, a link or a bus takes no end of
    another link away. *)
Theorem C61_link_ends nt : net_reach any nt ->
  (forall vl k n1 n2, node_link nt vl k n1 n2 -> has_node nt vl n1 /\ has_node nt vl n2) /\
  (forall vl k b1 b2, bus_link nt vl k b1 b2 -> bus_of nt vl b1 /\ bus_of nt vl b2).
Proof.
  intros HR. assert (ends_ok nt) as H. { induction HR as [|o nt _ IH _]; [intros vl x Hx; unfold net0 in Hx; cbn in Hx; by rewrite lookup_empty in Hx|by apply step_ends]. }
  split; intros vl k x y (sub & vs & es & E & Hk); apply elem_of_list_lookup_2 in Hk; destruct (H vl _ E _ Hk) as [H1 H2]; split; eexists sub, vs, es; done.
Qed.
(** Creating an equipment, failed or not, and removing one leave the links of every level as they were. *)
Theorem C61_links_kept nt o : is_Some (creates o) \/ (exists id, o = ORemove id) ->
  (forall vl k n1 n2, node_link (nstep o nt).2 vl k n1 n2 <-> node_link nt vl k n1 n2) /\
  (forall vl k b1 b2, bus_link (nstep o nt).2 vl k b1 b2 <-> bus_link nt vl k b1 b2).
Proof.
  intros Ho. assert (links_of <$> n_levels (nstep o nt).2 = links_of <$> n_levels nt) as H by by apply (equipment_links _ o nt Ho).
  assert (forall vl, links_of <$> n_levels (nstep o nt).2 !! vl = links_of <$> n_levels nt !! vl) as HL by (intros vl; by rewrite <- !lookup_fmap, H).
  split; intros vl k x y; specialize (HL vl); (split; intros (sub & vs & es & E & Hk); rewrite E in HL).
  all: first [symmetry in HL; apply fmap_Some in HL as ([sub' l'] & E' & HL)|apply fmap_Some in HL as ([sub' l'] & E' & HL)].
  all: destruct l' as [vs' es'|bs' es']; try done; injection HL as <- <-; by eexists sub, _, es.
Qed.
Print Assumptions C61_link_ends.
Print Assumptions C61_links_kept.

(** The line leaves node 1, which stays as the end of a link; a second bus linked to the first one cannot go. *)
Definition link_ops : list nop := case_ops ++ [OBus "B" "b2"; OBusLink "B" "b" "b2"; ORemove "LINE"].
Example C61_links_case : net_reach any (runs link_ops) /\ node_link (runs link_ops) "N" 0 0 1 /\ has_node (runs link_ops) "N" 1 /\
  bus_link (runs link_ops) "B" 0 "b" "b2" /\ (nstep (ORemoveBus "B" "b2") (runs link_ops)).1 = Throw "Cannot remove bus due to the connected switch" /\
  (nstep (OBusLink "B" "b" "b3") (runs link_ops)).1 = Throw "Bus not found in the voltage level" /\
  (nstep (OBusLink "B" "b3" "b") (runs link_ops)).1 = Throw "Bus not found in the voltage level".
Proof.
  split; [apply runs_reach|]. split; [eexists _, _, _; split; [vm_compute; reflexivity|by vm_compute]|].
  split; [eexists _, _, _; split; [vm_compute; reflexivity|vm_compute; by eexists]|].
  split; [eexists _, _, _; split; [vm_compute; reflexivity|by vm_compute]|]. split; [by vm_compute|]. split; by vm_compute.
Qed.
