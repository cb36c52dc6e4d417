From stdpp Require Import gmap.
From Verif Require Import Base Graph GraphSpec Equip NodeTopo NodeTopoSpec NodeTopoProofs NodeTopoInv NodeTopoConn NodeTopoProps BusTopo BusTopoSpec BusTopoProofs BusTopoInv
  BusTopoView BusTopoProps BusViews BusViewsSpec BusViewsBlank BusFreshProofs Visit VisitSpec VisitProofs BusLists BusListsSpec.

Lemma derives_named g c : derives c (got g) = true <-> named_after g c.
Proof. split; [destruct g, c; try discriminate; intros _; constructor|by intros []]. Qed.
Lemma terminal_is_wanted cs g t : terminal_is cs (got g) t = true <-> wanted cs g (nt_id t).
Proof.
  unfold terminal_is, wanted. destruct (cs !! nt_id t) as [c|].
  - rewrite derives_named. split; [eauto|]. by intros (c' & [= <-] & ?).
  - split; [done|]. by intros (c' & ? & _).
Qed.
Lemma all_lists cs g (P : nterm -> Prop) ts : NoDup ts -> (forall t, t ∈ ts <-> P t) -> lists_each cs g P (bus_all cs (got g) ts).
Proof.
  intros N H. exists (List.filter (terminal_is cs (got g)) ts). split; [by apply NoDup_ListNoDup, List.NoDup_filter, NoDup_ListNoDup|]. split; [|done].
  intros t. rewrite elem_of_list_In, List.filter_In, <- elem_of_list_In, H, terminal_is_wanted. done.
Qed.
(** Every class but that of busbar sections has one getter. *)
Lemma getter_of c : c <> BusbarSection -> exists g, named_after g c /\ forall g', named_after g' c -> g' = g.
Proof.
  intros Hc. destruct c; try done;
    [exists GetBatteries|exists GetDanglingLines|exists GetGenerators|exists GetLccConverterStations|exists GetLines|exists GetLines|exists GetLoads
    |exists GetShuntCompensators|exists GetStaticVarCompensators|exists GetThreeWindingsTransformers|exists GetTwoWindingsTransformers
    |exists GetVscConverterStations]; (split; [constructor|by inversion 1]).
Qed.
Lemma lists_in cs g P l id : lists_each cs g P l -> id ∈ l <-> wanted cs g id /\ exists t, P t /\ nt_id t = id.
Proof.
  intros (ts & _ & H & ->). rewrite elem_of_list_fmap. split.
  - intros (t & -> & [HP HW]%H). eauto.
  - intros (HW & t & HP & <-). exists t. split; [done|]. by apply H.
Qed.
Lemma lists_once cs g (P : nterm -> Prop) l : (forall t t', P t -> P t' -> nt_id t = nt_id t' -> wanted cs g (nt_id t) -> t = t') -> lists_each cs g P l -> NoDup l.
Proof.
  intros HI (ts & N & H & ->). assert (forall t, t ∈ ts -> P t /\ wanted cs g (nt_id t)) as H' by (intros; by apply H). clear H.
  induction N as [|t ts Hn N IH]; [constructor|]. rewrite fmap_cons. constructor; [|apply IH; intros; apply H'; by right].
  intros (t' & E & Ht')%elem_of_list_fmap. destruct (H' t) as [HP HW]; [by left|]. destruct (H' t') as [HP' _]; [by right|].
  by rewrite (HI t t' HP HP' E HW) in Hn.
Qed.
