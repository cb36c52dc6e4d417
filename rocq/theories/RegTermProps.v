(** C63: the terminals that equipments regulate. *)
From Verif Require Import RegTerm RegTermSpec EquipNetProofs RegTermProofs EquipNetProps.

(** A generator or a compensator regulates the terminal it is given, or its own one; a terminal of another network is refused. *)
Theorem C63_create w k id s r nt : world_reach any_world w -> w_nets w !! k = Some nt -> (forall x, r = Some x -> live w x) ->
  ((exists x, r = Some x /\ x.1 <> k) -> exists m, wstep (WReg k id s r) w = (Throw m, w)) /\
  ((forall x, r = Some x -> x.1 = k) ->
    (wstep (WReg k id s r) w).1 = (nstep (ORegulated id s) nt).1 /\ w_nets (wstep (WReg k id s r) w).2 = <[k := (nstep (ORegulated id s) nt).2]> (w_nets w) /\
    w_taps (wstep (WReg k id s r) w).2 = w_taps w /\
    ((wstep (WReg k id s r) w).1 = Ok tt -> exists x, w_regs (wstep (WReg k id s r) w).2 = <[(k, id) := x]> (w_regs w) /\ (r = Some x \/ r = None /\ names (wstep (WReg k id s r) w).2 x k id))).
Proof.
  intros HR Hk HL. pose proof (reach_winv _ _ HR) as HI. destruct (wi_net w HI k nt Hk) as [H1 H2]. cbn [wstep]. unfold add_reg, in_net. rewrite Hk. unfold wcheck.
  destruct (check_regulating_cases w k r) as [[-> Hr]|[(y & m & -> & _ & Hy & ->)|(y & -> & Hy & _)]]; [| |by destruct (Hy (HL y eq_refl))].
  2:{ split; [intros _; by eexists|]. intros H. by destruct Hy; apply H. }
  split; [intros (x & -> & Hx); by destruct (Hr x eq_refl)|]. intros _. destruct (reg_shape id s nt H1) as [(m & E)|(t & nt' & E & Hn & He & _)].
  - rewrite E. destruct (n_eqs nt !! id); done.
  - destruct (nstep (ORegulated id s) nt) as [res nt0]. cbn [snd fst] in *. subst nt0. rewrite Hn, He, lookup_insert. cbn [fst snd w_nets w_regs w_taps with_reg with_net]. do 3 (split; [done|]). intros _.
    eexists. split; [done|]. destruct r as [x|]; [by left|right]. split; [done|]. split; [done|]. exists nt', t. split; [apply lookup_insert|]. split; [|done].
    exists [t]. split; [by rewrite He, lookup_insert|by left].
Qed.
Theorem C63_set w k id r : world_reach any_world w -> is_Some (w_regs w !! (k, id)) -> (forall x, r = Some x -> live w x) ->
  ((exists x, r = Some x /\ x.1 <> k) -> exists m, wstep (WSet k id r) w = (Throw m, w)) /\
  ((forall x, r = Some x -> x.1 = k) -> exists x, (r = Some x \/ r = None /\ names w x k id) /\ wstep (WSet k id r) w = (Ok tt, mkW (w_nets w) (<[(k, id) := x]> (w_regs w)) (w_taps w))).
Proof.
  intros HR [r0 Hr0] HL. pose proof (reach_winv _ _ HR) as HI. destruct (wi_reg w HI k id r0 Hr0) as [_ (l & (nt & Hk & Hl) & Hne)]. cbn [wstep]. unfold set_reg, in_net. rewrite Hk. unfold wcheck.
  destruct (check_regulating_cases w k r) as [[-> Hr]|[(y & m & -> & _ & Hy & ->)|(y & -> & Hy & _)]]; [| |by destruct (Hy (HL y eq_refl))].
  2:{ split; [intros _; by eexists|]. intros H. by destruct Hy; apply H. }
  split; [intros (x & -> & Hx); by destruct (Hr x eq_refl)|]. intros _. rewrite Hr0. rewrite shape_lookup in Hl. destruct (n_eqs nt !! id) as [[|t ts]|] eqn:Hi; [by injection Hl as <-| |done].
  eexists. split; [|done]. destruct r as [x|]; [by left|right]. split; [done|]. split; [done|]. exists nt, t. split; [done|]. split; [|done]. exists (t :: ts). split; [done|by left].
Qed.
(** A tap changer that regulates has a terminal; a terminal of another network is refused, except by the adder of ratio tap changers. *)
Theorem C63_tap_add w key a r : world_reach any_world w -> about (WTap key a r) w -> (forall x, r = Some x -> live w x) ->
  ((wstep (WTap key a r) w).1 = Ok tt <-> a_rest a = true /\ settings_ok (k_ratio key) a r /\
    forall x, r = Some x -> x.1 <> k_net key -> k_ratio key = true /\ a_regulating a && a_capable a = false) /\
  (wstep (WTap key a r) w = (Ok tt, mkW (w_nets w) (w_regs w) (<[key := r]> (w_taps w))) \/ exists m, wstep (WTap key a r) w = (Throw m, w)).
Proof.
  intros HR (nt & t & t' & ts & Hk & Hi) HL. cbn [wstep]. unfold add_tap, in_net. rewrite Hk, Hi. unfold wcheck. pose proof (check_tap_Ok w key a r HL) as HO. destruct (check_tap_result w key a r HL) as [E|[m E]]; rewrite E in *.
  - destruct (a_rest a); cbn [fst]; (split; [|eauto]); [|naive_solver]. split; [|done]. intros _. split; [done|]. by apply HO.
  - split; [|eauto]. cbn [fst]. split; [done|]. intros (_ & H). by apply HO in H.
Qed.
Theorem C63_tap_set w key a r : world_reach any_world w -> is_Some (w_taps w !! key) -> (forall x, r = Some x -> live w x) ->
  ((wstep (WTapSet key a r) w).1 = Ok tt <-> settings_ok (k_ratio key) a r /\ forall x, r = Some x -> x.1 = k_net key) /\
  (wstep (WTapSet key a r) w = (Ok tt, mkW (w_nets w) (w_regs w) (<[key := r]> (w_taps w))) \/ exists m, wstep (WTapSet key a r) w = (Throw m, w)).
Proof.
  intros HR [x0 Hx0] HL. pose proof (reach_winv _ _ HR) as HI. destruct (wi_tap w HI key x0 Hx0) as [_ (l & (nt & Hk & Hl) & Hne)]. cbn [wstep]. unfold set_tap, in_net. rewrite Hk, Hx0. unfold wcheck.
  pose proof (check_tap_Ok w key a r HL) as HO. destruct (check_tap_result w key a r HL) as [E|[m E]]; rewrite E in *.
  - destruct (check_tap_changer_cases w (k_net key) r) as [[-> Hr]|[(y & m & -> & _ & Hy & ->)|(y & -> & Hy & _)]]; [| |by destruct (Hy (HL y eq_refl))]; cbn [fst]; (split; [|eauto]).
    + split; [|done]. intros _. split; [by apply HO|]. intros x ->. by apply Hr.
    + split; [done|]. intros [_ H]. by destruct Hy; apply H.
  - cbn [fst]. split; [|eauto]. split; [done|]. intros [H1 H2]. apply HO. split; [done|]. intros x -> Hx. by destruct Hx; apply H2.
Qed.
(** The references of an equipment change by calls on this equipment only. *)
Theorem C63_frame o w k id r : ~ touches o k id -> refers (wstep o w).2 k id r <-> refers w k id r.
Proof. intros Hn. destruct (frame o w k id Hn) as [H1 H2]. rewrite !refers_cases, H1. by setoid_rewrite H2. Qed.

(** In every history generators, compensators and phase tap changers refer to terminals of their own network; ratio tap changers do when
    their adders are not given other ones. *)
Theorem C63_local w k id r : world_reach any_world w -> refers_surely w k id r -> r.1 = k.
Proof.
  intros HR. pose proof (reach_winv _ _ HR) as HI. intros [H|(leg & H)]; [by apply (wi_reg w HI k id r)|]. destruct (wi_tap w HI _ _ H) as [Ht _]. by apply (Ht r).
Qed.
Theorem C63_local_ratio_partial w k id r : world_reach (fun o _ => own_ratio o) w -> refers w k id r -> r.1 = k.
Proof. apply reach_local. Qed.
(** In right histories every reference is one to a terminal that exists, of an equipment of the same network: it can be used and written. *)
Theorem C63_live_partial w k id r : world_reach right_history w -> refers w k id r ->
  live w r /\ r.1 = k /\ network_of w r = Ok k /\ exists x, write_ref w r = Ok x.
Proof.
  intros HR Hr. pose proof (reach_winv _ _ HR) as HI. destruct (reach_rinv w HR k id r Hr) as [HL <-]. split; [done|]. split; [done|]. split; [by destruct (network_of_cases w r) as [[_ ?]|[? _]]|].
  apply live_has in HL as (id' & l & (nt & Hk & Hl) & Ha). rewrite shape_lookup in Hl. destruct (n_eqs nt !! id') as [ts|] eqn:Hi; [|done]. cbn in Hl. injection Hl as <-.
  apply elem_of_list_fmap in Ha as (t & E & Ht). apply elem_of_list_lookup in Ht as [i Ht]. eexists. apply (write_nth w r.1 nt id' ts i t r HI Hk Hi Ht). destruct r; cbn in *; congruence.
Qed.
(** No call on objects that exist, with a terminal that exists, is undefined. *)
Theorem C63_defined w o : world_reach any_world w -> about o w -> (forall r, given o = Some r -> live w r) -> (wstep o w).1 = Ok tt \/ exists m, (wstep o w).1 = Throw m.
Proof. intros HR. apply wstep_defined. by apply (reach_winv any_world). Qed.
(** What is written for a terminal is read as this terminal, and in another network as the same terminal of the equipment with the same id. *)
Theorem C63_xml w k nt id ts i t : world_reach any_world w -> w_nets w !! k = Some nt -> n_eqs nt !! id = Some ts -> ts !! i = Some t ->
  exists x, write_ref w (k, t_id t) = Ok x /\ read_ref nt x = Ok (t_id t) /\
    forall nt2 ts2 t2, n_eqs nt2 !! id = Some ts2 -> length ts2 = length ts -> ts2 !! i = Some t2 -> read_ref nt2 x = Ok (t_id t2).
Proof.
  intros HR Hk Hi Ht. pose proof (reach_winv _ _ HR) as HI. eexists. split; [by apply (write_nth w k nt id ts i t)|]. split; [by apply read_nth|].
  intros nt2 ts2 t2 Hi2 HL Ht2. pose proof (read_nth nt2 id ts2 i t2 Hi2 Ht2) as H. destruct ts as [|? [|]], ts2 as [|? [|]]; done.
Qed.

(** ** What is not true *)
Definition wruns (l : list wop) : world := foldl (fun w o => (wstep o w).2) world0 l.
Lemma wruns_reach l : world_reach any_world (wruns l).
Proof.
  unfold wruns. assert (forall w, world_reach any_world w -> world_reach any_world (foldl (fun w o => (wstep o w).2) w l)) as H; [|apply H; constructor].
  induction l as [|o l IH]; intros w Hw; [done|]. apply IH. by constructor.
Qed.
Definition in_network (k : nat) : list wop := WNew k :: (WStep k <$> two_levels).
Definition two_generators : list wop := in_network 1 ++ [WReg 1 "L" (on_node "N" 0) None; WReg 1 "G" (on_node "N" 1) (Some (1, 0))].
(** The terminal that a generator regulates is removed with its equipment; the generator goes on referring to it: using it is undefined. *)
Theorem C63_dangling_refuted : exists w k id r, world_reach any_world w /\ refers_surely w k id r /\ ~ live w r /\ network_of w r = UB /\ write_ref w r = UB /\
  forall o, given o = Some r -> match o with WReg k _ _ _ => w_nets w !! k <> None | WSet k id _ => is_Some (w_regs w !! (k, id)) | _ => False end -> (wstep o w).1 = UB.
Proof.
  exists (wruns (two_generators ++ [WStep 1 (ORemove "L")])), 1, "G", (1, 0). split; [apply wruns_reach|]. split; [left; by vm_compute|].
  assert (network_of (wruns (two_generators ++ [WStep 1 (ORemove "L")])) (1, 0) = UB) as E by by vm_compute.
  assert (write_ref (wruns (two_generators ++ [WStep 1 (ORemove "L")])) (1, 0) = UB) as E' by by vm_compute.
  pose proof (wruns_reach (two_generators ++ [WStep 1 (ORemove "L")])) as HR. revert E E' HR. generalize (wruns (two_generators ++ [WStep 1 (ORemove "L")])). intros w E E' HR. pose proof (reach_winv _ _ HR) as HI.
  split; [|split; [done|split; [done|]]]. { destruct (network_of_cases w (1, 0)) as [[_ ?]|[? _]]; [congruence|done]. }
  assert (forall k, check_regulating w k (Some (1, 0)) = UB) as Ec by (intros k; unfold check_regulating; by rewrite E).
  intros o Hg Hm. destruct o as [| | |k id s r|k id r|key a r|key a r|]; cbn [given] in Hg; try done; subst; cbn [wstep].
  - unfold add_reg, in_net. destruct (w_nets w !! k) as [nt|]; [|done]. unfold wcheck. by rewrite Ec.
  - destruct Hm as [r0 Hr]. unfold set_reg, in_net. destruct (w_nets w !! k) as [nt|]; [|done]. unfold wcheck. by rewrite Ec.
Qed.
(** A ratio tap changer that does not regulate takes the terminal of another network; *)
Definition foreign : list wop :=
  in_network 1 ++ in_network 2 ++ [WStep 1 (OBranch (Some "S") "T" (on_node "N" 0) (on_node "N" 1)); WStep 2 (OInjection "A" (on_node "N" 0)); WStep 2 (OInjection "T" (on_node "N" 1)); WStep 1 (OInjection "A" (on_node "N" 5));
    WTap (mkKey 1 "T" 0 true) (mkArgs false true false false true) (Some (2, 0))].
Theorem C63_foreign_refuted : exists w k id r, world_reach any_world w /\ refers w k id r /\ live w r /\ r.1 <> k.
Proof.
  exists (wruns foreign), 1, "T", (2, 0). split; [apply wruns_reach|]. split; [right; exists 0; by vm_compute|]. split; [|done].
  assert (network_of (wruns foreign) (2, 0) = Ok 2) as E by by vm_compute. revert E. generalize (wruns foreign). intros w E. destruct (network_of_cases w (2, 0)) as [[? _]|[_ ?]]; [done|congruence].
Qed.
(** it is written as an id that designates a terminal of another equipment when it is read in the network of the tap changer; *)
Theorem C63_xml_refuted : exists w k id r nt x a, world_reach any_world w /\ refers w k id r /\ w_nets w !! k = Some nt /\ write_ref w r = Ok x /\ read_ref nt x = Ok a /\ (k, a) <> r.
Proof.
  assert (write_ref (wruns foreign) (2, 0) = Ok ("A", None)) as H1 by by vm_compute.
  assert (match w_nets (wruns foreign) !! 1 with Some nt => read_ref nt ("A", None) | None => UB end = Ok 2) as H2 by by vm_compute.
  assert (refers (wruns foreign) 1 "T" (2, 0)) as H3 by (right; exists 0; by vm_compute). pose proof (wruns_reach foreign) as HR. revert H1 H2 H3 HR. generalize (wruns foreign). intros w H1 H2 H3 HR.
  destruct (w_nets w !! 1) as [nt|] eqn:Hk; [|done]. exists w, 1, "T", (2, 0), nt, ("A", None), 2. done.
Qed.
(** and it dangles when the other network goes. *)
Theorem C63_network_refuted : exists w k id r k', world_reach any_world w /\ refers w k id r /\ live w r /\ k' <> k /\ refers (wstep (WDrop k') w).2 k id r /\ ~ live (wstep (WDrop k') w).2 r.
Proof.
  assert (refers (wruns foreign) 1 "T" (2, 0)) as Hr by (right; exists 0; by vm_compute).
  assert (network_of (wruns foreign) (2, 0) = Ok 2) as E by by vm_compute. pose proof (wruns_reach foreign) as HR. revert Hr E HR. generalize (wruns foreign). intros w Hr E HR.
  exists w, 1, "T", (2, 0), 2. split; [done|]. split; [done|]. split; [destruct (network_of_cases w (2, 0)) as [[? _]|[_ ?]]; [done|congruence]|]. split; [done|]. split; [by apply C63_frame|].
  rewrite live_has. intros (id & l & (nt & Hk & _) & _). cbn [wstep drop_net snd w_nets fst] in Hk. by rewrite lookup_delete in Hk.
Qed.

Print Assumptions C63_create.
Print Assumptions C63_set.
Print Assumptions C63_tap_add.
Print Assumptions C63_tap_set.
Print Assumptions C63_frame.
Print Assumptions C63_local.
Print Assumptions C63_local_ratio_partial.
Print Assumptions C63_live_partial.
Print Assumptions C63_defined.
Print Assumptions C63_xml.
Print Assumptions C63_dangling_refuted.
Print Assumptions C63_foreign_refuted.
Print Assumptions C63_xml_refuted.
Print Assumptions C63_network_refuted.

(** ** A case: two generators, a transformer with two tap changers; one regulates the terminal of another equipment, which can be removed
    once it does not. *)
Fixpoint w_all_ok (l : list wop) (w : world) : bool :=
  match l with [] => true | o :: l' => match wstep o w with (Ok _, w') => w_all_ok l' w' | _ => false end end.
Definition case_w : list wop :=
  two_generators ++ [WStep 1 (OBranch (Some "S") "T" (on_node "N" 2) (on_node "N" 3)); WTap (mkKey 1 "T" 0 true) (mkArgs true true true false true) (Some (1, 3));
    WTap (mkKey 1 "T" 0 false) (mkArgs false false false true true) None; WTapSet (mkKey 1 "T" 0 false) (mkArgs false false false true true) (Some (1, 1))].
Example C63_case : w_all_ok case_w world0 = true /\ w_regs (wruns case_w) !! (1, "L") = Some (1, 0) /\ w_regs (wruns case_w) !! (1, "G") = Some (1, 0) /\
  write_ref (wruns case_w) (1, 3) = Ok ("T", Some 1) /\ write_ref (wruns case_w) (1, 1) = Ok ("G", None) /\
  w_regs (wruns (case_w ++ [WSet 1 "G" None])) !! (1, "G") = Some (1, 1) /\ w_all_ok (case_w ++ [WSet 1 "G" None; WStep 1 (ORemove "L")]) world0 = true /\
  (wstep (WTap (mkKey 1 "T" 0 true) (mkArgs true true true false true) (Some (2, 0))) (wruns foreign)).1 = Throw "regulation terminal is not part of the network".
Proof. by vm_compute. Qed.
(** This history is a right one. *)
Definition right_b (o : wop) (w : world) : bool :=
  match o with WDrop _ | WStep _ (ORemove _) => false | WTap key a (Some r) => negb (k_ratio key) || a_regulating a && a_capable a || bool_decide (r.1 = k_net key) | _ => true end &&
  match given o with Some r => match network_of w r with Ok _ => true | _ => false end | None => true end.
Fixpoint right_all (l : list wop) (w : world) : bool := match l with [] => true | o :: l' => right_b o w && right_all l' (wstep o w).2 end.
Lemma right_b_ok o w : right_b o w = true -> right_history o w.
Proof.
  unfold right_b. intros [H1 H2]%andb_prop. split; [|split].
  - destruct o as [| | | | |key a [r|]| |]; try done. cbn [own_ratio]. intros Hk. rewrite Hk in H1. cbn in H1. apply orb_prop in H1 as [H1|H1]; [by left|right]. by apply bool_decide_eq_true in H1.
  - destruct o as [| |k o| | | | |]; try done. by destruct o.
  - intros r E. rewrite E in H2. destruct (network_of_cases w r) as [[? _]|[_ E']]; [done|]. by rewrite E' in H2.
Qed.
Lemma right_all_reach l : right_all l world0 = true -> world_reach right_history (wruns l).
Proof.
  unfold wruns. assert (world_reach right_history world0) as H by constructor. revert H. generalize world0. induction l as [|o l IH]; intros w Hw; [done|]. cbn [right_all foldl]. intros [H1 H2]%andb_prop.
  apply IH; [|done]. constructor; [done|]. by apply right_b_ok.
Qed.
Example C63_case_right : world_reach right_history (wruns case_w) /\ refers (wruns case_w) 1 "T" (1, 3) /\ refers (wruns case_w) 1 "T" (1, 1) /\ refers (wruns case_w) 1 "G" (1, 0).
Proof.
  split; [apply right_all_reach; by vm_compute|]. split; [right; exists 0; by vm_compute|]. split; [left; right; exists 0; by vm_compute|]. left. left. by vm_compute.
Qed.
