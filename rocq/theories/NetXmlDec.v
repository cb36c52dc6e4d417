(** Whether a network meets the hypotheses of the theorems on XML can be decided: used for the concrete cases beside the theorems. *)
From Verif Require Export NetXmlSpec.

Definition dec_iff {P Q : Prop} (H : P <-> Q) (d : Decision P) : Decision Q := match d with left p => left (proj1 H p) | right n => right (fun q => n (proj2 H q)) end.
Definition Forall2_decide {A B} (R : A -> B -> Prop) (d : forall x y, Decision (R x y)) : forall l k, Decision (Forall2 R l k).
Proof.
  refine (fix go l k := match l, k with
    | [], [] => left _
    | x :: l, y :: k => match d x y with left p => match go l k with left q => left _ | right n => right _ end | right n => right _ end
    | _, _ => right _
    end); try (by inversion 1); by constructor.
Defined.
#[global] Instance value_ok_dec a r x : Decision (value_ok a r x).
Proof. destruct r, x as [[t|]|b|s|[s|]|l]; cbn; apply _. Defined.
#[global] Instance typed_dec a ds xs : Decision (typed a ds xs).
Proof. apply Forall2_decide. intros. apply _. Defined.
Lemma children_iff a (k : pkind) (cs : list (string * list fval)) :
  Forall (fun c => match cschema k c.1 with Some ds => typed a ds c.2 | None => False end) cs <-> forall n xs, (n, xs) ∈ cs -> exists ds, cschema k n = Some ds /\ typed a ds xs.
Proof.
  rewrite Forall_forall. split.
  - intros H n xs Hc. specialize (H _ Hc). cbn in H. destruct (cschema k n) as [ds|]; [by exists ds|done].
  - intros H [n xs] Hc. destruct (H n xs Hc) as (ds & E & T). cbn. by rewrite E.
Qed.
#[global] Instance part_ok_dec a p : Decision (part_ok a p).
Proof.
  unfold part_ok. apply and_dec; [|apply and_dec]; [apply _| |destruct (p_kind p); apply _]. eapply dec_iff; [apply children_iff|]. apply Forall_dec. intros [n xs]. cbn. destruct (cschema (p_kind p) n); apply _.
Defined.
#[global] Instance fields_ok_dec a l : Decision (fields_ok a l).
Proof.
  unfold fields_ok. destruct (l_cls l); try apply _; destruct (l_fields l) as [|b [|g [|mx fs]]]; try apply _.
  - apply and_dec; [apply _|]. destruct (l_parts l !! "model"); apply _.
  - do 9 (destruct fs as [|? fs]; try apply _).
Defined.
Lemma map_all_iff {A} (P : string -> A -> Prop) (m : gmap string A) : Forall (fun p => P p.1 p.2) (map_to_list m) <-> forall k x, m !! k = Some x -> P k x.
Proof.
  rewrite Forall_forall. split.
  - intros H k x E. apply (H (k, x)). by apply elem_of_map_to_list.
  - intros H [k x] E. apply H. by apply elem_of_map_to_list.
Qed.
Lemma types_iff (m : gmap string string) : Forall (fun p => p.2 <> "" -> Forall (fun q => q.2 = p.2 -> q.1 = p.1) (map_to_list m)) (map_to_list m) <->
  forall s1 s2 t, t <> "" -> m !! s1 = Some t -> m !! s2 = Some t -> s1 = s2.
Proof.
  rewrite (map_all_iff (fun s1 t => t <> "" -> Forall (fun q => q.2 = t -> q.1 = s1) (map_to_list m))). split.
  - intros H s1 s2 t N E1 E2. specialize (H s1 t E1 N). rewrite (map_all_iff (fun s2 t2 => t2 = t -> s2 = s1)) in H. symmetry. by eapply H.
  - intros H s1 t E1 N. apply (map_all_iff (fun s2 t2 => t2 = t -> s2 = s1)). intros s2 t2 E2 ->. by eapply H.
Qed.
Lemma slot_iff k key q : Exists (fun s => sl_key s = key /\ q ∈ (sl_kinds s).*2) (slots k) <-> exists s, s ∈ slots k /\ sl_key s = key /\ q ∈ (sl_kinds s).*2.
Proof. apply Exists_exists. Qed.
#[global] Instance leaf_ok_dec a k l : Decision (leaf_ok a k l).
Proof.
  unfold leaf_ok. apply and_dec; [|apply and_dec; [|apply and_dec; [|apply and_dec; [|apply and_dec]]]]; try apply _.
  - eapply dec_iff; [apply types_iff|]. apply _.
  - eapply dec_iff; [apply (map_all_iff (fun key p => part_ok a p /\ exists s, s ∈ slots k /\ sl_key s = key /\ p_kind p ∈ (sl_kinds s).*2))|].
    apply Forall_dec. intros [key p]. cbn. apply and_dec; [apply _|]. eapply dec_iff; [apply slot_iff|]. apply _.
Defined.
Lemma refs_iff (ls : list leaf) (R : leaf -> list string) (S : list string) : Forall (fun l => Forall (fun r => r ∈ S) (R l)) ls <-> forall l r, l ∈ ls -> r ∈ R l -> r ∈ S.
Proof. rewrite Forall_forall. split; [intros H l r Hl; specialize (H l Hl); rewrite Forall_forall in H; apply H|intros H l Hl; apply Forall_forall; intros r; by apply H]. Qed.
#[global] Instance leaf_eq : EqDecision leaf. Proof. solve_decision. Defined.
#[global] Instance bus_ok_dec a v l : Decision (bus_ok a v l). Proof. apply _. Defined.
#[global] Instance vl_ok_dec a v x : Decision (vl_ok a v x).
Proof. unfold vl_ok. apply and_dec; [|apply and_dec; [|apply and_dec; [|apply and_dec]]]; try apply _; [destruct (v_nb x); apply _|]. eapply dec_iff; [apply (refs_iff _ leaf_refs)|]. apply _. Defined.
#[global] Instance sub_ok_dec a v x : Decision (sub_ok a v x).
Proof. unfold sub_ok. apply and_dec; [|apply and_dec; [|apply and_dec; [|apply and_dec]]]; try apply _. eapply dec_iff; [apply (refs_iff _ leaf_refs)|]. apply _. Defined.
#[global] Instance net_ok_dec a v n : Decision (net_ok a v n).
Proof.
  unfold net_ok. apply and_dec; [|apply and_dec; [|apply and_dec; [|apply and_dec; [|apply and_dec; [|apply and_dec]]]]]; try apply _; (eapply dec_iff; [apply refs_iff|]; apply _).
Defined.
Lemma key_iff (l : leaf) (ks : list string) : Forall (fun key => l_parts l !! key = None) ks <-> forall key, key ∈ ks -> l_parts l !! key = None.
Proof. apply Forall_forall. Qed.
#[global] Instance zero_dec x : Decision (zero x). Proof. apply _. Defined.
#[global] Instance supported_dec v l : Decision (supported v l).
Proof.
  unfold supported. apply and_dec; [|apply and_dec]; try (apply impl_dec; [apply _|]; eapply dec_iff; [apply key_iff|]; apply _).
  destruct (l_cls l); try apply _; generalize (l_fields l) as fs; intros fs; do 19 (destruct fs as [|? fs]; try apply _).
Defined.
Lemma all_iff (P : leaf -> Prop) ls : Forall P ls <-> forall l, l ∈ ls -> P l. Proof. apply Forall_forall. Qed.
#[global] Instance net_supported_dec v n : Decision (net_supported v n).
Proof. unfold net_supported. apply and_dec; [apply _|]. eapply dec_iff; [apply all_iff|]. apply _. Defined.
#[global] Instance readable_dec v n : Decision (readable v n).
Proof.
  unfold readable. apply and_dec; [apply _|]. eapply dec_iff; [apply (all_iff (fun l => older v 1 = true -> forall key, key ∈ since_1_1 (l_cls l) -> l_parts l !! key = None))|].
  apply Forall_dec. intros l. apply impl_dec; [apply _|]. eapply dec_iff; [apply key_iff|]. apply _.
Defined.
Lemma deadband_iff (m : gmap string part) (P : fval -> fval -> Prop) :
  Forall (fun e => match p_fields e.2 with low :: tap :: db :: x :: reg :: _ => P db reg | _ => True end) (map_to_list m) <->
  forall key k low tap db x reg fs cs, m !! key = Some (Part k (low :: tap :: db :: x :: reg :: fs) cs) -> P db reg.
Proof.
  rewrite (map_all_iff (fun _ p => match p_fields p with low :: tap :: db :: x :: reg :: _ => P db reg | _ => True end)). split.
  - intros H key k low tap db x reg fs cs E. exact (H key _ E).
  - intros H key [k fs cs] E. cbn. destruct fs as [|low [|tap [|db [|x [|reg fs]]]]]; try done. by eapply H.
Qed.
Lemma halves_iff (P : nat -> nat -> Prop) : P 13 21 /\ P 22 30 <-> forall i j, i ∈ [13; 22] -> j = i + 8 -> P i j.
Proof.
  split.
  - intros [H1 H2] i j Hi ->. apply elem_of_cons in Hi as [->|Hi]; [done|]. by apply elem_of_list_singleton in Hi as ->.
  - intros H. split; apply H; try done; [left|right; left].
Qed.
#[global] Instance kept_dec v l : Decision (kept v l).
Proof.
  unfold kept. apply and_dec; [apply _|]. apply and_dec; [apply _|]. apply and_dec; [|apply and_dec; [|apply and_dec]].
  - apply impl_dec; [apply _|]. eapply dec_iff; [apply (map_all_iff (fun _ t => t = ""))|]. apply _.
  - eapply dec_iff; [apply (map_all_iff (fun _ p => p <> Part PLimits [VNum None] []))|]. apply _.
  - apply impl_dec; [apply _|]. eapply dec_iff; [apply (deadband_iff _ (fun db reg => match reg with VBool true => db <> VNum None /\ db <> VNum (Some "-0") | _ => ~ zero db end))|].
    apply Forall_dec. intros [key p]. cbn. destruct (p_fields p) as [|? [|? [|? [|? [|reg ?]]]]]; try apply _. destruct reg as [| [] | | |]; apply _.
  - destruct (l_cls l); try apply _.
    1: generalize (l_fields l) as fs; intros fs; do 2 (destruct fs as [|? fs]; try apply _).
    1: generalize (l_fields l) as fs; intros fs; do 7 (destruct fs as [|? fs]; try apply _).
    1: generalize (l_fields l) as fs; intros fs; do 19 (destruct fs as [|? fs]; try apply _).
    eapply dec_iff; [apply (halves_iff (fun i j => l_fields l !! i <> l_fields l !! S i /\ (older v 3 = true -> l_fields l !! j = Some (VBool false))))|]. apply _.
Defined.
