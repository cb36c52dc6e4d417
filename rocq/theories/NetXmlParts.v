From Verif Require Import Xml XmlSpec XmlProofs Anonymizer AnonymizerProofs NetXml NetXmlSpec NetXmlFields.

Lemma eats_whole {S} (h : S -> cursor -> result (S * cursor)) name s x s' : is_elem x = true -> (forall rest, h s (events x ++ rest) = Ok (s', end_of x :: rest)) -> eats h name s x s'.
Proof. intros E H. split; [done|]. intros rest. destruct x as [n al e cs| |]; try done. destruct (end_of_events n al e cs) as [pre Ep]. exists pre, (end_of (Elem n al e cs)), []. split; [done|]. split; [constructor|]. apply H. Qed.
Definition named (n : string) (x : xml) : Prop := exists al e cs, x = Elem n al e cs.
Lemma local_named n x rest : named n x -> local_name (events x ++ rest) = Ok n.
Proof. intros (al & e & cs & ->). by destruct e. Qed.
Lemma mjoin_app {A} (l1 l2 : list (list A)) : mjoin (l1 ++ l2) = mjoin l1 ++ mjoin l2.
Proof. induction l1 as [|l l1 IH]; [done|]. change (mjoin ((l :: l1) ++ l2)) with (l ++ mjoin (l1 ++ l2)). rewrite IH. by rewrite app_assoc. Qed.
Lemma named_elem n x : named n x -> is_elem x = true. Proof. by intros (? & ? & ? & ->). Qed.

(** * The tables of the parts. *)
#[global] Instance slot_eq : EqDecision slot. Proof. solve_decision. Defined.
Definition all_pkinds : list pkind := [PLimits; PCurve; PMinMax; PRatio; PPhase; PTerminal; PLinear; PNonLinear].
Lemma all_pk k : k ∈ all_pkinds. Proof. apply elem_of_list_In. destruct k; cbn; tauto. Qed.
Lemma forallb_elem {A} (f : A -> bool) l x : forallb f l = true -> x ∈ l -> f x = true.
Proof. rewrite forallb_forall. intros H Hx. apply H. by apply elem_of_list_In. Qed.
(** Every attribute of a part is written and read in every version. *)
Definition full (d : fdesc) : Prop := forall v, fd_wattr d v <> None /\ fd_rattr d v <> None.
Definition fullb (ds : list fdesc) : bool := forallb (fun v => forallb (fun d => match fd_wattr d v, fd_rattr d v with Some _, Some _ => true | _, _ => false end) ds) all_versions.
Definition part_table (ds : list fdesc) : bool := fullb ds && forallb (fun v => forallb (field_tbl v) ds && bool_decide (NoDup (keys v ds))) all_versions.
Lemma part_table_ok v ds : part_table ds = true -> table_ok v ds /\ Forall full ds.
Proof.
  intros H. apply andb_true_iff in H as [H1 H2]. split.
  - apply (forallb_elem _ _ v) in H2; [|apply all_ver]. apply andb_true_iff in H2 as [H2 H3]. split; [|exact (proj1 (bool_decide_eq_true _) H3)]. apply Forall_forall. intros d Hd. exact (forallb_elem _ _ d H2 Hd).
  - apply Forall_forall. intros d Hd w. apply (forallb_elem _ _ w) in H1; [|apply all_ver]. apply (forallb_elem _ _ d) in H1; [|done]. cbn beta in H1. destruct (fd_wattr d w), (fd_rattr d w); try discriminate H1; by split.
Qed.
Lemma pschema_ok v k : table_ok v (pschema k) /\ Forall full (pschema k).
Proof. apply part_table_ok. destruct k; vm_compute; reflexivity. Qed.
Lemma cschema_ok v k n ds : cschema k n = Some ds -> table_ok v ds /\ Forall full ds.
Proof.
  intros E. apply part_table_ok. unfold cschema in E.
  destruct k; try discriminate E; (destruct (String.eqb n _) in E; [injection E as <-; vm_compute; reflexivity|]); try discriminate E;
    (destruct (String.eqb n _) in E; [injection E as <-; vm_compute; reflexivity|discriminate E]).
Qed.
Lemma full_doc v ds xs : Forall full ds -> length ds = length xs -> zip_with (doc_field v) ds xs = xs.
Proof.
  intros F. revert xs. induction F as [|d ds Hd F IH]; intros [|x xs] L; try done. cbn [zip_with]. rewrite IH by (by injection L). f_equal.
  unfold doc_field. destruct (Hd v) as [H1 H2]. destruct (fd_wattr d v); [|done]. by destruct (fd_rattr d v).
Qed.
Lemma typed_doc a v ds xs : typed a ds xs -> Forall2 (doc_ok1 a v) ds xs.
Proof. intros H. eapply Forall2_impl; [exact H|]. intros d x K. unfold doc_ok1. destruct (fd_wattr d v); [|done]. by destruct (fd_rattr d v). Qed.

Section anonymized.
Context (a : bool).
Lemma write_part_fields v ds xs m fs m' : table_ok v ds -> Forall full ds -> typed a ds xs -> winv a m -> write_fields v ds xs m = (fs, m') ->
  grows a m m' /\ forall mf, available m' mf -> forall n e rest, read_fields v mf ds (EStart n fs e :: rest) = Ok xs.
Proof.
  intros T F K W E. destruct (write_fields_ok a v ds xs m fs m' T (typed_doc _ _ _ _ K) W E) as [G R]. split; [done|]. intros mf Hm n e rest.
  destruct (R mf Hm) as [_ R']. rewrite (R' n fs e rest) by done. by rewrite full_doc by (done || by eapply Forall2_length).
Qed.

(** * The sub-elements of parts. *)
Definition reads_child (v : ver) (k : pkind) (mf : option mapping) (c : string * list fval) (x : xml) : Prop :=
  forall name cs, add_child k c cs = Ok (cs ++ [c]) -> eats (read_child v mf k) name cs x (cs ++ [c]).
Lemma write_child_ok v k c m x m' : (exists ds, cschema k c.1 = Some ds /\ typed a ds c.2) -> winv a m -> write_child v k c m = (x, m') ->
  grows a m m' /\ forall mf, available m' mf -> reads_child v k mf c x.
Proof.
  intros (ds & Ed & K) W E. unfold write_child in E. rewrite Ed in E. cbn [default] in E. unfold id in E. destruct (write_fields v ds c.2 m) as [fs m1] eqn:A. injection E as <- <-.
  destruct (cschema_ok v _ _ _ Ed) as [T F]. destruct (write_part_fields v ds c.2 m fs m1 T F K W A) as [G R]. split; [done|]. intros mf Hm name cs Hc.
  apply eats_whole; [done|]. intros rest. cbn [elem events app end_of]. unfold read_child. cbn [local_name result_bind]. rewrite Ed, (R mf Hm). cbn [result_bind].
  destruct c as [n xs]. cbn [fst snd]. by rewrite Hc.
Qed.
(** Children are never dropped. *)
Definition distinct (k : pkind) (cs : list (string * list fval)) : Prop :=
  match k with
  | PLimits => NoDup ((fun c => c.2 !! 1) <$> cs)
  | PCurve => NoDup ((fun c => c.2 !! 0) <$> cs)
  | _ => True
  end.
Lemma distinct_add k cs c l : distinct k (cs ++ c :: l) -> add_child k c cs = Ok (cs ++ [c]).
Proof.
  intros D. unfold distinct, add_child in *. destruct k; try done; rewrite fmap_app, fmap_cons in D; apply NoDup_app in D as (_ & D & _); rewrite bool_decide_eq_false_2; try done; intros X; apply (D _ X); left.
Qed.
Lemma children_read v k mf name l xs : Forall2 (reads_child v k mf) l xs -> forall cs, distinct k (cs ++ l) -> eats_all (read_child v mf k) name cs xs (cs ++ l).
Proof.
  induction 1 as [|c x l xs H F IH]; intros cs D; [rewrite app_nil_r; constructor|]. eapply eats_cons; [apply H; by eapply distinct_add|].
  replace (cs ++ c :: l) with ((cs ++ [c]) ++ l) in * by (by rewrite <- app_assoc). by apply IH.
Qed.
Definition reads_part (v : ver) (mf : option mapping) (n : string) (p : part) (x : xml) : Prop :=
  named n x /\ forall fuel rest, length (events x) <= fuel -> read_part fuel v mf n (p_kind p) (events x ++ rest) = Ok (p, end_of x :: rest).
Lemma write_part_ok v n p m x m' : part_ok a p -> winv a m -> write_part v n p m = (x, m') -> grows a m m' /\ forall mf, available m' mf -> reads_part v mf n p x.
Proof.
  intros (K & Kc & D) W E. unfold write_part in E. destruct (write_fields v (pschema (p_kind p)) (p_fields p) m) as [fs m1] eqn:A1. destruct (wmap _ (p_children p) m1) as [cs m2] eqn:A2. injection E as <- <-.
  destruct (write_part_fields v _ _ m fs m1 (proj1 (pschema_ok v _)) (proj2 (pschema_ok v _)) K W A1) as [G1 R1].
  destruct (wmap_ok a (fun c => exists ds, cschema (p_kind p) c.1 = Some ds /\ typed a ds c.2) (reads_child v (p_kind p)) (write_child v (p_kind p))) with (l := p_children p) (m := m1) (ys := cs) (m' := m2) as [G2 R2].
  { intros. by apply write_child_ok. } { apply Forall_forall. intros [n' xs] H. by apply Kc. } { apply G1. } { done. }
  split; [by eapply grows_trans|]. intros mf Hm. specialize (R1 mf (proj2 G2 mf Hm)). specialize (R2 mf Hm). split; [do 3 eexists; done|]. intros fuel rest L.
  assert (exists e more, events (elem n fs cs) ++ rest = EStart n fs e :: more) as (e & more & Ev) by (unfold elem; destruct cs; do 2 eexists; reflexivity).
  unfold read_part. rewrite Ev, R1. cbn [result_bind]. rewrite <- Ev. destruct (has_children (p_kind p)) eqn:Hc.
  - pose proof (children_read v _ mf n _ _ R2 [] D) as S. destruct (read_until_eats _ n fs _ _ _ rest fuel S) as [text T]; [lia|]. rewrite T. cbn [result_bind app]. by destruct p.
  - assert (Z : p_children p = []). { destruct (p_children p) as [|[n' xs] l] eqn:Z; [done|]. destruct (Kc n' xs) as (ds & Ed & _); [left|]. by destruct (p_kind p). }
    rewrite Z in R2. inversion R2; subst cs. cbn. destruct p; cbn in *; by subst.
Qed.

(** * The places of the parts. *)
Definition slot_tbl (k : cls) (s : slot) : bool :=
  forallb (fun e => bool_decide (find_slot e.1 (slots k) = Some (s, e.2))) (sl_kinds s) && bool_decide (until_name k = tag k).
Lemma slots_tbl k : Forall (fun s => slot_tbl k s = true) (slots k) /\ NoDup (sl_key <$> slots k) /\ find_slot "alias" (slots k) = None /\ find_slot "property" (slots k) = None.
Proof.
  split; [|split].
  - assert (H : forallb (fun k => forallb (slot_tbl k) (slots k)) all_classes = true) by (vm_compute; reflexivity).
    apply (forallb_elem _ _ k) in H; [|apply all_cls]. apply Forall_forall. intros s Hs. by apply (forallb_elem _ _ s) in H.
  - assert (H : forallb (fun k => bool_decide (NoDup (sl_key <$> slots k))) all_classes = true) by (vm_compute; reflexivity).
    apply (forallb_elem _ _ k) in H; [|apply all_cls]. by apply bool_decide_eq_true in H.
  - by destruct k.
Qed.
Lemma slot_name_in s k n : slot_name s k = Some n -> (n, k) ∈ sl_kinds s.
Proof.
  unfold slot_name. destruct (list_find _ (sl_kinds s)) as [[i [n' k']]|] eqn:E; [|done]. cbn. intros [= <-]. apply list_find_Some in E as (E & <- & _). by eapply elem_of_list_lookup_2.
Qed.
Lemma slot_name_some s k : k ∈ (sl_kinds s).*2 -> is_Some (slot_name s k).
Proof. intros H. apply elem_of_list_fmap in H as ([n k'] & -> & H). unfold slot_name. destruct (list_find_elem_of (fun e => e.2 = k') (sl_kinds s) (n, k')) as [[i e] E]; [done|done|]. cbn in *. by rewrite E. Qed.
Lemma find_slot_ok k s n kd : s ∈ slots k -> slot_name s kd = Some n -> find_slot n (slots k) = Some (s, kd).
Proof.
  intros Hs Hn. destruct (slots_tbl k) as [T _]. rewrite Forall_forall in T. specialize (T s Hs). apply andb_true_iff in T as [T _]. apply slot_name_in in Hn.
  apply (forallb_elem _ _ _ T) in Hn. by apply bool_decide_eq_true in Hn.
Qed.
(** The parts of an object after reading back what was written for [ss]. *)
Definition put_part (v : ver) (parts : gmap string part) (ps : gmap string part) (s : slot) : gmap string part :=
  match slot_part v parts s with Some (_, p) => <[sl_key s := p]> ps | None => ps end.
Definition doc_parts (v : ver) (k : cls) (parts : gmap string part) : gmap string part := foldl (put_part v parts) ∅ (slots k).
Lemma put_other v parts ps s key : key <> sl_key s -> put_part v parts ps s !! key = ps !! key.
Proof. intros N. unfold put_part. destruct (slot_part v parts s) as [[n p]|]; [|done]. by rewrite lookup_insert_ne. Qed.
Lemma fold_put_none v parts ss ps key : key ∉ sl_key <$> ss -> foldl (put_part v parts) ps ss !! key = ps !! key.
Proof. revert ps. induction ss as [|s ss IH]; intros ps N; [done|]. rewrite fmap_cons, not_elem_of_cons in N. destruct N as [N1 N2]. cbn [foldl]. rewrite IH by done. by apply put_other. Qed.
Lemma fold_put_some v parts ss ps s : NoDup (sl_key <$> ss) -> s ∈ ss -> ps !! sl_key s = None -> foldl (put_part v parts) ps ss !! sl_key s = snd <$> slot_part v parts s.
Proof.
  revert ps. induction ss as [|s' ss IH]; intros ps N Hs Z; [by apply elem_of_nil in Hs|]. rewrite fmap_cons in N. apply NoDup_cons in N as [N1 N2]. cbn [foldl].
  apply elem_of_cons in Hs as [->|Hs].
  - rewrite fold_put_none by done. unfold put_part. destruct (slot_part v parts s') as [[n p]|]; [by rewrite lookup_insert|done].
  - apply IH; [done|done|]. rewrite put_other; [done|]. intros E. apply N1. rewrite <- E. by apply elem_of_list_fmap_1.
Qed.
Lemma doc_parts_lookup v k parts key : doc_parts v k parts !! key = from_option (fun s => snd <$> slot_part v parts s) None (snd <$> list_find (fun s => sl_key s = key) (slots k)).
Proof.
  unfold doc_parts. destruct (slots_tbl k) as (_ & N & _). destruct (list_find _ (slots k)) as [[i s]|] eqn:E; cbn.
  - apply list_find_Some in E as (E & <- & _). apply fold_put_some; [done| |apply lookup_empty]. by eapply elem_of_list_lookup_2.
  - apply list_find_None in E. rewrite fold_put_none; [apply lookup_empty|]. intros X. apply elem_of_list_fmap in X as (s & -> & Hs). rewrite Forall_forall in E. by apply (E s).
Qed.
(** What the reader demands. *)
Definition slot_readable (v : ver) (l : leaf) (parts : gmap string part) (s : slot) : Prop :=
  is_Some (slot_part v parts s) -> ver_lt v (sl_rassert s) = false /\ settable l (sl_key s) = true.
Definition reads_slot (v : ver) (k : cls) (parts : gmap string part) (mf : option mapping) (s : slot) (xs : list xml) : Prop :=
  forall fuel name l idx, l_cls l = k -> slot_readable v l parts s -> length (mjoin (events <$> xs)) <= fuel ->
  eats_all (read_sub_element fuel v mf) name (l, idx) xs (with_parts l (put_part v parts (l_parts l) s), idx).
Lemma with_parts_id l : with_parts l (l_parts l) = l. Proof. by destruct l. Qed.
Lemma write_slot_ok v k parts s m xs m' : s ∈ slots k /\ (forall p, parts !! sl_key s = Some p -> part_ok a p) -> winv a m -> write_slot v parts s m = (xs, m') ->
  grows a m m' /\ forall mf, available m' mf -> reads_slot v k parts mf s xs.
Proof.
  intros [Hs K] W E. unfold write_slot in E. unfold reads_slot, slot_readable, put_part. destruct (slot_part v parts s) as [[n p]|] eqn:Sp; cycle 1.
  { injection E as <- <-. split; [by apply grows_refl|]. intros mf _ fuel name l idx _ _ _. rewrite with_parts_id. constructor. }
  destruct (write_part v n p m) as [x m1] eqn:A. injection E as <- <-. unfold slot_part in Sp. destruct (parts !! sl_key s) as [p'|] eqn:Ep; [|done].
  destruct (run_from (sl_run s) v && negb (part_empty p')); [|done]. destruct (slot_name s (p_kind p')) as [n'|] eqn:Sn; [|done]. injection Sp as -> ->.
  destruct (write_part_ok v n p m x m1 (K p eq_refl) W A) as [G R]. split; [done|]. intros mf Hm fuel name l idx El Rd L. destruct (R mf Hm) as [Nx R']. destruct (Rd ltac:(by eexists)) as [V S].
  apply eats_one. apply eats_whole; [by eapply named_elem|]. intros rest. unfold read_sub_element. rewrite (local_named _ _ _ Nx). cbn [result_bind fst snd]. rewrite El, (find_slot_ok _ _ _ _ Hs Sn), V, S. cbn [negb].
  rewrite R'; [done|]. cbn in L. rewrite app_nil_r in L. done.
Qed.
Lemma settable_parts l ps key : settable (with_parts l ps) key = settable l key. Proof. done. Qed.
Lemma slots_read v k parts mf ss xss : Forall2 (reads_slot v k parts mf) ss xss -> forall fuel name l idx, l_cls l = k -> Forall (slot_readable v l parts) ss -> length (mjoin (events <$> mjoin xss)) <= fuel ->
  eats_all (read_sub_element fuel v mf) name (l, idx) (mjoin xss) (with_parts l (foldl (put_part v parts) (l_parts l) ss), idx).
Proof.
  induction 1 as [|s xs ss xss H F IH]; intros fuel name l idx El Rd L; [cbn; rewrite with_parts_id; constructor|].
  change (mjoin (xs :: xss)) with (xs ++ mjoin xss) in *. rewrite fmap_app in L. assert (L' : length (mjoin (events <$> xs)) + length (mjoin (events <$> mjoin xss)) <= fuel).
  { by rewrite <- app_length, <- mjoin_app. }
  inversion_clear Rd as [|? ? Rs Rss]. eapply eats_app; [apply H; [done|done|lia]|]. cbn [foldl].
  apply (IH fuel name (with_parts l (put_part v parts (l_parts l) s)) idx El); [|lia]. eapply Forall_impl; [exact Rss|]. intros s' X Y. rewrite settable_parts. by apply X.
Qed.
Lemma write_parts_ok v k parts m xs m' : (forall key p, parts !! key = Some p -> part_ok a p) -> winv a m -> write_parts v k parts m = (xs, m') ->
  grows a m m' /\ forall mf, available m' mf -> forall fuel name l idx, l_cls l = k -> l_parts l = ∅ -> Forall (slot_readable v l parts) (slots k) -> length (mjoin (events <$> xs)) <= fuel ->
  eats_all (read_sub_element fuel v mf) name (l, idx) xs (with_parts l (doc_parts v k parts), idx).
Proof.
  intros K W E. unfold write_parts in E. destruct (wmap _ (slots k) m) as [xss m1] eqn:A. injection E as <- <-.
  destruct (wmap_ok a (fun s => s ∈ slots k /\ (forall p, parts !! sl_key s = Some p -> part_ok a p)) (reads_slot v k parts) (write_slot v parts)) with (l := slots k) (m := m) (ys := xss) (m' := m1) as [G R]; try done.
  { intros. by apply write_slot_ok. } { apply Forall_forall. intros s Hs. split; [done|]. intros p. apply K. }
  split; [done|]. intros mf Hm fuel name l idx El Ep Rd L. pose proof (slots_read v k parts mf _ _ (R mf Hm) fuel name l idx El Rd L) as S. rewrite Ep in S. exact S.
Qed.
End anonymized.
