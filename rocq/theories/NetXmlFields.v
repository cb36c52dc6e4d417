From Verif Require Import Xml XmlSpec XmlProofs Anonymizer AnonymizerProofs NetXml NetXmlSpec.

(** * Reading a sequence of children with a handler that may fail. *)
Section eats.
  Context {S : Type} (handler : S -> cursor -> result (S * cursor)) (name : string).
  Definition eats (s : S) (c : xml) (s' : S) : Prop :=
    is_elem c = true /\ forall rest, exists pre e l, events c = pre ++ e :: l /\ quiet name l /\ handler s (events c ++ rest) = Ok (s', e :: l ++ rest).
  Inductive eats_all : S -> list xml -> S -> Prop :=
  | eats_nil s : eats_all s [] s
  | eats_cons s c s1 cs s2 : eats s c s1 -> eats_all s1 cs s2 -> eats_all s (c :: cs) s2.
  Lemma eats_app s cs1 s1 cs2 s2 : eats_all s cs1 s1 -> eats_all s1 cs2 s2 -> eats_all s (cs1 ++ cs2) s2.
  Proof. induction 1; intros H2; [done|]. econstructor; [done|]. by apply IHeats_all. Qed.
  Lemma eats_one s c s' : eats s c s' -> eats_all s [c] s'.
  Proof. intros H. econstructor; [done|constructor]. Qed.
  Lemma until_eats s cs s' : eats_all s cs s' -> forall text rest fuel, exists text' fuel', fuel <= fuel' /\
    until_loop handler (length (mjoin (events <$> cs)) + fuel) name text s (mjoin (events <$> cs) ++ rest) = until_loop handler fuel' name text' s' rest.
  Proof.
    induction 1 as [s|s c s1 cs s2 [E H] _ IH]; intros text rest fuel; [exists text, fuel; split; [lia|done]|].
    change (mjoin (events <$> c :: cs)) with (events c ++ mjoin (events <$> cs)).
    destruct (H (mjoin (events <$> cs) ++ rest)) as (pre & ev & l' & Ee & Q & Hh).
    assert (L : length (events c) = length pre + Datatypes.S (length l')) by (rewrite Ee, app_length; done).
    destruct (IH text rest (fuel + length pre)) as (text' & fuel' & G & IH').
    exists text', fuel'. rewrite app_length, L. split; [lia|].
    assert (Lf : length pre + Datatypes.S (length l') + length (mjoin (events <$> cs)) + fuel = Datatypes.S (length l' + (length (mjoin (events <$> cs)) + (fuel + length pre)))) by lia.
    rewrite Lf, <- app_assoc. destruct c as [n a e l| |]; [|done|done].
    assert (exists x, events (Elem n a e l) ++ mjoin (events <$> cs) ++ rest = EStart n a e :: x) as [x X] by (destruct e; eexists; reflexivity).
    rewrite X. cbn [until_loop]. rewrite <- X, Hh. cbn [result_bind xread tl]. by rewrite (until_quiet _ _ _ _ _ _ _ Q), IH'.
  Qed.
  Lemma read_until_eats a s cs s' rest fuel : eats_all s cs s' -> length (events (elem name a cs)) < fuel + 2 ->
    exists text, read_until handler fuel name s (events (elem name a cs) ++ rest) = Ok (text, s', end_of (elem name a cs) :: rest).
  Proof.
    intros H L. unfold elem in *. destruct cs as [|c cs].
    { inversion H; subst. by exists "". }
    rewrite events_elem in *. cbn [app read_until xread tl]. rewrite <- app_assoc. cbn [length] in L. rewrite app_length in L. cbn [length] in L.
    destruct (until_eats _ _ _ H "" ([EEnd name] ++ rest) (fuel - length (mjoin (events <$> c :: cs)))) as (text' & fuel' & G & E).
    replace (length (mjoin (events <$> c :: cs)) + (fuel - length (mjoin (events <$> c :: cs)))) with fuel in E by lia. exists text'. rewrite E.
    destruct fuel' as [|fuel']; [lia|]. cbn [app until_loop]. by rewrite String.eqb_refl.
  Qed.
End eats.
Lemma eats_nil_inv {S : Type} (h : S -> cursor -> result (S * cursor)) name s s' : eats_all h name s [] s' -> s = s'.
Proof. by inversion 1. Qed.
Lemma eats_embed {S1 S2 : Type} (emb : S1 -> S2) h1 h2 name cs s s' :
  (forall c s rest, c ∈ cs -> h2 (emb s) (events c ++ rest) = letp! (s', c') := h1 s (events c ++ rest) in Ok (emb s', c')) ->
  eats_all h1 name s cs s' -> eats_all h2 name (emb s) cs (emb s').
Proof.
  intros He H. induction H as [|s c s1 cs s2 [E Hc] _ IH]; [constructor|]. econstructor; [|apply IH; intros; apply He; by right].
  split; [done|]. intros rest. destruct (Hc rest) as (pre & e & l & ? & ? & Hh). exists pre, e, l. split; [done|]. split; [done|]. by rewrite He, Hh by left.
Qed.

(** * Attributes. *)
Definition find (k : string) (a : list (string * string)) : option string := snd <$> (snd <$> list_find (fun kv => fst kv = k) a).
Lemma attr_find n a e rest k : attr (EStart n a e :: rest) k = Ok (find k a).
Proof. done. Qed.
Lemma find_cons k k' x a : find k ((k', x) :: a) = if decide (k' = k) then Some x else find k a.
Proof. unfold find. cbn. destruct (decide (k' = k)); [done|]. destruct (list_find _ a) as [[]|]; done. Qed.
Lemma find_nil k : find k [] = None. Proof. done. Qed.
Lemma find_none k a : k ∉ a.*1 -> find k a = None.
Proof. induction a as [|[k' x] a IH]; [done|]. rewrite fmap_cons, not_elem_of_cons. cbn [fst]. intros [N H]. rewrite find_cons, decide_False by done. by apply IH. Qed.
Lemma find_app k a1 a2 : find k (a1 ++ a2) = match find k a1 with Some x => Some x | None => find k a2 end.
Proof. induction a1 as [|[k' x] a IH]; [done|]. cbn [app]. rewrite !find_cons. by destruct (decide (k' = k)). Qed.
Lemma find_app_r k a1 a2 : k ∉ a1.*1 -> find k (a1 ++ a2) = find k a2.
Proof. intros H. by rewrite find_app, (find_none _ _ H). Qed.
Lemma find_app_l k a1 a2 : k ∉ a2.*1 -> find k (a1 ++ a2) = find k a1.
Proof. intros H. rewrite find_app, (find_none _ _ H). by destruct (find k a1). Qed.

(** * Anonymization. *)
Lemma to_of s : to_str (of_str s) = s. Proof. apply String.list_ascii_of_string_of_list_ascii. Qed.
Lemma of_to s : of_str (to_str s) = s. Proof. apply String.string_of_list_ascii_of_string. Qed.
Lemma to_str_nil s : to_str s = [] <-> s = "". Proof. by destruct s. Qed.
Section anonymized.
Context (a : bool).
Definition winv (m : option mapping) : Prop := (a = true -> is_Some m) /\ match m with None => True | Some m => numbered m end.
Definition grows (m m' : option mapping) : Prop := winv m' /\ forall mf, available m' mf -> available m mf.
Lemma grows_refl m : winv m -> grows m m. Proof. by split. Qed.
Lemma grows_trans m1 m2 m3 : grows m1 m2 -> grows m2 m3 -> grows m1 m3.
Proof. intros (_ & G1) (? & G2). split; [done|]. auto. Qed.
Definition code_text (c : string) : Prop := Forall letter (to_str c).
Lemma anon_ok s m c m' : winv m -> anon s m = (c, m') -> grows m m' /\ (forall mf, available m' mf -> dean mf c = Ok s) /\
  (s <> "" -> c <> "") /\ match m' with None => c = s | Some _ => code_text c end.
Proof.
  intros [Wa W] E. unfold anon in E. destruct m as [m|]; cycle 1.
  { injection E as <- <-. split; [done|]. split; [by intros [] |]. done. }
  destruct (anonymize (to_str s) m) as [c0 m0] eqn:A. injection E as <- <-.
  pose proof (anonymize_numbered (to_str s) m W) as N. rewrite A in N. cbn [snd] in N.
  assert (I : forall p, p ∈ m -> p ∈ m0). { intros p Hp. pose proof (a_step_incl m (AAnon (to_str s)) p Hp) as X. cbn in X. by rewrite A in X. }
  split. { split; [split; [by eauto|done]|]. intros [mf|]; [|done]. intros (? & ? & H). split; [done|]. split; [done|]. auto. }
  destruct (decide (to_str s = [])) as [Z|Z].
  { unfold anonymize in A. rewrite bool_decide_eq_true_2 in A by done. injection A as <- <-. apply to_str_nil in Z as ->. split; [by intros [mf|]|]. split; [done|constructor]. }
  pose proof (anonymize_spec (to_str s) m W Z) as P. rewrite A in P. cbn in P.
  destruct N as [[N1 N2] N3]. destruct (N3 _ _ P) as (_ & k & Hk & Ek).
  assert (C0 : c0 <> []). { rewrite Ek. replace k with (k - 1 + 1) by lia. apply get_alpha_ne. }
  split; [|split].
  - intros [mf|]; [|done]. intros (F1 & F2 & H). unfold dean, deanonymize. rewrite to_of, bool_decide_eq_false_2 by done.
    assert (R : bm_right mf c0 = Some (to_str s)) by (apply bm_right_Some; [by split|by apply H]). rewrite R. cbn. by rewrite of_to.
  - intros _ X. apply C0. rewrite <- (to_of c0), X. done.
  - unfold code_text. rewrite to_of, Ek. apply get_alpha_letters.
Qed.

(** * Sequences of writes. *)
Section wmap.
  Context {A B : Type} (P : A -> Prop) (Q : option mapping -> A -> B -> Prop).
  Lemma wmap_ok (f : A -> option mapping -> B * option mapping) :
    (forall x m y m', P x -> winv m -> f x m = (y, m') -> grows m m' /\ forall mf, available m' mf -> Q mf x y) ->
    forall l m ys m', Forall P l -> winv m -> wmap f l m = (ys, m') -> grows m m' /\ forall mf, available m' mf -> Forall2 (Q mf) l ys.
  Proof.
    intros Hf l. induction l as [|x l IH]; intros m ys m' F W E; cbn [wmap] in E.
    - injection E as <- <-. split; [by apply grows_refl|]. intros mf _. constructor.
    - inversion_clear F as [|? ? Px Pl]. destruct (f x m) as [y m1] eqn:E1. destruct (wmap f l m1) as [ys1 m2] eqn:E2. injection E as <- <-.
      destruct (Hf _ _ _ _ Px W E1) as [G1 Q1]. destruct (IH _ _ _ Pl (proj1 G1) E2) as [G2 Q2]. split; [by eapply grows_trans|].
      intros mf Hm. constructor; [by apply Q1, G2|by apply Q2].
  Qed.
  Lemma wmapr_ok (f : A -> option mapping -> result (B * option mapping)) :
    (forall x m y m', P x -> winv m -> f x m = Ok (y, m') -> grows m m' /\ forall mf, available m' mf -> Q mf x y) ->
    forall l m ys m', Forall P l -> winv m -> wmapr f l m = Ok (ys, m') -> grows m m' /\ forall mf, available m' mf -> Forall2 (Q mf) l ys.
  Proof.
    intros Hf l. induction l as [|x l IH]; intros m ys m' F W E; cbn [wmapr] in E.
    - injection E as <- <-. split; [by apply grows_refl|]. intros mf _. constructor.
    - inversion_clear F as [|? ? Px Pl]. destruct (f x m) as [[y m1]| | |] eqn:E1; try done. cbn [result_bind] in E.
      destruct (wmapr f l m1) as [[ys1 m2]| | |] eqn:E2; try done. cbn [result_bind] in E. injection E as <- <-.
      destruct (Hf _ _ _ _ Px W E1) as [G1 Q1]. destruct (IH _ _ _ Pl (proj1 G1) E2) as [G2 Q2]. split; [by eapply grows_trans|].
      intros mf Hm. constructor; [by apply Q1, G2|by apply Q2].
  Qed.
End wmap.

(** * The tables of attributes. *)
Definition compat (w : wkind) (r : rkind) : bool :=
  match w, r with
  | WNum, RNum | WNum, RNumOpt | WBool, RBool | WBool, RBoolOr _ | WText, RText | WText, RNat | WText, RTextOr _ | WOpt, ROpt | WOpt, RRef | WAnonOpt, RAnonOpt | WAnonOpt, RAnon
  | WAnonText, RAnonMand | WAnonNonEmpty, RAnonText | WTags, RTags | WBoolIf _, RBoolOr false => true
  | WBoolUnless d, RBoolOr d' => Bool.eqb d d'
  | WNonEmpty, RTextOr d => String.eqb d ""
  | _, _ => false
  end.
Definition field_tbl (v : ver) (d : fdesc) : bool :=
  match fd_wattr d v, fd_rattr d v with
  | Some w, Some r => bool_decide (w = r) && compat (fd_w d) (fd_r d)
  | None, Some _ => match fd_r d with RNumOpt => bool_decide (fd_default d = VNum None) | _ => false end
  | Some _, None => match fd_w d with WText | WBool => true | _ => false end
  | None, None => true
  end.
Lemma all_cls k : k ∈ all_classes. Proof. apply elem_of_list_In. destruct k; cbn; tauto. Qed.
Lemma all_ver v : v ∈ all_versions. Proof. apply elem_of_list_In. destruct v; cbn; tauto. Qed.
Lemma schema_tbl k v : Forall (fun d => field_tbl v d = true) (schema k).
Proof.
  assert (H : forallb (fun k => forallb (fun v => forallb (field_tbl v) (schema k)) all_versions) all_classes = true) by (vm_compute; reflexivity).
  rewrite forallb_forall in H. specialize (H k). rewrite <- elem_of_list_In in H. specialize (H (all_cls k)).
  rewrite forallb_forall in H. specialize (H v). rewrite <- elem_of_list_In in H. specialize (H (all_ver v)).
  rewrite forallb_forall in H. rewrite Forall_forall. intros d Hd. apply H. by apply elem_of_list_In.
Qed.
Definition reserved : list string := ["xmlns:iidm"; "id"; "name"; "fictitious"; "topologyKind"].
(** The name of the attribute of a field, written or read. *)
Definition attr_name (v : ver) (d : fdesc) : option string := match fd_wattr d v with Some k => Some k | None => fd_rattr d v end.
Definition keys (v : ver) (ds : list fdesc) : list string := omap (attr_name v) ds.
Definition table_ok (v : ver) (ds : list fdesc) : Prop := Forall (fun d => field_tbl v d = true) ds /\ NoDup (keys v ds).
Lemma keys_nodup k v : NoDup (reserved ++ keys v (schema k)).
Proof.
  assert (H : forallb (fun k => forallb (fun v => bool_decide (NoDup (reserved ++ keys v (schema k)))) all_versions) all_classes = true) by (vm_compute; reflexivity).
  rewrite forallb_forall in H. specialize (H k). rewrite <- elem_of_list_In in H. specialize (H (all_cls k)).
  rewrite forallb_forall in H. specialize (H v). rewrite <- elem_of_list_In in H. specialize (H (all_ver v)). by apply bool_decide_eq_true in H.
Qed.

Lemma schema_table k v : table_ok v (schema k).
Proof. split; [apply schema_tbl|]. pose proof (keys_nodup k v) as N. by apply NoDup_app in N as (_ & _ & N). Qed.
(** * Fields. *)
Lemma bool_text_ok b : is_true_text (bool_text b) = b. Proof. by destruct b. Qed.
(** What a field is read as: its default value unless it is both written and read. *)
Definition doc_field (v : ver) (d : fdesc) (x : fval) : fval := match fd_wattr d v, fd_rattr d v with Some _, Some _ => x | _, _ => fd_default d end.
Definition doc_ok1 (v : ver) (d : fdesc) (x : fval) : Prop := match fd_wattr d v, fd_rattr d v with Some _, Some _ => value_ok a (fd_r d) x | _, _ => True end.
Definition carried (v : ver) (mf : option mapping) (p : fdesc * fval) (a : list (string * string)) : Prop :=
  (forall k, k ∈ a.*1 -> attr_name v p.1 = Some k) /\
  (forall n al e rest, (forall k, attr_name v p.1 = Some k -> find k al = find k a) -> read_field v mf p.1 (EStart n al e :: rest) = Ok (doc_field v p.1 p.2)).
Lemma find_one k x : find k [(k, x)] = Some x.
Proof. by rewrite find_cons, decide_True. Qed.
Lemma split_join l : l <> [] -> Forall (fun s => ","%char ∉ s) l -> split_on ","%char (join_comma l) = l.
Proof.
  induction l as [|s [|s' l] IH]; intros N F; [done| |]; inversion_clear F as [|? ? Hs F'].
  - by apply split_on_none.
  - change (join_comma (s :: s' :: l)) with (s ++ ","%char :: join_comma (s' :: l)). rewrite split_on_app by done. by rewrite IH.
Qed.
Lemma join_ne l : l <> [] -> Forall (fun s => s <> []) l -> join_comma l <> [].
Proof. destruct l as [|s [|s' l]]; intros N F; [done| |]; inversion_clear F as [|? ? Hs F']; [done|]. cbn. by destruct s. Qed.
Lemma field_carried v xs d x m y m' : field_tbl v d = true -> doc_ok1 v d x -> winv m -> write_field v xs d x m = (y, m') ->
  grows m m' /\ forall mf, available m' mf -> carried v mf (d, x) y.
Proof.
  intros T K W E. unfold field_tbl, doc_ok1, write_field in *. unfold carried, read_field, doc_field, attr_name. cbn [fst snd].
  destruct (fd_wattr d v) as [k|] eqn:Ew, (fd_rattr d v) as [k'|] eqn:Er; cycle 1.
  { destruct (fd_w d), x; try done; injection E as <- <-; (split; [by apply grows_refl|]); intros mf _;
      (split; [intros k' Hk'; first [by apply elem_of_nil in Hk'|by apply elem_of_list_singleton in Hk' as ->]|done]). }
  { injection E as <- <-. split; [by apply grows_refl|]. intros mf _. split; [by intros k ?%elem_of_nil|]. intros n al e rest Hf. destruct (fd_r d); try done. apply bool_decide_eq_true in T as ->.
    by rewrite attr_find, (Hf _ eq_refl). }
  { injection E as <- <-. split; [by apply grows_refl|]. intros mf _. split; [by intros k ?%elem_of_nil|]. done. }
  apply andb_true_iff in T as [T C]. apply bool_decide_eq_true in T as <-.
  assert (KK : forall t k', k' ∈ [(k, t) : string * string].*1 -> Some k = Some k') by (intros t k' H; by apply elem_of_list_singleton in H as ->).
  assert (NN : forall k', k' ∈ ([] : list (string * string)).*1 -> Some k = Some k') by (by intros k' ?%elem_of_nil).
  destruct (fd_w d) eqn:Fw, (fd_r d) eqn:Fr; try discriminate C; destruct x as [[t|]|b|s|[s|]|l]; try done;
    try (injection E as <- <-; (split; [by apply grows_refl|]); intros mf _; (split; [solve [apply KK|apply NN]|]); intros n al e rest Hf; cbn [attr_value attr_or];
         unfold attr_value, attr_or; rewrite ?attr_find, (Hf k eq_refl), ?find_one, ?find_nil; cbn [result_bind from_option default]; rewrite ?bool_text_ok; done).
  - (* WBoolUnless *)
    apply Bool.eqb_prop in C as <-. injection E as <- <-. split; [by apply grows_refl|]. intros mf _. destruct (Bool.eqb b d0) eqn:Eb.
    + apply Bool.eqb_prop in Eb as <-. split; [solve [apply KK|apply NN]|]. intros n al e rest Hf. rewrite attr_find, (Hf k eq_refl). done.
    + split; [solve [apply KK|apply NN]|]. intros n al e rest Hf. rewrite attr_find, (Hf k eq_refl), find_one. cbn. by rewrite bool_text_ok.
  - (* WText, RTextOr *)
    injection E as <- <-. split; [by apply grows_refl|]. intros mf _. split; [solve [apply KK|apply NN]|]. intros n al e rest Hf.
    unfold attr_or. rewrite attr_find, (Hf k eq_refl), find_one. cbn. destruct (String.eqb_spec s ""); [|done]. destruct K as [?| ->]; [done|by subst].
  - (* WNonEmpty *)
    apply String.eqb_eq in C as ->. injection E as <- <-. split; [by apply grows_refl|]. intros mf _. destruct (String.eqb_spec s "") as [->|Ns].
    + split; [solve [apply KK|apply NN]|]. intros n al e rest Hf. unfold attr_or. rewrite attr_find, (Hf k eq_refl). done.
    + split; [solve [apply KK|apply NN]|]. intros n al e rest Hf. unfold attr_or. rewrite attr_find, (Hf k eq_refl), find_one. cbn. by destruct (String.eqb_spec s "").
  - (* WAnonOpt, RAnon *)
    destruct (anon s m) as [c m1] eqn:A. injection E as <- <-. destruct (anon_ok _ _ _ _ W A) as (G & D & _). split; [done|]. intros mf Hm.
    split; [solve [apply KK|apply NN]|]. intros n al e rest Hf. unfold attr_value. rewrite attr_find, (Hf k eq_refl), find_one. cbn. by rewrite (D mf Hm).
  - destruct (anon s m) as [c m1] eqn:A. injection E as <- <-. destruct (anon_ok _ _ _ _ W A) as (G & D & _). split; [done|]. intros mf Hm.
    split; [solve [apply KK|apply NN]|]. intros n al e rest Hf. rewrite attr_find, (Hf k eq_refl), find_one. cbn. by rewrite (D mf Hm).
  - (* WAnonText *)
    destruct (anon s m) as [c m1] eqn:A. injection E as <- <-. destruct (anon_ok _ _ _ _ W A) as (G & D & _). split; [done|]. intros mf Hm.
    split; [solve [apply KK|apply NN]|]. intros n al e rest Hf. unfold attr_value. rewrite attr_find, (Hf k eq_refl), find_one. cbn. by rewrite (D mf Hm).
  - (* WAnonNonEmpty *)
    destruct (String.eqb_spec s "") as [->|Ns].
    + injection E as <- <-. split; [by apply grows_refl|]. intros mf Hm. split; [solve [apply KK|apply NN]|]. intros n al e rest Hf. unfold attr_or.
      rewrite attr_find, (Hf k eq_refl). cbn. by destruct mf.
    + destruct (anon s m) as [c m1] eqn:A. injection E as <- <-. destruct (anon_ok _ _ _ _ W A) as (G & D & _). split; [done|]. intros mf Hm.
      split; [solve [apply KK|apply NN]|]. intros n al e rest Hf. unfold attr_or. rewrite attr_find, (Hf k eq_refl), find_one. cbn. by rewrite (D mf Hm).
  - (* tags *)
    destruct l as [|t0 l0] eqn:El.
    { injection E as <- <-. split; [by apply grows_refl|]. intros mf _. split; [solve [apply KK|apply NN]|]. intros n al e rest Hf. unfold attr_or. rewrite attr_find, (Hf k eq_refl). done. }
    rewrite <- El in *. assert (Nl : l <> []) by (by rewrite El). clear El. destruct (wmap anon l m) as [cs m1] eqn:A. injection E as <- <-.
    destruct (wmap_ok (fun t => t <> "" /\ (a = false -> ","%char ∉ to_str t)) (fun mf t c => dean mf c = Ok t /\ c <> "" /\ ","%char ∉ to_str c) anon) with (l := l) (m := m) (ys := cs) (m' := m1) as [G Q]; try done.
    { intros t m2 c m3 [Nt Ct] W2 A2. destruct (anon_ok _ _ _ _ W2 A2) as (G2 & D2 & N2 & C2). split; [done|]. intros mf Hm. split; [by apply D2|]. split; [by apply N2|].
      destruct m3 as [m3|]; [by eapply letters_no; [exact C2|]; cbv; lia|]. subst c. apply Ct. apply not_true_is_false. intros Ea. destruct G2 as [[G2 _] _]. by destruct (G2 Ea). }
    split; [done|]. intros mf Hm. specialize (Q mf Hm). split; [solve [apply KK|apply NN]|]. intros n al e rest Hf. unfold attr_or. rewrite attr_find, (Hf k eq_refl), find_one. cbn [result_bind default from_option]. unfold id.
    assert (Nc : map to_str cs <> []) by (by inversion Q; subst).
    assert (F1 : Forall (fun s => ","%char ∉ s) (map to_str cs)). { clear -Q. induction Q as [|? ? ? ? (_ & _ & H)]; constructor; done. }
    assert (F2 : Forall (fun s => s <> []) (map to_str cs)). { clear -Q. induction Q as [|? ? ? ? (_ & H & _)]; constructor; [by rewrite to_str_nil|done]. }
    destruct (String.eqb_spec (of_str (join_comma (map to_str cs))) "") as [X|_].
    { exfalso. apply (join_ne _ Nc F2). rewrite <- (to_of (join_comma _)), X. done. }
    rewrite to_of, split_join by done.
    assert (R : foldr (fun s r => let! x := dean mf (of_str s) in let! xs := r in Ok (x :: xs)) (Ok []) (map to_str cs) = Ok l).
    { clear -Q. induction Q as [|t c l cs (D & _ & _) Q IH]; [done|]. cbn [map foldr]. rewrite IH, of_to, D. done. }
    by rewrite R.
  - (* WBoolIf *)
    destruct d0; [done|]. injection E as <- <-. split; [by apply grows_refl|]. intros mf _. destruct (b || flagged xs i) eqn:Eb.
    + split; [solve [apply KK|apply NN]|]. intros n al e rest Hf. rewrite attr_find, (Hf k eq_refl), find_one. cbn. by rewrite bool_text_ok.
    + apply orb_false_iff in Eb as [-> _]. split; [solve [apply KK|apply NN]|]. intros n al e rest Hf. rewrite attr_find, (Hf k eq_refl). done.
Qed.
Lemma keys_cons v d ds : keys v (d :: ds) = match attr_name v d with Some k => k :: keys v ds | None => keys v ds end.
Proof. done. Qed.
Lemma fields_read v mf ds xs ys : NoDup (keys v ds) -> Forall2 (carried v mf) (zip ds xs) ys -> length ds = length xs ->
  (forall k, k ∈ (mjoin ys).*1 -> k ∈ keys v ds) /\
  (forall n al e rest, (forall k, k ∈ keys v ds -> find k al = find k (mjoin ys)) -> read_fields v mf ds (EStart n al e :: rest) = Ok (zip_with (doc_field v) ds xs)).
Proof.
  revert xs ys. induction ds as [|d ds IH]; intros [|x xs] ys N F L; try done.
  { inversion F; subst. split; [by intros k ?%elem_of_nil|done]. }
  cbn [zip_with] in F. inversion F as [|? y ? ys' [K R] F']; subst. clear F. cbn [fst snd] in *.
  assert (N' : NoDup (keys v ds)). { rewrite keys_cons in N. destruct (attr_name v d); [by apply NoDup_cons in N as [_ N]|done]. }
  destruct (IH xs ys' N' F' (eq_add_S _ _ L)) as [K' R']. clear IH. change (mjoin (y :: ys')) with (y ++ mjoin ys'). split.
  - intros k. rewrite fmap_app, elem_of_app, keys_cons. intros [Hk|Hk].
    + rewrite (K _ Hk). left.
    + apply K' in Hk. destruct (attr_name v d); [by right|done].
  - intros n al e rest Hf. cbn [read_fields].
    assert (Dj : forall k k', attr_name v d = Some k -> k' ∈ keys v ds -> k <> k').
    { intros k k' Ek Hk' ->. rewrite keys_cons, Ek in N. by apply NoDup_cons in N as [? _]. }
    rewrite (R n al e rest).
    + cbn [result_bind]. rewrite R'; [done|]. intros k Hk. rewrite Hf.
      * apply find_app_r. intros Hk'. by apply (Dj k k (K _ Hk') Hk).
      * rewrite keys_cons. destruct (attr_name v d); [by right|done].
    + intros k Ek. rewrite Hf.
      * apply find_app_l. intros Hk'. by apply (Dj k k Ek (K' _ Hk')).
      * rewrite keys_cons, Ek. left.
Qed.
Lemma write_fields_ok v ds xs m fs m' : table_ok v ds -> Forall2 (doc_ok1 v) ds xs -> winv m -> write_fields v ds xs m = (fs, m') ->
  grows m m' /\ forall mf, available m' mf ->
  (forall q, q ∈ fs.*1 -> q ∈ keys v ds) /\
  (forall n al e rest, (forall q, q ∈ keys v ds -> find q al = find q fs) -> read_fields v mf ds (EStart n al e :: rest) = Ok (zip_with (doc_field v) ds xs)).
Proof.
  intros [T N] F W E. unfold write_fields in E. destruct (wmap _ _ m) as [ys m1] eqn:A. injection E as <- <-.
  destruct (wmap_ok (fun p => field_tbl v p.1 = true /\ doc_ok1 v p.1 p.2) (carried v) (fun p m => write_field v xs p.1 p.2 m)) with (l := zip ds xs) (m := m) (ys := ys) (m' := m1) as [G Q]; try done.
  - intros [d x] m2 y m3 [T' K] W2 E2. by eapply field_carried.
  - clear A N. induction F as [|d x ds xs' Hd F IH]; [constructor|]. inversion_clear T. constructor; [done|]. by apply IH.
  - split; [done|]. intros mf Hm. apply fields_read; [done|by apply Q|by eapply Forall2_length].
Qed.

(** * Identification and attributes. *)
Lemma notin_keys k v q : q ∈ reserved -> q ∉ keys v (schema k).
Proof. intros Hq Hk. pose proof (keys_nodup k v) as N. apply NoDup_app in N as (_ & N & _). by apply (N q). Qed.
Definition doc_fields (v : ver) (l : leaf) : list fval := zip_with (doc_field v) (schema (l_cls l)) (l_fields l).
Definition doc_refs (v : ver) (l : leaf) : list string := refs (schema (l_cls l)) (doc_fields v l).
(** What can be written and read back, once [wire] has been applied. *)
Definition doc_ok (v : ver) (k : cls) (l : leaf) : Prop :=
  l_cls l = k /\ l_id l <> "" /\ Forall2 (doc_ok1 v) (schema k) (l_fields l) /\
  (forall s t, l_aliases l !! s = Some t -> blank s = false) /\
  (forall s1 s2 t, t <> "" -> l_aliases l !! s1 = Some t -> l_aliases l !! s2 = Some t -> s1 = s2).
Definition head_of (v : ver) (l : leaf) : leaf := Leaf (l_cls l) (l_id l) (l_name l) (degrade_fict v l) ∅ ∅ (doc_fields v l) ∅.
Lemma fict_find b : find "fictitious" (fict_attr b) = if b then Some "true" else None.
Proof. by destruct b. Qed.
Lemma fict_keys b q : q ∈ (fict_attr b).*1 -> q = "fictitious".
Proof. destruct b; [by intros ?%elem_of_list_singleton|by intros ?%elem_of_nil]. Qed.
Lemma attrs_ok v k l m al m' : doc_ok v k l -> winv m -> write_attrs v l m = (al, m') ->
  grows m m' /\ forall mf, available m' mf -> forall n e more rest idx, (forall q, q ∈ more.*1 -> q = "topologyKind") ->
  (forall r, r ∈ doc_refs v l -> r ∈ idx) -> l_id l ∉ idx ->
  read_head v mf k idx (EStart n (al ++ more) e :: rest) = Ok (head_of v l, {[l_id l]} ∪ idx) /\ (more = [] \/ find "topologyKind" (al ++ more) = find "topologyKind" more).
Proof.
  intros (Ek & Nid & F & _) W E. unfold write_attrs in E. destruct (anon (l_id l) m) as [ci m1] eqn:A1.
  destruct (anon_ok _ _ _ _ W A1) as (G1 & D1 & _).
  destruct (if String.eqb (l_name l) "" then ([], m1) else let '(c, m2) := anon (l_name l) m1 in ([("name", c)], m2)) as [nm m2] eqn:A2.
  assert (H2 : grows m1 m2 /\ (forall q, q ∈ nm.*1 -> q = "name") /\ forall mf, available m2 mf -> dean mf (default "" (find "name" nm)) = Ok (l_name l)).
  { destruct (String.eqb_spec (l_name l) "") as [Z|Z].
    - injection A2 as <- <-. split; [by apply grows_refl; destruct G1|]. split; [by intros q ?%elem_of_nil|]. intros mf _. rewrite Z. by destruct mf.
    - destruct (anon (l_name l) m1) as [c m3] eqn:A3. injection A2 as <- <-. destruct (anon_ok _ _ _ _ (proj1 G1) A3) as (G3 & D3 & _).
      split; [done|]. split; [by intros q ?%elem_of_list_singleton|]. exact D3. }
  clear A2. destruct H2 as (G2 & Kn & D2). rewrite Ek in E.
  destruct (write_fields v (schema k) (l_fields l) m2) as [fs m3] eqn:A3. injection E as <- <-.
  destruct (write_fields_ok v (schema k) (l_fields l) m2 fs m3 (schema_table k v) F (proj1 G2) A3) as [G3 R3]. split; [eapply grows_trans; [exact G1|eapply grows_trans; eauto]|].
  intros mf Hm n e more rest idx Hmore Hrefs Hid. destruct (R3 mf Hm) as [K3 R3']. clear R3.
  set (f1 := if run_from V1_2 v then fict_attr (l_fict l) else []) in *. set (f2 := if is_switch k && run_until V1_1 v then fict_attr (l_fict l) else []) in *.
  assert (Kf1 : forall q, q ∈ f1.*1 -> q = "fictitious") by (intros q; unfold f1; destruct (run_from V1_2 v); [apply fict_keys|by intros ?%elem_of_nil]).
  assert (Kf2 : forall q, q ∈ f2.*1 -> q = "fictitious") by (intros q; unfold f2; destruct (_ && _); [apply fict_keys|by intros ?%elem_of_nil]).
  assert (Kfs : forall q, q ∈ reserved -> q ∉ fs.*1) by (intros q Hq Hf; by apply (notin_keys k v q Hq), K3).
  set (attrs := (("id", ci) :: nm ++ f1 ++ fs ++ f2) ++ more).
  assert (Fid : find "id" attrs = Some ci) by (unfold attrs; cbn [app]; by rewrite find_cons, decide_True).
  assert (Fsk : forall q, q <> "id" -> q <> "name" -> find q attrs = find q (f1 ++ fs ++ f2 ++ more)).
  { intros q N1 N2. unfold attrs. cbn [app]. rewrite find_cons, decide_False by done. rewrite <- !app_assoc. apply find_app_r. intros X. by apply Kn in X. }
  assert (Fnm : find "name" attrs = find "name" nm).
  { unfold attrs. cbn [app]. rewrite find_cons, decide_False by done. rewrite <- !app_assoc. apply find_app_l. rewrite !fmap_app, !elem_of_app.
    intros [X|[X|[X|X]]]; [by apply Kf1 in X|apply (Kfs "name"); [|done]; right; right; left|by apply Kf2 in X|by apply Hmore in X]. }
  assert (Ffic : find "fictitious" attrs = find "fictitious" (f1 ++ f2)).
  { rewrite Fsk by done. rewrite !find_app. rewrite (find_none _ fs) by (apply Kfs; right; right; right; left). rewrite (find_none _ more) by (intros X; by apply Hmore in X).
    by destruct (find "fictitious" f1), (find "fictitious" f2). }
  assert (Ffs : forall q, q ∈ keys v (schema k) -> find q attrs = find q fs).
  { intros q Hq. assert (Nq : q ∉ reserved) by (intros X; by apply (notin_keys k v q X)). unfold reserved in Nq. rewrite !not_elem_of_cons in Nq. destruct Nq as (_ & N1 & N2 & N3 & N4 & _).
    rewrite Fsk by done. rewrite find_app_r by (intros X; by apply Kf1 in X). apply find_app_l. rewrite fmap_app, elem_of_app. intros [X|X]; [by apply Kf2 in X|by apply Hmore in X]. }
  split.
  - unfold read_head, attr_value, attr_or, read_fict. rewrite !attr_find. fold attrs. rewrite Fid. cbn [result_bind]. rewrite (D1 mf) by (by apply G2, G3). cbn [result_bind].
    rewrite Fnm, (D2 mf) by (by apply G3). cbn [result_bind]. rewrite (R3' n attrs e rest Ffs). rewrite Ffic.
    assert (Hr : forallb (fun r => bool_decide (r ∈ idx)) (refs (schema k) (zip_with (doc_field v) (schema k) (l_fields l))) = true).
    { apply forallb_forall. intros r Hr. apply bool_decide_eq_true. apply Hrefs. unfold doc_refs, doc_fields. rewrite Ek. by apply elem_of_list_In. }
    unfold add_object. assert (X1 : String.eqb (l_id l) "" = false) by (by destruct (String.eqb_spec (l_id l) "")).
    assert (X2 : bool_decide (l_id l ∈ idx) = false) by (by apply bool_decide_eq_false).
    unfold head_of, degrade_fict, doc_fields, older. rewrite Ek. unfold f1, f2. destruct v; cbn [run_from run_until]; (destruct (is_switch k) eqn:Sw); cbn; rewrite ?Hr; cbn; rewrite X1, X2; cbn; destruct (l_fict l); done.
  - destruct more as [|p more]; [by left|right]. assert (T : "topologyKind" ∈ reserved) by (unfold reserved; do 4 right; left). rewrite Fsk by done. rewrite !find_app.
    rewrite (find_none _ f1) by (intros X; by apply Kf1 in X). rewrite (find_none _ fs) by (by apply Kfs). by rewrite (find_none _ f2) by (intros X; by apply Kf2 in X).
Qed.

(** * Aliases and properties. *)
Definition with_aliases (l : leaf) (A : gmap string string) : leaf := Leaf (l_cls l) (l_id l) (l_name l) (l_fict l) A (l_props l) (l_fields l) (l_parts l).
Definition with_props (l : leaf) (P : gmap string string) : leaf := Leaf (l_cls l) (l_id l) (l_name l) (l_fict l) (l_aliases l) P (l_fields l) (l_parts l).
Definition alias_type (v : ver) (t : string) : string := if run_from V1_4 v then t else "".
Lemma letter_not_blank c : letter c -> c ∉ [" "; "009"; "010"; "013"]%char.
Proof. intros H X. rewrite !elem_of_cons in X. destruct X as [->|[->|[->|[->|X]]]]; [vm_compute in H; lia..|]. by apply elem_of_nil in X. Qed.
Lemma letters_not_blank c : c <> "" -> code_text c -> blank c = false.
Proof.
  intros N F. unfold blank, code_text in *. destruct (to_str c) as [|x s] eqn:E; [by apply to_str_nil in E|]. inversion_clear F as [|? ? Hx _].
  cbn [forallb]. rewrite bool_decide_eq_false_2; [done|]. by apply letter_not_blank.
Qed.
Lemma blank_ne s : blank s = false -> s <> "". Proof. by intros H ->. Qed.
Definition alias_attrs (v : ver) (t : string) : list (string * string) := if run_from V1_4 v && negb (String.eqb t "") then [("type", t)] else [].
Definition alias_xml (v : ver) (mf : option mapping) (p : string * string) (x : xml) : Prop :=
  exists c, x = Elem "alias" (alias_attrs v p.2) false [Text c] /\ dean mf c = Ok p.1.
Lemma write_alias_ok v p m x m' : blank p.1 = false -> winv m -> write_alias v p m = (x, m') -> grows m m' /\ forall mf, available m' mf -> alias_xml v mf p x.
Proof.
  intros B W E. unfold write_alias in E. destruct (anon p.1 m) as [c m1] eqn:A. injection E as <- <-. destruct (anon_ok _ _ _ _ W A) as (G & D & N & C).
  split; [done|]. intros mf Hm. exists c. split; [|by apply D]. assert (Nc : c <> "") by (by apply N, blank_ne).
  assert (Bc : blank c = false). { destruct m1; [by apply letters_not_blank|by subst c]. }
  unfold elem, chars, alias_attrs. destruct (String.eqb_spec c ""); [done|]. by rewrite Bc.
Qed.
Lemma alias_read v mf p x name l idx : run_from V1_3 v = true -> alias_xml v mf p x -> name <> "alias" -> p.1 ∉ idx ->
  (p.2 <> "" -> forall s, l_aliases l !! s <> Some p.2) ->
  eats (read_extra v mf) name (l, idx) x (with_aliases l (<[p.1 := alias_type v p.2]> (l_aliases l)), {[p.1]} ∪ idx).
Proof.
  intros V (c & -> & D) N F T. split; [done|]. intros rest. exists [EStart "alias" (alias_attrs v p.2) false], (EText c), [EEnd "alias"]. split; [done|].
  split; [by repeat constructor|]. cbn [events app fmap list_fmap mjoin list_join]. unfold read_extra. cbn [local_name result_bind].
  change (String.eqb "alias" "property") with false. rewrite String.eqb_refl. cbn match. unfold read_alias.
  assert (V' : ver_lt v V1_3 = false) by (unfold run_from, ver_ge in V; by apply negb_true_iff).
  rewrite V'. assert (Ht : (if run_from V1_4 v then attr_or (EStart "alias" (alias_attrs v p.2) false :: EText c :: EEnd "alias" :: rest) "type" "" else Ok "") = Ok (alias_type v p.2)).
  { unfold alias_type, alias_attrs. destruct (run_from V1_4 v); [|done]. unfold attr_or. rewrite attr_find. cbn [andb]. destruct (String.eqb_spec p.2 "") as [->|]; [done|]. cbn [negb]. by rewrite find_one. }
  rewrite Ht. cbn [result_bind]. unfold read_characters. cbn [xread tl result_bind]. rewrite D. cbn [result_bind fst snd]. unfold add_alias.
  assert (X : negb (String.eqb (alias_type v p.2) "") && bool_decide (alias_type v p.2 ∈ (map_to_list (l_aliases l)).*2) = false).
  { unfold alias_type. destruct (run_from V1_4 v); [|done]. destruct (String.eqb_spec p.2 ""); [done|]. cbn. apply bool_decide_eq_false. rewrite elem_of_list_fmap.
    intros ([s t] & Es & Hst). apply elem_of_map_to_list in Hst. cbn in Es. subst t. by apply (T n s). }
  rewrite X, bool_decide_eq_false_2 by done. done.
Qed.
Lemma aliases_read v mf name ps xs : run_from V1_3 v = true -> name <> "alias" -> Forall2 (alias_xml v mf) ps xs -> NoDup ps.*1 ->
  (forall p q, p ∈ ps -> q ∈ ps -> p.2 <> "" -> p.2 = q.2 -> p.1 = q.1) -> forall l idx, (forall s, s ∈ ps.*1 -> s ∉ idx) ->
  (forall p s, p ∈ ps -> p.2 <> "" -> l_aliases l !! s <> Some p.2) ->
  eats_all (read_extra v mf) name (l, idx) xs (with_aliases l (list_to_map (prod_map id (alias_type v) <$> ps) ∪ l_aliases l), list_to_set ps.*1 ∪ idx).
Proof.
  intros V Nn F. induction F as [|p x ps xs H F IH]; intros N U l idx Fr T.
  - cbn. rewrite !(left_id_L ∅ _). destruct l. constructor.
  - rewrite fmap_cons in N, Fr. apply NoDup_cons in N as [Np N].
    assert (Fp : p.1 ∉ idx) by (apply Fr; left).
    eapply eats_cons; [apply (alias_read v mf p x name l idx V H Nn Fp); intros Nt s; apply T; [left|done]|].
    specialize (IH N (fun p q Hp Hq => U p q (elem_of_list_further _ _ _ Hp) (elem_of_list_further _ _ _ Hq)) (with_aliases l (<[p.1 := alias_type v p.2]> (l_aliases l))) ({[p.1]} ∪ idx)).
    assert (E1 : list_to_map (prod_map id (alias_type v) <$> p :: ps) ∪ l_aliases l = list_to_map (prod_map id (alias_type v) <$> ps) ∪ <[p.1 := alias_type v p.2]> (l_aliases l)).
    { rewrite fmap_cons. destruct p as [s t]. cbn [prod_map fst snd list_to_map foldr id curry uncurry]. change (list_to_map ((s, alias_type v t) :: (prod_map id (alias_type v) <$> ps))) with (<[s := alias_type v t]> (list_to_map (prod_map id (alias_type v) <$> ps) : gmap string string)).
      rewrite <- insert_union_l, <- insert_union_r; [done|]. apply not_elem_of_list_to_map_1. rewrite <- list_fmap_compose. exact Np. }
    assert (E2 : list_to_set (p :: ps).*1 ∪ idx = list_to_set ps.*1 ∪ ({[p.1]} ∪ idx) :> gset string) by (rewrite fmap_cons; cbn [list_to_set foldr]; clear; set_solver).
    rewrite E1, E2. apply IH.
    + intros s Hs. rewrite not_elem_of_union, not_elem_of_singleton. split; [|apply Fr; by right]. by intros ->.
    + intros q s Hq Nq. cbn [with_aliases l_aliases]. rewrite lookup_insert_Some. intros [[<- X]|[_ X]].
      * unfold alias_type in X. destruct (run_from V1_4 v); [|by subst]. apply Np. rewrite (U p q); [|by left|by right|by rewrite X|done]. by apply elem_of_list_fmap_1.
      * by eapply (T q s); [by right|..].
Qed.
Lemma props_read v mf name ps l idx : NoDup ps.*1 -> eats_all (read_extra v mf) name (l, idx) (map write_prop ps) (with_props l (list_to_map ps ∪ l_props l), idx).
Proof.
  revert l. induction ps as [|[k x] ps IH]; intros l N.
  - cbn. rewrite (left_id_L ∅ _). destruct l. constructor.
  - rewrite fmap_cons in N. apply NoDup_cons in N as [Np N]. cbn [map].
    eapply eats_cons with (s1 := (with_props l (<[k := x]> (l_props l)), idx)).
    { split; [done|]. intros rest. exists [], (EStart "property" [("name", k); ("value", x)] true), []. split; [done|]. split; [constructor|]. done. }
    specialize (IH (with_props l (<[k := x]> (l_props l))) N).
    change (list_to_map ((k, x) :: ps)) with (<[k := x]> (list_to_map ps : gmap string string)).
    rewrite <- insert_union_l, insert_union_r; [exact IH|]. by apply not_elem_of_list_to_map_1.
Qed.
Definition extra_name (x : xml) : Prop := exists n al e cs, x = Elem n al e cs /\ (n = "alias" \/ n = "property").
Definition type_unique (A : gmap string string) : Prop := forall s1 s2 t, t <> "" -> A !! s1 = Some t -> A !! s2 = Some t -> s1 = s2.
Lemma alias_names v mf ps xs : Forall2 (alias_xml v mf) ps xs -> Forall extra_name xs.
Proof. induction 1 as [|p x ps xs (c & -> & _) _ IH]; constructor; [|done]. do 4 eexists. split; [done|by left]. Qed.
Lemma prop_names ps : Forall extra_name (map write_prop ps).
Proof. induction ps as [|p ps IH]; constructor; [|done]. do 4 eexists. split; [done|by right]. Qed.
Lemma map_aliases_ok v A m xs m' : run_from V1_3 v = true -> (forall s t, A !! s = Some t -> blank s = false) -> type_unique A -> winv m -> wmap (write_alias v) (map_to_list A) m = (xs, m') ->
  grows m m' /\ forall mf, available m' mf -> Forall extra_name xs /\ forall name l idx, name <> "alias" -> l_aliases l = ∅ -> (forall s, s ∈ (map_to_list A).*1 -> s ∉ idx) ->
  eats_all (read_extra v mf) name (l, idx) xs (with_aliases l (alias_type v <$> A), list_to_set (map_to_list A).*1 ∪ idx).
Proof.
  intros V B U W E. destruct (wmap_ok (fun p => blank p.1 = false) (alias_xml v) (write_alias v)) with (l := map_to_list A) (m := m) (ys := xs) (m' := m') as [G Q]; try done.
  { intros. by apply write_alias_ok. }
  { apply Forall_forall. intros [s t] H. apply elem_of_map_to_list in H. by apply (B s t). }
  split; [done|]. intros mf Hm. specialize (Q mf Hm). split; [by eapply alias_names|]. intros name l idx Nn El Fr.
  pose proof (aliases_read v mf name _ _ V Nn Q (NoDup_fst_map_to_list A)) as R.
  rewrite list_to_map_fmap, list_to_map_to_list in R. specialize (fun U' => R U' l idx Fr). rewrite El, (right_id_L ∅ _) in R. apply R.
  - intros [s1 t1] [s2 t2] H1 H2 N1 E12. cbn in *. subst t2. apply elem_of_map_to_list in H1, H2. by apply (U s1 s2 t1).
  - intros. by rewrite lookup_empty.
Qed.
Definition doc_head (v : ver) (l : leaf) : leaf := Leaf (l_cls l) (l_id l) (l_name l) (degrade_fict v l) (degrade_aliases v l) (l_props l) (doc_fields v l) ∅.
Lemma extras_ok v k l m es m' : doc_ok v k l -> winv m -> write_extras v l m = (es, m') ->
  grows m m' /\ forall mf, available m' mf -> Forall extra_name es /\ forall name idx, name <> "alias" -> (forall s, s ∈ (map_to_list (degrade_aliases v l)).*1 -> s ∉ idx) ->
  eats_all (read_extra v mf) name (head_of v l, idx) es (doc_head v l, list_to_set (map_to_list (degrade_aliases v l)).*1 ∪ idx).
Proof.
  intros (_ & _ & _ & B & U) W E. unfold write_extras in E.
  destruct (if run_from V1_3 v then wmap (write_alias v) (map_to_list (l_aliases l)) m else ([], m)) as [als m1] eqn:A. injection E as <- <-.
  assert (H : grows m m1 /\ forall mf, available m1 mf -> Forall extra_name als /\ forall name idx, name <> "alias" -> (forall s, s ∈ (map_to_list (degrade_aliases v l)).*1 -> s ∉ idx) ->
    eats_all (read_extra v mf) name (head_of v l, idx) als (with_props (doc_head v l) ∅, list_to_set (map_to_list (degrade_aliases v l)).*1 ∪ idx)).
  { destruct (run_from V1_3 v) eqn:V.
    - destruct (map_aliases_ok v _ _ _ _ V B U W A) as [G R]. split; [done|]. intros mf Hm. destruct (R mf Hm) as [Nx R']. split; [done|]. intros name idx Nn Fr.
      assert (Ea : degrade_aliases v l = alias_type v <$> l_aliases l). { destruct v; try discriminate V; [done|..]; [change (l_aliases l = alias_type V1_4 <$> l_aliases l)|change (l_aliases l = alias_type V1_5 <$> l_aliases l)]; by rewrite <- (map_fmap_id (l_aliases l)) at 1. }
      assert (Ek : list_to_set (map_to_list (degrade_aliases v l)).*1 = list_to_set (map_to_list (l_aliases l)).*1 :> gset string).
      { rewrite Ea, map_to_list_fmap, <- list_fmap_compose. f_equal. }
      assert (Fr' : forall s, s ∈ (map_to_list (l_aliases l)).*1 -> s ∉ idx).
      { intros s Hs. apply Fr. apply (elem_of_list_to_set (C := gset string)). rewrite Ek. by apply elem_of_list_to_set. }
      specialize (R' name (head_of v l) idx Nn eq_refl Fr'). rewrite Ek. replace (with_props (doc_head v l) ∅) with (with_aliases (head_of v l) (alias_type v <$> l_aliases l)); [done|].
      rewrite <- Ea. done.
    - injection A as <- <-. split; [by apply grows_refl|]. intros mf _. split; [constructor|]. intros name idx _ _.
      assert (Ea : degrade_aliases v l = ∅) by (by destruct v). rewrite Ea, map_to_list_empty. cbn. rewrite (left_id_L ∅ _).
      replace (with_props (doc_head v l) ∅) with (head_of v l); [constructor|]. unfold with_props, head_of, doc_head. cbn. rewrite Ea. done. }
  destruct H as [G R]. split; [done|]. intros mf Hm. destruct (R mf Hm) as [Nx R']. split; [apply Forall_app; split; [done|apply prop_names]|]. intros name idx Nn Fr.
  eapply eats_app; [by apply R'|]. pose proof (props_read v mf name (map_to_list (l_props l)) (with_props (doc_head v l) ∅) (list_to_set (map_to_list (degrade_aliases v l)).*1 ∪ idx) (NoDup_fst_map_to_list _)) as P.
  rewrite list_to_map_to_list in P. cbn [with_props l_props] in P. rewrite (right_id_L ∅ _) in P. exact P.
Qed.

End anonymized.
