From Verif Require Import Xml XmlSpec.

(** Induction over documents. *)
Lemma xml_ind' (P : xml -> Prop) : (forall n a e cs, Forall P cs -> P (Elem n a e cs)) -> (forall s, P (Text s)) -> P Other -> forall t, P t.
Proof.
  intros HE HT HO. fix IH 1. intros [n a e cs|s|]; [|apply HT|apply HO]. apply HE. induction cs as [|c cs IHc]; constructor; [apply IH|exact IHc].
Qed.
Lemma wf_elem n a e cs : wf_xml (Elem n a e cs) <-> (e = true -> cs = []) /\ Forall wf_xml cs.
Proof.
  cbn [wf_xml]. assert (E : (fix all l := match l with [] => True | x :: l' => wf_xml x /\ all l' end) cs <-> Forall wf_xml cs).
  { induction cs as [|c cs IH]; [split; constructor|]. rewrite Forall_cons, <- IH. done. }
  by rewrite E.
Qed.
Lemma skeleton_elem n a e cs : skeleton (Elem n a e cs) = Elem n a e (skeleton <$> elements cs).
Proof.
  cbn [skeleton]. f_equal. induction cs as [|c cs IH]; [done|]. unfold elements. rewrite filter_cons. rewrite IH. destruct (is_elem c) eqn:E.
  - by rewrite decide_True.
  - by rewrite decide_False.
Qed.
Lemma names_elem name n a e cs : names_nonempty name (Elem n a e cs) <-> e = false /\ (n = name \/ Exists (names_nonempty name) cs).
Proof.
  cbn [names_nonempty]. assert (E : (fix any l := match l with [] => False | x :: l' => names_nonempty name x \/ any l' end) cs <-> Exists (names_nonempty name) cs).
  { induction cs as [|c cs IH]; [by rewrite Exists_nil|]. rewrite Exists_cons, <- IH. done. }
  rewrite E. tauto.
Qed.
Lemma events_elem n a cs : events (Elem n a false cs) = EStart n a false :: mjoin (events <$> cs) ++ [EEnd n].
Proof. done. Qed.
Definition quiet (name : string) (l : list event) : Prop := Forall (fun e => match e with EOther => True | EEnd m => m <> name | _ => False end) l.

Section handler.
  Context {S : Type} (handler : S -> cursor -> result (S * cursor)).
  Lemma until_quiet name text s l rest fuel : quiet name l -> until_loop handler (length l + fuel) name text s (l ++ rest) = until_loop handler fuel name text s rest.
  Proof.
    induction l as [|e l IH]; intros Q; [done|]. inversion_clear Q as [|? ? E Q']. cbn [length]. change (Datatypes.S (length l) + fuel) with (Datatypes.S (length l + fuel)).
    cbn [app until_loop]. destruct e as [|m| |]; try done.
    - destruct (String.eqb_spec m name); [done|]. by apply IH.
    - by apply IH.
  Qed.
  (** The handler stops inside the child, with nothing left to see in it. *)
  Definition consumes (name : string) (f : S -> xml -> S) (c : xml) : Prop :=
    forall s rest, exists pre e l, events c = pre ++ e :: l /\ quiet name l /\ handler s (events c ++ rest) = Ok (f s c, e :: l ++ rest).
  Definition text_after (text : string) (cs : list xml) : string := default text (last (omap (fun t => match t with Text s => Some s | _ => None end) cs)).
  Lemma text_after_cons text c cs : text_after text (c :: cs) = text_after (match c with Text s => s | _ => text end) cs.
  Proof.
    unfold text_after. destruct c as [n a e l|s|]; try done.
    change (omap (fun t => match t with Text s => Some s | _ => None end) (Text s :: cs)) with (s :: omap (fun t => match t with Text s => Some s | _ => None end) cs).
    destruct (omap _ cs) as [|x l]; [done|]. change (last (s :: x :: l)) with (last (x :: l)). destruct (last (x :: l)) eqn:E'; [done|]. by apply last_None in E'.
  Qed.
  Lemma until_children name f cs : (forall c, c ∈ elements cs -> consumes name f c) -> forall text s rest fuel,
    exists fuel', fuel <= fuel' /\
      until_loop handler (length (mjoin (events <$> cs)) + fuel) name text s (mjoin (events <$> cs) ++ rest) =
      until_loop handler fuel' name (text_after text cs) (foldl f s (elements cs)) rest.
  Proof.
    induction cs as [|c cs IH]; intros H text s rest fuel; [exists fuel; split; [lia|done]|].
    change (mjoin (events <$> c :: cs)) with (events c ++ mjoin (events <$> cs)). rewrite text_after_cons.
    assert (H' : forall c0, c0 ∈ elements cs -> consumes name f c0).
    { intros c0 Hc. apply H. unfold elements in *. rewrite filter_cons. destruct (decide _); [by right|done]. }
    specialize (IH H').
    destruct c as [n a e l|t|].
    - destruct (H (Elem n a e l)) with (s := s) (rest := mjoin (events <$> cs) ++ rest) as (pre & ev & l' & E & Q & Hh).
      { unfold elements. rewrite filter_cons, decide_True by done. left. }
      assert (L : length (events (Elem n a e l)) = length pre + Datatypes.S (length l')) by (rewrite E, app_length; done).
      destruct (IH text (f s (Elem n a e l)) rest (fuel + length pre)) as (fuel' & G & IH').
      exists fuel'. rewrite app_length, L. split; [lia|].
      assert (Lf : length pre + Datatypes.S (length l') + length (mjoin (events <$> cs)) + fuel = Datatypes.S (length l' + (length (mjoin (events <$> cs)) + (fuel + length pre)))) by lia.
      rewrite Lf, <- app_assoc. assert (exists x, events (Elem n a e l) ++ mjoin (events <$> cs) ++ rest = EStart n a e :: x) as [x X] by (destruct e; eexists; reflexivity).
      rewrite X. cbn [until_loop]. rewrite <- X, Hh. cbn [result_bind xread tl]. rewrite (until_quiet _ _ _ _ _ _ Q), IH'.
      unfold elements at 2. rewrite filter_cons, decide_True by done. done.
    - destruct (IH t s rest fuel) as (fuel' & G & IH'). exists fuel'. split; [cbn [events app length]; lia|]. cbn [events app length].
      change (Datatypes.S (length (mjoin (events <$> cs))) + fuel) with (Datatypes.S (length (mjoin (events <$> cs)) + fuel)). cbn [until_loop xread tl]. rewrite IH'.
      unfold elements at 2. rewrite filter_cons, decide_False by done. done.
    - destruct (IH text s rest fuel) as (fuel' & G & IH'). exists fuel'. split; [cbn [events app length]; lia|]. cbn [events app length].
      change (Datatypes.S (length (mjoin (events <$> cs))) + fuel) with (Datatypes.S (length (mjoin (events <$> cs)) + fuel)). cbn [until_loop xread tl]. rewrite IH'.
      unfold elements at 2. rewrite filter_cons, decide_False by done. done.
  Qed.
  Lemma read_until_ok name f n a cs s rest fuel : (forall c, c ∈ elements cs -> consumes name f c) -> length (mjoin (events <$> cs)) < fuel -> n = name ->
    read_until handler fuel name s (events (Elem n a false cs) ++ rest) = Ok (last_text cs, foldl f s (elements cs), EEnd name :: rest).
  Proof.
    intros H L ->. rewrite events_elem. cbn [app read_until xread tl]. rewrite <- app_assoc.
    destruct (until_children name f cs H "" s ([EEnd name] ++ rest) (fuel - length (mjoin (events <$> cs)))) as (fuel' & G & E).
    replace (length (mjoin (events <$> cs)) + (fuel - length (mjoin (events <$> cs)))) with fuel in E by lia. rewrite E.
    destruct fuel' as [|fuel']; [lia|]. cbn [app until_loop]. by rewrite String.eqb_refl.
  Qed.
  Lemma read_until_empty name n a cs s rest fuel : read_until handler fuel name s (events (Elem n a true cs) ++ rest) = Ok ("", s, EStart n a true :: rest).
  Proof. done. Qed.
End handler.
Lemma events_length t : 1 <= length (events t).
Proof. destruct t as [n a [] cs|s|]; cbn; lia. Qed.
Lemma child_length c cs : c ∈ cs -> length (events c) <= length (mjoin (events <$> cs)).
Proof.
  induction 1 as [c cs|c c' cs _ IH]; change (mjoin (events <$> ?x :: cs)) with (events x ++ mjoin (events <$> cs)); rewrite app_length; lia.
Qed.
Lemma foldl_snoc (l : list xml) acc (g : xml -> xml) : foldl (fun cs t => cs ++ [g t]) acc l = acc ++ (g <$> l).
Proof. revert acc. induction l as [|x l IH]; intros acc; cbn; [by rewrite app_nil_r|]. rewrite IH. by rewrite <- app_assoc. Qed.
Lemma end_of_events n a e cs : exists pre, events (Elem n a e cs) = pre ++ [end_of (Elem n a e cs)].
Proof. destruct e; [by exists []|]. rewrite events_elem. by exists (EStart n a false :: mjoin (events <$> cs)). Qed.
Lemma read_tree_ok t : wf_xml t -> is_elem t = true -> forall fuel rest, length (events t) < fuel -> read_tree fuel (events t ++ rest) = Ok (skeleton t, end_of t :: rest).
Proof.
  induction t as [n a e cs IH| |] using xml_ind'; intros W T fuel rest L; [|done|done]. apply wf_elem in W as [We Wc].
  destruct fuel as [|fuel]; [lia|]. destruct e.
  - rewrite (We eq_refl). done.
  - rewrite skeleton_elem. cbn [read_tree]. rewrite events_elem in *. cbn [app]. cbn [length] in L. rewrite app_length in L. cbn [length] in L.
    change (EStart n a false :: (mjoin (events <$> cs) ++ [EEnd n]) ++ rest) with (events (Elem n a false cs) ++ rest).
    erewrite (read_until_ok _ n (fun cs t => cs ++ [skeleton t]) n a cs [] rest fuel); [| |lia|done].
    + cbn [result_bind end_of]. rewrite foldl_snoc. done.
    + intros c Hc s rest'. unfold elements in Hc. rewrite elem_of_list_filter in Hc. destruct Hc as [Ec Hc].
      rewrite Forall_forall in IH, Wc. pose proof (IH c Hc (Wc c Hc) Ec fuel rest') as R. pose proof (child_length c cs Hc).
      destruct c as [n' a' e' cs'| |]; [|done|done]. destruct (end_of_events n' a' e' cs') as [pre P]. exists pre, (end_of (Elem n' a' e' cs')), []. split; [done|]. split; [constructor|].
      rewrite R by lia. done.
Qed.

(** ** Without handler. *)
Definition no_handler (s : unit) (c : cursor) : result (unit * cursor) := Ok (tt, c).
Definition stops (name : string) (e : event) : bool := match e with EEnd n => String.eqb n name | _ => false end.
Lemma skip_prefix name l : Forall (fun e => stops name e = false) l -> forall text rest fuel, exists text',
  until_loop no_handler (length l + fuel) name text tt (l ++ rest) = until_loop no_handler fuel name text' tt rest.
Proof.
  induction 1 as [|e l E F IH]; intros text rest fuel; [by exists text|]. cbn [length app]. change (Datatypes.S (length l) + fuel) with (Datatypes.S (length l + fuel)).
  cbn [until_loop]. destruct e as [n a b|n|t|]; cbn [xread tl result_bind no_handler] in *.
  - apply IH.
  - cbn [stops] in E. rewrite E. apply IH.
  - apply IH.
  - apply IH.
Qed.
Lemma skip_stops name l1 n rest fuel text : Forall (fun e => stops name e = false) l1 -> n = name -> length l1 < fuel ->
  exists text', until_loop no_handler fuel name text tt (l1 ++ EEnd n :: rest) = Ok (text', tt, EEnd n :: rest).
Proof.
  intros F -> L. destruct (skip_prefix name l1 F text (EEnd name :: rest) (fuel - length l1)) as [text' E].
  replace (length l1 + (fuel - length l1)) with fuel in E by lia. exists text'. rewrite E.
  destruct (fuel - length l1) as [|k] eqn:K; [lia|]. cbn [until_loop]. by rewrite String.eqb_refl.
Qed.
Lemma events_names name t : Exists (fun e => stops name e = true) (events t) <-> names_nonempty name t.
Proof.
  induction t as [n a e cs IH| |] using xml_ind'.
  - rewrite names_elem. destruct e.
    + cbn [events]. rewrite Exists_cons, Exists_nil. cbn. split; [intros [?|?]; done|intros [? _]; done].
    + rewrite events_elem, Exists_cons, Exists_app, Exists_cons, Exists_nil. cbn [stops].
      assert (E : Exists (fun e => stops name e = true) (mjoin (events <$> cs)) <-> Exists (names_nonempty name) cs).
      { induction IH as [|c cs Hc _ IHc]; [cbn; by rewrite !Exists_nil|].
        change (mjoin (events <$> c :: cs)) with (events c ++ mjoin (events <$> cs)). by rewrite Exists_app, Exists_cons, IHc, Hc. }
      rewrite E. rewrite String.eqb_eq. split; [intros [?|[?|[?|[]]]]; [done|tauto|tauto]|]. intros [_ [?|?]]; tauto.
  - cbn [events]. rewrite Exists_cons, Exists_nil. cbn. split; [intros [?|?]; done|done].
  - cbn [events]. rewrite Exists_cons, Exists_nil. cbn. split; [intros [?|?]; done|done].
Qed.
Lemma first_stop name l : Exists (fun e => stops name e = true) l -> exists l1 n l2, l = l1 ++ EEnd n :: l2 /\ n = name /\ Forall (fun e => stops name e = false) l1.
Proof.
  induction l as [|e l IH]; intros H; [by apply Exists_nil in H|]. destruct (stops name e) eqn:E.
  - destruct e as [|m| |]; try done. cbn [stops] in E. apply String.eqb_eq in E. exists [], m, l. split; [done|]. split; [done|constructor].
  - apply Exists_cons in H as [H|H]; [congruence|]. destruct (IH H) as (l1 & n & l2 & -> & ? & ?). exists (e :: l1), n, l2. split; [done|]. split; [done|]. by constructor.
Qed.
