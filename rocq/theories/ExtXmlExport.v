(** When the extensions of a network can be exported. *)
From Verif Require Import Xml XmlSpec XmlProofs Anonymizer AnonymizerProofs NetXml NetXmlSpec NetXmlFields NetXmlParts NetXmlProofs ExtXml ExtXmlSpec ExtXmlContent ExtXmlProofs ExtXmlAll.

Definition is_ok {A} (r : result A) : Prop := exists x, r = Ok x.
Definition throws {A} (r : result A) : Prop := exists t, r = Throw t.
Lemma ok_or_throws {A} (r : result A) (P : Prop) : (P -> is_ok r) -> (~ P -> throws r) -> (P \/ ~ P) -> (is_ok r <-> P) /\ (~ is_ok r -> throws r).
Proof. intros H1 H2 D. split; [split; [|done]|]. - intros [x E]. destruct D as [|N]; [done|]. destruct (H2 N) as [t E']. congruence. - intros N. apply H2. intros HP. by apply N, H1. Qed.

(** * Namespaces. *)
Definition slack_fine (x : export) (v : ver) : Prop := exists w, (v, w) ∈ [(V1_3, "1.0"); (V1_4, "1.1"); (V1_5, "1.2")] /\ version_asked x "slackTerminal" ∈ [""; w].
Lemma namespace_slack x v : (slack_fine x v -> exists w, slack_versions v = Some [w] /\ exists u, slack_uri w = Some u /\ namespace_of x v KSlack = Ok u) /\ (~ slack_fine x v -> throws (namespace_of x v KSlack)) /\ (slack_fine x v \/ ~ slack_fine x v).
Proof.
  unfold namespace_of. cbn [versionable kind_name]. fold (version_asked x "slackTerminal"). unfold slack_fine. set (xv := version_asked x "slackTerminal"). clearbody xv.
  assert (T : forall v w, (v, w) ∈ [(V1_3, "1.0"); (V1_4, "1.1"); (V1_5, "1.2")] <-> slack_versions v = Some [w]).
  { clear. intros v w. rewrite !elem_of_cons. split.
    - intros [[= -> ->]|[[= -> ->]|[[= -> ->]|?%elem_of_nil]]]; done.
    - destruct v; try done; intros [= <-]; tauto. }
  assert (U : forall v w, slack_versions v = Some [w] -> exists u, slack_uri w = Some u) by (clear; intros v w; destruct v; try done; intros [= <-]; by eexists).
  assert (V : slack_versions v = None \/ exists w, slack_versions v = Some [w]) by (destruct v; [by left..|right; by eexists|right; by eexists|right; by eexists]).
  destruct V as [V|[w V]].
  - assert (N : ~ exists w, (v, w) ∈ [(V1_3, "1.0"); (V1_4, "1.1"); (V1_5, "1.2")] /\ xv ∈ [""; w]) by (intros (w & H & _); apply T in H; congruence).
    split; [done|]. split; [|by right]. intros _. rewrite V. destruct (String.eqb xv ""); [by eexists|]. destruct (version_supported KSlack xv); cbn [negb]; by eexists.
  - destruct (U v w V) as [u Uw]. destruct (decide (xv ∈ [""; w])) as [D|D].
    + assert (P : exists w, (v, w) ∈ [(V1_3, "1.0"); (V1_4, "1.1"); (V1_5, "1.2")] /\ xv ∈ [""; w]) by (exists w; split; [by apply T|done]).
      split; [|split; [done|by left]]. intros _. exists w. split; [done|]. exists u. split; [done|]. rewrite V. cbn [last]. rewrite !elem_of_cons in D. destruct D as [->|[->|D%elem_of_nil]]; [by rewrite Uw| |done].
      destruct (String.eqb w ""); [by rewrite Uw|]. unfold version_supported. cbn [versionable]. rewrite Uw. rewrite (bool_decide_eq_true_2 (is_Some (Some u))) by (by eexists). cbn [negb]. rewrite bool_decide_eq_true_2 by left. done.
    + assert (N : ~ exists w, (v, w) ∈ [(V1_3, "1.0"); (V1_4, "1.1"); (V1_5, "1.2")] /\ xv ∈ [""; w]) by (intros (w' & H & X); apply T in H; rewrite V in H; injection H as <-; done).
      split; [done|]. split; [|by right]. intros _. rewrite V. rewrite !elem_of_cons in D. destruct (String.eqb_spec xv "") as [->|_]; [tauto|]. destruct (version_supported KSlack xv); cbn [negb]; [|by eexists].
      rewrite bool_decide_eq_false_2; [by eexists|]. intros X%elem_of_list_singleton. tauto.
Qed.
(** The URIs of the serializers and their prefixes are distinct. *)
Lemma uri_of x v k u : k ∈ known -> namespace_of x v k = Ok u -> (k <> KSlack /\ u = kind_uri k) \/ (k = KSlack /\ u ∈ ["http://www.powsybl.org/schema/iidm/ext/slack_terminal/1_0"; "http://www.powsybl.org/schema/iidm/ext/slack_terminal/1_1"; "http://www.powsybl.org/schema/iidm/ext/slack_terminal/1_2"]).
Proof.
  intros Hk E. destruct (decide (k = KSlack)) as [->|N].
  - right. split; [done|]. destruct (namespace_slack x v) as (H1 & H2 & [D|D]).
    + destruct (H1 D) as (w & Vw & u' & Uw & E'). rewrite E in E'. injection E' as <-. clear -Vw Uw. destruct v; try done; injection Vw as <-; vm_compute in Uw; injection Uw as <-; rewrite !elem_of_cons; tauto.
    + destruct (H2 D) as [t E']. congruence.
  - left. split; [done|]. unfold namespace_of in E. destruct k; try done; by injection E as <-.
Qed.
Lemma uris_distinct x v k1 k2 u : k1 ∈ known -> k2 ∈ known -> namespace_of x v k1 = Ok u -> namespace_of x v k2 = Ok u -> k1 = k2.
Proof.
  intros K1 K2 E1 E2. apply uri_of in E1; [|done]. apply uri_of in E2; [|done].
  assert (T : forallb (fun k => bool_decide (k = KSlack) || negb (bool_decide (kind_uri k ∈ ["http://www.powsybl.org/schema/iidm/ext/slack_terminal/1_0"; "http://www.powsybl.org/schema/iidm/ext/slack_terminal/1_1"; "http://www.powsybl.org/schema/iidm/ext/slack_terminal/1_2"]))) known = true) by (vm_compute; reflexivity).
  assert (S : forall k, k ∈ known -> k <> KSlack -> kind_uri k ∉ ["http://www.powsybl.org/schema/iidm/ext/slack_terminal/1_0"; "http://www.powsybl.org/schema/iidm/ext/slack_terminal/1_1"; "http://www.powsybl.org/schema/iidm/ext/slack_terminal/1_2"]).
  { intros k Hk N. rewrite forallb_forall in T. apply elem_of_list_In, T in Hk. rewrite bool_decide_eq_false_2 in Hk by done. cbn [orb] in Hk. apply negb_true_iff, bool_decide_eq_false in Hk. done. }
  assert (T2 : forallb (fun k1 => forallb (fun k2 => bool_decide (kind_uri k1 = kind_uri k2 -> k1 = k2)) known) known = true) by (vm_compute; reflexivity).
  destruct E1 as [[N1 ->]|[-> U1]], E2 as [[N2 E2]|[-> U2]]; [|by exfalso; apply (S k1)|subst; by exfalso; apply (S k2)|done].
  rewrite forallb_forall in T2. apply elem_of_list_In in K1, K2. specialize (T2 k1 K1). rewrite forallb_forall in T2. specialize (T2 k2 K2). apply bool_decide_eq_true in T2. by apply T2.
Qed.
Lemma prefixes_distinct k1 k2 : k1 ∈ known -> k2 ∈ known -> kind_prefix k1 = kind_prefix k2 -> k1 = k2.
Proof.
  assert (T2 : forallb (fun k1 => forallb (fun k2 => bool_decide (kind_prefix k1 = kind_prefix k2 -> k1 = k2)) known) known = true) by (vm_compute; reflexivity).
  intros K1 K2 E. rewrite forallb_forall in T2. apply elem_of_list_In in K1, K2. specialize (T2 k1 K1). rewrite forallb_forall in T2. specialize (T2 k2 K2). apply bool_decide_eq_true in T2. by apply T2.
Qed.
Lemma provider_name reg n k : find_provider reg n = Some k -> k ∈ known /\ kind_name k = n.
Proof. unfold find_provider. case_bool_decide; [|done]. intros P. apply fmap_Some in P as ([j k'] & P & ->). apply list_find_Some in P as (P & E & _). apply elem_of_list_lookup_2 in P. done. Qed.
Lemma namespaces_ok reg x v names ks : NoDup names -> Forall (fun k => k ∈ known) ks -> (forall k, k ∈ ks -> kind_name k ∉ names) -> forall uris, Forall2 (fun k u => namespace_of x v k = Ok u) ks uris ->
  let P := "slackTerminal" ∈ names -> asked (x_only x) "slackTerminal" -> loaded reg "slackTerminal" -> slack_fine x v in
  (P -> is_ok (namespaces reg x v names uris (kind_prefix <$> ks))) /\ (~ P -> throws (namespaces reg x v names uris (kind_prefix <$> ks))).
Proof.
  revert ks. induction names as [|n names IH]; intros ks N Hks D uris F P.
  { split; [by eexists|]. intros NP. exfalso. apply NP. intros X. by apply elem_of_nil in X. }
  apply NoDup_cons in N as [Nn N]. cbn [namespaces].
  assert (Skip : (n = "slackTerminal" -> ~ (asked (x_only x) n /\ loaded reg n)) -> (P -> is_ok (namespaces reg x v names uris (kind_prefix <$> ks))) /\ (~ P -> throws (namespaces reg x v names uris (kind_prefix <$> ks)))).
  { intros Hn. destruct (IH ks N Hks ltac:(intros k Hk X; apply (D k Hk); by right) uris F) as [I1 I2]. split.
    - intros HP. apply I1. intros X. apply HP. by right.
    - intros NP. apply I2. intros HP. apply NP. intros X A L. apply elem_of_cons in X as [X|X]; [|by apply HP]. exfalso. subst n. by apply Hn. }
  destruct (selected (x_only x) n) eqn:Se; cbn [negb]; [|apply Skip; intros _ [A _]; apply selected_asked in A; congruence].
  destruct (find_provider reg n) as [k|] eqn:Pv; [|apply Skip; intros _ [_ L]; apply provider_loaded in L; rewrite Pv in L; by destruct L].
  destruct (provider_name _ _ _ Pv) as [Kk En]. apply selected_asked in Se. assert (Ld : loaded reg n) by (apply provider_loaded; by rewrite Pv).
  assert (Cont : forall uri, namespace_of x v k = Ok uri -> (n = "slackTerminal" -> slack_fine x v) -> forall r, r = (if bool_decide (uri ∈ uris) then Throw "Extension namespace URI collision" else
      if bool_decide (kind_prefix k ∈ kind_prefix <$> ks) then Throw "Extension namespace prefix collision" else
      let! l := namespaces reg x v names (uri :: uris) (kind_prefix k :: (kind_prefix <$> ks)) in Ok (("xmlns:" +:+ kind_prefix k, uri) :: l)) -> (P -> is_ok r) /\ (~ P -> throws r)).
  { intros uri Eu Hs r Er. assert (Nk : k ∉ ks) by (intros X; apply (D k X); rewrite En; left). rewrite Forall_forall in Hks. rewrite bool_decide_eq_false_2 in Er; cycle 1.
    { intros X. apply elem_of_list_lookup in X as [j X]. destruct (Forall2_lookup_r _ _ _ _ _ F X) as (k' & Hk' & E'). apply elem_of_list_lookup_2 in Hk'. apply Nk. rewrite (uris_distinct x v k k' uri); auto. }
    rewrite bool_decide_eq_false_2 in Er; cycle 1. { intros X. apply elem_of_list_fmap in X as (k' & E' & Hk'). apply Nk. rewrite (prefixes_distinct k k'); auto. }
    destruct (IH (k :: ks) N ltac:(constructor; [done|by apply Forall_forall]) ltac:(intros k' Hk' X; apply elem_of_cons in Hk' as [->|Hk']; [rewrite En in X; done|apply (D k' Hk'); by right]) (uri :: uris) ltac:(by constructor)) as [I1 I2].
    rewrite fmap_cons in I1, I2. subst r. split.
    - intros HP. destruct I1 as [l ->]; [intros X; apply HP; by right|]. by eexists.
    - intros NP. destruct I2 as [t ->]; [|by eexists]. intros HP. apply NP. intros X A L. apply elem_of_cons in X as [X|X]; [by apply Hs|by apply HP]. }
  destruct (decide (k = KSlack)) as [->|Nk].
  - cbn in En. subst n. destruct (namespace_slack x v) as (H1 & H2 & [Sf|Sf]).
    + destruct (H1 Sf) as (w & _ & u & _ & Eu). rewrite Eu. cbn [result_bind]. by apply (Cont u Eu ltac:(done)).
    + destruct (H2 Sf) as [t Et]. rewrite Et. cbn [result_bind]. split; [|by eexists]. intros HP. exfalso. apply Sf, HP; [left|done|done].
  - assert (Eu : namespace_of x v k = Ok (kind_uri k)) by (unfold namespace_of; by destruct k). rewrite Eu. cbn [result_bind]. apply (Cont _ Eu); [|done].
    intros Es. exfalso. apply Nk. apply names_inj; [done|by apply (bool_decide_eq_true_1 _); vm_compute|]. by rewrite En.
Qed.

(** * Writing the extensions. *)
Lemma wmapr_iff {A B} (P : A -> Prop) (f : A -> option mapping -> result (B * option mapping)) ls : (forall x m, (P x -> is_ok (f x m)) /\ (~ P x -> throws (f x m))) -> (forall x, P x \/ ~ P x) ->
  forall m, ((forall x, x ∈ ls -> P x) -> is_ok (wmapr f ls m)) /\ (~ (forall x, x ∈ ls -> P x) -> throws (wmapr f ls m)).
Proof.
  intros Hf D. induction ls as [|x ls IH]; intros m; cbn [wmapr].
  { split; [by eexists|]. intros N. exfalso. apply N. intros x Hx. by apply elem_of_nil in Hx. }
  destruct (Hf x m) as [H1 H2]. destruct (D x) as [Px|Nx].
  - destruct (H1 Px) as [[y m1] E]. rewrite E. cbn [result_bind]. destruct (IH m1) as [I1 I2]. split.
    + intros HP. destruct I1 as [[ys m2] Es]; [intros z Hz; apply HP; by right|]. rewrite Es. by eexists.
    + intros N. destruct I2 as [t Et]; [|rewrite Et; by eexists]. intros HP. apply N. intros z Hz. apply elem_of_cons in Hz as [->|Hz]; [done|by apply HP].
  - destruct (H2 Nx) as [t E]. rewrite E. cbn [result_bind]. split; [|by eexists]. intros HP. exfalso. apply Nx, HP. left.
Qed.
Definition ext_fine (reg : gset string) (x : export) (e : ext) : Prop :=
  loaded reg (nm e) /\ (x_throw x = false -> ~ empty_ext e) /\ (nm e <> "slackTerminal" -> version_asked x (nm e) ∈ [""; "1.0"]).
Lemma serializable_spec e : serializable e = true <-> ~ empty_ext e.
Proof.
  unfold serializable, empty_ext. destruct (e_kind e) eqn:K; try (split; [intros _ [[? _]|[[?|?] _]]; congruence|done]).
  - rewrite negb_true_iff, bool_decide_eq_false. intuition congruence.
  - rewrite negb_true_iff, bool_decide_eq_false. intuition congruence.
  - rewrite negb_true_iff, bool_decide_eq_false. intuition congruence.
Qed.
Lemma extension_iff reg x v e m : (nm e = "slackTerminal" -> loaded reg "slackTerminal" -> slack_fine x v) ->
  ((ext_fine reg x e -> is_ok (write_extension reg x e m)) /\ (~ ext_fine reg x e -> throws (write_extension reg x e m))) /\ (ext_fine reg x e \/ ~ ext_fine reg x e).
Proof.
  intros Sl. unfold write_extension, serializer, ext_fine. fold (nm e). fold (version_asked x (nm e)).
  destruct (find_provider reg (nm e)) as [k|] eqn:Pv; cycle 1.
  { assert (N : ~ loaded reg (nm e)) by (rewrite <- provider_loaded, Pv; by intros []). split; [|right; tauto]. split; [tauto|]. intros _. destruct (x_throw x); by eexists. }
  assert (Ld : loaded reg (nm e)) by (apply provider_loaded; by rewrite Pv). destruct (provider_name _ _ _ Pv) as [Kk En].
  assert (Ver : negb (String.eqb (version_asked x (nm e)) "") && negb (version_supported k (version_asked x (nm e))) = false <-> (nm e <> "slackTerminal" -> version_asked x (nm e) ∈ [""; "1.0"])).
  { destruct (decide (k = KSlack)) as [->|Nk].
    - cbn in En. rewrite <- En. split; [done|]. intros _. destruct (Sl (eq_sym En)) as (w & Hw & A); [by rewrite En|]. rewrite !elem_of_cons in A. destruct A as [-> | [-> | A%elem_of_nil]]; [done| |done].
      rewrite !elem_of_cons in Hw. destruct Hw as [[= _ ->]|[[= _ ->]|[[= _ ->]|Hw%elem_of_nil]]]; [vm_compute; reflexivity..|done].
    - assert (Vs : version_supported k (version_asked x (nm e)) = String.eqb (version_asked x (nm e)) "1.0") by (unfold version_supported; by destruct k). rewrite Vs.
      assert (Ns : nm e <> "slackTerminal") by (intros X; apply Nk, names_inj; [done|by apply (bool_decide_eq_true_1 _); vm_compute|by rewrite En]). rewrite !elem_of_cons.
      destruct (String.eqb_spec (version_asked x (nm e)) "") as [Z|Z]; cbn [negb andb]; [tauto|]. destruct (String.eqb_spec (version_asked x (nm e)) "1.0") as [O|O]; cbn [negb]; [tauto|]. split; [done|]. intros H. apply H in Ns as [?|[?|?%elem_of_nil]]; done. }
  destruct (negb (String.eqb (version_asked x (nm e)) "") && negb (version_supported k (version_asked x (nm e)))) eqn:Ev.
  - assert (Nv : ~ (nm e <> "slackTerminal" -> version_asked x (nm e) ∈ [""; "1.0"])) by (intros H; apply Ver in H; done). split; [|right; tauto]. split; [tauto|]. intros _.
    destruct (x_throw x); cbn [result_bind]; [rewrite Ev; by eexists|]. destruct (serializable e); cbn [result_bind]; [rewrite Ev; by eexists|by eexists].
  - assert (Hv : nm e <> "slackTerminal" -> version_asked x (nm e) ∈ [""; "1.0"]) by (by apply Ver). destruct (x_throw x); cbn [result_bind].
    + rewrite Ev. split; [|left; by split]. split; [intros _; by eexists|]. intros N. exfalso. apply N. by split.
    + destruct (serializable e) eqn:Se; cbn [result_bind].
      * apply serializable_spec in Se. rewrite Ev. split; [|left; by split]. split; [intros _; by eexists|]. intros N. exfalso. apply N. by split.
      * assert (Ne : ~ ~ empty_ext e) by (rewrite <- serializable_spec; congruence). split; [|right; intros (_ & H & _); by apply Ne, H]. split; [intros (_ & H & _); exfalso; by apply Ne, H|]. intros _. by eexists.
Qed.
Lemma object_iff reg x v xs l m : (forall e, e ∈ chosen x xs l -> nm e = "slackTerminal" -> loaded reg "slackTerminal" -> slack_fine x v) ->
  ((forall e, e ∈ chosen x xs l -> ext_fine reg x e) -> is_ok (write_object_exts reg x xs l m)) /\ (~ (forall e, e ∈ chosen x xs l -> ext_fine reg x e) -> throws (write_object_exts reg x xs l m)).
Proof.
  intros Sl. rewrite write_object_chosen. destruct (chosen x xs l) as [|e0 es0].
  { split; [by eexists|]. intros N. exfalso. apply N. intros e He. by apply elem_of_nil in He. }
  destruct (anon (l_id l) m) as [c m1]. revert Sl. generalize (e0 :: es0). clear. intros es Sl.
  assert (W : ((forall e, e ∈ es -> ext_fine reg x e) -> is_ok (wmapr (write_extension reg x) es m1)) /\ (~ (forall e, e ∈ es -> ext_fine reg x e) -> throws (wmapr (write_extension reg x) es m1))).
  { revert m1. induction es as [|e es IH]; intros m1; cbn [wmapr].
    { split; [by eexists|]. intros N. exfalso. apply N. intros e He. by apply elem_of_nil in He. }
    destruct (extension_iff reg x v e m1 ltac:(intros; apply (Sl e); [left|done..])) as [[H1 H2] [Pe|Ne]].
    - destruct (H1 Pe) as [[y m2] E]. rewrite E. cbn [result_bind]. destruct (IH ltac:(intros e' He'; apply Sl; by right) m2) as [I1 I2]. split.
      + intros HP. destruct I1 as [[ys m3] Es]; [intros z Hz; apply HP; by right|]. rewrite Es. by eexists.
      + intros N. destruct I2 as [t Et]; [|rewrite Et; by eexists]. intros HP. apply N. intros z Hz. apply elem_of_cons in Hz as [->|Hz]; [done|by apply HP].
    - destruct (H2 Ne) as [t E]. rewrite E. cbn [result_bind]. split; [|by eexists]. intros HP. exfalso. apply Ne, HP. left. }
  destruct W as [W1 W2]. split.
  - intros HP. destruct (W1 HP) as [[ys m2] E]. rewrite E. by eexists.
  - intros N. destruct (W2 N) as [t E]. rewrite E. by eexists.
Qed.
Lemma ext_fine_dec reg x e : ext_fine reg x e \/ ~ ext_fine reg x e.
Proof.
  unfold ext_fine. destruct (find_provider reg (nm e)) as [k|] eqn:Pv; [|right; intros (L & _); apply provider_loaded in L; rewrite Pv in L; by destruct L].
  assert (Ld : loaded reg (nm e)) by (apply provider_loaded; by rewrite Pv).
  destruct (decide (nm e <> "slackTerminal" -> version_asked x (nm e) ∈ [""; "1.0"])); [|right; tauto]. destruct (x_throw x); [left; by split|]. destruct (serializable e) eqn:Se.
  - left. apply serializable_spec in Se. done.
  - right. intros (_ & H & _). specialize (H eq_refl). apply serializable_spec in H. congruence.
Qed.
Lemma forall_dec {A} (P : A -> Prop) (ls : list A) : (forall x, P x \/ ~ P x) -> (forall x, x ∈ ls -> P x) \/ ~ (forall x, x ∈ ls -> P x).
Proof.
  intros D. induction ls as [|x ls [IH|IH]]; [left; intros x Hx; by apply elem_of_nil in Hx| |].
  - destruct (D x) as [Hx|Hx]; [left; intros y Hy; apply elem_of_cons in Hy as [->|Hy]; auto|right; intros H; apply Hx, H; left].
  - right. intros H. apply IH. intros y Hy. apply H. by right.
Qed.
(** * Everything. *)
Lemma export_iff a o reg x n xs : named_exts xs -> is_ok (write_network o a n) ->
  (is_ok (write_all reg x o a n xs) <-> exportable reg x (o_ver o) n xs) /\ (~ is_ok (write_all reg x o a n xs) -> throws (write_all reg x o a n xs)).
Proof.
  intros Nx [[y m] Ew]. set (v := o_ver o).
  assert (Shape : exists al cs, y = elem "network" (("xmlns:iidm", namespace_uri v) :: al) cs).
  { unfold write_network in Ew. destruct (write_fields _ _ _ _) as [fs m1]. destruct (_ && _); [done|]. destruct (wmap _ _ _) as [als m2].
    destruct (wmapr (write_sub o) _ _) as [[ss m3]| | |]; cbn [result_bind] in Ew; try done. destruct (wmapr (write_leaf o) (n_lines n) _) as [[ls m4]| | |]; cbn [result_bind] in Ew; try done.
    destruct (wmapr (write_leaf o) (n_hvdcs n) _) as [[hs m5]| | |]; cbn [result_bind] in Ew; try done. injection Ew as <- <-. by do 2 eexists. }
  destruct Shape as (al & cs & ->).
  set (S := "slackTerminal" ∈ ext_names n xs -> asked (x_only x) "slackTerminal" -> loaded reg "slackTerminal" -> slack_fine x v).
  set (O := forall l, l ∈ written n -> forall e, e ∈ chosen x xs l -> ext_fine reg x e).
  destruct (namespaces_ok reg x v (ext_names n xs) [] ltac:(apply NoDup_elements) ltac:(constructor) ltac:(intros k Hk; by apply elem_of_nil in Hk) [] ltac:(constructor)) as [N1 N2]. fold S in N1, N2. cbn [fmap list_fmap] in N1, N2.
  assert (Names : "slackTerminal" ∈ ext_names n xs <-> exists l e, l ∈ n_leaf n :: objects n /\ ext_of xs (l_id l) "slackTerminal" = Some e).
  { unfold ext_names. rewrite elem_of_elements, elem_of_list_to_set, in_mjoin. change (net_leaves n) with (n_leaf n :: objects n). split.
    - intros (l & Hl & H). apply elem_of_list_fmap in H as ([name e] & E & H). cbn in E. subst name. apply elem_of_map_to_list in H. exists l, e. split; [done|]. unfold ext_of. destruct (xs !! l_id l); cbn in H; [done|by rewrite lookup_empty in H].
    - intros (l & e & Hl & H). exists l. split; [done|]. apply elem_of_list_fmap. exists ("slackTerminal", e). split; [done|]. apply elem_of_map_to_list. unfold ext_of in H. by destruct (xs !! l_id l). }
  assert (Sd : S \/ ~ S).
  { unfold S. destruct (namespace_slack x v) as (_ & _ & [D|D]); [left; auto|]. destruct (decide ("slackTerminal" ∈ ext_names n xs)) as [D1|]; [|left; tauto].
    destruct (selected (x_only x) "slackTerminal") eqn:D2; [|left; intros _ A; apply selected_asked in A; congruence]. destruct (find_provider reg "slackTerminal") as [k|] eqn:D3.
    - right. intros H. apply D, H; [done|by apply selected_asked|apply provider_loaded; by rewrite D3].
    - left. intros _ _ L. apply provider_loaded in L. rewrite D3 in L. by destruct L. }
  assert (Iff : exportable reg x v n xs <-> S /\ O).
  { unfold exportable, S, O. split.
    - intros [H1 H2]. split.
      + intros X A L. apply Names in X as (l & e & Hl & He). by eapply H2.
      + intros l Hl e He. apply chosen_in in He as [He A]; [|done]. by apply (H1 l (nm e) e).
    - intros [HS HO]. split.
      + intros l name e Hl He A. pose proof (Nx _ _ _ He) as En. specialize (HO l Hl e). rewrite chosen_in in HO by done. unfold ext_fine, nm in HO. rewrite En in HO. by apply HO.
      + intros l e Hl He A L. apply HS; [|done|done]. apply Names. by exists l, e. }
  apply (ok_or_throws (write_all reg x o a n xs) (exportable reg x v n xs)).
  - intros E. apply Iff in E as [HS HO]. unfold write_all. destruct (N1 HS) as [ns Ens]. fold v. rewrite Ens. cbn [result_bind]. rewrite Ew. cbn [result_bind].
    assert (Sl : forall l e, l ∈ written n -> e ∈ chosen x xs l -> nm e = "slackTerminal" -> loaded reg "slackTerminal" -> slack_fine x v).
    { intros l e Hl He En L. apply chosen_in in He as [He A]; [|done]. rewrite En in He, A. apply HS; [|done|done]. apply Names. exists l, e. split; [by right|done]. }
    assert (W : forall ls m, (forall l, l ∈ ls -> l ∈ written n) -> is_ok (wmapr (write_object_exts reg x xs) ls m)).
    { clear -Sl HO. induction ls as [|l ls IH]; intros m Hls; cbn [wmapr]; [by eexists|]. destruct (object_iff reg x v xs l m) as [H1 _]; [intros e He; apply (Sl l e); [apply Hls; left|done]|].
      destruct H1 as [[ys m1] E]; [intros e He; apply (HO l); [apply Hls; left|done]|]. rewrite E. cbn [result_bind]. destruct (IH m1) as [[zs m2] E2]; [intros l' Hl'; apply Hls; by right|]. rewrite E2. by eexists. }
    destruct (W (written n) m ltac:(done)) as [[es m'] Ee]. rewrite Ee. cbn [result_bind]. by eexists.
  - intros NE. unfold write_all. fold v. destruct Sd as [HS|NS]; cycle 1.
    { destruct (N2 NS) as [t Et]. rewrite Et. by eexists. }
    destruct (N1 HS) as [ns Ens]. rewrite Ens. cbn [result_bind]. rewrite Ew. cbn [result_bind]. assert (NO : ~ O) by (intros HO; by apply NE, Iff).
    assert (Sl : forall l e, l ∈ written n -> e ∈ chosen x xs l -> nm e = "slackTerminal" -> loaded reg "slackTerminal" -> slack_fine x v).
    { intros l e Hl He En L. apply chosen_in in He as [He A]; [|done]. rewrite En in He, A. apply HS; [|done|done]. apply Names. exists l, e. split; [by right|done]. }
    assert (W : forall ls m, (forall l, l ∈ ls -> l ∈ written n) -> ~ (forall l, l ∈ ls -> forall e, e ∈ chosen x xs l -> ext_fine reg x e) -> throws (wmapr (write_object_exts reg x xs) ls m)).
    { clear -Sl. induction ls as [|l ls IH]; intros m Hls NP; cbn [wmapr]; [exfalso; apply NP; intros l Hl; by apply elem_of_nil in Hl|].
      destruct (object_iff reg x v xs l m) as [H1 H2]; [intros e He; apply (Sl l e); [apply Hls; left|done]|]. destruct (forall_dec (ext_fine reg x) (chosen x xs l) (ext_fine_dec reg x)) as [D|D].
      - destruct (H1 D) as [[ys m1] E]. rewrite E. cbn [result_bind]. destruct (IH m1) as [t Et]; [intros l' Hl'; apply Hls; by right| |rewrite Et; by eexists].
        intros H. apply NP. intros l' Hl'. apply elem_of_cons in Hl' as [->|Hl']; [done|by apply H].
      - destruct (H2 D) as [t Et]. rewrite Et. by eexists. }
    destruct (W (written n) m ltac:(done) NO) as [t Et]. rewrite Et. by eexists.
  - destruct Sd as [HS|NS]; [|right; intros E; apply NS, Iff, E]. destruct (forall_dec (fun l => forall e, e ∈ chosen x xs l -> ext_fine reg x e) (written n)) as [D|D]; [intros l; apply forall_dec, ext_fine_dec|left; by apply Iff|right; intros E; apply D, Iff, E].
Qed.
