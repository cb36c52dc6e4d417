(** C75: the options of the export and of the import. *)
From Verif Require Import Base.
From Verif Require Import OptionsProofs.

(** The options made of properties: each is what its parameter asks for. *)
Definition as_asked (h : list pop) (names : list string) (dflt : string) (b : bool) : Prop := exists v, asked h names dflt v /\ (b = true <-> true_text v).
Definition as_listed (h : list pop) (name : string) (selects : string -> bool) : Prop :=
  (last_value h name = None /\ forall n, selects n = true) \/ exists v l, last_value h name = Some v /\ pieces v l /\ forall n, selects n = true <-> n ∈ l.
Lemma listed_ok h name l only : ((absent h [name] /\ l = []) \/ exists v, asked h [name] "" v /\ ~ absent h [name] /\ pieces v l /\ l <> []) ->
  only = list_to_set l -> as_listed h name (selected only).
Proof.
  intros [[A ->]|(v & A & N & P & Ne)] ->.
  - left. split; [apply A; by left|]. intros n. unfold selected. apply bool_decide_eq_true. by left.
  - right. exists v, l. split; [|split; [done|]].
    + destruct A as [i n v Hi Hv _|A]; [|done]. destruct i as [|i]; [by injection Hi as ->|done].
    + intros n. unfold selected. rewrite bool_decide_eq_true. rewrite elem_of_list_to_set. split; [|by right]. intros [E|?]; [|done].
      destruct l as [|x l]; [done|]. exfalso. assert (x ∈ (list_to_set (x :: l) : gset string)) as X by (apply elem_of_list_to_set; by left). rewrite E in X. by apply elem_of_empty in X.
Qed.
Theorem C75_export h o : xopts_read (prun h) = Ok o ->
  as_asked h ["iidm.export.xml.anonymised"] "false" (xo_anonymized o) /\
  as_asked h ["iidm.export.xml.indent"] "true" (xo_indent o) /\
  as_asked h ["iidm.export.xml.only-main-cc"] "false" (xo_main_cc o) /\
  as_asked h ["iidm.export.xml.throw-exception-if-extension-not-found"; "throwExceptionIfExtensionNotFound"] "false" (x_throw (xo_ext o)) /\
  as_asked h ["iidm.export.xml.with-branch-state-variables"] "true" (xo_branch_sv o) /\
  (exists v, asked h ["iidm.export.xml.topology-level"] "NODE_BREAKER" v /\ ["NODE_BREAKER"; "BUS_BREAKER"; "BUS_BRANCH"] !! xo_topology o = Some v) /\
  (exists v, asked h ["iidm.export.xml.iidm-version-incompatibility-behavior"] "THROW_EXCEPTION" v /\ ["THROW_EXCEPTION"; "LOG_ERROR"] !! xo_behavior o = Some v) /\
  asked h ["iidm.export.xml.version"] "1.5" (xo_version o) /\
  as_listed h "iidm.export.xml.extensions" (with_extension o) /\
  forall n, ext_version o n = "".
Proof.
  unfold xopts_read. destruct (read_boolean_ok h p_anonymised) as (v1 & b1 & A1 & -> & B1). destruct (read_boolean_ok h p_indent) as (v2 & b2 & A2 & -> & B2).
  destruct (read_boolean_ok h p_main_cc) as (v3 & b3 & A3 & -> & B3). destruct (read_boolean_ok h p_throw) as (v4 & b4 & A4 & -> & B4).
  destruct (read_boolean_ok h p_branch_sv) as (v5 & b5 & A5 & -> & B5). destruct (read_string_ok h p_topology) as (v6 & A6 & ->).
  destruct (read_list_ok h p_extensions eq_refl) as (l & -> & L). destruct (read_string_ok h p_version) as (v7 & A7 & ->). destruct (read_string_ok h p_behavior) as (v8 & A8 & ->).
  cbn [result_bind]. pose proof (from_string_ok e_TopologyLevel v6) as T. destruct (from_string e_TopologyLevel v6) as [t| | |]; try done.
  cbn [result_bind]. pose proof (from_string_ok e_ExportOptions_IidmVersionIncompatibilityBehavior v8) as Q. destruct (from_string _ v8) as [q| | |]; try done.
  cbn [result_bind]. intros [= <-]. cbn [xo_anonymized xo_indent xo_main_cc xo_ext x_throw xo_branch_sv xo_topology xo_behavior xo_version].
  split; [by exists v1|]. split; [by exists v2|]. split; [by exists v3|]. split; [by exists v4|]. split; [by exists v5|]. split; [by exists v6|]. split; [by exists v8|].
  split; [exact A7|]. split; [by apply (listed_ok h _ l)|]. intros n. unfold ext_version. cbn. done.
Qed.
(** The options are refused exactly when the topology level or the behavior is no name of its enumeration; the text of the version is
    looked at only when the network is written. *)
Theorem C75_refused h : exists t b, asked h ["iidm.export.xml.topology-level"] "NODE_BREAKER" t /\ asked h ["iidm.export.xml.iidm-version-incompatibility-behavior"] "THROW_EXCEPTION" b /\
  if bool_decide (t ∈ ["NODE_BREAKER"; "BUS_BREAKER"; "BUS_BRANCH"] /\ b ∈ ["THROW_EXCEPTION"; "LOG_ERROR"]) then exists o, xopts_read (prun h) = Ok o
  else exists m, xopts_read (prun h) = Throw m.
Proof.
  unfold xopts_read. destruct (read_boolean_ok h p_anonymised) as (v1 & b1 & A1 & -> & B1). destruct (read_boolean_ok h p_indent) as (v2 & b2 & A2 & -> & B2).
  destruct (read_boolean_ok h p_main_cc) as (v3 & b3 & A3 & -> & B3). destruct (read_boolean_ok h p_throw) as (v4 & b4 & A4 & -> & B4).
  destruct (read_boolean_ok h p_branch_sv) as (v5 & b5 & A5 & -> & B5). destruct (read_string_ok h p_topology) as (v6 & A6 & ->).
  destruct (read_list_ok h p_extensions eq_refl) as (l & -> & L). destruct (read_string_ok h p_version) as (v7 & A7 & ->). destruct (read_string_ok h p_behavior) as (v8 & A8 & ->).
  exists v6, v8. split; [exact A6|]. split; [exact A8|].
  cbn [result_bind]. pose proof (from_string_ok e_TopologyLevel v6) as T. destruct (from_string e_TopologyLevel v6) as [t|m| |]; try done.
  2:{ rewrite bool_decide_false by (intros [X _]; exact (T X)). by exists m. }
  apply elem_of_list_lookup_2 in T. cbn [result_bind]. pose proof (from_string_ok e_ExportOptions_IidmVersionIncompatibilityBehavior v8) as Q. destruct (from_string _ v8) as [q|m| |]; try done.
  2:{ rewrite bool_decide_false by (intros [_ X]; exact (Q X)). by exists m. }
  apply elem_of_list_lookup_2 in Q. rewrite bool_decide_true by (split; [exact T|exact Q]). by eexists.
Qed.
Theorem C75_import h : exists o, iopts_read (prun h) = Ok o /\
  as_asked h ["iidm.import.xml.throw-exception-if-extension-not-found"; "throwExceptionIfExtensionNotFound"] "false" (i_throw o) /\
  as_listed h "iidm.import.xml.extensions" (selected (i_only o)).
Proof.
  unfold iopts_read. destruct (read_boolean_ok h p_import_throw) as (v1 & b1 & A1 & -> & B1). destruct (read_list_ok h p_import_extensions eq_refl) as (l & -> & L).
  cbn [result_bind]. eexists. split; [reflexivity|]. cbn [i_throw i_only]. split; [by exists v1|]. by apply (listed_ok h _ l).
Qed.
(** The constructor with arguments gives what the setters give, called once each on the options made without arguments. *)
Theorem C75_constructor sv ind cc top thr ver beh :
  xopts_of sv ind cc top thr ver beh = xruns [XSetBehavior beh; XSetTopology top; XSetMainCc cc; XSetIndent ind; XSetVersion ver; XSetThrow thr; XSetBranchSV sv] xopts_default.
Proof. reflexivity. Qed.
(** The meaning of these words is not ambiguous. *)
Theorem C75_unambiguous h names d v w s l l' : (asked h names d v -> asked h names d w -> v = w) /\ (pieces s l -> pieces s l' -> l = l') /\ (exists l, pieces s l).
Proof. split; [apply asked_unique|]. split; [apply pieces_unique|]. exists (pieces_of s). apply pieces_of_pieces. Qed.
(** Without any of the properties, the options are those made without arguments, and the version written is the same, although not its
    text. *)
Theorem C75_defaults h : (forall n, n ∈ ["iidm.export.xml.anonymised"; "iidm.export.xml.extensions"; "iidm.export.xml.iidm-version-incompatibility-behavior"; "iidm.export.xml.indent";
     "iidm.export.xml.only-main-cc"; "iidm.export.xml.throw-exception-if-extension-not-found"; "throwExceptionIfExtensionNotFound"; "iidm.export.xml.topology-level"; "iidm.export.xml.version";
     "iidm.export.xml.with-branch-state-variables"] -> last_value h n = None) ->
  exists o, xopts_read (prun h) = Ok o /\ file_version o = file_version xopts_default /\
    xo_version o = "1.5" /\ (xcall_run (XSetVersion "") o).2 = xopts_default.
Proof.
  intros A. assert (V : forall p, (forall n, n ∈ pa_names p -> last_value h n = None) -> value_of (pa_names p) (prun h) = None).
  { intros p Hp. pose proof (value_of_ok h (pa_names p)) as H. destruct (value_of _ _) as [r|]; [|done]. destruct H as (i & n & v & Hi & Hv & _).
    rewrite Hp in Hv; [done|]. by eapply elem_of_list_lookup_2. }
  unfold xopts_read, read_boolean, read_string, read_list. rewrite !V by (intros n Hn; apply A; revert n Hn; apply Forall_forall, (bool_decide_unpack _); vm_compute; exact I). eexists. split; [vm_compute; reflexivity|]. by vm_compute.
Qed.
(** The version of the file. *)
Theorem C75_version o v : file_version o = Ok v <-> (xo_version o = "" /\ v = V1_5) \/ (v, xo_version o) ∈ [(V1_0, "1.0"); (V1_1, "1.1"); (V1_2, "1.2"); (V1_3, "1.3"); (V1_4, "1.4"); (V1_5, "1.5")].
Proof.
  unfold file_version. case_bool_decide as E.
  - rewrite E. split; [intros [= <-]; by left|]. intros [[_ ->]|H]; [done|]. exfalso. repeat (apply elem_of_cons in H as [H|H]; [discriminate|]). by apply elem_of_nil in H.
  - assert (version_of (xo_version o) "." = Ok v <-> ver_text "." v = xo_version o) as ->.
    { unfold version_of. destruct (list_find _ _) as [[i w]|] eqn:F.
      - apply list_find_Some in F as (Hi & Hw & _). split; [intros [= ->]; done|]. intros Hv. f_equal. rewrite <- Hv in Hw. by destruct v, w; vm_compute in Hw.
      - split; [done|]. intros Hv. apply list_find_None in F. rewrite Forall_forall in F. exfalso. apply (F v); [|done]. destruct v; unfold all_versions; set_solver. }
    split; intros H.
    + right. rewrite <- H. destruct v; vm_compute; set_solver.
    + destruct H as [[H _]|H]; [done|]. repeat (apply elem_of_cons in H as [H|H]; [injection H as -> ->; reflexivity|]). by apply elem_of_nil in H.
Qed.
(** A list given as an empty text selects no extension that has a name, where a list that is not given, or that is empty when set,
    selects all. *)
Theorem C75_empty_list_refuted h o : last_value h "iidm.export.xml.extensions" = Some "" -> xopts_read (prun h) = Ok o ->
  (forall n, with_extension o n = true <-> n = "") /\ forall n, with_extension (xruns [XSetExtensions ∅] o) n = true.
Proof.
  intros E R. destruct (C75_export h o R) as (_ & _ & _ & _ & _ & _ & _ & _ & L & _). split.
  - destruct L as [[L _]|(v & l & L & P & H)]; [congruence|]. rewrite E in L. injection L as <-. assert (l = [""]) as ->.
    { apply (pieces_unique "" l [""]); [done|]. apply pieces_one, plain_empty. }
    intros n. rewrite H. by rewrite elem_of_list_singleton.
  - intros n. destruct o. cbn. unfold with_extension, selected. cbn. by rewrite bool_decide_true by (by left).
Qed.
Theorem C75_spaces_refuted : exists h o, last_value h "iidm.export.xml.extensions" = Some "position, slackTerminal" /\ xopts_read (prun h) = Ok o /\
  with_extension o "position" = true /\ with_extension o "slackTerminal" = false.
Proof. exists [PSet "iidm.export.xml.extensions" "position, slackTerminal"]. eexists. split; [done|]. split; [vm_compute; reflexivity|]. split; by vm_compute. Qed.

(** After any calls: an extension is selected if it is in the list, or if the list is empty.  It is in the list if it was added or was
    in a list set, and was in every list set since. *)
Definition lists (n : string) (c : xcall) : Prop := c = XAddExtension n \/ exists l, c = XSetExtensions l /\ n ∈ l.
Definition unlists (n : string) (c : xcall) : Prop := exists l, c = XSetExtensions l /\ n ∉ l.
Definition in_list (o : xopts) (cs : list xcall) (n : string) : Prop :=
  (n ∈ x_only (xo_ext o) /\ forall c, c ∈ cs -> ~ unlists n c) \/ exists before c after, cs = before ++ c :: after /\ lists n c /\ forall d, d ∈ after -> ~ unlists n d.
Lemma in_list_ok o cs n : n ∈ x_only (xo_ext (xruns cs o)) <-> in_list o cs n.
Proof.
  induction cs as [|c cs IH] using rev_ind.
  - cbn. split; [intros H; left; split; [done|]; intros ? []%elem_of_nil|]. intros [[? _]|(b & c & a & E & _)]; [done|]. by destruct b.
  - rewrite xruns_snoc, run_only. assert (X : in_list o (cs ++ [c]) n <-> (in_list o cs n /\ ~ unlists n c) \/ lists n c).
    { unfold in_list. split.
      - intros [[H1 H2]|(b & d & a & E & L & N)].
        + left. split; [left; split; [done|]; intros d Hd; apply H2, elem_of_app; by left|]. apply H2, elem_of_app. right. by left.
        + destruct a as [|x a] using rev_ind; [apply app_inj_tail in E as [_ ->]; by right|]. clear IHa. rewrite app_comm_cons, app_assoc in E. apply app_inj_tail in E as [-> ->].
          left. split; [right; exists b, d, a; split; [done|]; split; [done|]; intros y Hy; apply N, elem_of_app; by left|]. apply N, elem_of_app. right. by left.
      - intros [[[[H1 H2]|(b & d & a & -> & L & N)] U]|L].
        + left. split; [done|]. intros d [Hd| ->%elem_of_list_singleton]%elem_of_app; [by apply H2|done].
        + right. exists b, d, (a ++ [c]). split; [by rewrite <- app_assoc|]. split; [done|]. intros y [Hy| ->%elem_of_list_singleton]%elem_of_app; [by apply N|done].
        + right. exists cs, c, []. split; [done|]. split; [done|]. intros ? []%elem_of_nil. }
    rewrite X, <- IH. unfold lists, unlists. destruct c; try (split; [intros H; left; split; [done|]; by intros (? & ? & _)|]; intros [[? _]|[?|(? & ? & _)]]; done).
    + split.
      * intros [->|H]; [right; by left|]. left. split; [done|]. by intros (? & ? & _).
      * intros [[? _]|[E|(? & ? & _)]]; [by right| |done]. injection E as ->. by left.
    + split; [intros H; right; right; by exists l|]. intros [[_ H]|[?|(? & E & ?)]]; [|done|].
      * destruct (decide (n ∈ l)); [done|]. exfalso. apply H. by exists l.
      * injection E as ->. done.
Qed.
Theorem C75_selected o cs n : with_extension (xruns cs o) n = true <-> in_list o cs n \/ forall m, ~ in_list o cs m.
Proof.
  unfold with_extension, selected. rewrite bool_decide_eq_true. setoid_rewrite <- in_list_ok. split; intros [H|H].
  - right. intros m. rewrite H. by intros []%elem_of_empty.
  - by left.
  - by right.
  - left. apply set_eq. intros m. split; [intros X; by destruct (H m)|by intros []%elem_of_empty].
Qed.
(** A version is accepted exactly for an extension that is selected and has none; it is then given for ever. *)
Theorem C75_version_accepted o n v : ((xcall_run (XAddVersion n v) o).1 = Ok tt <-> with_extension o n = true /\ x_versions (xo_ext o) !! n = None) /\
  ((xcall_run (XAddVersion n v) o).1 <> Ok tt -> (exists m, (xcall_run (XAddVersion n v) o).1 = Throw m) /\ (xcall_run (XAddVersion n v) o).2 = o).
Proof.
  split; [apply add_version_accepted|]. destruct o as [an ind cc tl sv e ve be]. cbn [xcall_run].
  destruct (bool_decide (x_only e <> ∅) && bool_decide (n ∉ x_only e)); [intros _; split; [by eexists|done]|]. destruct (x_versions e !! n); [|done]. intros _; split; [by eexists|done].
Qed.
Theorem C75_versions o cs n v : x_versions (xo_ext (xruns cs o)) !! n = Some v <->
  x_versions (xo_ext o) !! n = Some v \/ exists before after, cs = before ++ XAddVersion n v :: after /\ (xcall_run (XAddVersion n v) (xruns before o)).1 = Ok tt.
Proof.
  induction cs as [|c cs IH] using rev_ind.
  - cbn. split; [by left|]. intros [?|(b & a & E & _)]; [done|]. by destruct b.
  - rewrite xruns_snoc, run_versions. assert (X : (exists b a, cs ++ [c] = b ++ XAddVersion n v :: a /\ (xcall_run (XAddVersion n v) (xruns b o)).1 = Ok tt) <->
      (exists b a, cs = b ++ XAddVersion n v :: a /\ (xcall_run (XAddVersion n v) (xruns b o)).1 = Ok tt) \/ (c = XAddVersion n v /\ (xcall_run c (xruns cs o)).1 = Ok tt)).
    { split.
      - intros (b & a & E & R). destruct a as [|x a] using rev_ind; [apply app_inj_tail in E as [-> ->]; by right|]. clear IHa. rewrite app_comm_cons, app_assoc in E. apply app_inj_tail in E as [-> ->].
        left. by exists b, a.
      - intros [(b & a & -> & R)|[-> R]]; [exists b, (a ++ [c]); split; [by rewrite <- app_assoc|done]|]. by exists cs, []. }
    rewrite X. destruct c; try (rewrite IH; split; [intros [?|?]; [by left|right; by left]|intros [?|[?|[? _]]]; [by left|by right|done]]).
    set (r := (xcall_run (XAddVersion n0 v0) (xruns cs o)).1). destruct (bool_decide (n0 = n) && bool_decide (r = Ok tt)) eqn:B.
    + apply andb_true_iff in B as [->%bool_decide_eq_true R%bool_decide_eq_true]. pose proof (proj1 (add_version_accepted _ _ _) R) as [_ N]. split; [intros [= ->]; right; by right|].
      intros H. assert (forall w, ~ (x_versions (xo_ext o) !! n = Some w \/ exists b a, cs = b ++ XAddVersion n w :: a /\ (xcall_run (XAddVersion n w) (xruns b o)).1 = Ok tt)) as Z.
      { intros w Hw. destruct (decide (w = v)) as [->|Nw]; [apply IH in Hw; by rewrite N in Hw|].
        assert (x_versions (xo_ext (xruns cs o)) !! n = Some w) as Y; [|by rewrite N in Y].
        clear - Hw. revert Hw. induction cs as [|c cs IH] using rev_ind.
        - intros [?|(b & a & E & _)]; [done|]. by destruct b.
        - rewrite xruns_snoc, run_versions. intros Hw.
          assert ((x_versions (xo_ext o) !! n = Some w \/ exists b a, cs = b ++ XAddVersion n w :: a /\ (xcall_run (XAddVersion n w) (xruns b o)).1 = Ok tt) \/ (c = XAddVersion n w /\ (xcall_run c (xruns cs o)).1 = Ok tt)) as [H|[-> R]].
          { destruct Hw as [?|(b & a & E & R)]; [by left; left|]. destruct a as [|x a] using rev_ind; [apply app_inj_tail in E as [-> ->]; by right|]. clear IHa. rewrite app_comm_cons, app_assoc in E. apply app_inj_tail in E as [-> ->].
            left. right. by exists b, a. }
          + specialize (IH H). destruct c; try done. destruct (bool_decide (n0 = n) && _) eqn:B; [|done]. apply andb_true_iff in B as [->%bool_decide_eq_true R%bool_decide_eq_true].
            apply add_version_accepted in R as [_ R]. by rewrite R in IH.
          + rewrite R. by rewrite !bool_decide_true by done. }
      destruct H as [H|[H|[E _]]]; [exfalso; apply (Z v); by left|exfalso; apply (Z v); by right|]. by injection E as ->.
    + rewrite IH. split; [intros [?|?]; [by left|right; by left]|]. intros [?|[?|[E R]]]; [by left|by right|]. exfalso. apply andb_false_iff in B as [B|B]; apply bool_decide_eq_false in B; apply B; [by injection E|exact R].
Qed.
(** The documentation of addExtensionVersion says that the version of an extension that is not exported is ignored.  It is refused, or
    kept if it was given before the list. *)
Theorem C75_ignored_refuted : exists n v m, let late := xruns [XAddExtension m; XAddVersion n v] xopts_default in let soon := xruns [XAddVersion n v; XAddExtension m] xopts_default in
  with_extension late n = false /\ with_extension soon n = false /\ (exists e, (xcall_run (XAddVersion n v) (xruns [XAddExtension m] xopts_default)).1 = Throw e) /\
  ext_version late n = "" /\ ext_version soon n = v /\ v <> "".
Proof. exists "slackTerminal", "1.0", "position". vm_compute. repeat split; try done. by eexists. Qed.
(** Each of the other options is the last one set. *)
Definition last_set {A} (pick : xcall -> option A) (cs : list xcall) (d : A) : A := default d (last (omap pick cs)).
Theorem C75_setters cs o : let o' := xruns cs o in
  xo_anonymized o' = last_set (fun c => match c with XSetAnonymized b => Some b | _ => None end) cs (xo_anonymized o) /\
  xo_indent o' = last_set (fun c => match c with XSetIndent b => Some b | _ => None end) cs (xo_indent o) /\
  xo_main_cc o' = last_set (fun c => match c with XSetMainCc b => Some b | _ => None end) cs (xo_main_cc o) /\
  x_throw (xo_ext o') = last_set (fun c => match c with XSetThrow b => Some b | _ => None end) cs (x_throw (xo_ext o)) /\
  xo_topology o' = last_set (fun c => match c with XSetTopology l => Some l | _ => None end) cs (xo_topology o) /\
  xo_version o' = last_set (fun c => match c with XSetVersion v => Some v | _ => None end) cs (xo_version o) /\
  xo_branch_sv o' = last_set (fun c => match c with XSetBranchSV b => Some b | _ => None end) cs (xo_branch_sv o) /\
  xo_behavior o' = last_set (fun c => match c with XSetBehavior b => Some b | _ => None end) cs (xo_behavior o).
Proof.
  intros o'. subst o'. unfold last_set. induction cs as [|c cs IH] using rev_ind; [by cbn|]. rewrite xruns_snoc, !omap_app. destruct IH as (H1 & H2 & H3 & H4 & H5 & H6 & H7 & H8).
  set (o' := xruns cs o) in *. clearbody o'. destruct o' as [an ind cc tl sv e ve be]. cbn [xo_anonymized xo_indent xo_main_cc xo_ext xo_topology xo_version xo_branch_sv xo_behavior] in *.
  destruct c; cbn [xcall_run omap list_omap snd xo_anonymized xo_indent xo_main_cc xo_ext x_throw xo_topology xo_version xo_branch_sv xo_behavior with_ext]; rewrite ?last_snoc, ?app_nil_r; try (by repeat split).
  destruct (bool_decide (x_only e <> ∅) && bool_decide (n ∉ x_only e)); [by repeat split|]. by destruct (x_versions e !! n).
Qed.
(** hasAtLeastOneExtension. *)
Theorem C75_has_one o l : l <> [] -> has_one_extension o l = true <-> exists n, n ∈ l /\ with_extension o n = true.
Proof.
  intros Ne. unfold has_one_extension, with_extension, selected. case_bool_decide as E.
  - split; [|done]. intros _. destruct l as [|n l]; [done|]. exists n. split; [by left|]. apply bool_decide_eq_true. by left.
  - rewrite existsb_exists. setoid_rewrite elem_of_list_In. setoid_rewrite bool_decide_eq_true. split; intros (n & Hn & H); exists n; split; try done; [by right|]. by destruct H.
Qed.
Theorem C75_has_one_refuted : exists o, has_one_extension o [] = true.
Proof. exists xopts_default. done. Qed.

(** Concrete cases. *)
Definition C75_h : list pop :=
  [PSet "iidm.export.xml.extensions" "position:slackTerminal,activePowerControl"; PSet "throwExceptionIfExtensionNotFound" "TRUE"; PSet "iidm.export.xml.indent" "no";
   PSet "iidm.export.xml.topology-level" "BUS_BRANCH"; PSet "iidm.export.xml.version" "1.3"].
Example C75_case : exists o, xopts_read (prun C75_h) = Ok o /\ with_extension o "slackTerminal" = true /\ with_extension o "measurements" = false /\ x_throw (xo_ext o) = true /\
  xo_indent o = false /\ xo_topology o = 2 /\ file_version o = Ok V1_3 /\ xo_branch_sv o = true.
Proof. eexists. split; [vm_compute; reflexivity|]. repeat split; by vm_compute. Qed.
(** The main name comes first. *)
Example C75_first : exists o, iopts_read (prun [PSet "throwExceptionIfExtensionNotFound" "true"; PSet "iidm.import.xml.throw-exception-if-extension-not-found" "0"]) = Ok o /\ i_throw o = false.
Proof. eexists. split; [vm_compute; reflexivity|]. by vm_compute. Qed.
Example C75_refused_case : exists m, xopts_read (prun [PSet "iidm.export.xml.topology-level" "bus_branch"]) = Throw m.
Proof. eexists. vm_compute. reflexivity. Qed.
Example C75_calls : let cs := [XAddVersion "position" "1.0"; XAddExtension "position"; XAddVersion "position" "1.1"; XAddVersion "slackTerminal" "1.2"; XSetIndent false; XAddExtension "slackTerminal"] in
  let o := xruns cs xopts_default in ext_version o "position" = "1.0" /\ ext_version o "slackTerminal" = "" /\ with_extension o "slackTerminal" = true /\ with_extension o "measurements" = false /\ xo_indent o = false.
Proof. vm_compute. done. Qed.
Print Assumptions C75_export.
Print Assumptions C75_refused.
Print Assumptions C75_import.
Print Assumptions C75_unambiguous.
Print Assumptions C75_defaults.
Print Assumptions C75_version.
Print Assumptions C75_empty_list_refuted.
Print Assumptions C75_spaces_refuted.
Print Assumptions C75_selected.
Print Assumptions C75_version_accepted.
Print Assumptions C75_versions.
Print Assumptions C75_ignored_refuted.
Print Assumptions C75_setters.
Print Assumptions C75_has_one.
Print Assumptions C75_has_one_refuted.
Print Assumptions C75_constructor.
