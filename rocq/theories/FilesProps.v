(** C76: networks exported to files and imported from files. *)
From Verif Require Import Base.
From Verif Require Import FilesProofs XmlSpec AnonymizerProofs AnonymizerProps NetXmlSpec NetXmlShape NetXmlProps.

(** The correspondence table is the file of the same name with the extension csv. *)
Theorem C76_table path : (forall t, csv_path path = t <-> beside path t) /\ exists t, beside path t.
Proof.
  split; [|apply beside_total]. intros t. split; [|apply csv_path_beside]. intros <-. destruct (beside_total path) as [t H]. by rewrite (csv_path_beside _ _ H).
Qed.
(** An export changes no other file, and no file at all if it cannot open the first; without anonymization it changes only the file
    asked for. *)
Theorem C76_others rs minus b path n o d q : let '(r, d') := write_xml rs minus b path n o d in
  (q <> path -> q <> csv_path path -> d' !! q = d !! q) /\ (xo_anonymized o = false -> q <> path -> d' !! q = d !! q) /\
  (can_write rs path = false -> d' = d /\ exists e, r = Throw e).
Proof.
  destruct (write_xml rs minus b path n o d) as [r d'] eqn:E. unfold write_xml in E. destruct (can_write rs path) eqn:W.
  2:{ injection E as <- <-. split; [done|]. split; [done|]. intros _. split; [done|by eexists]. }
  assert (P : forall f, q <> path -> <[path := f]> d !! q = d !! q) by (intros f N; by apply lookup_insert_ne).
  destruct (file_version o) as [v|e| |]; [|injection E as <- <-; split; [by intros; apply P|]; split; [by intros; apply P|done]..].
  destruct (write_network _ _ n) as [[y m]|e| |]; [|injection E as <- <-; split; [by intros; apply P|]; split; [by intros; apply P|done]..].
  destruct (xo_anonymized o); [|injection E as <- <-; split; [by intros; apply P|]; split; [by intros; apply P|done]].
  destruct (can_write rs (csv_path path)); [|injection E as <- <-; split; [by intros; apply P|]; split; [done|done]].
  injection E as <- <-. split; [|done]. intros N1 N2. case_bool_decide; [by apply P|]. rewrite lookup_insert_ne by done. by apply P.
Qed.
(** A network exported is read back up to what the version of the file cannot carry, if there is no table beside the file. *)
Theorem C76_plain rs minus b path n o d v : file_version o = Ok v -> xo_anonymized o = false -> net_valid false v n ->
  (if bool_decide (xo_behavior o = 0) then net_supported v n else readable v n) ->
  can_write rs path = true -> can_read rs path = true -> ~ beside path path -> (forall t, beside path t -> d !! t = None) ->
  exists d', write_xml rs minus b path n o d = (Ok tt, d') /\ read_xml rs path d' = Ok (degrade (writer_opts o v minus b) n).
Proof.
  intros V A K S W R B T. destruct (C38_roundtrip (writer_opts o v minus b) n K S) as (y & E & H). exists (<[path := FDoc y]> d). split.
  - unfold write_xml. by rewrite W, V, A, E.
  - unfold read_xml. rewrite lookup_insert, R. assert (csv_path path <> path) as Ne by (intros X; by apply B, (proj1 (C76_table path))).
    unfold read_table. rewrite lookup_insert_ne by done. rewrite (T (csv_path path)) by (by apply (proj1 (C76_table path))). cbn [result_bind]. by apply H.
Qed.
(** So is a network that was anonymized, whatever was there before, if its identifiers and names have no semicolon and no end of line. *)
Theorem C76_anonymized rs minus b path t n o d v y m : file_version o = Ok v -> xo_anonymized o = true -> net_valid true v n ->
  xo_behavior o = 0 \/ readable v n -> write_network (writer_opts o v minus b) true n = Ok (y, Some m) ->
  (forall s c, (s, c) ∈ m -> ";"%char ∉ s /\ newline ∉ s) ->
  beside path t -> t <> path -> can_write rs path = true -> can_read rs path = true -> can_write rs t = true -> can_read rs t = true ->
  exists d', write_xml rs minus b path n o d = (Ok tt, d') /\ read_xml rs path d' = Ok (degrade (writer_opts o v minus b) n).
Proof.
  intros V A K S E M B Ne W R W' R'. destruct (C40_roundtrip_partial (writer_opts o v minus b) n y (Some m) K) as (m1 & Em & H).
  { destruct S as [S|S]; [left; cbn; by rewrite S|by right]. }
  { exact E. }
  injection Em as <-. destruct (H M (sorted m) (sorted_perm m)) as (m2 & Er & H2). apply (proj1 (C76_table path)) in B as <-.
  exists (<[csv_path path := FText (write_pairs (sorted m))]> (<[path := FDoc y]> d)). split.
  - unfold write_xml. rewrite W, V, A, E, W'. cbn [default from_option id]. by rewrite bool_decide_false by done.
  - unfold read_xml. rewrite lookup_insert_ne by done. rewrite lookup_insert, R. unfold read_table. rewrite lookup_insert, R', Er. cbn [result_bind]. by apply H2.
Qed.

(** What does not hold.  Small networks: one substation. *)
Definition y_net (s : string) : network := Net (x_root "") [Sub (Leaf CSubstation s "" false ∅ ∅ [VOpt (Some "FR"); VText ""; VTags []] ∅) [] [] []] [] [].
Definition all_rights := mkRights (fun _ => true) (fun _ => true).
Definition zero2 (_ _ : string) : string := "0".
Definition zero_b (_ : part) (_ : fval) : string := "0".
Definition hidden : xopts := xruns [XSetAnonymized true] xopts_default.
Definition s2l := list_ascii_of_string.
Definition export1 (path : string) (n : network) (o : xopts) (d : disk) : result unit * disk := write_xml all_rights zero2 zero_b (s2l path) n o d.
Definition import1 (path : string) (d : disk) : result network := read_xml all_rights (s2l path) d.
Lemma y_valid a s : s ∈ ["S1"; "S2"; "A"; "B"] -> net_valid a V1_5 (y_net s) /\ net_supported V1_5 (y_net s).
Proof.
  intros H. repeat (apply elem_of_cons in H as [->|H]; [split; apply (bool_decide_unpack _); [destruct a|]; vm_compute; exact I|]). by apply elem_of_nil in H.
Qed.
(** The identifiers of the substations of what is read. *)
Definition ids (r : result network) : option (list string) := match r with Ok n => Some (l_id ∘ s_leaf <$> n_subs n) | _ => None end.
Definition throws {A} (r : result A) : bool := match r with Throw _ => true | _ => false end.
Lemma throws_ok {A} (r : result A) : throws r = true -> exists e, r = Throw e.
Proof. destruct r; try done. by eexists. Qed.
Lemma done_ok (p : result unit * disk) : match p.1 with Ok _ => true | _ => false end = true -> p = (Ok tt, p.2).
Proof. by destruct p as [[[]| | |] d]. Qed.
(** An export without anonymization leaves the table of an earlier one there: the network just exported cannot be read, though a copy of
    the file in an empty directory can. *)
Theorem C76_stale_refuted : exists n n' d1 d2 d3, net_valid false V1_5 n' /\ export1 "net.xiidm" n hidden ∅ = (Ok tt, d1) /\ export1 "net.xiidm" n' xopts_default d1 = (Ok tt, d2) /\
  (exists e, import1 "net.xiidm" d2 = Throw e) /\ export1 "net.xiidm" n' xopts_default ∅ = (Ok tt, d3) /\ ids (import1 "net.xiidm" d3) = ids (Ok n').
Proof.
  exists (y_net "S1"), (y_net "S2"). do 3 eexists. split; [apply y_valid; right; by left|]. split; [apply done_ok; vm_compute; reflexivity|]. split; [apply done_ok; vm_compute; reflexivity|].
  split; [apply throws_ok; vm_compute; reflexivity|]. split; [apply done_ok; vm_compute; reflexivity|]. vm_compute; reflexivity.
Qed.
(** Or another network is read. *)
Theorem C76_renamed_refuted : exists n n' d1 d2, net_valid false V1_5 n' /\ export1 "net.xiidm" n hidden ∅ = (Ok tt, d1) /\ export1 "net.xiidm" n' xopts_default d1 = (Ok tt, d2) /\
  ids (Ok n') = Some ["A"] /\ ids (import1 "net.xiidm" d2) = Some ["S1"].
Proof.
  exists (y_net "S1"), (y_net "A"). do 2 eexists. split; [apply y_valid; right; right; by left|]. split; [apply done_ok; vm_compute; reflexivity|]. split; [apply done_ok; vm_compute; reflexivity|].
  split; vm_compute; reflexivity.
Qed.
(** Two network files of the same name and of other extensions share the table. *)
Theorem C76_shared_refuted : exists n n' d1 d2, export1 "net.xiidm" n hidden ∅ = (Ok tt, d1) /\ ids (import1 "net.xiidm" d1) = ids (Ok n) /\ export1 "net.xml" n' hidden d1 = (Ok tt, d2) /\
  ids (Ok n) = Some ["S1"] /\ ids (import1 "net.xiidm" d2) = Some ["S2"].
Proof.
  exists (y_net "S1"), (y_net "S2"). do 2 eexists. split; [apply done_ok; vm_compute; reflexivity|]. split; [vm_compute; reflexivity|]. split; [apply done_ok; vm_compute; reflexivity|].
  split; vm_compute; reflexivity.
Qed.
(** An export that throws has already emptied the file: an unknown version is enough. *)
Theorem C76_failed_refuted : exists n d1 o, export1 "net.xiidm" n xopts_default ∅ = (Ok tt, d1) /\ ids (import1 "net.xiidm" d1) = ids (Ok n) /\
  let '(r, d2) := export1 "net.xiidm" n o d1 in (exists e, r = Throw e) /\ exists e, import1 "net.xiidm" d2 = Throw e.
Proof.
  exists (y_net "S1"). eexists. exists (xruns [XSetVersion "2.0"] xopts_default). split; [apply done_ok; vm_compute; reflexivity|]. split; [vm_compute; reflexivity|].
  rewrite (surjective_pairing (export1 _ _ _ _)). split; apply throws_ok; vm_compute; reflexivity.
Qed.
(** A network file with the extension csv takes the place of its own table. *)
Theorem C76_self_refuted : exists n d1 d2, export1 "net.csv" n xopts_default ∅ = (Ok tt, d1) /\ (exists e, import1 "net.csv" d1 = Throw e) /\
  export1 "net.csv" n hidden ∅ = (Ok tt, d2) /\ exists e, import1 "net.csv" d2 = Throw e.
Proof.
  exists (y_net "S1"). do 2 eexists. split; [apply done_ok; vm_compute; reflexivity|]. split; [apply throws_ok; vm_compute; reflexivity|]. split; [apply done_ok; vm_compute; reflexivity|]. apply throws_ok; vm_compute; reflexivity.
Qed.

(** Concrete cases: the hypotheses are met by the network of C38 and C40. *)
Example C76_case : let n := x_net true [x_sw] ∅ in file_version xopts_default = Ok V1_5 /\ net_valid false V1_5 n /\ net_supported V1_5 n /\
  beside (s2l "dir.d/net.xiidm") (s2l "dir.d/net.csv") /\ ~ beside (s2l "dir.d/net.xiidm") (s2l "dir.d/net.xiidm") /\ beside (s2l "dir.d/net") (s2l "dir.d/net.csv") /\ beside (s2l "a.tar.gz") (s2l "a.tar.csv").
Proof.
  split; [done|]. split; [apply x_ok; right; done|]. split; [apply x_supported; [by right|by right]|].
  split; [apply (proj1 (C76_table _)); by vm_compute|]. split; [intros H; apply (proj1 (C76_table _)) in H; by vm_compute in H|]. split; apply (proj1 (C76_table _)); by vm_compute.
Qed.
Example C76_anonymized_case : exists y m, file_version hidden = Ok V1_5 /\ xo_anonymized hidden = true /\ xo_behavior hidden = 0 /\ net_valid true V1_5 (x_net true [] ∅) /\
  write_network (writer_opts hidden V1_5 zero2 zero_b) true (x_net true [] ∅) = Ok (y, Some m) /\ length m = 30 /\ (forall s c, (s, c) ∈ m -> ";"%char ∉ s /\ newline ∉ s).
Proof.
  destruct (write_network (writer_opts hidden V1_5 zero2 zero_b) true (x_net true [] ∅)) as [[y [m|]]| | |] eqn:E; [|by vm_compute in E..].
  exists y, m. split; [done|]. split; [done|]. split; [done|]. split; [apply x_ok; by left|]. split; [done|].
  assert (H : match write_network (writer_opts hidden V1_5 zero2 zero_b) true (x_net true [] ∅) with Ok (_, Some m) => bool_decide (length m = 30 /\ Forall (fun p => ";"%char ∉ p.1 /\ newline ∉ p.1) m) | _ => false end = true) by (vm_compute; reflexivity).
  rewrite E in H. apply bool_decide_eq_true in H as [H1 H2]. split; [done|]. intros s c Hp. rewrite Forall_forall in H2. by apply (H2 (s, c)).
Qed.
Print Assumptions C76_table.
Print Assumptions C76_others.
Print Assumptions C76_plain.
Print Assumptions C76_anonymized.
Print Assumptions C76_stale_refuted.
Print Assumptions C76_renamed_refuted.
Print Assumptions C76_shared_refuted.
Print Assumptions C76_failed_refuted.
Print Assumptions C76_self_refuted.
