(** Messages and loggers (C80). *)
From Verif Require Import Messages MsgSites MessagesSpec MessagesProofs.

(** stdcxx::format gives the text where the arguments replace %1%, %2%, ..., when there are as many arguments as the text asks for, and
    only then; this text is unique. *)
Theorem C80_format f args t : (sformat f args = FText t <-> fills args f t /\ ~ superfluous args f) /\ (forall t', fills args f t -> fills args f t' -> t = t').
Proof. split; [apply sformat_text|]. intros t'. apply fills_unique. Qed.

(** Full statement: every call of stdcxx::format in the code gives its text, whatever its arguments.  It does not hold for four of them. *)
Theorem C80_sites_partial s args : s ∈ format_sites -> (st_file s, st_line s) ∉ misfits -> length args = st_args s ->
  exists t, sformat (st_text s) args = FText t /\ fills args (st_text s) t.
Proof.
  intros H M L. assert (site_fits s = true) as F.
  { assert (B : forallb (fun s => site_fits s || bool_decide ((st_file s, st_line s) ∈ misfits)) format_sites = true) by (vm_compute; reflexivity).
    rewrite forallb_forall in B. apply elem_of_list_In in H. apply B in H. apply orb_true_iff in H as [H|H]; [done|]. by apply bool_decide_eq_true in H. }
  destruct (site_fits_ok s args F L) as (t & Ft & St & _). by exists t.
Qed.
(** These four throw an exception of boost::format, for all arguments, instead of the exception that they are to describe. *)
Theorem C80_sites_refuted : forall x, x ∈ misfits -> exists s, s ∈ format_sites /\ (st_file s, st_line s) = x /\
  forall args, length args = st_args s -> sformat (st_text s) args = FTooMany \/ sformat (st_text s) args = FBadFormat.
Proof.
  assert (B : forallb (fun x => existsb (fun s => bool_decide ((st_file s, st_line s) = x) &&
     match fparse MText (st_text s) with PsOk l => asked_args l <? st_args s | PsBad => true | PsOther => false end) format_sites) misfits = true) by (vm_compute; reflexivity).
  intros x H. rewrite forallb_forall in B. apply elem_of_list_In in H. apply B in H. apply existsb_exists in H as (s & Hs & H). apply andb_true_iff in H as [E H].
  apply bool_decide_eq_true in E. exists s. split; [by apply elem_of_list_In|]. split; [done|]. intros args L. unfold sformat.
  destruct (fparse MText (st_text s)) as [l| |]; [|by right|discriminate]. rewrite L, H. by left.
Qed.

(** The logger that getLogger gives is the one registered under the name or the nearest namespace around it, whatever is registered. *)
Theorem C80_lookup m n : exists r, get_logger m n = Ok r /\ in_force m n r /\ (forall r', in_force m n r' -> r' = r) /\ (forall p, r = Some p -> is_Some (m !! p)).
Proof.
  destruct (find_logger_ok m (S (String.length n)) n ltac:(lia)) as (r & R & F). exists r. split; [exact R|]. split; [done|]. split; [intros r' F'; by eapply in_force_unique|].
  intros p ->. by eapply in_force_in.
Qed.
(** Registering keeps the logger that has the name; removing forgets this one only. *)
Theorem C80_register m n k : exists m1 m2, gstep m (GAdd n k) = Some (Ok tt, m1) /\ gstep m (GRemove n) = Some (Ok tt, m2) /\
  (forall g, m !! n = Some g -> m1 !! n = Some g) /\ (m !! n = None -> m1 !! n = Some (mkLogger k [])) /\ m2 !! n = None /\
  (forall n', n' <> n -> m1 !! n' = m !! n' /\ m2 !! n' = m !! n').
Proof.
  eexists _, _. split; [reflexivity|]. split; [reflexivity|]. split; [intros g H; rewrite H; exact H|]. split; [intros ->; by rewrite lookup_insert|]. split; [by rewrite lookup_delete|].
  intros n' N. rewrite lookup_delete_ne by done. split; [|done]. destruct (m !! n); [done|]. by rewrite lookup_insert_ne.
Qed.
(** A message that fits its arguments goes, at the end, to the logger in force if that one listens to the level, and nowhere else. *)
Theorem C80_record m n l f args t r : in_force m n r -> sformat f args = FText t ->
  exists m', gstep m (GLog n l f args) = Some (Ok tt, m') /\
  (forall p g, r = Some p -> m !! p = Some g -> listens (lg_kind g) l -> m' !! p = Some (mkLogger (lg_kind g) (lg_out g ++ [(l, t)]))) /\
  (forall p g, r = Some p -> m !! p = Some g -> ~ listens (lg_kind g) l -> m' !! p = Some g) /\
  (forall q, r <> Some q -> m' !! q = m !! q).
Proof.
  intros F T. cbn [gstep]. rewrite (proj2 (get_logger_ok m n r) F). destruct r as [p|].
  - destruct (in_force_in _ _ _ F) as [g G]. rewrite G, (log_call_text g l f args t T). eexists. split; [reflexivity|]. split; [|split].
    + intros p' g' [= <-] G' L. rewrite G in G'. injection G' as <-. rewrite lookup_insert. apply listens_enabled in L. by rewrite L.
    + intros p' g' [= <-] G' L. rewrite G in G'. injection G' as <-. rewrite lookup_insert. destruct (log_enabled (lg_kind g) l) eqn:En; [|done]. by apply listens_enabled in En.
    + intros q N. rewrite lookup_insert_ne; [done|]. congruence.
  - exists m. split; [done|]. split; [by intros|]. split; [by intros|done].
Qed.

(** Full statement: a call of a logger never throws and writes the text with its arguments if the level is listened to, so that whether
    logs are enabled changes nothing else.  It holds where the text is given to the logger with its arguments; where it is formatted
    before, it holds when no argument contains %. *)
Theorem C80_log_partial l p s args g : (l, p, s) ∈ log_sites -> length args = st_args s -> (p = Twice -> Forall plain args) ->
  exists t, fills args (st_text s) t /\ (listens (lg_kind g) l -> site_log g l p s args = Some (Ok tt, mkLogger (lg_kind g) (lg_out g ++ [(l, t)]))) /\
            (~ listens (lg_kind g) l -> site_log g l p s args = Some (Ok tt, g)).
Proof.
  intros H L P. assert (site_fits s = true) as F.
  { assert (B : forallb (fun x => site_fits x.2) log_sites = true) by (vm_compute; reflexivity). rewrite forallb_forall in B. apply elem_of_list_In in H. exact (B _ H). }
  destruct (site_fits_ok s args F L) as (t & Ft & St & Pt). exists t. split; [done|].
  assert (E : site_log g l p s args = Some (Ok tt, if log_enabled (lg_kind g) l then mkLogger (lg_kind g) (lg_out g ++ [(l, t)]) else g)).
  { destruct p; cbn [site_log]; [by apply log_call_text|]. rewrite St. cbn [fout_result]. apply log_call_text, plain_format, Pt, P. done. }
  rewrite E. split; intros H'.
  - apply listens_enabled in H'. by rewrite H'.
  - destruct (log_enabled (lg_kind g) l) eqn:En; [|done]. by apply listens_enabled in En.
Qed.
(** With a % in an identifier it does not hold: the same call throws when the level is listened to and does nothing when it is not.  For
    instance the calculated buses of a voltage level whose id contains %1% cannot be read while a logger traces. *)
Theorem C80_log_refuted : forall x, x ∈ [("src/iidm/NodeBreakerVoltageLevelTopology.cpp", 298); ("include/powsybl/iidm/LoadingLimitsAdder.hxx", 124);
    ("include/powsybl/iidm/LoadingLimitsAdder.hxx", 129); ("src/iidm/converter/xml/NetworkXml.cpp", 57)] ->
  exists l s, (l, Twice, s) ∈ log_sites /\ (st_file s, st_line s) = x /\
  (forall g, listens (lg_kind g) l -> exists e, site_log g l Twice s ["VL %1%"] = Some (Throw e, g)) /\
  (forall g, ~ listens (lg_kind g) l -> site_log g l Twice s ["VL %1%"] = Some (Ok tt, g)).
Proof.
  intros x H.
  assert (B : forallb (fun x => existsb (fun y : level * passing * site => bool_decide ((st_file y.2, st_line y.2) = x) && bool_decide (st_args y.2 = 1) && match y.1.2 with Twice => true | _ => false end &&
     match sformat (st_text y.2) ["VL %1%"] with FText t => match sformat t [] with FTooFew => true | _ => false end | _ => false end) log_sites)
    [("src/iidm/NodeBreakerVoltageLevelTopology.cpp", 298); ("include/powsybl/iidm/LoadingLimitsAdder.hxx", 124);
     ("include/powsybl/iidm/LoadingLimitsAdder.hxx", 129); ("src/iidm/converter/xml/NetworkXml.cpp", 57)] = true) by (vm_compute; reflexivity).
  rewrite forallb_forall in B. apply elem_of_list_In in H. apply B in H. apply existsb_exists in H as ([[l p] s] & Hs & H). cbn [fst snd] in H.
  apply andb_true_iff in H as [H T]. apply andb_true_iff in H as [H P]. apply andb_true_iff in H as [E _]. apply bool_decide_eq_true in E. destruct p; [discriminate|].
  exists l, s. split; [by apply elem_of_list_In|]. split; [done|]. cbn [site_log]. destruct (sformat (st_text s) ["VL %1%"]) as [t| | | |]; try discriminate. cbn [fout_result].
  unfold log_call. destruct (sformat t []); try discriminate. split; intros g L.
  - apply listens_enabled in L. rewrite L. cbn. by eexists.
  - destruct (log_enabled (lg_kind g) l) eqn:En; [|done]. by apply listens_enabled in En.
Qed.
Example C80_case : exists m, get_logger m "powsybl::iidm::VariantManager" = Ok (Some "powsybl::iidm") /\ in_force m "powsybl::iidm::VariantManager" (Some "powsybl::iidm") /\
  in_force m "powsybl::network" (Some "powsybl") /\ in_force m "Identifiables" None /\
  sformat "Removing variant '%1%' of %2%, 100%%" ["v%1%"; "n"] = FText "Removing variant 'v%1%' of n, 100%" /\
  length format_sites = 291 /\ length log_sites = 27 /\ superfluous ["a"; "b"] "only %1%".
Proof.
  exists (<["powsybl::iidm" := mkLogger LkContainer []]> (<["powsybl" := mkLogger (LkConsole LvInfo) []]> ∅)). split; [vm_compute; reflexivity|].
  split; [apply get_logger_ok; vm_compute; reflexivity|]. split; [apply get_logger_ok; vm_compute; reflexivity|]. split; [apply get_logger_ok; vm_compute; reflexivity|].
  split; [vm_compute; reflexivity|]. split; [vm_compute; reflexivity|]. split; [vm_compute; reflexivity|]. apply superfluous_iff. eexists. split; [vm_compute; reflexivity|vm_compute; lia].
Qed.
Print Assumptions C80_format.
Print Assumptions C80_sites_partial.
Print Assumptions C80_sites_refuted.
Print Assumptions C80_lookup.
Print Assumptions C80_register.
Print Assumptions C80_record.
Print Assumptions C80_log_partial.
Print Assumptions C80_log_refuted.
