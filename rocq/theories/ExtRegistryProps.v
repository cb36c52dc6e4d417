(** C69: the registry of the extension serializers. *)
From Verif Require Import ExtRegistry ExtRegistrySpec ExtRegistryProofs.

(** A registration succeeds exactly when the extension has no serializer yet; it then adds this one and nothing else, otherwise it throws
    and changes nothing. *)
Theorem C69_register (rg : registry) (p : provider) :
  let rg' := fst (register rg p) in
  match find_provider rg (p_name p) with
  | None => snd (register rg p) = Ok tt /\ find_provider rg' (p_name p) = Some p /\
            (forall n, n <> p_name p -> find_provider rg' n = find_provider rg n)
  | Some _ => is_throw (snd (register rg p)) = true /\ rg' = rg
  end.
Proof.
  unfold register, find_provider. destruct (rg_providers rg !! p_name p) eqn:E; cbn [fst snd]; [done|]. cbn [rg_providers].
  split_and!; [done|by rewrite lookup_insert|]. intros n Hn. by rewrite lookup_insert_ne.
Qed.
Print Assumptions C69_register.

(** In every history: a serializer once found under a name is found there for ever; it is for the extension of that name; those of the
    library itself are there and can be used. *)
Theorem C69_kept (rg : registry) (os : list rgop) : reachable rg ->
  (forall n p, find_provider rg n = Some p -> find_provider (rgrun rg os) n = Some p /\ p_name p = n) /\
  (forall n, n ∈ ["detail"; "slackTerminal"] -> exists p, find_provider rg n = Some p /\ use rg p = Ok n) /\
  (forall n, find_provider_or_throw rg n = match find_provider rg n with Some p => Ok p | None => Throw "No provider found for extension" end).
Proof.
  intros Hr. pose proof (reachable_wf rg Hr) as W. split_and!.
  - intros n p Hp. split; [|by apply W]. destruct (rgrun_grows os rg W) as ((G & _) & _). by apply G.
  - destruct Hr as [os' ->]. intros n Hn. exists (mkProvider n None). split; [|done].
    destruct (rgrun_grows os' rg_init rg_init_wf) as ((G & _) & _). apply G. rewrite rg_init_eq. cbn [rg_providers].
    apply elem_of_cons in Hn as [->|Hn]; [by rewrite lookup_insert_ne, lookup_insert|].
    apply elem_of_list_singleton in Hn as ->. by rewrite lookup_insert.
  - intros n. unfold find_provider_or_throw, find_provider. by destruct (rg_providers rg !! n).
Qed.
Print Assumptions C69_kept.

(** A directory is loaded without exception exactly when no extension gets two serializers, whatever the order of its entries. *)
Theorem C69_load (disk : string -> dll) (rg : registry) (es : list dentry) : reachable rg ->
  (snd (load_extensions disk rg (Directory es)) = Ok tt <-> no_conflict disk rg es) /\
  (snd (load_extensions disk rg (Directory es)) = Ok tt \/ is_throw (snd (load_extensions disk rg (Directory es))) = true) /\
  (forall t, t = Missing \/ t = NotADirectory ->
     is_throw (snd (load_extensions disk rg t)) = true /\ fst (load_extensions disk rg t) = rg).
Proof.
  intros Hr. pose proof (reachable_wf rg Hr) as W. split_and!.
  - destruct (load_entries_spec disk es rg W) as [A B]. split; [exact B|]. intros H. exact (proj1 (A H)).
  - cbn. destruct (load_entries disk rg es) as [rg' r] eqn:E. by apply (load_entries_grows _ _ _ _ _ W E).
  - intros t [->| ->]; done.
Qed.
Print Assumptions C69_load.

(** What a load without exception does: each extension of a library to load gets the serializer of this library, which can be used, and
    the serializers of the other extensions are those of before. *)
Theorem C69_loaded (disk : string -> dll) (rg : registry) (es : list dentry) : reachable rg ->
  let rg' := fst (load_extensions disk rg (Directory es)) in
  snd (load_extensions disk rg (Directory es)) = Ok tt ->
  (forall n path names, to_load disk rg es path names -> n ∈ names ->
     exists p, find_provider rg' n = Some p /\ file_of p = Some path /\ use rg' p = Ok n) /\
  (forall n, (forall path names, to_load disk rg es path names -> n ∉ names) -> find_provider rg' n = find_provider rg n).
Proof.
  intros Hr rg' Hok. pose proof (reachable_wf rg Hr) as W. destruct (load_entries_spec disk es rg W) as [A B].
  destruct (A (B Hok)) as (_ & _ & L2 & L3). split; [|done].
  intros n path names Hp Hn. destruct (L3 n path names Hp Hn) as (k & Hf & Hl). eexists. split; [exact Hf|]. split; [done|].
  apply (use_ok rg' (mkProvider n (Some (path, k)))). intros q j [= <- <-]. done.
Qed.
Print Assumptions C69_loaded.

(** The order of the directory does not matter: another order of the same entries succeeds too, and the same extensions get serializers
    from the same files. *)
Theorem C69_order (disk : string -> dll) (rg : registry) (es es' : list dentry) : reachable rg -> (forall e, e ∈ es <-> e ∈ es') ->
  snd (load_extensions disk rg (Directory es)) = Ok tt ->
  snd (load_extensions disk rg (Directory es')) = Ok tt /\
  forall n, file_of <$> find_provider (fst (load_extensions disk rg (Directory es'))) n =
            file_of <$> find_provider (fst (load_extensions disk rg (Directory es))) n.
Proof.
  intros Hr He Hok. pose proof (reachable_wf rg Hr) as W.
  assert (Ht : forall path names, to_load disk rg es' path names <-> to_load disk rg es path names).
  { intros path names. unfold to_load, chosen. by setoid_rewrite He. }
  pose proof (proj2 (load_entries_spec disk es rg W) Hok) as Hc.
  assert (Hc' : no_conflict disk rg es').
  { intros path names Hp. apply Ht in Hp. destruct (Hc _ _ Hp) as (A & B & C). split_and!; [done|done|].
    intros p' n' n Hp'. apply (C p' n'). by apply Ht. }
  assert (Hok' : snd (load_extensions disk rg (Directory es')) = Ok tt) by (by apply C69_load).
  split; [done|]. intros n.
  destruct (C69_loaded disk rg es Hr Hok) as [A B]. destruct (C69_loaded disk rg es' Hr Hok') as [A' B'].
  assert (Hs : (exists path names, to_load disk rg es path names /\ n ∈ names) \/ (forall path names, to_load disk rg es path names -> n ∉ names)).
  { exact (to_load_search disk rg n es). }
  destruct Hs as [(path & names & Hp & Hn)|Hno].
  - destruct (A n path names Hp Hn) as (p & -> & Hf & _). destruct (A' n path names (proj2 (Ht _ _) Hp) Hn) as (p' & -> & Hf' & _).
    cbn. congruence.
  - rewrite B by done. rewrite B'; [done|]. intros path names Hp. apply (Hno path). by apply Ht.
Qed.
Print Assumptions C69_order.

(** Loading the same directory again changes nothing and does not throw. *)
Theorem C69_again (disk : string -> dll) (rg : registry) (es es' : list dentry) : reachable rg -> (forall e, e ∈ es' -> e ∈ es) ->
  snd (load_extensions disk rg (Directory es)) = Ok tt ->
  load_extensions disk (fst (load_extensions disk rg (Directory es))) (Directory es') =
    (fst (load_extensions disk rg (Directory es)), Ok tt).
Proof.
  intros Hr He Hok. pose proof (reachable_wf rg Hr) as W. destruct (load_entries_spec disk es rg W) as [A B].
  destruct (A (B Hok)) as (_ & L1 & _). cbn in *. set (rg' := fst (load_entries disk rg es)) in *. clearbody rg'.
  induction es' as [|e es' IH]; [done|]. simpl. rewrite IH by (intros e' He'; apply He; by right).
  destruct (d_regular e && d_matches e) eqn:Hm; [|done]. rewrite load_library_skip; [by rewrite IH by (intros e' He'; apply He; by right)|].
  destruct (disk (d_canonical e)) as [| |names] eqn:Ed; [by right..|]. left. apply L1.
  destruct (rg_libraries rg !! d_canonical e) eqn:El; [left; eauto|]. right. exists names. split_and!; [|done|done].
  apply andb_prop in Hm as [? ?]. exists e. split_and!; [apply He; by left|done|done|done].
Qed.
Print Assumptions C69_again.

(** Serializers can always be used, up to the end of the program, when no call to loadExtensions met a conflict.  Missing: the histories
    where one did, for which it is false (C69_dangling_refuted). *)
Theorem C69_safe_partial (os : list rgop) : careful rg_init os ->
  (forall n p, find_provider (rgrun rg_init os) n = Some p -> use (rgrun rg_init os) p = Ok n) /\ destroy (rgrun rg_init os) = Ok tt.
Proof.
  intros Hc. pose proof (careful_usable os rg_init rg_init_wf rg_init_usable Hc) as U. split; [|by apply destroy_ok].
  intros n p Hp. rewrite (U n p Hp). f_equal. destruct (rgrun_grows os rg_init rg_init_wf) as (_ & W & _). by apply W.
Qed.
Print Assumptions C69_safe_partial.

(** loadExtensions throws on a library that has a serializer for an extension already registered.  If an earlier serializer of the same
    library was new, it stays in the registry while its code is unloaded: using it, or ending the program, is undefined behaviour, and no
    later call mends it; every later load of this file throws. *)
Theorem C69_dangling_refuted (disk : string -> dll) (rg : registry) (path : string) (n : string) (names : list string) (os : list rgop) :
  reachable rg -> rg_libraries rg !! path = None -> disk path = Library (n :: names) -> find_provider rg n = None ->
  ~ no_conflict disk rg [mkEntry true true path] ->
  let rg' := fst (load_extensions disk rg (Directory [mkEntry true true path])) in
  is_throw (snd (load_extensions disk rg (Directory [mkEntry true true path]))) = true /\
  (exists p, find_provider (rgrun rg' os) n = Some p /\ use (rgrun rg' os) p = UB) /\
  destroy (rgrun rg' os) = UB /\
  (rg_libraries (rgrun rg' os) !! path = None ->
   is_throw (snd (load_extensions disk (rgrun rg' os) (Directory [mkEntry true true path]))) = true).
Proof.
  intros Hr El Ed Hn Hc rg'. pose proof (reachable_wf rg Hr) as W.
  assert (Hnf : ~ lib_fresh rg (n :: names)).
  { intros [Hnd Hf]. apply Hc. intros q ns ((e & Hin & _ & _ & Hq) & _ & Ed').
    apply elem_of_list_singleton in Hin as ->. cbn in Hq. subst q. rewrite Ed in Ed'. injection Ed' as <-. split_and!; [done|done|].
    intros q' ns' m ((e' & Hin' & _ & _ & Hq') & _) Hne. apply elem_of_list_singleton in Hin' as ->. done. }
  destruct (conflict_dangles disk rg path n names W El Ed Hn Hnf) as (Ht & p & Hp & Hu).
  assert (E : load_extensions disk rg (Directory [mkEntry true true path]) = load_library disk rg path).
  { cbn. destruct (load_library disk rg path) as [rg1 [[]| | |]]; try done. }
  assert (Erg : rg' = fst (load_library disk rg path)) by (unfold rg'; by rewrite E).
  assert (W' : rgwf rg').
  { rewrite Erg. destruct (load_library disk rg path) as [rg1 r1] eqn:E1. by apply (load_library_grows _ _ _ _ _ W E1). }
  rewrite E. rewrite <- Erg in Hp, Hu. destruct (dangling_forever rg' n p os W' Hp Hu) as [Hp' Hu'].
  split_and!; [done|by exists p|by eapply destroy_ub|].
  intros El'. cbn. pose proof (load_library_throw disk (rgrun rg' os) path (n :: names) El' Ed) as Ht'.
  destruct (load_library disk (rgrun rg' os) path) as [rg2 r2]. cbn in Ht'.
  assert (is_throw r2 = true) as Hr2.
  { apply Ht'. intros [_ Hf]. specialize (Hf n (elem_of_list_here _ _)). congruence. }
  by destruct r2.
Qed.
Print Assumptions C69_dangling_refuted.

(** ** Cases: the directory of the libraries of powsybl, with a symbolic link, a text file and a library of something else *)
Definition disk69 (path : string) : dll :=
  if bool_decide (path = "/lib/iidm.so") then Library ["activePowerControl"; "measurements"]
  else if bool_decide (path = "/lib/sld.so") then Library ["position"; "branchStatus"]
  else if bool_decide (path = "/lib/old.so") then Library ["area"; "position"]
  else if bool_decide (path = "/lib/math.so") then NoSymbol else NotALibrary.
Definition dir69 : list dentry :=
  [mkEntry true true "/lib/math.so"; mkEntry true true "/lib/sld.so"; mkEntry false true "/lib"; mkEntry true true "/lib/iidm.so";
   mkEntry true true "/lib/sld.so"; mkEntry true false "/lib/old.so"; mkEntry true true "/lib/readme"].
Example C69_case :
  let rg := fst (load_extensions disk69 rg_init (Directory dir69)) in
  snd (load_extensions disk69 rg_init (Directory dir69)) = Ok tt /\
  find_provider rg "position" = Some (mkProvider "position" (Some ("/lib/sld.so", 0))) /\
  find_provider rg "measurements" = Some (mkProvider "measurements" (Some ("/lib/iidm.so", 1))) /\
  find_provider rg "area" = None /\ destroy rg = Ok tt /\
  careful rg_init [OLoad disk69 (Directory dir69); ORegister "mine"; OLoad disk69 Missing] /\
  is_throw (snd (rgstep rg (ORegister "position"))) = true.
Proof.
  assert (Hok : snd (load_extensions disk69 rg_init (Directory dir69)) = Ok tt) by by vm_compute.
  split_and!; try by vm_compute.
  split; [|done]. apply C69_load; [by exists []|exact Hok].
Qed.
(** The conflict of C69_dangling_refuted is met by a program that loads an old library after the new ones. *)
Example C69_conflict_case :
  let rg := rgrun rg_init [OLoad disk69 (Directory dir69)] in
  reachable rg /\ rg_libraries rg !! "/lib/old.so" = None /\ disk69 "/lib/old.so" = Library ["area"; "position"] /\
  find_provider rg "area" = None /\ ~ no_conflict disk69 rg [mkEntry true true "/lib/old.so"].
Proof.
  split_and!; [by eexists|by vm_compute..|].
  intros H. apply C69_load in H; [|by eexists]. vm_compute in H. discriminate.
Qed.
