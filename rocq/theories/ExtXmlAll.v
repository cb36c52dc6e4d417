(** The extensions of all the objects: written and read back. *)
From Verif Require Import Xml XmlSpec XmlProofs Anonymizer AnonymizerProofs NetXml NetXmlSpec NetXmlFields NetXmlParts NetXmlProofs ExtXml ExtXmlSpec ExtXmlContent ExtXmlProofs.

(** * Registering what is read. *)
Section steps.
Context (reg : gset string) (i : import).
Definition nm (e : ext) : string := kind_name (e_kind e).
Definition step (s : gmap string ext * gset string) (e : ext) : gmap string ext * gset string :=
  if negb (selected (i_only i) (nm e)) then s else match find_provider reg (nm e) with Some _ => (<[nm e := as_read e]> s.1, s.2) | None => (s.1, {[nm e]} ∪ s.2) end.
Lemma step_names es s name : name ∉ nm <$> es -> (foldl step s es).1 !! name = s.1 !! name.
Proof.
  revert s. induction es as [|e es IH]; intros s N; [done|]. rewrite fmap_cons, not_elem_of_cons in N. destruct N as [Ne N]. cbn [foldl]. rewrite IH by done. unfold step.
  destruct (negb _); [done|]. destruct (find_provider _ _); [|done]. cbn. by rewrite lookup_insert_ne.
Qed.
Lemma steps_lookup es s : NoDup (nm <$> es) -> (forall e, e ∈ es -> s.1 !! nm e = None) -> forall name e',
  (foldl step s es).1 !! name = Some e' <-> s.1 !! name = Some e' \/ exists e, e ∈ es /\ nm e = name /\ asked (i_only i) name /\ loaded reg name /\ e' = as_read e.
Proof.
  revert s. induction es as [|e es IH]; intros s N Hs name e'; cbn [foldl].
  { split; [by left|]. intros [H|(e & He & _)]; [done|by apply elem_of_nil in He]. }
  rewrite fmap_cons, NoDup_cons in N. destruct N as [Ne N]. destruct (decide (nm e = name)) as [<-|D].
  - rewrite step_names by done. rewrite (Hs e) by left. unfold step. destruct (selected (i_only i) (nm e)) eqn:Se; cbn [negb].
    + apply selected_asked in Se. destruct (find_provider reg (nm e)) as [k|] eqn:P.
      * cbn [fst]. rewrite lookup_insert. split.
        -- intros [= <-]. right. exists e. split; [left|]. split; [done|]. split; [done|]. split; [|done]. apply provider_loaded. by rewrite P.
        -- intros [?|(e0 & He0 & E0 & _ & _ & ->)]; [done|]. apply elem_of_cons in He0 as [->|He0]; [done|]. exfalso. apply Ne. rewrite <- E0. by apply elem_of_list_fmap_1.
      * cbn [fst]. rewrite (Hs e) by left. split; [done|]. intros [?|(e0 & He0 & E0 & _ & L & _)]; [done|]. apply provider_loaded in L. rewrite P in L. by destruct L.
    + rewrite (Hs e) by left. split; [done|]. intros [?|(e0 & He0 & E0 & A & _)]; [done|]. apply selected_asked in A. congruence.
  - assert (St : (step s e).1 !! name = s.1 !! name). { unfold step. destruct (negb _); [done|]. destruct (find_provider _ _); [|done]. cbn. by rewrite lookup_insert_ne. }
    rewrite IH; [|done|].
    + rewrite St. split; (intros [?|(e0 & He0 & R)]; [by left|right; exists e0; split; [|done]]).
      * by right.
      * apply elem_of_cons in He0 as [->|?]; [|done]. by destruct R.
    + intros e0 He0. unfold step. assert (De : nm e <> nm e0) by (intros X; apply Ne; rewrite X; by apply elem_of_list_fmap_1).
      destruct (negb _); [apply Hs; by right|]. destruct (find_provider _ _); [|apply Hs; by right]. cbn. rewrite lookup_insert_ne by done. apply Hs. by right.
Qed.
Lemma steps_missing es s name : name ∈ (foldl step s es).2 <-> name ∈ s.2 \/ exists e, e ∈ es /\ nm e = name /\ asked (i_only i) name /\ ~ loaded reg name.
Proof.
  revert s. induction es as [|e es IH]; intros s; cbn [foldl].
  { split; [by left|]. intros [H|(e & He & _)]; [done|by apply elem_of_nil in He]. }
  rewrite IH. assert (St : name ∈ (step s e).2 <-> name ∈ s.2 \/ (nm e = name /\ asked (i_only i) name /\ ~ loaded reg name)).
  { unfold step. destruct (selected (i_only i) (nm e)) eqn:Se; cbn [negb].
    - apply selected_asked in Se. destruct (find_provider reg (nm e)) as [k|] eqn:P; cbn [snd].
      + split; [by left|]. intros [?|(<- & _ & L)]; [done|]. exfalso. apply L, provider_loaded. by rewrite P.
      + rewrite elem_of_union, elem_of_singleton. split; [|by intros [?|(<- & _)]; [right|left]]. intros [->|?]; [|by left]. right. split; [done|]. split; [done|]. intros L%provider_loaded. rewrite P in L. by destruct L.
    - split; [by left|]. intros [?|(<- & A & _)]; [done|]. apply selected_asked in A. congruence. }
  rewrite St. split.
  - intros [[?|?]|(e0 & He0 & R)]; [by left|right; exists e; split; [left|done]|right; exists e0; split; [by right|done]].
  - intros [?|(e0 & He0 & R)]; [by left; left|]. apply elem_of_cons in He0 as [->|He0]; [by left; right|]. right. by exists e0.
Qed.
(** The extensions of an object to write, and of all of them. *)
Context (x : export) (xs : exts).
Definition chosen (l : leaf) : list ext := List.filter (fun e => selected (x_only x) (nm e)) (map_to_list (default ∅ (xs !! l_id l))).*2.
Definition ostep (s : exts * gset string) (l : leaf) : exts * gset string :=
  match chosen l with [] => s | es => let s' := foldl step (default ∅ (s.1 !! l_id l), s.2) es in (<[l_id l := s'.1]> s.1, s'.2) end.
Lemma chosen_in l e : named_exts xs -> e ∈ chosen l <-> ext_of xs (l_id l) (nm e) = Some e /\ asked (x_only x) (nm e).
Proof.
  intros Nx. unfold chosen. rewrite elem_of_list_In, filter_In, <- elem_of_list_In, elem_of_list_fmap, selected_asked. unfold ext_of in *. destruct (xs !! l_id l) as [es|] eqn:E; cbn.
  - split.
    + intros [([name e0] & -> & H) A]. apply elem_of_map_to_list in H. cbn in *. specialize (Nx (l_id l) name e0). unfold ext_of in Nx. rewrite E in Nx. cbn in Nx. specialize (Nx H). unfold nm in *. by rewrite Nx in *.
    + intros [H A]. split; [|done]. exists (nm e, e). split; [done|]. by apply elem_of_map_to_list.
  - split; [|by intros []]. intros [(p & _ & H) _]. rewrite map_to_list_empty in H. by apply elem_of_nil in H.
Qed.
Lemma chosen_nodup l : named_exts xs -> NoDup (nm <$> chosen l).
Proof.
  intros Nx. unfold chosen. set (es := default ∅ (xs !! l_id l)). assert (Hn : nm <$> (map_to_list es).*2 = (map_to_list es).*1).
  { rewrite <- list_fmap_compose. apply list_fmap_ext. intros j [name e] Hj. cbn. apply elem_of_list_lookup_2, elem_of_map_to_list in Hj. apply (Nx (l_id l) name e). unfold ext_of. unfold es in Hj. destruct (xs !! l_id l); cbn in Hj; [done|by rewrite lookup_empty in Hj]. }
  pose proof (NoDup_fst_map_to_list es) as N. rewrite <- Hn in N. clear Hn. induction (map_to_list es).*2 as [|e ls IH]; [constructor|]. rewrite fmap_cons, NoDup_cons in N. destruct N as [Ne N]. cbn [List.filter].
  destruct (selected _ _); [|by apply IH]. rewrite fmap_cons. constructor; [|by apply IH]. intros X. apply Ne. apply elem_of_list_fmap in X as (e0 & -> & X). apply elem_of_list_fmap_1. apply elem_of_list_In, filter_In in X as [X _]. by apply elem_of_list_In.
Qed.
Lemma osteps_lookup ls s : named_exts xs -> NoDup (l_id <$> ls) -> (forall l, l ∈ ls -> s.1 !! l_id l = None) -> forall id name e',
  ext_of (foldl ostep s ls).1 id name = Some e' <->
  ext_of s.1 id name = Some e' \/ exists l e, l ∈ ls /\ l_id l = id /\ ext_of xs id name = Some e /\ asked (x_only x) name /\ asked (i_only i) name /\ loaded reg name /\ e' = as_read e.
Proof.
  intros Nx. revert s. induction ls as [|l ls IH]; intros s N Hs id name e'; cbn [foldl].
  { split; [by left|]. intros [H|(l & e & Hl & _)]; [done|by apply elem_of_nil in Hl]. }
  rewrite fmap_cons, NoDup_cons in N. destruct N as [Nl N]. rewrite IH; [|done|]; cycle 1.
  { intros l0 Hl0. unfold ostep. destruct (chosen l); [apply Hs; by right|]. cbn. rewrite lookup_insert_ne by (intros E; apply Nl; rewrite E; by apply elem_of_list_fmap_1). apply Hs. by right. }
  assert (St : ext_of (ostep s l).1 id name = Some e' <-> ext_of s.1 id name = Some e' \/ (l_id l = id /\ exists e, ext_of xs id name = Some e /\ asked (x_only x) name /\ asked (i_only i) name /\ loaded reg name /\ e' = as_read e)).
  { assert (O : ext_of (ostep s l).1 id name = if decide (l_id l = id) then (foldl step (∅, s.2) (chosen l)).1 !! name else ext_of s.1 id name).
    { unfold ostep, ext_of. rewrite (Hs l) by left. cbn [default]. destruct (decide (l_id l = id)) as [<-|D].
      - destruct (chosen l) as [|e0 es0]; [rewrite (Hs l) by left; done|]. cbn [fst]. by rewrite lookup_insert.
      - destruct (chosen l) as [|e0 es0]; [done|]. cbn [fst]. by rewrite lookup_insert_ne. }
    rewrite O. destruct (decide (l_id l = id)) as [<-|D]; [|split; [by left|by intros [?|[? _]]]].
    rewrite steps_lookup; [|by apply chosen_nodup|done]. cbn [fst]. unfold ext_of at 1. rewrite (Hs l) by left. cbn. rewrite lookup_empty. split.
    - intros [?|(e & He & <- & A & L & ->)]; [done|]. right. split; [done|]. apply chosen_in in He as [He B]; [|done]. by exists e.
    - intros [?|(_ & e & He & B & A & L & ->)]; [done|]. right. exists e. pose proof (Nx _ _ _ He) as En. split; [apply chosen_in; [done|unfold nm; by rewrite En]|]. done. }
  rewrite St. split.
  - intros [[?|(E & e & R)]|(l0 & e & Hl0 & R)]; [by left|right; exists l, e; split; [left|done]|right; exists l0, e; split; [by right|done]].
  - intros [?|(l0 & e & Hl0 & E & R)]; [by left; left|]. apply elem_of_cons in Hl0 as [->|Hl0]; [left; right; split; [done|by exists e]|]. right. by exists l0, e.
Qed.
Lemma osteps_missing ls s name : named_exts xs -> name ∈ (foldl ostep s ls).2 <->
  name ∈ s.2 \/ exists l e, l ∈ ls /\ ext_of xs (l_id l) name = Some e /\ asked (x_only x) name /\ asked (i_only i) name /\ ~ loaded reg name.
Proof.
  intros Nx. revert s. induction ls as [|l ls IH]; intros s; cbn [foldl].
  { split; [by left|]. intros [H|(l & e & Hl & _)]; [done|by apply elem_of_nil in Hl]. }
  rewrite IH. assert (St : name ∈ (ostep s l).2 <-> name ∈ s.2 \/ exists e, ext_of xs (l_id l) name = Some e /\ asked (x_only x) name /\ asked (i_only i) name /\ ~ loaded reg name).
  { assert (O : (ostep s l).2 = (foldl step (default ∅ (s.1 !! l_id l), s.2) (chosen l)).2) by (unfold ostep; by destruct (chosen l)). rewrite O, steps_missing. cbn [snd]. split.
    - intros [?|(e & He & <- & R)]; [by left|]. right. exists e. apply chosen_in in He as [He A]; [|done]. done.
    - intros [?|(e & He & A & R)]; [by left|]. right. exists e. pose proof (Nx _ _ _ He) as En. split; [apply chosen_in; [done|unfold nm; by rewrite En]|]. done. }
  rewrite St. split.
  - intros [[?|(e & R)]|(l0 & e & Hl0 & R)]; [by left|right; exists l, e; split; [left|done]|right; exists l0, e; split; [by right|done]].
  - intros [?|(l0 & e & Hl0 & R)]; [by left; left|]. apply elem_of_cons in Hl0 as [->|Hl0]; [left; right; by exists e|]. right. by exists l0, e.
Qed.
End steps.

(** * Writing. *)
Lemma write_object_chosen reg x xs l m : write_object_exts reg x xs l m =
  match chosen x xs l with
  | [] => Ok ([], m)
  | es => let '(c, m1) := anon (l_id l) m in letp! (ys, m2) := wmapr (write_extension reg x) es m1 in Ok ([elem "extension" [("id", c)] ys], m2)
  end.
Proof.
  unfold write_object_exts, chosen, nm. set (es := (map_to_list (default ∅ (xs !! l_id l))).*2). clearbody es.
  assert (E : match es with [] => true | _ => negb (existsb (fun e => selected (x_only x) (kind_name (e_kind e))) es) end = match List.filter (fun e => selected (x_only x) (kind_name (e_kind e))) es with [] => true | _ => false end).
  { destruct es as [|e0 es0]; [done|]. generalize (e0 :: es0). clear. intros es. induction es as [|e es IH]; [done|]. cbn [existsb List.filter]. destruct (selected _ _); [done|]. cbn [orb]. done. }
  rewrite E. by destruct (List.filter _ es).
Qed.

Section anonymized.
Context (a : bool) (o : opts) (sg : signs).
Notation v := (o_ver o).
Notation winv := (winv a).
Notation grows := (grows a).
Lemma write_extension_ok reg x e m y m' : content_ok a e -> winv m -> write_extension reg x e m = Ok (y, m') -> grows m m' /\ forall mf, available m' mf -> reads_ext sg mf e y.
Proof.
  intros C W E. unfold write_extension in E. destruct (serializer reg x e) as [[k|]| | |]; cbn [result_bind] in E; try done. destruct (negb _ && _); [done|]. injection E as E. by eapply write_ext_ok.
Qed.
Definition reads_object (x : export) (xs : exts) (mf : option mapping) (l : leaf) (ys : list xml) : Prop :=
  match chosen x xs l with
  | [] => ys = []
  | es => exists c zs, ys = [elem "extension" [("id", c)] zs] /\ dean mf c = Ok (l_id l) /\ Forall2 (reads_ext sg mf) es zs
  end.
Lemma write_object_ok reg x xs l m ys m' : Forall (content_ok a) (chosen x xs l) -> winv m -> write_object_exts reg x xs l m = Ok (ys, m') ->
  grows m m' /\ forall mf, available m' mf -> reads_object x xs mf l ys.
Proof.
  intros F W E. rewrite write_object_chosen in E. unfold reads_object. destruct (chosen x xs l) as [|e es].
  - injection E as <- <-. split; [by apply grows_refl|done].
  - destruct (anon (l_id l) m) as [c m1] eqn:A. destruct (anon_ok a _ _ _ _ W A) as (G1 & D & _). destruct (wmapr (write_extension reg x) (e :: es) m1) as [[zs m2]| | |] eqn:Z; cbn [result_bind] in E; try done. injection E as <- <-.
    destruct (wmapr_ok a (content_ok a) (fun mf => reads_ext sg mf) (write_extension reg x)) with (l := e :: es) (m := m1) (ys := zs) (m' := m2) as [G2 R]; [|done|apply G1|done|].
    { intros e0 m3 y m4 C W3 E3. by eapply write_extension_ok. }
    split; [by eapply grows_trans|]. intros mf Hm. exists c, zs. split; [done|]. split; [by apply D, G2|by apply R].
Qed.

(** * Reading. *)
Definition fine (n : network) (l : leaf) (e : ext) : Prop := e_kind e ∈ known /\ as_doc e = as_read e /\ accept sg n l (as_read e) = true.
Lemma exts_eaten fuel reg i mf n l s es zs : Forall (fine n l) es -> Forall2 (reads_ext sg mf) es zs -> length (mjoin (events <$> zs)) <= fuel ->
  eats_all (ext_handler fuel sg reg i mf n l) "extension" s zs (foldl (step reg i) s es).
Proof.
  intros F R. revert s F. induction R as [|e z es zs (Nz & Rz) R IH]; intros s F L; [constructor|]. inversion_clear F as [|? ? (Kn & D & A) F'].
  change (mjoin (events <$> z :: zs)) with (events z ++ mjoin (events <$> zs)) in L. rewrite app_length in L. cbn [foldl]. econstructor; [|apply IH; [done|lia]].
  apply eats_whole; [by eapply named_elem|]. intros rest. destruct (Rz fuel rest ltac:(lia)) as [[t T] Rd]. unfold ext_handler, step, nm. rewrite (local_named (kind_name (e_kind e))) by done. cbn [result_bind].
  destruct (selected (i_only i) (kind_name (e_kind e))); cbn [negb]; [|by rewrite T]. rewrite provider_known by done. case_bool_decide.
  - rewrite Rd by (by rewrite D). cbn [result_bind]. by rewrite D.
  - rewrite T. done.
Qed.
Lemma object_eaten fuel reg i x xs mf n l l' st ys : reads_object x xs mf l ys -> Forall (fine n l') (chosen x xs l) -> find_object n (l_id l) = Some l' -> l_id l' = l_id l -> length (mjoin (events <$> ys)) <= fuel ->
  forall s0, s0.1 = n -> eats_all (all_handler fuel sg reg i v mf) "network" (s0, st) ys (s0, ostep reg i x xs st l).
Proof.
  intros R F Fo Ei L s0 Hs0. unfold reads_object in R. unfold ostep. destruct (chosen x xs l) as [|e es]; [subst; constructor|]. destruct R as (c & zs & -> & Dc & R). apply eats_one.
  apply eats_whole; [done|]. intros rest. unfold all_handler. rewrite (local_named "extension") by (by do 3 eexists). cbn [result_bind]. rewrite String.eqb_refl. unfold read_object_exts.
  assert (exists e0 more, events (elem "extension" [("id", c)] zs) = EStart "extension" [("id", c)] e0 :: more) as (e0 & more & Ev) by (unfold elem; destruct zs; do 2 eexists; reflexivity).
  assert (Av : attr_value (events (elem "extension" [("id", c)] zs) ++ rest) "id" = Ok c) by (rewrite Ev; done). rewrite Av. cbn [result_bind]. rewrite Dc. cbn [result_bind fst snd]. rewrite Hs0, Fo, Ei.
  assert (L' : length (events (elem "extension" [("id", c)] zs)) <= fuel) by (change (mjoin (events <$> [elem "extension" [("id", c)] zs])) with (events (elem "extension" [("id", c)] zs) ++ []) in L; by rewrite app_nil_r in L).
  pose proof (events_children "extension" [("id", c)] zs) as Lc.
  destruct (read_until_eats _ "extension" [("id", c)] _ _ _ rest fuel (exts_eaten fuel reg i mf n l' (default ∅ (st.1 !! l_id l), st.2) _ _ F R ltac:(lia))) as [t T]; [lia|]. rewrite T. cbn [result_bind].
  destruct s0 as [? ?]. done.
Qed.
Lemma objects_eaten fuel reg i x xs mf n ls yss st : Forall2 (reads_object x xs mf) ls yss ->
  Forall (fun l => exists l', find_object n (l_id l) = Some l' /\ l_id l' = l_id l /\ Forall (fine n l') (chosen x xs l)) ls -> length (mjoin (events <$> mjoin yss)) <= fuel ->
  forall s0, s0.1 = n -> eats_all (all_handler fuel sg reg i v mf) "network" (s0, st) (mjoin yss) (s0, foldl (ostep reg i x xs) st ls).
Proof.
  intros R. revert st. induction R as [|l ys ls yss R0 R IH]; intros st F L s0 Hs0; [constructor|]. inversion_clear F as [|? ? (l' & Fo & Ei & F0) F'].
  change (mjoin (ys :: yss)) with (ys ++ mjoin yss) in *. rewrite fmap_app, mjoin_app, app_length in L. cbn [foldl]. eapply eats_app; [|by apply IH; [done|lia|]]. eapply object_eaten; [done|done|done|done|lia|done].
Qed.
Lemma embed_network fuel reg i mf st s cs s' : eats_all (net_handler fuel v mf) "network" s cs s' -> eats_all (all_handler fuel sg reg i v mf) "network" (s, st) cs (s', st).
Proof.
  intros H. induction H as [|s c s1 cs s2 [E Hc] _ IH]; [constructor|]. econstructor; [|exact IH]. split; [done|]. intros rest. destruct (Hc rest) as (pre & e & l & E1 & E2 & Hh). exists pre, e, l. split; [done|]. split; [done|].
  unfold all_handler. destruct s as [n idx]. unfold net_handler in Hh at 1. destruct (local_name (events c ++ rest)) as [name| | |] eqn:Ln; try done. cbn [result_bind] in Hh |- *.
  destruct (String.eqb_spec name "extension") as [->|_]; [done|]. cbn [fst snd]. unfold net_handler at 1. rewrite Ln. cbn [result_bind]. by rewrite Hh.
Qed.
(** The namespaces declared. *)
Lemma namespaces_keys reg x names uris prefixes ns : namespaces reg x v names uris prefixes = Ok ns -> Forall (fun q => q ∉ "id" :: "xmlns:iidm" :: keys v (schema CNetwork)) ns.*1.
Proof.
  revert uris prefixes ns. induction names as [|name names IH]; intros uris prefixes ns E; cbn [namespaces] in E; [injection E as <-; constructor|].
  destruct (negb _); [by eapply IH|]. destruct (find_provider reg name) as [k|] eqn:P; [|by eapply IH]. destruct (namespace_of x v k) as [uri| | |]; cbn [result_bind] in E; try done.
  case_bool_decide; [done|]. case_bool_decide; [done|]. destruct (namespaces reg x v names (uri :: uris) (kind_prefix k :: prefixes)) as [l| | |] eqn:N; cbn [result_bind] in E; try done. injection E as <-.
  rewrite fmap_cons. cbn [fst]. constructor; [|by eapply IH]. unfold find_provider in P. case_bool_decide; [|done]. apply fmap_Some in P as ([j k'] & P & ->). apply list_find_Some in P as (P & _). apply elem_of_list_lookup_2, elem_of_list_In in P. cbn.
  assert (T : forallb (fun w => forallb (fun k => bool_decide ("xmlns:" +:+ kind_prefix k ∉ "id" :: "xmlns:iidm" :: keys w (schema CNetwork))) known) all_versions = true) by (vm_compute; reflexivity).
  rewrite forallb_forall in T. specialize (T v ltac:(apply elem_of_list_In, all_ver)). rewrite forallb_forall in T. specialize (T k' P). by apply bool_decide_eq_true in T.
Qed.
(** * Everything. *)
Lemma exts_roundtrip reg reg' x i n xs y m mf fuel : net_ok a v n -> o_throwing o = true \/ readable v n -> exts_ok sg x n xs -> write_all reg x o a n xs = Ok (y, m) -> available m mf -> length (events y) <= fuel ->
  (i_throw i = true /\ unknown reg' x i n xs -> exists t, read_all fuel sg reg' i mf (events y) = Throw t) /\
  (~ (i_throw i = true /\ unknown reg' x i n xs) -> exists xs', read_all fuel sg reg' i mf (events y) = Ok (degrade o n, xs') /\
     forall id name e, ext_of xs' id name = Some e <-> comes_back reg' x i n xs id name e).
Proof.
  intros K Hr [Nx Xo] E Hm L. unfold write_all in E. destruct (namespaces reg x v (ext_names n xs) [] []) as [ns| | |] eqn:En; cbn [result_bind] in E; try done.
  destruct (write_network o a n) as [[y1 m1]| | |] eqn:Ew; cbn [result_bind] in E; try done. destruct (wmapr (write_object_exts reg x xs) (written n) m1) as [[es m2]| | |] eqn:Eo; cbn [result_bind] in E; try done.
  destruct (roundtrip1 a o n y1 m1 K Hr Ew) as (W & fs & cs & -> & R & H). unfold elem at 1 in E. injection E as <- <-.
  set (al0 := ("xmlns:iidm", namespace_uri v) :: ("id", l_id (n_leaf n)) :: fs) in *.
  assert (Good : forall l, l ∈ objects n -> Forall (content_ok a) (chosen x xs l) /\ Forall (fine (degrade o n) (degrade_leaf o l)) (chosen x xs l)).
  { intros l Hl. split; apply Forall_forall; intros e He; apply chosen_in in He as [He A]; try done; pose proof (Xo l (nm e) e Hl He A) as Oe; destruct (ext_content a sg n l e Oe) as [C D]; [done|]. split; [apply C|]. split; [done|]. by eapply accepted. }
  destruct (wmapr_ok a (fun l => l ∈ objects n) (reads_object x xs) (write_object_exts reg x xs)) with (l := written n) (m := m1) (ys := es) (m' := m2) as [G Ro]; [|apply Forall_forall; done|done|done|].
  { intros l m3 ys m4 Hl W3 E3. eapply write_object_ok; [by apply Good|done|done]. }
  specialize (Ro mf Hm). set (al := ("xmlns:iidm", namespace_uri v) :: ns ++ ("id", l_id (n_leaf n)) :: fs) in *.
  pose proof (events_children "network" al (cs ++ mjoin es)) as Lc. rewrite mjoin_events_app in Lc.
  assert (L1 : length (events (elem "network" al0 cs)) <= fuel).
  { etrans; [|exact L]. unfold elem. destruct cs as [|c cs]; [destruct (mjoin es); [done|]; rewrite events_elem; cbn; lia|]. cbn [app]. rewrite !events_elem. cbn [length]. rewrite !app_length. change (c :: cs ++ mjoin es) with ((c :: cs) ++ mjoin es). rewrite mjoin_events_app. lia. }
  destruct (H mf fuel (proj2 G mf Hm) L1) as (idx & SS & Eb).
  assert (All : eats_all (all_handler fuel sg reg' i v mf) "network" ((Net (Leaf CNetwork (l_id (n_leaf n)) "" false ∅ ∅ (l_fields (n_leaf n)) ∅) [] [] [], {[l_id (n_leaf n)]} ∪ ∅), (∅, ∅)) (cs ++ mjoin es)
    ((degrade o n, idx), foldl (ostep reg' i x xs) (∅, ∅) (written n))).
  { eapply eats_app; [by apply embed_network|]. apply (objects_eaten fuel reg' i x xs mf (degrade o n)); [done| |lia|done].
    apply Forall_forall. intros l Hl. exists (degrade_leaf o l). split; [by apply (find_degraded a)|]. split; [done|]. by apply Good. }
  assert (Ids : NoDup (l_id <$> written n)).
  { destruct K as (_ & _ & _ & _ & N & _). unfold net_leaves in N. change (mjoin (leaf_names <$> ?y :: ?ls)) with (leaf_names y ++ mjoin (leaf_names <$> ls)) in N. apply NoDup_app in N as (_ & _ & N). revert N. unfold written, net_leaves. cbn [tail].
    generalize (mjoin (sub_leaves <$> n_subs n) ++ n_lines n ++ n_hvdcs n). clear. intros ls. induction ls as [|l ls IH]; intros N; [constructor|]. change (mjoin (leaf_names <$> ?y :: ?ls)) with (leaf_names y ++ mjoin (leaf_names <$> ls)) in N. apply NoDup_app in N as (_ & D & N).
    rewrite fmap_cons. constructor; [|by apply IH]. intros X. apply elem_of_list_fmap in X as (l' & X & Hl'). apply (D (l_id l)); [left|]. apply in_mjoin. exists l'. split; [done|]. rewrite X. left. }
  pose proof (osteps_lookup reg' i x xs (written n) (∅, ∅) Nx Ids ltac:(done)) as Lk. pose proof (fun name => osteps_missing reg' i x xs (written n) (∅, ∅) name Nx) as Ms.
  set (st := foldl (ostep reg' i x xs) (∅, ∅) (written n)) in *. clearbody st.
  assert (Rd : read_all fuel sg reg' i mf (events (elem "network" al (cs ++ mjoin es))) = if i_throw i && negb (bool_decide (st.2 = ∅)) then Throw "Extensions not found!" else Ok (degrade o n, st.1)).
  { destruct (root_find o n fs ns (namespaces_keys _ _ _ _ _ _ En)) as (Fu & Fi & Ff). fold al in Fu, Fi, Ff.
    assert (exists e more, events (elem "network" al (cs ++ mjoin es)) = EStart "network" al e :: more) as (e & more & Ev) by (unfold elem; destruct (cs ++ mjoin es); do 2 eexists; reflexivity).
    unfold read_all. rewrite Ev. unfold attr_value. rewrite !attr_find. rewrite Fu, Fi. cbn [result_bind]. rewrite uri_round. cbn [result_bind]. rewrite (R _ _ _ _ Ff).
    cbn [result_bind]. unfold add_object. destruct (String.eqb_spec (l_id (n_leaf n)) "") as [Z|_]; [by destruct K as ((_ & ? & _) & _)|].
    rewrite bool_decide_eq_false_2 by (apply not_elem_of_empty). cbn [result_bind]. rewrite <- Ev.
    destruct (read_until_eats _ "network" al _ _ _ [] fuel All) as [text T]; [lia|]. rewrite app_nil_r in T. rewrite T. cbn [result_bind fst snd]. rewrite Eb. done. }
  assert (Un : st.2 <> ∅ <-> unknown reg' x i n xs).
  { split.
    - intros N. apply set_choose_L in N as [name N]. apply Ms in N as [N|(l & e & Hl & He & R1)]; [by apply elem_of_empty in N|]. by exists l, name, e.
    - intros (l & name & e & Hl & He & R1) Z. assert (X : name ∈ st.2) by (apply Ms; right; by exists l, e). rewrite Z in X. by apply elem_of_empty in X. }
  rewrite Rd. split.
  - intros [Ti U]. rewrite Ti. apply Un in U. rewrite bool_decide_eq_false_2 by done. by eexists.
  - intros N. exists st.1. split.
    + destruct (i_throw i) eqn:Ti; [|done]. cbn [andb]. case_bool_decide as Z; [done|]. exfalso. apply N. split; [done|]. by apply Un.
    + intros id name e. rewrite Lk. cbn [fst]. unfold ext_of at 1. rewrite lookup_empty. cbn. unfold comes_back. split.
      * intros [?|(l & e0 & Hl & <- & R1)]; [done|]. by exists l, e0.
      * intros (l & e0 & Hl & <- & R1). right. by exists l, e0.
Qed.
End anonymized.
