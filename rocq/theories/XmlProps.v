(** Reading XML (C43). *)
From Verif Require Import Base Xml XmlSpec XmlProofs.

(** readUntilEndElement calls the handler exactly once for each direct child, in order, answers the last direct text and stops on the end tag of
    the element - whatever the names inside - if the handler reads each child to its end (or to a place after which it holds no start tag, no
    text and no end tag of the same name as the parent). *)
Theorem C43_children_partial {S} (handler : S -> cursor -> result (S * cursor)) (f : S -> xml -> S) name a e cs s rest fuel : (e = true -> cs = []) ->
  (forall c, c ∈ elements cs -> forall s rest, exists pre last left, events c = pre ++ last :: left /\ handler s (events c ++ rest) = Ok (f s c, last :: left ++ rest) /\
    Forall (fun ev => match ev with EOther => True | EEnd m => m <> name | _ => False end) left) ->
  length (events (Elem name a e cs)) <= fuel ->
  read_until handler fuel name s (events (Elem name a e cs) ++ rest) = Ok (last_text cs, foldl f s (elements cs), end_of (Elem name a e cs) :: rest).
Proof.
  intros E H L. destruct e; [by rewrite (E eq_refl)|]. apply read_until_ok; [|rewrite events_elem in L; cbn [length] in L; rewrite app_length in L; cbn [length] in L; lia|done].
  intros c Hc s' rest'. destruct (H c Hc s' rest') as (pre & l & left & ? & ? & ?). by exists pre, l, left.
Qed.
Print Assumptions C43_children_partial.

(** Readers nested in this way read every document: the same elements, attributes and nesting, ending on the last event of the element, for any
    depth and any names (in particular children named like their parent). *)
Theorem C43_nested name a e cs rest fuel : wf_xml (Elem name a e cs) -> length (events (Elem name a e cs)) < fuel ->
  read_tree fuel (events (Elem name a e cs) ++ rest) = Ok (skeleton (Elem name a e cs), end_of (Elem name a e cs) :: rest).
Proof. intros W L. by apply read_tree_ok. Qed.
Print Assumptions C43_nested.

(** Without handler (skipping) it stops on the matching end tag exactly when no non-empty element inside has the name of the element. *)
Theorem C43_skip_iff_partial name a cs rest fuel : length (events (Elem name a false cs)) <= fuel ->
  (exists text, skip_until fuel name (events (Elem name a false cs) ++ rest) = Ok (text, EEnd name :: rest)) <-> ~ Exists (names_nonempty name) cs.
Proof.
  intros L. rewrite events_elem in *. cbn [length] in L. rewrite app_length in L. cbn [length] in L. unfold skip_until. cbn [app read_until xread tl]. rewrite <- app_assoc.
  change (fun (_ : unit) c => Ok (tt, c)) with no_handler.
  assert (X : Exists (fun e => stops name e = true) (mjoin (events <$> cs)) <-> Exists (names_nonempty name) cs).
  { clear. induction cs as [|c cs IH]; [cbn; by rewrite !Exists_nil|].
    change (mjoin (events <$> c :: cs)) with (events c ++ mjoin (events <$> cs)). by rewrite Exists_app, Exists_cons, IH, events_names. }
  rewrite <- X. split.
  - intros [text E] H. apply first_stop in H as (l1 & n & l2 & Hl & -> & F). rewrite Hl in *. rewrite <- app_assoc in E. cbn [app] in E.
    rewrite app_length in L. cbn [length] in L.
    destruct (skip_stops name l1 name (l2 ++ EEnd name :: rest) fuel "" F eq_refl ltac:(lia)) as [t' E']. rewrite E' in E. cbn [result_bind] in E.
    injection E as _ E. apply (f_equal length) in E. rewrite app_length in E. cbn [length] in E. lia.
  - intros H. assert (F : Forall (fun e => stops name e = false) (mjoin (events <$> cs))).
    { apply Forall_forall. intros e He. destruct (stops name e) eqn:Se; [|done]. destruct H. apply Exists_exists. by exists e. }
    destruct (skip_stops name _ name rest fuel "" F eq_refl ltac:(lia)) as [t' E']. exists t'. cbn [app] in *. by rewrite E'.
Qed.
Print Assumptions C43_skip_iff_partial.

(** An element of the same name inside a skipped one (an unknown extension holding an element of its own name): it stops too early. *)
Theorem C43_skip_refuted : exists name a cs rest fuel text c, wf_xml (Elem name a false cs) /\ length (events (Elem name a false cs) ++ rest) < fuel /\
  skip_until fuel name (events (Elem name a false cs) ++ rest) = Ok (text, c) /\ c <> EEnd name :: rest.
Proof.
  exists "ext", [], [Elem "ext" [] false [Text "x"]; Elem "y" [] true []], [EEnd "extension"], 20. do 2 eexists. split; [vm_compute; intuition discriminate|].
  split; [vm_compute; lia|]. split; [vm_compute; reflexivity|discriminate].
Qed.
Print Assumptions C43_skip_refuted.

(** A handler that does not read its child is also called for the children of that child. *)
Theorem C43_descendants_refuted : exists (handler : list string -> cursor -> result (list string * cursor)) name a cs rest fuel s c,
  wf_xml (Elem name a false cs) /\ length (elements cs) = 1 /\ read_until handler fuel name [] (events (Elem name a false cs) ++ rest) = Ok ("", s, c) /\ length s = 2.
Proof.
  exists (fun s c => letp! n := local_name c in Ok (s ++ [n], c)), "a", [], [Elem "b" [] false [Elem "c" [] true []]], [], 20. do 2 eexists.
  split; [vm_compute; intuition discriminate|]. split; [done|]. split; [vm_compute; reflexivity|done].
Qed.
Print Assumptions C43_descendants_refuted.

(** readUntilNextElement goes to the next start tag, if any. *)
Theorem C43_next c : match read_until_next c with
  | EStart n a e :: l => exists skipped, xread c = skipped ++ EStart n a e :: l /\ Forall (fun ev => forall n a e, ev <> EStart n a e) skipped
  | [] => Forall (fun ev => forall n a e, ev <> EStart n a e) (xread c)
  | _ => False
  end.
Proof.
  unfold read_until_next. induction (xread c) as [|ev l IH]; cbn [next_loop]; [constructor|].
  destruct ev as [n a e|m|t|]; [by exists []| | |];
    (destruct (next_loop l) as [|[n a e| | |] l']; [by constructor; [intros ???|]| |done|done|done]; destruct IH as (sk & -> & F); eexists (_ :: sk); split; [reflexivity|]; by constructor; [intros ???|]).
Qed.
Print Assumptions C43_next.

(** ** A document where elements are named like their parents, with texts, comments and both kinds of empty elements. *)
Definition doc : xml := Elem "a" [("id", "1")] false
  [Other; Elem "a" [] false [Elem "a" [] true []; Text "t"]; Text "u"; Elem "b" [("x", "y")] false []; Elem "a" [] false [Elem "c" [] false [Elem "a" [] false []]]].
Example C43_case : wf_xml doc /\ length (events doc) = 16 /\ read_tree 20 (events doc ++ [EEnd "z"]) = Ok (skeleton doc, [EEnd "a"; EEnd "z"]).
Proof. split; [vm_compute; intuition discriminate|]. split; vm_compute; reflexivity. Qed.
