(** Proofs about messages and loggers (C80). *)
From Verif Require Import Messages MessagesSpec.

(** ** Templates *)
Lemma digit_of_digit c d : digit c d -> digit_of c = Some d /\ c <> percent.
Proof. intros [H ->]. do 10 (destruct d as [|d]; [split; [reflexivity|discriminate]|]). lia. Qed.
Lemma digit_of_Some c d : digit_of c = Some d -> digit c d.
Proof.
  unfold digit_of. destruct (_ && _) eqn:E; [|discriminate]. intros [= <-]. apply andb_true_iff in E as [E1 E2]. apply Nat.leb_le in E1, E2. split; [lia|].
  rewrite <- (ascii_nat_embedding c) at 1. f_equal. lia.
Qed.
Lemma app_cons_assoc ds c rest : ((ds +:+ String c "") +:+ rest)%string = ds +:+ String c rest.
Proof. induction ds as [|x ds IH]; [done|]. exact (f_equal (String x) IH). Qed.
Lemma decimal_parse ds n rest : decimal ds n -> fparse MMark (ds +:+ rest) = fparse (MDigits n) rest.
Proof.
  intros H. revert rest. induction H as [c d Hd|ds n c d H IH Hd]; intros rest; apply digit_of_digit in Hd as [D P].
  - change (String c "" +:+ rest)%string with (String c rest). cbn [fparse]. rewrite bool_decide_false by done. by rewrite D.
  - rewrite app_cons_assoc, IH. cbn [fparse]. rewrite bool_decide_false by done. by rewrite D.
Qed.
Lemma fills_parse args f t : fills args f t -> exists l, fparse MText f = PsOk l /\ asked_args l <= length args /\ render l args = t.
Proof.
  induction 1 as [|c f t Hc H (l & E & A & R)|f t H (l & E & A & R)|ds n a f t D L H (l & E & A & R)].
  - exists []. split; [done|]. split; [cbn; lia|done].
  - exists (PLit c :: l). cbn [fparse]. rewrite bool_decide_false by done. rewrite E. cbn. by rewrite R.
  - exists (PLit percent :: l). change ("%%" +:+ f)%string with (String percent (String percent f)). cbn [fparse].
    rewrite bool_decide_true by done. rewrite E. cbn. by rewrite R.
  - exists (PArg n :: l). change (fparse MText ("%" +:+ ds +:+ "%" +:+ f)) with (fparse MMark (ds +:+ String percent f)). rewrite decimal_parse with (n := S n) by done.
    cbn [fparse]. rewrite bool_decide_true by done. rewrite E. cbn [pcons asked_args render]. rewrite L, R. apply lookup_lt_Some in L. split; [done|]. split; [lia|done].
Qed.
Lemma parse_fills f : forall m l args, fparse m f = PsOk l -> asked_args l <= length args ->
  match m with
  | MText => fills args f (render l args)
  | MMark => fills args (String percent f) (render l args)
  | MDigits n => forall ds, decimal ds n -> fills args (String percent (ds +:+ f)) (render l args)
  end.
Proof.
  induction f as [|c f IH]; intros m l args H A; destruct m as [| |n]; cbn [fparse] in H; try discriminate.
  - injection H as <-. constructor.
  - case_bool_decide as Hc.
    + subst c. exact (IH MMark l args H A).
    + destruct (fparse MText f) as [l'| |] eqn:E; cbn in H; [|discriminate|discriminate]. injection H as <-. cbn. apply fl_char; [done|]. exact (IH MText l' args E A).
  - case_bool_decide as Hc.
    + subst c. destruct (fparse MText f) as [l'| |] eqn:E; cbn in H; [|discriminate|discriminate]. injection H as <-. cbn. apply (fl_percent args f). exact (IH MText l' args E A).
    + destruct (digit_of c) as [d|] eqn:D; [|discriminate]. apply digit_of_Some in D. exact (IH (MDigits d) l args H A (String c "") (dec_one c d D)).
  - intros ds Hds. case_bool_decide as Hc.
    + subst c. destruct n as [|k]; [discriminate|]. destruct (fparse MText f) as [l'| |] eqn:E; cbn in H; [|discriminate|discriminate]. injection H as <-.
      cbn [asked_args render] in A |- *. destruct (lookup_lt_is_Some_2 args k ltac:(lia)) as [a Ha]. rewrite Ha. apply (fl_arg args ds k a f); [done|done|]. apply (IH MText l' args E). lia.
    + destruct (digit_of c) as [d|] eqn:D; [|discriminate]. apply digit_of_Some in D.
      pose proof (IH (MDigits (10 * n + d)) l args H A _ (dec_more ds n c d Hds D)) as F. by rewrite app_cons_assoc in F.
Qed.
Lemma fills_iff args f t : fills args f t <-> exists l, fparse MText f = PsOk l /\ asked_args l <= length args /\ render l args = t.
Proof. split; [apply fills_parse|]. intros (l & E & A & <-). exact (parse_fills f MText l args E A). Qed.
Lemma fills_unique args f t t' : fills args f t -> fills args f t' -> t = t'.
Proof. intros (l & E & _ & <-)%fills_iff (l' & E' & _ & <-)%fills_iff. congruence. Qed.
Lemma length_removelast {A} (l : list A) : length (removelast l) = pred (length l).
Proof. induction l as [|x [|y l] IH]; [done|done|]. change (removelast (x :: y :: l)) with (x :: removelast (y :: l)). cbn [length]. rewrite IH. cbn. lia. Qed.
Lemma superfluous_iff args f : superfluous args f <-> exists l, fparse MText f = PsOk l /\ asked_args l < length args.
Proof.
  unfold superfluous. split.
  - intros [N (t & (l & E & A & _)%fills_iff)]. exists l. split; [done|]. rewrite length_removelast in A. destruct args; [done|]. cbn in *. lia.
  - intros (l & E & A). split; [by intros ->; cbn in A; lia|]. exists (render l (removelast args)). apply fills_iff. exists l. split; [done|]. split; [|done].
    rewrite length_removelast. lia.
Qed.
Lemma sformat_text f args t : sformat f args = FText t <-> fills args f t /\ ~ superfluous args f.
Proof.
  unfold sformat. rewrite fills_iff, superfluous_iff. destruct (fparse MText f) as [l| |].
  - destruct (Nat.ltb_spec (asked_args l) (length args)).
    + split; [discriminate|]. intros [_ N]. exfalso. eauto.
    + destruct (Nat.ltb_spec (length args) (asked_args l)).
      * split; [discriminate|]. intros [(l' & [= <-] & A & _) _]. lia.
      * split; [intros [= <-]; split; [by exists l|]; intros (l' & [= <-] & A); lia|]. intros [(l' & [= <-] & A & <-) _]. done.
  - split; [discriminate|]. intros [(l' & [=] & _) _].
  - split; [discriminate|]. intros [(l' & [=] & _) _].
Qed.

(** ** Texts without % *)
Lemma plain_nil : plain "".
Proof. intros i c H. destruct i; discriminate. Qed.
Lemma plain_cons c s : plain (String c s) <-> c <> percent /\ plain s.
Proof.
  split.
  - intros H. split; [exact (H 0 c eq_refl)|]. intros i d E. exact (H (S i) d E).
  - intros [Hc H] [|i] d E; cbn in E; [injection E as <-; done|]. exact (H i d E).
Qed.
Lemma plain_app s t : plain (s +:+ t) <-> plain s /\ plain t.
Proof.
  induction s as [|c s IH]; [split; [intros; split; [apply plain_nil|done]|by intros [_ ?]]|]. change ((String c s) +:+ t)%string with (String c (s +:+ t)).
  rewrite !plain_cons, IH. tauto.
Qed.
Lemma plain_fills args s : plain s -> fills args s s.
Proof. induction s as [|c s IH]; [intros; constructor|]. intros [H1 H2]%plain_cons. constructor; [done|]. by apply IH. Qed.
Lemma plain_format s : plain s -> sformat s [] = FText s.
Proof. intros H. apply sformat_text. split; [by apply plain_fills|]. intros [? _]. done. Qed.
Fixpoint no_percent (l : list piece) : bool :=
  match l with [] => true | PLit c :: l' => negb (bool_decide (c = percent)) && no_percent l' | PArg _ :: l' => no_percent l' end.
Lemma render_plain l args : no_percent l = true -> Forall plain args -> plain (render l args).
Proof.
  intros H F. induction l as [|[c|k] l IH]; [apply plain_nil| |].
  - cbn in *. apply andb_true_iff in H as [Hc H]. apply plain_cons. split; [|by apply IH]. apply negb_true_iff in Hc. by apply bool_decide_eq_false in Hc.
  - cbn in *. apply plain_app. split; [|by apply IH]. destruct (args !! k) as [a|] eqn:E; [|apply plain_nil]. by eapply Forall_lookup_1.
Qed.

(** ** Places *)
Definition site_fits (s : site) : bool := match fparse MText (st_text s) with PsOk l => (asked_args l =? st_args s) && no_percent l | _ => false end.
Lemma site_fits_ok s args : site_fits s = true -> length args = st_args s -> exists t, fills args (st_text s) t /\ sformat (st_text s) args = FText t /\ (Forall plain args -> plain t).
Proof.
  unfold site_fits. destruct (fparse MText (st_text s)) as [l| |] eqn:E; [|discriminate|discriminate]. intros [A N]%andb_true_iff L. apply Nat.eqb_eq in A.
  exists (render l args). split; [apply fills_iff; exists l; split; [done|]; split; [lia|done]|]. split; [|by apply render_plain].
  unfold sformat. rewrite E. destruct (Nat.ltb_spec (asked_args l) (length args)); [lia|]. destruct (Nat.ltb_spec (length args) (asked_args l)); [lia|]. done.
Qed.
Lemma as_severe_num l m : as_severe l m <-> level_num m <= level_num l.
Proof.
  assert (S : forall i x, severity !! i = Some x <-> i = level_num x).
  { intros i x. split; [|intros ->; by destruct x]. intros H. destruct i as [|[|[|[|[|i]]]]]; cbn in H; try (injection H as <-; done). discriminate. }
  unfold as_severe. split.
  - intros (i & j & ->%S & ->%S & H). done.
  - intros H. exists (level_num m), (level_num l). split; [by apply S|]. split; [by apply S|done].
Qed.
Lemma listens_enabled k l : listens k l <-> log_enabled k l = true.
Proof. destruct k as [|m|]; cbn; [done| |done]. rewrite as_severe_num. symmetry. apply Nat.leb_le. Qed.
Lemma log_call_text g l f args t : sformat f args = FText t ->
  log_call g l f args = Some (Ok tt, if log_enabled (lg_kind g) l then mkLogger (lg_kind g) (lg_out g ++ [(l, t)]) else g).
Proof. intros H. unfold log_call. destruct (log_enabled (lg_kind g) l) eqn:E; [|done]. rewrite H. cbn. unfold log_write. destruct (lg_kind g) eqn:K; [|done|done]. discriminate. Qed.

(** ** The factory *)
Lemma starts_colons_spec s : starts_colons s = true <-> exists t, s = "::" +:+ t.
Proof.
  split.
  - destruct s as [|c [|d s]]; [discriminate| |].
    + cbn. destruct c as [[] [] [] [] [] [] [] []]; discriminate.
    + intros H. assert (c = ":"%char) as -> by (destruct c as [[] [] [] [] [] [] [] []]; cbn in H; try discriminate; done).
      assert (d = ":"%char) as -> by (destruct d as [[] [] [] [] [] [] [] []]; cbn in H; try discriminate; done). by exists s.
  - by intros [t ->].
Qed.
Lemma no_colons s p t : before_last_colons s = None -> s <> p +:+ "::" +:+ t.
Proof.
  revert p. induction s as [|c s IH]; intros p H E; [by destruct p|]. cbn [before_last_colons] in H. destruct (before_last_colons s) eqn:B; [discriminate|].
  destruct (starts_colons (String c s)) eqn:S; [discriminate|]. destruct p as [|d p].
  - assert (starts_colons (String c s) = true) by (apply starts_colons_spec; by exists t). congruence.
  - cbn in E. injection E as -> E. exact (IH p eq_refl E).
Qed.
Lemma before_last_spec s p : before_last_colons s = Some p -> enclosing s p.
Proof.
  revert p. induction s as [|c s IH]; intros p H; [discriminate|]. cbn [before_last_colons] in H. destruct (before_last_colons s) as [q|] eqn:B.
  - injection H as <-. destruct (IH q eq_refl) as [[t E] M]. split; [exists t; exact (f_equal (String c) E)|]. intros [|d p'] s' E'; cbn; [lia|]. cbn in E'. injection E' as _ E'. apply le_n_S. exact (M p' s' E').
  - destruct (starts_colons (String c s)) eqn:S; [|discriminate]. injection H as <-. apply starts_colons_spec in S as [t S]. split; [by exists t|].
    intros [|d p'] s' E'; [done|]. cbn in E'. injection E' as _ E'. exfalso. exact (no_colons s p' s' B E').
Qed.
Lemma app_inj_length p p' u u' : p +:+ u = p' +:+ u' -> String.length p = String.length p' -> p = p'.
Proof. revert p'. induction p as [|c p IH]; intros [|d p'] E L; cbn in *; try discriminate; [done|]. injection E as -> E. f_equal. apply IH; [done|]. by injection L. Qed.
Lemma enclosing_unique n p p' : enclosing n p -> enclosing n p' -> p = p'.
Proof. intros [[s E] M] [[s' E'] M']. eapply app_inj_length; [by rewrite <- E, <- E'|]. pose proof (M _ _ E'). pose proof (M' _ _ E). lia. Qed.
Lemma enclosing_before n p : enclosing n p <-> before_last_colons n = Some p.
Proof.
  split; [|apply before_last_spec]. intros H. destruct (before_last_colons n) as [q|] eqn:B.
  - f_equal. eapply enclosing_unique; [by apply before_last_spec|done].
  - destruct H as [[s E] _]. exfalso. by eapply no_colons.
Qed.
Lemma str_app_length s t : String.length (s +:+ t) = String.length s + String.length t.
Proof. induction s as [|c s IH]; [done|]. exact (f_equal S IH). Qed.
Lemma enclosing_length n p : enclosing n p -> String.length p < String.length n.
Proof. intros [[s ->] _]. rewrite !str_app_length. cbn. lia. Qed.
Lemma find_logger_ok m k n : String.length n < k -> exists r, find_logger k m n = Ok r /\ in_force m n r.
Proof.
  revert n. induction k as [|k IH]; intros n H; [lia|]. cbn [find_logger]. destruct (m !! n) as [g|] eqn:E; [exists (Some n); split; [done|by econstructor]|].
  destruct (before_last_colons n) as [p|] eqn:B.
  - apply enclosing_before in B. pose proof (enclosing_length n p B). destruct (IH p ltac:(lia)) as (r & R & F). exists r. split; [done|]. by eapply if_around.
  - exists None. split; [done|]. apply if_none; [done|]. intros p Hp%enclosing_before. congruence.
Qed.
Lemma in_force_unique m n r r' : in_force m n r -> in_force m n r' -> r = r'.
Proof.
  intros H. revert r'. induction H as [n g E|n p r E P H IH|n E N]; intros r' H'; inversion H' as [? ? E'|? p' ? E' P' F'|? E' N']; subst; try congruence.
  - rewrite (enclosing_unique _ _ _ P P') in *. by apply IH.
  - exfalso. by eapply N'.
  - exfalso. by eapply N.
Qed.
Lemma get_logger_ok m n r : get_logger m n = Ok r <-> in_force m n r.
Proof.
  unfold get_logger. destruct (find_logger_ok m (S (String.length n)) n ltac:(lia)) as (r0 & R & F). rewrite R. split; [by intros [= <-]|]. intros H. by rewrite (in_force_unique _ _ _ _ F H).
Qed.
Lemma in_force_in m n p : in_force m n (Some p) -> is_Some (m !! p).
Proof. intros H. remember (Some p) as r eqn:E. revert p E. induction H as [n g G|n q r G Q H IH|n G N]; intros p E; [injection E as <-; by eexists|by apply IH|discriminate]. Qed.
