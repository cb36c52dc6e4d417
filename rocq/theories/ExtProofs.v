(** Proofs about extensions. *)
From stdpp Require Import gmap.
From Verif Require Import Base Ext ExtSpec.

(** After every history without undefined behaviour. *)
Record xinv (self : nat) (s : xst) : Prop := mkXI {
  xi_self : xs_self s = self;
  xi_name : forall n a, xs_name s !! n = Some a <-> exists x, xs_obj s !! a = Some x /\ x_name x = n;
  xi_own : forall a x, xs_obj s !! a = Some x -> x_owner x = Some self;
  xi_next : forall a x, xs_obj s !! a = Some x -> a < xs_next s;
  xi_tnext : forall t a, xs_type s !! t = Some a -> a < xs_next s;
  xi_type : forall t a x, xs_type s !! t = Some a -> xs_obj s !! a = Some x -> x_type x = t }.
Lemma xinv_new self : xinv self (xnew self).
Proof.
  constructor; unfold xnew; cbn [xs_self xs_obj xs_name xs_type xs_next]; try done.
  intros n a. rewrite lookup_empty. split; [done|]. intros (x & H & _). by rewrite lookup_empty in H.
Qed.
(** The state after the existing extension of that name was cleaned. *)
Definition clean_ext (name type : string) (s : xst) : xst :=
  match xs_name s !! name with
  | Some b => mkXst (xs_self s) (delete b (xs_obj s)) (delete name (xs_name s)) (delete type (xs_type s)) (S (xs_next s))
  | None => mkXst (xs_self s) (xs_obj s) (xs_name s) (xs_type s) (S (xs_next s))
  end.
Lemma add_ext_eq n t ow f s : add_ext n t ow f s =
  if negb f then (Throw "Unexpected extendable type", clean_ext n t s)
  else if match ow with Some o => negb (bool_decide (o = xs_self s)) | None => false end
  then (Throw "Extension is already associated to the extendable", clean_ext n t s)
  else (Ok tt, mkXst (xs_self s) (<[xs_next s := mkExt n t (Some (xs_self s))]> (xs_obj (clean_ext n t s))) (<[n := xs_next s]> (xs_name (clean_ext n t s)))
                     (match xs_type (clean_ext n t s) !! t with Some _ => xs_type (clean_ext n t s) | None => <[t := xs_next s]> (xs_type (clean_ext n t s)) end) (S (xs_next s))).
Proof. reflexivity. Qed.
Lemma clean_inv self n t s : xinv self s -> xinv self (clean_ext n t s) /\ xs_next (clean_ext n t s) = S (xs_next s) /\
  xs_name (clean_ext n t s) !! n = None /\ (forall m, m <> n -> xs_name (clean_ext n t s) !! m = xs_name s !! m).
Proof.
  intros I. destruct I as [Is In Io Ix It Iy]. unfold clean_ext. destruct (xs_name s !! n) as [b|] eqn:B; cbn [xs_self xs_obj xs_name xs_type xs_next].
  - split; [|split; [done|]].
    + constructor; cbn [xs_self xs_obj xs_name xs_type xs_next].
      * done.
      * intros m a. rewrite lookup_delete_Some. rewrite In. split.
        -- intros (D & x & H & E). exists x. split; [|done]. apply lookup_delete_Some. split; [|done]. intros <-.
           apply In in B as (y & Hy & Ey). congruence.
        -- intros (x & H & E). apply lookup_delete_Some in H as [D H]. split; [|eauto]. intros <-.
           assert (xs_name s !! n = Some a) by (apply In; eauto). congruence.
      * intros a x H. apply lookup_delete_Some in H as [_ H]. by eapply Io.
      * intros a x H. apply lookup_delete_Some in H as [_ H]. apply Ix in H. lia.
      * intros u a H. apply lookup_delete_Some in H as [_ H]. apply It in H. lia.
      * intros u a x H H'. apply lookup_delete_Some in H as [_ H]. apply lookup_delete_Some in H' as [_ H']. by eapply Iy.
    + split; [by rewrite lookup_delete|]. intros m D. by rewrite lookup_delete_ne.
  - split; [|done]. constructor; cbn [xs_self xs_obj xs_name xs_type xs_next]; try done.
    + intros a x H%Ix. lia.
    + intros u a H%It. lia.
Qed.
Lemma add_ext_inv self n t ow f s : xinv self s -> xinv self (add_ext n t ow f s).2.
Proof.
  intros I. rewrite add_ext_eq. destruct (clean_inv self n t s I) as (I1 & N1 & Nm & Nn).
  destruct (negb f); [exact I1|]. destruct (match ow with Some o => negb (bool_decide (o = xs_self s)) | None => false end); [exact I1|].
  set (c := clean_ext n t s) in *. assert (F : xs_obj c !! xs_next s = None).
  { unfold c, clean_ext. destruct (xs_name s !! n) as [b|]; cbn [xs_obj].
    - apply lookup_delete_None. right. destruct (xs_obj s !! xs_next s) eqn:E; [|done]. apply (xi_next self s I) in E. lia.
    - destruct (xs_obj s !! xs_next s) eqn:E; [|done]. apply (xi_next self s I) in E. lia. }
  assert (FT : forall u, xs_type c !! u <> Some (xs_next s)).
  { intros u E. assert (xs_type s !! u = Some (xs_next s)) as H.
    { unfold c, clean_ext in E. destruct (xs_name s !! n); cbn [xs_type] in E; [by apply lookup_delete_Some in E as [_ E]|done]. }
    apply (xi_tnext self s I) in H. lia. }
  pose proof (xi_self self s I) as Es. clearbody c. cbn [snd]. destruct I1 as [Is In Io Ix It Iy]. constructor; cbn [xs_self xs_obj xs_name xs_type xs_next].
  - done.
  - intros m a. destruct (decide (m = n)) as [->|D].
    + rewrite lookup_insert. split.
      * intros [= <-]. eexists. by rewrite lookup_insert.
      * intros (x & H & E). destruct (decide (a = xs_next s)) as [->|Da]; [done|]. rewrite lookup_insert_ne in H by done.
        assert (xs_name c !! n = Some a) by (apply In; eauto). congruence.
    + rewrite lookup_insert_ne by done. rewrite In. split; intros (x & H & E); exists x.
      * rewrite lookup_insert_ne; [done|]. congruence.
      * destruct (decide (a = xs_next s)) as [->|Da]; [rewrite lookup_insert in H; injection H as <-; cbn in E; congruence|].
        by rewrite lookup_insert_ne in H.
  - intros a x. destruct (decide (a = xs_next s)) as [->|Da]; [rewrite lookup_insert; intros [= <-]; cbn; congruence|].
    rewrite lookup_insert_ne by done. apply Io.
  - intros a x. destruct (decide (a = xs_next s)) as [->|Da]; [lia|]. rewrite lookup_insert_ne by done. intros H%Ix. lia.
  - intros u a. destruct (xs_type c !! t) eqn:E; [intros H%It; lia|]. destruct (decide (u = t)) as [->|D]; [rewrite lookup_insert; intros [= <-]; lia|].
    rewrite lookup_insert_ne by done. intros H%It. lia.
  - intros u a x Hu Ha. destruct (decide (a = xs_next s)) as [->|Da].
    + rewrite lookup_insert in Ha. injection Ha as <-. cbn. destruct (xs_type c !! t) eqn:E; [by apply FT in Hu|].
      destruct (decide (u = t)) as [->|D]; [done|]. rewrite lookup_insert_ne in Hu by done. by apply FT in Hu.
    + rewrite lookup_insert_ne in Ha by done. destruct (xs_type c !! t) eqn:E; [by eapply Iy|].
      destruct (decide (u = t)) as [->|D]; [rewrite lookup_insert in Hu; congruence|]. rewrite lookup_insert_ne in Hu by done. by eapply Iy.
Qed.
Lemma remove_ext_eq self t s a x : xinv self s -> xs_type s !! t = Some a -> xs_obj s !! a = Some x ->
  remove_ext t s = (Ok tt, mkXst (xs_self s) (delete a (xs_obj s)) (delete (x_name x) (xs_name s)) (delete t (xs_type s)) (xs_next s)).
Proof.
  intros I T X. unfold remove_ext. rewrite T, X. assert (xs_name s !! x_name x = Some a) as -> by (apply (xi_name self s I); eauto). done.
Qed.
Lemma remove_ext_inv self t s : xinv self s -> xinv self (remove_ext t s).2.
Proof.
  intros I. destruct (xs_type s !! t) as [a|] eqn:T; [|unfold remove_ext; by rewrite T].
  destruct (xs_obj s !! a) as [x|] eqn:X; [|unfold remove_ext; by rewrite T, X]. rewrite (remove_ext_eq self t s a x I T X). cbn [snd].
  destruct I as [Is In Io Ix It Iy]. constructor; cbn [xs_self xs_obj xs_name xs_type xs_next].
  - done.
  - intros m b. rewrite lookup_delete_Some. rewrite In. split.
    + intros (D & y & H & E). exists y. split; [|done]. apply lookup_delete_Some. split; [|done]. intros <-. congruence.
    + intros (y & H & E). apply lookup_delete_Some in H as [D H]. split; [|eauto]. intros <-.
      assert (xs_name s !! x_name x = Some a) by (apply In; eauto). assert (xs_name s !! x_name x = Some b) by (apply In; eauto). congruence.
  - intros b y H. apply lookup_delete_Some in H as [_ H]. by eapply Io.
  - intros b y H. apply lookup_delete_Some in H as [_ H]. by apply Ix in H.
  - intros u b H. apply lookup_delete_Some in H as [_ H]. by apply It in H.
  - intros u b y H H'. apply lookup_delete_Some in H as [_ H]. apply lookup_delete_Some in H' as [_ H']. by eapply Iy.
Qed.
Lemma xreach_inv self h s : xreach self h s -> xinv self s.
Proof. induction 1 as [|h s o R IH]; [apply xinv_new|]. destruct o; [by apply add_ext_inv|by apply remove_ext_inv]. Qed.
Lemma xreach_created self h s : xreach self h s -> xs_next s = created h.
Proof.
  induction 1 as [|h s o R IH U]; [done|]. destruct o as [n t ow f|t]; cbn [xstep created].
  - rewrite add_ext_eq. destruct (negb f); [|destruct (match ow with Some o => negb (bool_decide (o = xs_self s)) | None => false end)]; cbn [snd xs_next];
      unfold clean_ext; try (destruct (xs_name s !! n)); cbn [xs_next]; by rewrite IH.
  - unfold remove_ext. destruct (xs_type s !! t) as [a|]; [|done]. by destruct (xs_obj s !! a).
Qed.
Lemma by_name_live self n s : xinv self s -> ext_by_name n s = Ok (xs_name s !! n).
Proof.
  intros I. unfold ext_by_name. destruct (xs_name s !! n) as [a|] eqn:E; [|done]. apply (xi_name self s I) in E as (x & -> & _). done.
Qed.

(** ** When the name determines the type, no reference dangles *)
Record tinv (ty : string -> string) (s : xst) : Prop := mkTI {
  ti_type : forall a x, xs_obj s !! a = Some x -> x_type x = ty (x_name x);
  ti_live : forall t a, xs_type s !! t = Some a -> is_Some (xs_obj s !! a) }.
Lemma clean_tinv self ty n t s : xinv self s -> tinv ty s -> t = ty n -> tinv ty (clean_ext n t s).
Proof.
  intros I [Tt Tl] ->. unfold clean_ext. destruct (xs_name s !! n) as [b|] eqn:B; [|done]. constructor; cbn [xs_obj xs_type].
  - intros a x H. apply lookup_delete_Some in H as [_ H]. by eapply Tt.
  - intros t a H. apply lookup_delete_Some in H as [D H]. destruct (Tl _ _ H) as [x Hx].
    exists x. apply lookup_delete_Some. split; [|done]. intros <-. apply D. rewrite <- (xi_type self s I t b x H Hx).
    rewrite (Tt _ _ Hx). apply (xi_name self s I) in B as (y & Hy & <-). congruence.
Qed.
Lemma xstep_tinv self ty s o : xinv self s -> tinv ty s -> typed ty o -> tinv ty (xstep s o).2.
Proof.
  intros I T Ho. destruct o as [n t ow f|t]; cbn [xstep typed] in *.
  - pose proof (clean_tinv self ty n t s I T Ho) as C. rewrite add_ext_eq. destruct (negb f); [exact C|].
    destruct (match ow with Some o => negb (bool_decide (o = xs_self s)) | None => false end); [exact C|].
    destruct C as [Ct Cl]. constructor; cbn [snd xs_obj xs_type].
    + intros a x. destruct (decide (a = xs_next s)) as [->|D]; [rewrite lookup_insert; intros [= <-]; done|]. rewrite lookup_insert_ne by done. apply Ct.
    + intros u a H. destruct (decide (a = xs_next s)) as [->|D]; [rewrite lookup_insert; eauto|]. rewrite lookup_insert_ne by done. apply (Cl u).
      destruct (xs_type (clean_ext n t s) !! t); [done|]. destruct (decide (u = t)) as [->|Du]; [rewrite lookup_insert in H; congruence|].
      by rewrite lookup_insert_ne in H.
  - destruct T as [Tt Tl]. destruct (xs_type s !! t) as [a|] eqn:E; [|unfold remove_ext; by rewrite E].
    destruct (Tl _ _ E) as [x X]. rewrite (remove_ext_eq self t s a x I E X). constructor; cbn [snd xs_obj xs_type].
    + intros b y H. apply lookup_delete_Some in H as [_ H]. by eapply Tt.
    + intros u b H. apply lookup_delete_Some in H as [D H]. destruct (Tl _ _ H) as [y Hy]. exists y. apply lookup_delete_Some. split; [|done].
      intros <-. apply D. rewrite <- (xi_type self s I u a y H Hy). rewrite X in Hy. injection Hy as <-. symmetry. by eapply xi_type.
Qed.
Lemma xreach_tinv self ty h s : xreach self h s -> Forall (typed ty) h -> tinv ty s.
Proof.
  intros R. induction R as [|h s o R IH U]; intros F.
  - constructor; unfold xnew; cbn; done.
  - inversion F; subst. eapply xstep_tinv; eauto using xreach_inv.
Qed.
Lemma tinv_find self ty s t : xinv self s -> tinv ty s -> find_ext t s = Ok (xs_type s !! t) /\ (remove_ext t s).1 = Ok tt.
Proof.
  intros I T. unfold find_ext. destruct (xs_type s !! t) as [a|] eqn:E.
  - destruct (ti_live ty s T _ _ E) as [x X]. rewrite (remove_ext_eq self t s a x I E X). by rewrite X.
  - unfold remove_ext. by rewrite E.
Qed.

(** ** When extensions are named after their type *)
Record ninv (nm : string -> string) (h : list xop) (s : xst) : Prop := mkNI {
  ni_type : forall t, xs_type s !! t = latest h t;
  ni_name : forall t, xs_name s !! nm t = latest h t;
  ni_dom : forall n a, xs_name s !! n = Some a -> exists t, n = nm t;
  ni_obj : forall a x, xs_obj s !! a = Some x -> x_name x = nm (x_type x) }.
Lemma accepted_add self n t ow f s : xs_self s = self -> accepted self (XAdd n t ow f) ->
  add_ext n t ow f s = (Ok tt, mkXst (xs_self s) (<[xs_next s := mkExt n t (Some (xs_self s))]> (xs_obj (clean_ext n t s))) (<[n := xs_next s]> (xs_name (clean_ext n t s)))
                     (match xs_type (clean_ext n t s) !! t with Some _ => xs_type (clean_ext n t s) | None => <[t := xs_next s]> (xs_type (clean_ext n t s)) end) (S (xs_next s))).
Proof.
  intros E [-> H]. rewrite add_ext_eq. cbn [negb]. destruct H as [-> | ->]; [rewrite bool_decide_true by done|]; done.
Qed.
Lemma xreach_ninv self nm h s : Inj (=) (=) nm -> xreach self h s -> Forall (named nm) h -> Forall (accepted self) h -> ninv nm h s.
Proof.
  intros J R. induction R as [|h s o R IH U]; intros F A.
  { constructor; unfold xnew; cbn [xs_type xs_name xs_obj latest]; try (intros; by rewrite lookup_empty). intros n a H. by rewrite lookup_empty in H. intros a x H. by rewrite lookup_empty in H. }
  inversion F as [|? ? F1 F2]; subst. inversion A as [|? ? A1 A2]; subst. specialize (IH F2 A2). pose proof (xreach_inv _ _ _ R) as I.
  pose proof (xreach_created _ _ _ R) as Cr. destruct o as [n t ow f|t]; cbn [xstep named] in *.
  - rewrite (accepted_add self n t ow f s (xi_self self s I) A1). cbn [snd].
    assert (Ct : xs_type (clean_ext n t s) !! t = None).
    { unfold clean_ext. pose proof (ni_name nm h s IH t) as N. pose proof (ni_type nm h s IH t) as T. rewrite <- F1 in N.
      destruct (xs_name s !! n) eqn:B; cbn [xs_type]; [by rewrite lookup_delete|]. by rewrite T. }
    assert (Cu : forall u, u <> t -> xs_type (clean_ext n t s) !! u = latest h u).
    { intros u D. rewrite <- (ni_type nm h s IH u). unfold clean_ext. destruct (xs_name s !! n); cbn [xs_type]; [by rewrite lookup_delete_ne|done]. }
    destruct (clean_inv self n t s I) as (CI & _ & Nn & Nm).
    rewrite Ct. constructor; cbn [xs_type xs_name xs_obj latest].
    + intros u. case_bool_decide as D; [subst u; rewrite lookup_insert; by rewrite Cr|]. rewrite lookup_insert_ne by done. by apply Cu.
    + intros u. case_bool_decide as D; [subst u n; rewrite lookup_insert; by rewrite Cr|].
      assert (D' : nm u <> n) by (subst n; intros E; apply D; by apply J). rewrite lookup_insert_ne by done. rewrite Nm by done. apply (ni_name nm h s IH).
    + intros m a. destruct (decide (m = n)) as [->|D]; [eauto|]. rewrite lookup_insert_ne by done. rewrite Nm by done. apply (ni_dom nm h s IH).
    + intros a x. destruct (decide (a = xs_next s)) as [->|D]; [rewrite lookup_insert; intros [= <-]; done|]. rewrite lookup_insert_ne by done.
      unfold clean_ext. destruct (xs_name s !! n); cbn [xs_obj]; [|apply (ni_obj nm h s IH)]. intros H. apply lookup_delete_Some in H as [_ H]. by apply (ni_obj nm h s IH) in H.
  - destruct (xs_type s !! t) as [a|] eqn:E.
    + assert (exists x, xs_obj s !! a = Some x) as [x X].
      { unfold remove_ext in U. rewrite E in U. destruct (xs_obj s !! a); [eauto|done]. }
      rewrite (remove_ext_eq self t s a x I E X). cbn [snd].
      assert (Xt : x_type x = t) by (by eapply xi_type). assert (Xn : x_name x = nm t) by (rewrite (ni_obj nm h s IH _ _ X); by f_equal).
      constructor; cbn [xs_type xs_name xs_obj latest].
      * intros u. case_bool_decide as D; [subst u; by rewrite lookup_delete|]. rewrite lookup_delete_ne by done. apply (ni_type nm h s IH).
      * intros u. case_bool_decide as D; [subst u; rewrite Xn; by rewrite lookup_delete|].
        assert (nm u <> x_name x) by (rewrite Xn; intros Q; apply D; by apply J). rewrite lookup_delete_ne by done. apply (ni_name nm h s IH).
      * intros m b H. apply lookup_delete_Some in H as [_ H]. by apply (ni_dom nm h s IH) in H.
      * intros b y H. apply lookup_delete_Some in H as [_ H]. by apply (ni_obj nm h s IH) in H.
    + unfold remove_ext. rewrite E. cbn [snd]. pose proof (ni_type nm h s IH t) as T. rewrite E in T. destruct IH as [Nt Nn Nd No]. constructor; try done; cbn [latest].
      * intros u. case_bool_decide as D; [subst u; done|apply Nt].
      * intros u. case_bool_decide as D; [subst u; rewrite Nn; done|apply Nn].
Qed.
Lemma ninv_live self nm h s : xinv self s -> ninv nm h s -> forall t a, xs_type s !! t = Some a -> is_Some (xs_obj s !! a).
Proof.
  intros I N t a H. rewrite (ni_type nm h s N), <- (ni_name nm h s N) in H. apply (xi_name self s I) in H as (x & -> & _). eauto.
Qed.
