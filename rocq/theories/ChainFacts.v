(* Facts about the chain machine. *)
From Verif Require Export SpecChain.
From Coq Require Import Lia.

(* after an Abort in the trace, no handler is entered *)
Definition quiet (t : list ev) : Prop := forall a b, t = a ++ EAbort :: b -> entered b = [].

Lemma entered_app a b : entered (a ++ b) = entered a ++ entered b.
Proof. apply flat_map_app. Qed.

Lemma quiet_none t : ~ In EAbort t -> quiet t.
Proof. intros H a b E. subst. exfalso. apply H. apply in_or_app. right. now left. Qed.

Lemma quiet_calm t : entered t = [] -> quiet t.
Proof.
  intros H a b E. subst. rewrite entered_app in H. apply app_eq_nil in H as [_ H]. exact H.
Qed.

Lemma quiet_app t1 t2 : quiet t1 -> quiet t2 -> (In EAbort t1 -> entered t2 = []) -> quiet (t1 ++ t2).
Proof.
  intros Q1 Q2 H a b E.
  assert (D : (exists l, t1 = a ++ EAbort :: l /\ b = l ++ t2) \/ (exists l, t2 = l ++ EAbort :: b)).
  { clear - E. revert a E. induction t1 as [|x t1 IH]; intros a E; simpl in *.
    - right. exists a. auto.
    - destruct a as [|y a]; simpl in E; inversion E; subst.
      + left. exists t1. auto.
      + destruct (IH a H1) as [(l & -> & ->)|(l & ->)].
        * left. exists l. auto.
        * right. now exists l. }
  destruct D as [(l & -> & ->)|(l & ->)].
  - rewrite entered_app. rewrite (Q1 a l eq_refl). apply H. apply in_or_app. right. now left.
  - apply (Q2 l b eq_refl).
Qed.

Lemma quiet_cons e t : (e = EAbort -> entered t = []) -> quiet t -> quiet (e :: t).
Proof.
  intros H Q. change (e :: t) with ([e] ++ t). apply quiet_app; auto.
  - intros [|x a] b E; inversion E; subst; auto. now destruct a.
  - intros [E|[]]. auto.
Qed.

Section Facts.
  Context (c : chain).
  Let hs := ch_handlers c.
  Let n := Z.of_nat (List.length hs).

  Definition rest_at (off : Z) : list nat := skipn (Z.to_nat (off + 1)) hs.

  Lemma rest_end off : n <= off + 1 -> 0 <= off + 1 -> rest_at off = [].
  Proof. intros H H0. apply skipn_all2. unfold n in H. lia. Qed.

  Lemma rest_cons off h : 0 <= off -> nth_error hs (Z.to_nat off) = Some h ->
    rest_at (off - 1) = h :: rest_at off.
  Proof.
    intros H E. unfold rest_at. replace (off - 1 + 1) with off by lia.
    replace (Z.to_nat (off + 1)) with (S (Z.to_nat off)) by lia.
    clear H. revert E. generalize (Z.to_nat off) as k. generalize hs as l.
    induction l as [|a l IH]; intros [|k] E; simpl in *; try discriminate.
    - now inversion E.
    - now apply IH.
  Qed.

  Definition good (off o : Z) (t : list ev) : Prop :=
    (ABORT <= off -> ABORT <= o /\ entered t = []) /\ (In EAbort t -> ABORT <= o) /\ quiet t.

  Lemma good_app off o1 o2 t1 t2 : good off o1 t1 -> good o1 o2 t2 -> good off o2 (t1 ++ t2).
  Proof.
    intros (A & B & C) (A' & B' & C'). split; [|split].
    - intros H. destruct (A H) as [H1 H2]. destruct (A' H1) as [H3 H4].
      split; auto. now rewrite entered_app, H2, H4.
    - intros H. apply in_app_or in H as [H|H]; auto. apply A'. auto.
    - apply quiet_app; auto. intros H. apply A'. auto.
  Qed.

  Lemma good_step off o : (ABORT <= off -> ABORT <= o) -> good off o [].
  Proof. intros H. split; [auto|split]. - intros []. - intros [|] b E; discriminate. Qed.

  Definition loop_ok (f : nat) := forall off, 0 <= off -> n - off + 1 <= Z.of_nat f -> (1 <= f)%nat ->
    exists t s o, loop c f off = Some (t, s, o) /\ (off <= ABORT -> off <= o) /\ good off o t
      /\ (n <= ABORT -> gin_chain (ch_beh c) (rest_at (off - 1)) t s (rest_at o)).

  Lemma exec_ok f i : loop_ok f -> 0 <= i <= ABORT -> n - i <= Z.of_nat f -> (1 <= f)%nat ->
    forall acts off, i <= off -> exists t s o,
      exec (fun o => loop c f (o + 1)) acts off = Some (t, s, o) /\ i <= o /\ good off o t
      /\ (n <= ABORT -> gin_body (ch_beh c) acts (rest_at off) t s (rest_at o)).
  Proof.
    intros HL Hi Hf Hf1. induction acts as [|a acts IH]; intros off Ho.
    - exists [], Returned, off. split; [auto|]. split; [auto|]. split; [now apply good_step|].
      intros _. constructor.
    - assert (N : exists t1 s1 o1, loop c f (off + 1) = Some (t1, s1, o1) /\ i <= o1 /\ good off o1 t1 /\
        (n <= ABORT -> gin_chain (ch_beh c) (rest_at off) t1 s1 (rest_at o1))).
      { destruct (HL (off + 1)) as (t1 & s1 & o1 & E & A & G & C); [lia|lia|auto|].
        replace (off + 1 - 1) with off in C by lia.
        exists t1, s1, o1. split; [auto|]. split; [|split]; auto.
        - destruct G as (G & _). destruct (Z_le_gt_dec (off + 1) ABORT); lia.
        - change t1 with ([] ++ t1). apply good_app with (o1 := off + 1); auto. apply good_step. lia. }
      destruct a; simpl.
      + destruct (IH off Ho) as (t & s & o & E & A & G & C). rewrite E.
        exists (EEff n0 :: t), s, o. split; [auto|]. split; [auto|]. split.
        * destruct G as (G1 & G2 & G3). split; [auto|]. split.
          -- intros [D|D]; [discriminate|auto].
          -- apply quiet_cons; auto. discriminate.
        * intros; constructor; auto.
      + destruct N as (t1 & s1 & o1 & E & A & G & C). rewrite E. destruct s1.
        * destruct (IH o1) as (t2 & s2 & o2 & E2 & A2 & G2 & C2); auto. rewrite E2.
          exists (t1 ++ t2), s2, o2. split; [auto|]. split; [auto|]. split; [eapply good_app; eauto|].
          intros Hn. econstructor; eauto.
        * exists t1, Panicked, o1. split; [auto|]. split; [auto|]. split; [auto|].
          intros Hn. constructor. auto.
      + destruct N as (t1 & s1 & o1 & E & A & G & C). rewrite E.
        destruct (IH o1) as (t2 & s2 & o2 & E2 & A2 & G2 & C2); auto. rewrite E2.
        exists (t1 ++ t2), s2, o2. split; [auto|]. split; [auto|]. split; [eapply good_app; eauto|].
        intros Hn. econstructor; eauto.
      + destruct (IH ABORT) as (t & s & o & E & A & G & C); [lia|]. rewrite E.
        exists (EAbort :: t), s, o. split; [auto|]. split; [lia|]. split.
        * destruct G as (G1 & G2 & G3). destruct G1 as [G1 G1']; [lia|].
          split; [auto|]. split; [auto|]. apply quiet_cons; auto.
        * intros Hn. constructor. specialize (C Hn).
          now rewrite (rest_end ABORT) in C by (unfold ABORT in *; lia).
      + exists [], Panicked, off. split; [auto|]. split; [auto|]. split; [now apply good_step|].
        intros _. constructor.
  Qed.

  Lemma loop_all_ok f : loop_ok f.
  Proof.
    induction f as [|f IH]; intros off H0 Hf H1; [lia|]. simpl. fold hs. fold n.
    destruct (off <? n) eqn:L; [apply Z.ltb_lt in L|apply Z.ltb_ge in L].
    - destruct (ABORT <=? off) eqn:A; [apply Z.leb_le in A|apply Z.leb_gt in A].
      + exists [], Returned, off. split; [auto|]. split; [lia|]. split; [now apply good_step|]. intros; exfalso; lia.
      + destruct (nth_error hs (Z.to_nat off)) as [h|] eqn:E.
        2:{ apply nth_error_None in E. unfold n in L. lia. }
        rewrite (rest_cons off h H0 E).
        destruct (exec_ok f off IH ltac:(lia) ltac:(lia) ltac:(lia) (ch_beh c h) off ltac:(lia))
          as (t1 & s1 & o1 & E1 & A1 & G1 & C1). rewrite E1.
        assert (GE : forall t o, good off o t -> good off o (EEnter h :: t)).
        { intros t o (P & Q & R). split; [lia|]. split.
          - intros [D|D]; [discriminate|auto].
          - apply quiet_cons; auto. discriminate. }
        destruct s1.
        * destruct (IH (o1 + 1)) as (t2 & s2 & o2 & E2 & A2 & G2 & C2); [lia|lia|lia|].
          rewrite E2. exists (EEnter h :: t1 ++ t2), s2, o2. split; [auto|]. split; [|split].
          -- intros _. destruct G2 as (G2 & _). destruct (Z_le_gt_dec (o1 + 1) ABORT); lia.
          -- apply GE. eapply good_app; eauto. change t2 with ([] ++ t2).
             apply good_app with (o1 := o1 + 1); auto. apply good_step. lia.
          -- intros Hn. replace (o1 + 1 - 1) with o1 in C2 by lia. econstructor; eauto.
        * exists (EEnter h :: t1), Panicked, o1. split; [auto|]. split; [auto|]. split; [auto|].
          intros Hn. constructor. auto.
    - exists [], Returned, off. split; [auto|]. split; [lia|]. split; [now apply good_step|].
      intros _. rewrite !rest_end by lia. constructor.
  Qed.

  Lemma run_chain_ok : exists t s o, run_chain c = Some (t, s, o) /\ quiet t /\
    (n <= ABORT -> gin_chain (ch_beh c) hs t s (rest_at o)).
  Proof.
    unfold run_chain. fold hs.
    destruct (loop_all_ok (List.length hs + 2)%nat (-1 + 1)) as (t & s & o & E & _ & (_ & _ & G) & C).
    - lia.
    - unfold n. lia.
    - lia.
    - exists t, s, o. split; [auto|]. split; auto.
  Qed.
End Facts.

(* the reference is deterministic *)
Lemma gin_det beh :
  (forall hs t s r, gin_chain beh hs t s r -> forall t' s' r', gin_chain beh hs t' s' r' -> t = t' /\ s = s' /\ r = r') /\
  (forall a hs t s r, gin_body beh a hs t s r -> forall t' s' r', gin_body beh a hs t' s' r' -> t = t' /\ s = s' /\ r = r').
Proof.
  Ltac use_ih := repeat match goal with
    | IH : (forall t' s' r', _ -> _ = t' /\ _ = s' /\ _ = r'), H : _ |- _ =>
        let X := fresh in pose proof (IH _ _ _ H) as X; clear IH; destruct X as (? & ? & ?); subst; try discriminate
    end.
  apply gin_mut; intros;
    match goal with H : gin_chain _ _ ?t' ?s' ?r' |- _ = ?t' /\ _ => inversion H; subst
                  | H : gin_body _ _ _ ?t' ?s' ?r' |- _ = ?t' /\ _ => inversion H; subst end;
    use_ih; auto.
Qed.

(* in the reference, as long as no Abort happens, what was entered and what is left make up
   the chain, and nothing is left after a normal return *)
Lemma gin_all beh :
  (forall hs t s r, gin_chain beh hs t s r -> ~ In EAbort t -> hs = entered t ++ r /\ (s = Returned -> r = [])) /\
  (forall a hs t s r, gin_body beh a hs t s r -> ~ In EAbort t -> hs = entered t ++ r).
Proof.
  apply gin_mut.
  - auto.
  - intros h hs t1 rest t2 st rest' _ IH1 _ IH2 N. simpl in N.
    assert (N1 : ~ In EAbort t1) by (intros D; apply N; right; apply in_or_app; auto).
    assert (N2 : ~ In EAbort t2) by (intros D; apply N; right; apply in_or_app; auto).
    destruct (IH2 N2) as [E2 R]. split; auto.
    simpl. fold (entered (t1 ++ t2)). rewrite entered_app, <- app_assoc, <- E2, <- IH1 by auto. reflexivity.
  - intros h hs t1 rest _ IH1 N. simpl in N. split; [|discriminate].
    simpl. fold (entered t1). rewrite <- IH1; auto.
  - auto.
  - intros n r rest t st rest' _ IH N. simpl in N. apply IH. auto.
  - intros r rest t1 rest1 t2 st rest' _ IH1 _ IH2 N.
    assert (N1 : ~ In EAbort t1) by (intros D; apply N; apply in_or_app; auto).
    assert (N2 : ~ In EAbort t2) by (intros D; apply N; apply in_or_app; auto).
    destruct (IH1 N1) as [E1 _]. rewrite entered_app, <- app_assoc, <- IH2 by auto. exact E1.
  - intros r rest t1 rest1 _ IH N. apply IH. exact N.
  - intros r rest t1 st1 rest1 t2 st rest' _ IH1 _ IH2 N.
    assert (N1 : ~ In EAbort t1) by (intros D; apply N; apply in_or_app; auto).
    assert (N2 : ~ In EAbort t2) by (intros D; apply N; apply in_or_app; auto).
    destruct (IH1 N1) as [E1 _]. rewrite entered_app, <- app_assoc, <- IH2 by auto. exact E1.
  - intros r rest t st rest' _ _ N. exfalso. apply N. now left.
  - auto.
Qed.

(* if handlers neither abort nor panic, the trace has no Abort and the chain returns *)
Lemma gin_clean beh :
  (forall hs t s r, gin_chain beh hs t s r ->
     (forall h, In h hs -> ~ In AAbort (beh h) /\ ~ In APanic (beh h)) ->
     s = Returned /\ ~ In EAbort t /\ incl r hs) /\
  (forall a hs t s r, gin_body beh a hs t s r ->
     (forall h, In h hs -> ~ In AAbort (beh h) /\ ~ In APanic (beh h)) ->
     ~ In AAbort a -> ~ In APanic a ->
     s = Returned /\ ~ In EAbort t /\ incl r hs).
Proof.
  apply gin_mut.
  - intros _. repeat split; auto. intros x [].
  - intros h hs t1 rest t2 st rest' _ IH1 _ IH2 Hh.
    assert (Hh' : forall x, In x hs -> ~ In AAbort (beh x) /\ ~ In APanic (beh x)) by (intros; apply Hh; now right).
    destruct (Hh h (or_introl eq_refl)) as [Ha Hp].
    destruct (IH1 Hh' Ha Hp) as (_ & N1 & I1).
    destruct IH2 as (-> & N2 & I2). { intros x Hx. apply Hh'. auto. }
    split; [auto|]. split.
    + intros [D|D]; [discriminate|]. apply in_app_or in D as [D|D]; auto.
    + intros x Hx. right. auto.
  - intros h hs t1 rest _ IH1 Hh.
    assert (Hh' : forall x, In x hs -> ~ In AAbort (beh x) /\ ~ In APanic (beh x)) by (intros; apply Hh; now right).
    destruct (Hh h (or_introl eq_refl)) as [Ha Hp].
    destruct (IH1 Hh' Ha Hp) as (D & _). discriminate.
  - intros rest _ _ _. split; [auto|]. split; [auto|]. apply incl_refl.
  - intros n r rest t st rest' _ IH Hh Ha Hp. simpl in Ha, Hp.
    destruct IH as (-> & N & I); auto. split; [auto|]. split; auto. intros [D|D]; [discriminate|auto].
  - intros r rest t1 rest1 t2 st rest' _ IH1 _ IH2 Hh Ha Hp. simpl in Ha, Hp.
    destruct (IH1 Hh) as (_ & N1 & I1). destruct IH2 as (-> & N2 & I2); auto.
    split; [auto|]. split.
    + intros D. apply in_app_or in D as [D|D]; auto.
    + eapply incl_tran; eauto.
  - intros r rest t1 rest1 _ IH Hh. destruct (IH Hh) as (D & _). discriminate.
  - intros r rest t1 st1 rest1 t2 st rest' _ IH1 _ IH2 Hh Ha Hp. simpl in Ha, Hp.
    destruct (IH1 Hh) as (_ & N1 & I1). destruct IH2 as (-> & N2 & I2); auto.
    split; [auto|]. split.
    + intros D. apply in_app_or in D as [D|D]; auto.
    + eapply incl_tran; eauto.
  - intros r rest t st rest' _ _ _ Ha. exfalso. apply Ha. now left.
  - intros r rest _ _ Hp. exfalso. apply Hp. now left.
Qed.
