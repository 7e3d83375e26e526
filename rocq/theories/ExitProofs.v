(* Leaving the process: BeforeExit (C97); Defer and CloseChanel (C98). *)
From Verif Require Export SpecExit CtxFacts.

(* the states of a process with one BeforeExit call; [done] hooks have returned *)
Definition xinv (hs : list hook) (stepped : Prop) (p : proc) : Prop :=
  exists ph, pr_waiters p = [Waiter hs ph] /\
  match ph with
  | BNew => ~ stepped /\ pr_ran p = [] /\ pr_end p <> Some ByExit
  | BNotified | BWaiting => stepped /\ pr_ran p = [] /\ pr_end p = None
  | BRunning l => stepped /\ exists done, hs = done ++ l /\ pr_ran p = names done /\ no_panic done /\ pr_end p <> Some BySignal /\ (pr_end p = Some ByExit -> l = [])
  | BGone => stepped /\ pr_end p = None /\ exists done h r, hs = done ++ h :: r /\ no_panic done /\ h_panics h = true /\ pr_ran p = names (done ++ [h])
  end.

Lemma no_panic_snoc done h : no_panic done -> h_panics h = false -> no_panic (done ++ [h]).
Proof. intros N H x X. apply in_app_or in X. destruct X as [X|[<-|[]]]; auto. Qed.

Lemma xinv_step hs st p o p' : (match o with PCall _ => False | PSignal SigKill => False | _ => True end) -> xinv hs st p -> pstep p o = Some p' -> xinv hs (st \/ o = PStep 0) p'.
Proof.
  intros Ho (ph & Hw & I) H. unfold pstep in H. destruct (pr_end p) eqn:En; [discriminate|]. destruct o as [hs'|i|sg]; [destruct Ho| |].
  - rewrite Hw in H. destruct i as [|i]; [|destruct i; discriminate H]. cbn [nth_error upd] in H. destruct ph as [| | |[|h l]|]; try discriminate H; injection H as <-.
    + exists BNotified. cbn. destruct I as (? & ? & ?). auto.
    + exists BWaiting. cbn. destruct I as (? & ? & ?). auto.
    + exists (BRunning []). cbn. split; [auto|]. destruct I as (_ & done & E & R & N & _). split; auto. exists done. repeat split; auto. discriminate.
    + destruct I as (_ & done & E & R & N & _). destruct (h_panics h) eqn:P.
      * exists BGone. cbn. split; auto. split; auto. split; auto. exists done, h, l. repeat split; auto. rewrite R. unfold names. rewrite map_app. reflexivity.
      * exists (BRunning l). cbn. split; auto. split; auto. exists (done ++ [h]). split; [rewrite <- app_assoc; exact E|]. split; [rewrite R; unfold names; rewrite map_app; reflexivity|].
        split; [apply no_panic_snoc; auto|]. split; discriminate.
  - destruct sg; [| | |destruct Ho]; rewrite Hw in H; cbn [existsb notified b_phase map wake b_hooks orb] in H; destruct ph as [| | |l|]; cbn in H; injection H as <-.
    1,6,11: exists BNew; cbn; split; [auto|]; destruct I as (? & ? & ?); split; [intros [?|?]; [auto|discriminate]|]; split; [auto|discriminate].
    1,5,9: exists BNotified; cbn; destruct I as (? & ? & ?); auto.
    1,4,7: exists (BRunning hs); cbn; destruct I as (? & R & ?); split; [auto|]; split; [auto|]; exists []; repeat split; auto; [intros x []|discriminate|discriminate].
    1,3,5: exists (BRunning l); cbn; destruct I as (? & done & E & R & N & _); split; [auto|]; split; [auto|]; exists done; repeat split; auto; discriminate.
    all: exists BGone; cbn; destruct I as (? & ? & X); auto.
Qed.

Lemma xinv_run hs : forall l st p p', (forall hs', ~ In (PCall hs') l) -> catchable l -> xinv hs st p -> prun p l = Some p' -> xinv hs (st \/ In (PStep 0) l) p'.
Proof.
  induction l as [|o l IH]; intros st p p' C K I H; cbn in H.
  - injection H as <-. destruct I as (ph & Hw & I). exists ph. split; auto. destruct ph; tauto.
  - destruct (pstep p o) as [p1|] eqn:E; [|discriminate]. assert (Ho : match o with PCall _ => False | PSignal SigKill => False | _ => True end).
    { destruct o as [hs'|i|[]]; auto; [apply (C hs'); left; auto|apply K; left; auto]. }
    pose proof (xinv_step hs st p o p1 Ho I E) as I1. apply (IH _ _ p') in I1; auto; [|intros hs' X; apply (C hs'); right; auto|intros X; apply K; right; auto].
    destruct I1 as (ph & Hw & I1). exists ph. split; auto. assert (Q : (st \/ o = PStep 0) \/ In (PStep 0) l <-> st \/ In (PStep 0) (o :: l)) by (cbn; tauto).
    destruct ph; tauto.
Qed.

Lemma xinv_init hs : xinv hs False (Proc [Waiter hs BNew] [] None).
Proof. exists BNew. cbn. split; [reflexivity|]. split; [auto|]. split; [reflexivity|discriminate]. Qed.

Lemma names_prefix a b : begins (names a) (names (a ++ b)).
Proof. exists (names b). unfold names. apply map_app. Qed.

Lemma p_C97_one_call_partial : forall hs l p, no_panic hs -> (forall hs', ~ In (PCall hs') l) -> catchable l ->
  prun proc0 (PCall hs :: l) = Some p ->
  begins (pr_ran p) (names hs) /\ (pr_end p = Some ByExit -> pr_ran p = names hs) /\ (pr_end p = Some BySignal -> ~ In (PStep 0) l).
Proof.
  intros hs l p N C K H. cbn in H. destruct (xinv_run hs l _ _ _ C K (xinv_init hs) H) as (ph & Hw & I). destruct ph as [| | |r|].
  - destruct I as (NS & R & E). rewrite R. split; [exists (names hs); reflexivity|]. split; [intros X; contradiction|auto].
  - destruct I as (_ & R & E). rewrite R, E. split; [exists (names hs); reflexivity|]. split; [discriminate|discriminate].
  - destruct I as (_ & R & E). rewrite R, E. split; [exists (names hs); reflexivity|]. split; [discriminate|discriminate].
  - destruct I as (_ & done & -> & R & _ & E1 & E2). rewrite R. split; [apply names_prefix|]. split; [|intros X; contradiction]. intros X. rewrite (E2 X), app_nil_r. reflexivity.
  - destruct I as (_ & _ & done & h & r & -> & _ & P & _). rewrite (N h) in P; [discriminate|]. apply in_or_app. right. left. reflexivity.
Qed.

Lemma run_hooks hs0 : forall hs ran, no_panic hs -> prun (Proc [Waiter hs0 (BRunning hs)] ran None) (repeat (PStep 0) (S (List.length hs))) =
  Some (Proc [Waiter hs0 (BRunning [])] (ran ++ names hs) (Some ByExit)).
Proof.
  induction hs as [|h hs IH]; intros ran N; [cbn; rewrite app_nil_r; reflexivity|]. cbn [List.length]. change (repeat (PStep 0) (S (S (List.length hs)))) with (PStep 0 :: repeat (PStep 0) (S (List.length hs))).
  remember (repeat (PStep 0) (S (List.length hs))) as tl. cbn [prun pstep pr_end pr_waiters nth_error upd pr_ran].
  rewrite (N h) by (left; auto). rewrite IH by (intros x X; apply N; right; auto). cbn [names map]. rewrite <- app_assoc. reflexivity.
Qed.

Lemma p_C97_signal_exits : forall hs sg, no_panic hs -> sg <> SigKill ->
  exists p, prun proc0 ([PCall hs; PStep 0; PStep 0; PSignal sg] ++ repeat (PStep 0) (S (List.length hs))) = Some p /\ pr_end p = Some ByExit /\ pr_ran p = names hs.
Proof.
  intros hs sg N K. eexists. split; [|shelve]. cbn [app prun pstep proc0 pr_end pr_waiters pr_ran nth_error upd b_phase]. destruct sg; [| | |contradiction];
    cbn [existsb notified b_phase orb map wake b_hooks]; rewrite run_hooks by exact N; reflexivity.
  Unshelve. split; reflexivity.
Qed.

Lemma p_C97_panic_refuted : forall hs1 h hs2 l p, no_panic hs1 -> h_panics h = true -> (forall hs', ~ In (PCall hs') l) -> catchable l ->
  prun proc0 (PCall (hs1 ++ h :: hs2) :: l) = Some p ->
  pr_end p <> Some ByExit /\ begins (pr_ran p) (names (hs1 ++ [h])) /\ (pr_ran p = names (hs1 ++ [h]) -> pr_end p = None).
Proof.
  intros hs1 h hs2 l p N P C K H. cbn in H. destruct (xinv_run _ l _ _ _ C K (xinv_init _) H) as (ph & Hw & I).
  assert (Z : [] <> names (hs1 ++ [h])) by (unfold names; rewrite map_app; destruct (map h_name hs1); discriminate).
  assert (Pre : forall done r, no_panic done -> hs1 ++ h :: hs2 = done ++ r -> exists u, hs1 = done ++ u).
  { clear - P. induction hs1 as [|x hs1 IH]; intros [|d done] r ND E; cbn in E; try (eexists; reflexivity).
    - injection E as -> _. rewrite (ND d) in P by (left; auto). discriminate.
    - injection E as -> E. destruct (IH done r) as (u & ->); auto; [intros y Y; apply ND; right; auto|]. exists u. reflexivity. }
  destruct ph as [| | |r|].
  - destruct I as (_ & R & E). rewrite R. split; auto. split; [exists (names (hs1 ++ [h])); reflexivity|intros X; contradiction].
  - destruct I as (_ & R & E). rewrite R, E. split; [discriminate|]. split; [exists (names (hs1 ++ [h])); reflexivity|auto].
  - destruct I as (_ & R & E). rewrite R, E. split; [discriminate|]. split; [exists (names (hs1 ++ [h])); reflexivity|auto].
  - destruct I as (_ & done & E & R & ND & E1 & E2). destruct (Pre done r ND E) as (u & ->). rewrite R. split; [|split].
    + intros X. rewrite (E2 X), app_nil_r in E. rewrite <- app_assoc in E. pose proof (f_equal (@List.length _) E) as Y. rewrite !app_length in Y. cbn in Y. lia.
    + rewrite <- app_assoc. apply names_prefix.
    + intros X. exfalso. pose proof (f_equal (@List.length _) X) as Y. unfold names in Y. rewrite !map_length, !app_length in Y. cbn in Y. lia.
  - destruct I as (_ & E & done & h' & r & E' & ND & P' & R). split; [rewrite E; discriminate|]. split; [|auto].
    destruct (Pre done (h' :: r) ND E') as (u & Hu). subst hs1. rewrite R. destruct u as [|x u].
    + rewrite app_nil_r in E'. rewrite app_nil_r. apply app_inv_head in E'.
      exists []. rewrite app_nil_r. f_equal. injection E' as -> _. reflexivity.
    + rewrite <- app_assoc in E'. apply app_inv_head in E'. cbn in E'. injection E' as -> _. rewrite (N h') in P'; [discriminate|]. apply in_or_app. right. left. reflexivity.
Qed.

Lemma p_C97_too_early_refuted : forall hss sg, exists p, prun proc0 (map PCall hss ++ [PSignal sg]) = Some p /\ pr_ran p = [] /\ pr_end p = Some BySignal.
Proof.
  intros hss sg. assert (X : forall hss ws, existsb notified ws = false -> exists ws', prun (Proc ws [] None) (map PCall hss ++ [PSignal sg]) = Some (Proc ws' [] (Some BySignal))).
  { clear hss. induction hss as [|hs hss IH]; intros ws N; cbn [map app prun pstep pr_end pr_waiters pr_ran].
    - rewrite N. destruct sg; eexists; reflexivity.
    - apply IH. rewrite existsb_app, N. reflexivity. }
  destruct (X hss [] eq_refl) as (ws' & E). eexists. split; [exact E|]. split; reflexivity.
Qed.

Lemma p_C97_dropped_refuted : forall hs sg, sg <> SigKill ->
  exists p, prun proc0 [PCall hs; PStep 0; PSignal sg; PStep 0] = Some p /\ pr_ran p = [] /\ pr_end p = None /\ forall i, pstep p (PStep i) = None.
Proof.
  intros hs sg K. destruct sg; [| | |contradiction]; (eexists; split; [reflexivity|]; split; [reflexivity|]; split; [reflexivity|]; intros [|[|i]]; reflexivity).
Qed.

Lemma p_C97_two_calls_refuted : forall hs1 hs2 sg, no_panic hs1 -> sg <> SigKill ->
  exists p, prun proc0 ([PCall hs1; PCall hs2; PStep 0; PStep 0; PStep 1; PStep 1; PSignal sg] ++ repeat (PStep 0) (S (List.length hs1))) = Some p /\
    pr_end p = Some ByExit /\ pr_ran p = names hs1.
Proof.
  intros hs1 hs2 sg N K. assert (R : forall hs ran w, no_panic hs -> prun (Proc [Waiter hs1 (BRunning hs); w] ran None) (repeat (PStep 0) (S (List.length hs))) = Some (Proc [Waiter hs1 (BRunning []); w] (ran ++ names hs) (Some ByExit))).
  { induction hs as [|h hs IH]; intros ran w M; [cbn; rewrite app_nil_r; reflexivity|]. cbn [List.length]. change (repeat (PStep 0) (S (S (List.length hs)))) with (PStep 0 :: repeat (PStep 0) (S (List.length hs))).
  remember (repeat (PStep 0) (S (List.length hs))) as tl. cbn [prun pstep pr_end pr_waiters nth_error upd pr_ran].
    rewrite (M h) by (left; auto). rewrite IH by (intros x X; apply M; right; auto). cbn [names map]. rewrite <- app_assoc. reflexivity. }
  eexists. split; [|shelve]. cbn [app prun pstep proc0 pr_end pr_waiters pr_ran nth_error upd b_phase]. destruct sg; [| | |contradiction];
    cbn [existsb notified b_phase orb map wake b_hooks]; rewrite R by exact N; reflexivity.
  Unshelve. split; reflexivity.
Qed.

Lemma p_C97_sigkill_refuted : forall p, pr_end p = None -> exists p', pstep p (PSignal SigKill) = Some p' /\ pr_ran p' = pr_ran p /\ pr_end p' = Some BySignal.
Proof. intros p E. eexists. unfold pstep. rewrite E. repeat split. Qed.

Lemma call_all {V} (hs : list (V -> outcome V)) v : forall i, (forall h, In h hs -> h v = Returns) -> call_handlers hs v i = (map (fun j => (j, v)) (seq i (List.length hs)), Returns).
Proof.
  induction hs as [|h hs IH]; intros i H; cbn; auto. rewrite (H h) by (left; auto). rewrite IH by (intros x X; apply H; right; auto). reflexivity.
Qed.

Lemma p_C98_defer_partial : forall {V} (f : outcome V) hs, (forall h v, In h hs -> h v = Returns) ->
  snd (Defer f hs) = Returns /\ (forall v, f = Panics (Some v) -> fst (Defer f hs) = map (fun j => (j, v)) (seq 0 (List.length hs))) /\
  (f = Returns -> fst (Defer f hs) = []).
Proof.
  intros V f hs H. destruct f as [|[v|]]; cbn.
  - repeat split; auto. discriminate.
  - rewrite call_all by (intros h X; apply H; exact X). cbn. repeat split; [intros w E; injection E as ->; reflexivity|discriminate].
  - repeat split; auto; discriminate.
Qed.

Lemma p_C98_handler_panics_refuted : forall {V} v hs1 (h : V -> outcome V) hs2 e, (forall x, In x hs1 -> x v = Returns) -> h v = Panics e ->
  Defer (Panics (Some v)) (hs1 ++ h :: hs2) = (map (fun j => (j, v)) (seq 0 (S (List.length hs1))), Panics e).
Proof.
  intros V v hs1 h hs2 e H P. cbn [Defer]. generalize 0%nat as i. induction hs1 as [|x hs1 IH]; intros i; cbn.
  - rewrite P. reflexivity.
  - rewrite (H x) by (left; auto). rewrite IH by (intros y Y; apply H; right; auto). reflexivity.
Qed.

Lemma p_C98_nil_panic_refuted : forall {V} (hs : list (V -> outcome V)), Defer (Panics None) hs = ([], Returns).
Proof. reflexivity. Qed.

Lemma p_C98_closechanel : forall {V} (f : outcome V), CloseChanel f = Returns.
Proof. reflexivity. Qed.
