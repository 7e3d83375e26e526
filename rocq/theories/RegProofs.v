(* Registering handlers while the server runs: the documented lock (C86), what requests see (C87). NODEMO *)
From Verif Require Export SpecReg SpecMux MuxFacts BaseFacts MuxProofs.

(* what the rest of a call leads to when nothing else happens *)
Fixpoint mexec (p : list mi) (m : mux) : mux :=
  match p with
  | [] => m
  | MLock :: p | MUnlock :: p => mexec p m
  | MAcc _ _ eff :: p => if snd (eff m) then fst (eff m) else mexec p (fst (eff m))
  end.

Fixpoint wfp (k : bool) (p : list mi) : Prop :=
  match p with
  | [] => k = false
  | MLock :: p => k = false /\ wfp true p
  | MUnlock :: p => k = true /\ wfp false p
  | MAcc _ _ _ :: p => wfp k p
  end.

Definition lk (k : bool) : rlock := if k then KWrite else KFree.

Lemma wfp_app k p q : wfp k p -> wfp false q -> wfp k (p ++ q).
Proof.
  revert k. induction p as [|i p IH]; intros k W Q; cbn in *; [subst; exact Q|].
  destruct i; [destruct W; split; auto|destruct W; split; auto|auto].
Qed.

Lemma wfp_add id ms f : wfp false (prog_add id ms f).
Proof. unfold prog_add. destruct ms; cbn; repeat split. Qed.

Lemma wfp_prog o m : wfp false (prog o m).
Proof.
  destruct o; cbn [prog wfp]; try (cbn; repeat split; fail); try apply wfp_add.
  - destruct (aget k (m_amap m)); [destruct (callUse a (next_index m))|destruct (callUse _ (next_index m))]; cbn; repeat split.
  - destruct (aget k (m_amap m)); [|cbn; auto]. destruct (callUnUse a (next_index m)); cbn; repeat split.
  - destruct l as [|x [|y l]]; cbn; repeat split.
  - destruct on; [apply wfp_add|cbn; auto].
  - destruct yes; [apply wfp_add|cbn; auto].
Qed.

Lemma mexec_app p q m : mexec (p ++ q) m = mexec p m \/ mexec (p ++ q) m = mexec q (mexec p m).
Proof.
  revert m. induction p as [|i p IH]; intros m; cbn; auto. destruct i; auto. destruct (snd (eff m)); auto.
Qed.

Lemma mexec_add id ms f m : mexec (prog_add id ms f) m = fst (AddHandler id ms f m).
Proof.
  unfold prog_add, AddHandler, andthen. destruct ms as [|x ms]; cbn [app locked mexec mtick].
  - cbn [ok snd fst]. unfold AddHandleFunc. destruct (ahas id (m_handlers m)); cbn; auto. unfold AddMessageIDAnchor, next_index. cbn.
    destruct (ahas id (m_ids m)); cbn; reflexivity.
  - unfold AddSelf. destruct (ahas id (m_self m)); cbn; auto. unfold AddHandleFunc. cbn. destruct (ahas id (m_handlers m)); cbn; auto.
    unfold AddMessageIDAnchor, next_index. cbn. destruct (ahas id (m_ids m)); cbn; reflexivity.
Qed.

Lemma mexec_prog o m : mexec (prog o m) m = fst (step o m).
Proof.
  destruct o; cbn [prog step mexec locked]; try reflexivity; try apply mexec_add.
  - unfold Use, use_pairs, use1. cbn [List.length Nat.even]. cbn [mtick mexec ok snd fst].
    destruct (aget k (m_amap m)) as [a|] eqn:A.
    + destruct (callUse a (next_index m)) as [a'|] eqn:B; cbn; reflexivity.
    + destruct (callUse _ (next_index m)) as [a'|] eqn:B; cbn; reflexivity.
  - unfold UnUse, unuse1. destruct (aget k (m_amap m)) as [a|] eqn:A; [|reflexivity]. cbn [mtick mexec ok snd fst].
    destruct (callUnUse a (next_index m)) as [a'|] eqn:B; [|reflexivity]. unfold andthen. cbn [mexec locked].
    destruct (replace_middleware a' (tick m)) as [m' [|]]; reflexivity.
  - destruct l as [|x [|y l]]; [reflexivity| |]; cbn; unfold AddURLAnchor, next_index; cbn.
    + destruct (ahas p _); reflexivity.
    + destruct (ahas p _); reflexivity.
  - unfold HeartBeatModeDetail. destruct on; [apply mexec_add|reflexivity].
  - unfold WithAuthDetail. destruct yes; [apply mexec_add|reflexivity].
Qed.

Lemma ms_trans s1 s2 s3 : msteps s1 s2 -> msteps s2 s3 -> msteps s1 s3.
Proof. induction 1; auto. intros H1. eapply ms_more; [eassumption|auto]. Qed.

Lemma ms_snoc s1 s2 s3 : msteps s1 s2 -> mstep s2 s3 -> msteps s1 s3.
Proof. intros A B. eapply ms_trans; [exact A|]. eapply ms_more; [exact B|apply ms_refl]. Qed.

(* the registering goroutine on its own *)
Lemma solo p m k cs sv rq : wfp k p -> msteps (MR m (lk k) p cs sv rq) (MR (mexec p m) KFree [] cs sv rq).
Proof.
  revert m k. induction p as [|i p IH]; intros m k W; cbn in *; [subst; apply ms_refl|]. destruct i.
  - destruct W as (-> & W). eapply ms_more; [|apply (IH m true W)]. apply (m_lock (MR _ _ _ _ _ _)); reflexivity.
  - destruct W as (-> & W). eapply ms_more; [|apply (IH m false W)]. apply (m_unlock (MR _ _ _ _ _ _)); reflexivity.
  - eapply ms_more; [eapply (m_acc (MR _ _ _ _ _ _)); reflexivity|]. cbn [r_mux r_lock r_prog r_calls r_serving r_reqs].
    destruct (snd (eff m)); [|apply IH, W]. destruct k; cbn [lk]; [|apply ms_refl].
    eapply ms_more; [apply (m_unlock (MR _ _ _ _ _ _)); reflexivity|]. apply ms_refl.
Qed.

Lemma solo_call o m cs sv rq : msteps (MR m KFree [] (MReg o :: cs) sv rq) (MR (fst (step o m)) KFree [] cs sv rq).
Proof.
  eapply ms_more; [eapply (m_call (MR _ _ _ _ _ _)); reflexivity|]. cbn [r_mux r_lock r_prog r_calls r_serving r_reqs].
  rewrite <- mexec_prog. apply (solo (prog o m) m false), wfp_prog.
Qed.

Lemma solo_regs os m cs sv rq :
  msteps (MR m KFree [] (regs os ++ cs) sv rq) (MR (fold_left (fun m o => fst (step o m)) os m) KFree [] cs sv rq).
Proof.
  revert m. induction os as [|o os IH]; intros m; [apply ms_refl|]. cbn [regs map app fold_left].
  eapply ms_trans; [apply solo_call|apply IH].
Qed.

Lemma fold_build h : fold_left (fun m o => fst (step o m)) (rev h) new_mux = build h.
Proof. induction h as [|o p IH]; [reflexivity|]. cbn [rev]. rewrite fold_left_app, IH. reflexivity. Qed.

Lemma to_serve h cs : msteps (mrun0 (regs (rev h) ++ MServe :: cs)) (MR (build h) KFree [] cs true []).
Proof.
  eapply ms_snoc; [apply (solo_regs (rev h) new_mux (MServe :: cs) false [])|]. rewrite fold_build.
  apply (m_serve (MR _ _ _ _ _ _)); reflexivity.
Qed.

(* what a request in a given position comes to when the mux stays as it is *)
Definition q_an m (i : Z) (k : list hdl -> plan) : plan := match select_anchors (m_anchors m) i with Ok a => k a | _ => PlanPanic end.
Definition q_self m id := match aget id (m_self m) with Some s => s | None => [] end.
Definition q_ix m id (k : Z -> plan) : plan := match aget id (m_ids m) with None => PlanPanic | Some i => k i end.
Definition q_uix m (u : string) (k : Z -> plan) : plan := match aget u (m_urlids m) with None => PlanPanic | Some i => k i end.
Definition qplan (m : mux) (q : qpc) : plan :=
  match q with
  | QStart rt => plan_of rt m
  | QOnG => match m_onmsg m with Some f => RunChain ((m_globals m ++ map a_fn (m_anchors m)) ++ [f]) | None => PlanPanic end
  | QOnA c => match m_onmsg m with Some f => RunChain ((c ++ map a_fn (m_anchors m)) ++ [f]) | None => PlanPanic end
  | QOnF c => match m_onmsg m with Some f => RunChain (c ++ [f]) | None => PlanPanic end
  | QId id => plan_id id m
  | QHb id f => if (id =? m_hb_id m) && negb (m_hb_through m) then Direct f
            else if (id =? m_auth_id m) && negb (m_auth_through m) then Direct f
            else q_ix m id (fun i => q_an m i (fun a => RunChain ((m_globals m ++ a) ++ q_self m id ++ [f])))
  | QG id f => q_ix m id (fun i => q_an m i (fun a => RunChain ((m_globals m ++ a) ++ q_self m id ++ [f])))
  | QLock id f c | QIx id f c => q_ix m id (fun i => q_an m i (fun a => RunChain ((c ++ a) ++ q_self m id ++ [f])))
  | QUnlock id f c i | QAn id f c i => q_an m i (fun a => RunChain ((c ++ a) ++ q_self m id ++ [f]))
  | QSelf id f c => RunChain (c ++ q_self m id ++ [f])
  | QUrl u => plan_url u m
  | QUG u hs => q_uix m u (fun i => q_an m i (fun a => RunChain (m_globals m ++ a ++ hs)))
  | QULock u hs c | QUIx u hs c => q_uix m u (fun i => q_an m i (fun a => RunChain (c ++ a ++ hs)))
  | QUUnlock u hs c i | QUAn u hs c i => q_an m i (fun a => RunChain (c ++ a ++ hs))
  | QDone p => p
  end.

Lemma qplan_step m l q q' l' : qstep m l q = Some (q', l') -> qplan m q' = qplan m q.
Proof.
  destruct q; cbn [qstep qplan]; intros H;
    try (inversion H; subst; cbn [qplan]; try reflexivity; fail);
    try (destruct (rlock_in l); inversion H; subst; reflexivity).
  - inversion H; subst. unfold plan_of. destruct (m_onmsg m) eqn:E; cbn [qplan].
    + rewrite E. unfold plan_onmessage. rewrite <- app_assoc. reflexivity.
    + destruct rt; reflexivity.
  - inversion H; subst. unfold plan_id. destruct (aget id (m_handlers m)); cbn [qplan]; [|reflexivity].
    destruct (_ && _); [reflexivity|]. destruct (_ && _); [reflexivity|]. unfold q_ix. destruct (aget id (m_ids m)); [|reflexivity].
    unfold q_an. destruct (select_anchors _ _); try reflexivity. unfold q_self. rewrite <- app_assoc. reflexivity.
  - inversion H; subst. destruct (_ && _); [reflexivity|]. destruct (_ && _); reflexivity.
  - unfold q_ix. destruct (aget id (m_ids m)); inversion H; subst; reflexivity.
  - inversion H; subst. unfold q_an. destruct (select_anchors _ _); reflexivity.
  - inversion H; subst. unfold plan_url. destruct (aget u (m_urls m)); cbn [qplan]; [|reflexivity]. unfold q_uix, q_an. destruct (aget u (m_urlids m)); [|reflexivity].
    destruct (select_anchors _ _); reflexivity.
  - unfold q_uix. destruct (aget u (m_urlids m)); inversion H; subst; reflexivity.
Qed.

Lemma nth_setq s i q j : nth_error (r_reqs s) i <> None ->
  nth_error (setq s i q) j = if Nat.eqb j i then Some q else nth_error (r_reqs s) j.
Proof.
  unfold setq. generalize (r_reqs s). intros l. revert j l. induction i as [|i IH]; intros [|j] [|x l] H; cbn in *; try congruence; try reflexivity.
  apply IH, H.
Qed.

Lemma req_plan s i q q' l' rt : nth_error (r_reqs s) i = Some (rt, q) -> qstep (r_mux s) (r_lock s) q = Some (q', l') ->
  forall j rt1 q1, nth_error (setq s i (rt, q')) j = Some (rt1, q1) ->
  exists q0, nth_error (r_reqs s) j = Some (rt1, q0) /\ qplan (r_mux s) q1 = qplan (r_mux s) q0.
Proof.
  intros N Q j rt1 q1 H. rewrite nth_setq in H by congruence. destruct (Nat.eqb_spec j i) as [->|D].
  - inversion H; subst. exists q. split; [exact N|exact (qplan_step _ _ _ _ _ Q)].
  - exists q1. auto.
Qed.

(* the states of a program that registers first and serves then *)
Definition BInv (h : list op) (s : mrun) : Prop :=
  if r_serving s then idle s /\ r_mux s = build h /\ r_lock s <> KWrite /\
     forall i rt q, nth_error (r_reqs s) i = Some (rt, q) -> qplan (build h) q = plan_of rt (build h)
  else r_reqs s = [] /\ exists os k, r_calls s = regs os ++ [MServe] /\ r_lock s = lk k /\ wfp k (r_prog s) /\
     fold_left (fun m o => fst (step o m)) os (mexec (r_prog s) (r_mux s)) = build h.

Lemma qstep_lock m l q q' l' : qstep m l q = Some (q', l') -> l <> KWrite -> l' <> KWrite.
Proof.
  assert (R : rlock_out l <> KWrite) by (destruct l as [| |[|[|n]]]; discriminate).
  destruct q; cbn [qstep]; intros H N; try (inversion H; subst; auto; fail).
  - destruct l; cbn in H; inversion H; discriminate.
  - destruct (aget id (m_ids m)); inversion H; subst; auto.
  - destruct l; cbn in H; inversion H; discriminate.
  - destruct (aget u (m_urlids m)); inversion H; subst; auto.
Qed.

Lemma binv_step h s s' : mstep s s' -> BInv h s -> BInv h s'.
Proof.
  unfold BInv. intros V I. destruct V; cbn [r_mux r_lock r_prog r_calls r_serving r_reqs] in *.
  - destruct (r_serving s); [destruct I as ((_ & X) & _); congruence|]. destruct I as (R & os & k & C & L & W & F). split; [exact R|].
    destruct os as [|o' os]; cbn in C; rewrite C in H0; inversion H0; subst. exists os, k. rewrite H in *. cbn in W. subst k.
    split; [reflexivity|]. split; [exact L|]. split; [apply wfp_prog|]. rewrite mexec_prog. exact F.
  - destruct (r_serving s); [destruct I as ((_ & X) & _); congruence|]. destruct I as (R & os & k & C & L & W & F).
    destruct os as [|o' os]; cbn in C; rewrite C in H0; inversion H0; subst. rewrite H in *. cbn in W, F. subst k. unfold idle. cbn.
    split; [auto|]. split; [exact F|]. rewrite L. split; [discriminate|]. rewrite R. intros [|i] rt q X; discriminate.
  - destruct (r_serving s); [destruct I as ((X & _) & _); congruence|]. destruct I as (R & os & k & C & L & W & F). split; [exact R|].
    rewrite H in *. cbn in W, F. destruct W as (-> & W). exists os, true. auto.
  - destruct (r_serving s); [destruct I as ((X & _) & _); congruence|]. destruct I as (R & os & k & C & L & W & F). split; [exact R|].
    rewrite H in *. cbn in W, F. destruct W as (-> & W). exists os, false. auto.
  - destruct (r_serving s); [destruct I as ((X & _) & _); congruence|]. destruct I as (R & os & k & C & L & W & F). split; [exact R|].
    rewrite H in *. cbn in W, F. exists os, k. split; [exact C|]. split; [exact L|]. destruct (snd (eff (r_mux s))); [|auto].
    rewrite L. destruct k; cbn; auto.
  - destruct (r_serving s) eqn:Z; [|discriminate]. destruct I as (X & M & L & Q). split; [exact X|]. split; [exact M|]. split; [exact L|]. intros i rt1 q N.
    destruct (lt_dec i (List.length (r_reqs s))) as [B|B]; [rewrite nth_error_app1 in N by auto; exact (Q _ _ _ N)|].
    rewrite nth_error_app2 in N by lia. destruct (i - List.length (r_reqs s))%nat as [|[|]]; cbn in N; inversion N; subst. reflexivity.
  - destruct (r_serving s) eqn:Z.
    + destruct I as (X & M & L & Q). split; [exact X|]. split; [exact M|]. split; [exact (qstep_lock _ _ _ _ _ H0 L)|]. intros j rt1 q1 N.
      destruct (req_plan _ _ _ _ _ _ H H0 _ _ _ N) as (q0 & N0 & E). rewrite M in E. rewrite E. exact (Q _ _ _ N0).
    + destruct I as (R & _). rewrite R in H. destruct i; discriminate.
Qed.

Lemma binv_reach h s : msteps (mrun0 (regs (rev h) ++ [MServe])) s -> BInv h s.
Proof.
  intros V. assert (I : BInv h (mrun0 (regs (rev h) ++ [MServe]))).
  { unfold BInv. cbn. split; [reflexivity|]. exists (rev h), false. repeat split. apply fold_build. }
  revert I. induction V; auto. intros I. apply IHV. eapply binv_step; eassumption.
Qed.

Definition qrank (q : qpc) : nat :=
  match q with
  | QStart _ => 20 | QOnG => 3 | QOnA _ => 2 | QOnF _ => 1
  | QId _ | QUrl _ => 10 | QHb _ _ => 9 | QG _ _ | QUG _ _ => 8 | QLock _ _ _ | QULock _ _ _ => 7 | QIx _ _ _ | QUIx _ _ _ => 6
  | QUnlock _ _ _ _ | QUUnlock _ _ _ _ => 5 | QAn _ _ _ _ | QUAn _ _ _ _ => 4 | QSelf _ _ _ => 1 | QDone _ => 0
  end.

Lemma qstep_some m l q : l <> KWrite -> (exists p, q = QDone p) \/
  exists q' l', qstep m l q = Some (q', l') /\ (qrank q' < qrank q)%nat /\ l' <> KWrite.
Proof.
  intros N. assert (R : rlock_out l <> KWrite) by (destruct l as [| |[|[|n]]]; discriminate).
  assert (RI : exists l', rlock_in l = Some l' /\ l' <> KWrite) by (destruct l; [exists (KRead 1)|congruence|exists (KRead (S n))]; split; [reflexivity|discriminate|reflexivity|discriminate]).
  destruct RI as (l1 & RI & N1).
  destruct q; [..|left; eauto]; right; cbn [qstep]; rewrite ?RI.
  - do 2 eexists. split; [reflexivity|]. split; [|exact N]. destruct (m_onmsg m); [cbn; lia|]. destruct rt; cbn; lia.
  - do 2 eexists. split; [reflexivity|]. split; [cbn; lia|exact N].
  - do 2 eexists. split; [reflexivity|]. split; [cbn; lia|exact N].
  - do 2 eexists. split; [reflexivity|]. split; [cbn; lia|exact N].
  - do 2 eexists. split; [reflexivity|]. split; [|exact N]. destruct (aget id (m_handlers m)); cbn; lia.
  - do 2 eexists. split; [reflexivity|]. split; [|exact N]. destruct (_ && _); [cbn; lia|]. destruct (_ && _); cbn; lia.
  - do 2 eexists. split; [reflexivity|]. split; [cbn; lia|exact N].
  - do 2 eexists. split; [reflexivity|]. split; [cbn; lia|exact N1].
  - destruct (aget id (m_ids m)); do 2 eexists; (split; [reflexivity|]); (split; [cbn; lia|]); auto.
  - do 2 eexists. split; [reflexivity|]. split; [cbn; lia|exact R].
  - do 2 eexists. split; [reflexivity|]. split; [|exact N]. destruct (select_anchors _ _); cbn; lia.
  - do 2 eexists. split; [reflexivity|]. split; [cbn; lia|exact N].
  - do 2 eexists. split; [reflexivity|]. split; [|exact N]. destruct (aget u (m_urls m)); cbn; lia.
  - do 2 eexists. split; [reflexivity|]. split; [cbn; lia|exact N].
  - do 2 eexists. split; [reflexivity|]. split; [cbn; lia|exact N1].
  - destruct (aget u (m_urlids m)); do 2 eexists; (split; [reflexivity|]); (split; [cbn; lia|]); auto.
  - do 2 eexists. split; [reflexivity|]. split; [cbn; lia|exact R].
  - do 2 eexists. split; [reflexivity|]. split; [cbn; lia|exact N].
Qed.

(* a request can always finish while the lock is not held for writing *)
Lemma finish s i rt q : r_lock s <> KWrite -> nth_error (r_reqs s) i = Some (rt, q) ->
  exists s', msteps s s' /\ chosen s' i rt (qplan (r_mux s) q) /\ r_mux s' = r_mux s /\ r_lock s' <> KWrite /\
    forall j, j <> i -> nth_error (r_reqs s') j = nth_error (r_reqs s) j.
Proof.
  assert (X : forall n s q, (qrank q < n)%nat -> r_lock s <> KWrite -> nth_error (r_reqs s) i = Some (rt, q) ->
     exists s', msteps s s' /\ chosen s' i rt (qplan (r_mux s) q) /\ r_mux s' = r_mux s /\ r_lock s' <> KWrite /\
       forall j, j <> i -> nth_error (r_reqs s') j = nth_error (r_reqs s) j).
  { clear s q. induction n as [|n IH]; intros s q B N H; [lia|]. destruct (qstep_some (r_mux s) (r_lock s) q N) as [(p & ->)|(q' & l' & E & R & N')].
    - exists s. split; [apply ms_refl|]. split; [exact H|auto].
    - pose proof (m_req s i rt q q' l' H E) as V. set (s1 := MR _ _ _ _ _ _) in V.
      assert (H1 : forall j, nth_error (r_reqs s1) j = if Nat.eqb j i then Some (rt, q') else nth_error (r_reqs s) j).
      { intros j. unfold s1. cbn. apply nth_setq. congruence. }
      destruct (IH s1 q' ltac:(lia) N') as (s' & W & C & M & L & J). { rewrite H1, Nat.eqb_refl. reflexivity. }
      exists s'. split; [eapply ms_more; eassumption|]. split; [|split; [exact M|split; [exact L|]]].
      + unfold s1 in C. cbn [r_mux] in C. rewrite (qplan_step _ _ _ _ _ E) in C. exact C.
      + intros j D. rewrite J, H1 by exact D. destruct (Nat.eqb_spec j i); [congruence|reflexivity]. }
  intros N H. exact (X (S (qrank q)) s q (Nat.lt_succ_diag_r _) N H).
Qed.

Lemma p_C86_unlocked_refuted : forall h o rt, exists s,
  msteps (mrun0 (regs (rev h) ++ [MServe; MReg o])) s /\ r_serving s = true /\ idle s /\ r_mux s = build (o :: h) /\
  exists s', msteps s s' /\ chosen s' 0 rt (plan_of rt (build (o :: h))).
Proof.
  intros h o rt. exists (MR (build (o :: h)) KFree [] [] true []). split; [|split; [reflexivity|split; [split; reflexivity|split; [reflexivity|]]]].
  - eapply ms_trans; [apply (to_serve h [MReg o])|]. apply solo_call.
  - pose proof (m_request (MR (build (o :: h)) KFree [] [] true []) rt eq_refl) as V. cbn [r_mux r_lock r_prog r_calls r_serving r_reqs app] in V.
    destruct (finish (MR (build (o :: h)) KFree [] [] true [(rt, QStart rt)]) 0 rt (QStart rt)) as (s' & W & C & _); [discriminate|reflexivity|].
    exists s'. split; [eapply ms_more; [exact V|exact W]|exact C].
Qed.

Lemma p_C87_before_serve_partial : forall h s, msteps (mrun0 (regs (rev h) ++ [MServe])) s ->
  ~ reg_race s /\ forall i rt p, chosen s i rt p -> p = plan_of rt (build h).
Proof.
  intros h s V. apply binv_reach in V. unfold BInv in V. destruct (r_serving s).
  - destruct V as ((P & _) & _ & _ & Q). split.
    + intros (rd & wr & eff & p & i & rt & q & l & E & _). congruence.
    + intros i rt p C. exact (Q _ _ _ C).
  - destruct V as (R & _). split.
    + intros (rd & wr & eff & p & i & rt & q & l & _ & _ & N & _). rewrite R in N. destruct i; discriminate.
    + intros i rt p C. unfold chosen in C. rewrite R in C. destruct i; discriminate.
Qed.

Lemma p_C87_progress_partial : forall h s i rt q, msteps (mrun0 (regs (rev h) ++ [MServe])) s ->
  nth_error (r_reqs s) i = Some (rt, q) -> exists s', msteps s s' /\ chosen s' i rt (plan_of rt (build h)).
Proof.
  intros h s i rt q V N. apply binv_reach in V. unfold BInv in V. destruct (r_serving s).
  - destruct V as (_ & M & L & Q). destruct (finish s i rt q L N) as (s' & W & C & _). exists s'. split; [exact W|].
    rewrite M in C. rewrite (Q _ _ _ N) in C. exact C.
  - destruct V as (R & _). rewrite R in N. destruct i; discriminate.
Qed.

(* the requests inside the read lock *)
Definition inq (q : routing * qpc) : bool := match snd q with QIx _ _ _ | QUnlock _ _ _ _ | QUIx _ _ _ | QUUnlock _ _ _ _ => true | _ => false end.
Definition inside (l : list (routing * qpc)) : nat := List.length (filter inq l).
Definition held (n : nat) : rlock := match n with O => KFree | S n => KRead (S n) end.

(* writes of l happen only with the lock *)
Fixpoint shut (l : loc) (k : bool) (p : list mi) : Prop :=
  match p with
  | [] => True
  | MLock :: p => shut l true p
  | MUnlock :: p => shut l false p
  | MAcc _ wr _ :: p => (k = true \/ ~ In l wr) /\ shut l k p
  end.

(* who holds the lock *)
Definition LInv (nr : Prop) (s : mrun) : Prop :=
  exists k, wfp k (r_prog s) /\ r_lock s = (if k then KWrite else held (inside (r_reqs s))) /\ (k = true -> inside (r_reqs s) = 0%nat) /\
    shut LUrlIds k (r_prog s) /\ (nr -> (forall id f, ~ In (MReg (ORewrite id f)) (r_calls s)) /\ shut LIds k (r_prog s)).

Lemma inside_app l1 l2 : inside (l1 ++ l2) = (inside l1 + inside l2)%nat.
Proof. unfold inside. rewrite filter_app, app_length. reflexivity. Qed.

Lemma inside_setq s i rt q q' : nth_error (r_reqs s) i = Some (rt, q) ->
  (inside (setq s i (rt, q')) + inside [(rt, q)] = inside (r_reqs s) + inside [(rt, q')])%nat.
Proof.
  unfold setq. generalize (r_reqs s). intros l. revert i. induction l as [|x l IH]; intros [|i] H; cbn [nth_error] in H; try discriminate.
  - inversion H; subst. cbn [firstn skipn app]. change ((rt, q') :: l) with ([(rt, q')] ++ l). change ((rt, q) :: l) with ([(rt, q)] ++ l). rewrite !inside_app. lia.
  - change (skipn (S (S i)) (x :: l)) with (skipn (S i) l). cbn [firstn app]. specialize (IH i H). unfold inside in *. cbn [filter] in *. destruct (inq x); cbn [List.length] in *; lia.
Qed.

Lemma inside_zero l i rt q : inside l = 0%nat -> nth_error l i = Some (rt, q) -> inq (rt, q) = false.
Proof.
  intros Z N. destruct (inq (rt, q)) eqn:E; [|reflexivity]. apply nth_error_In in N. assert (I : In (rt, q) (filter inq l)) by (apply filter_In; auto).
  unfold inside in Z. destruct (filter inq l); [destruct I|discriminate].
Qed.

Lemma qstep_held m n q q' l' rt : qstep m (held n) q = Some (q', l') -> (inside [(rt, q)] <= n)%nat ->
  exists n', l' = held n' /\ (n' + inside [(rt, q)] = n + inside [(rt, q')])%nat.
Proof.
  assert (RI : rlock_in (held n) = Some (held (S n))) by (destruct n; reflexivity).
  assert (RO : forall n, rlock_out (held (S n)) = held n) by (intros [|x]; reflexivity).
  intros H B. destruct q; cbn [qstep] in H; rewrite ?RI in H;
    try discriminate H;
    try (inversion H; subst; exists n; split; [reflexivity|]; unfold inside, inq; cbn [snd filter];
      repeat match goal with |- context [match ?x with _ => _ end] => lazymatch x with context [match _ with _ => _ end] => fail | _ => destruct x end end; cbn; lia);
    try (inversion H; subst; exists (S n); split; [reflexivity|]; cbn; lia).
  - destruct n as [|n]; [cbn in B; lia|]. destruct (aget id (m_ids m)); inversion H; subst; [exists (S n)|exists n]; (split; [auto|cbn; lia]).
  - destruct n as [|n]; [cbn in B; lia|]. inversion H; subst. exists n. split; [auto|cbn; lia].
  - destruct n as [|n]; [cbn in B; lia|]. destruct (aget u (m_urlids m)); inversion H; subst; [exists (S n)|exists n]; (split; [auto|cbn; lia]).
  - destruct n as [|n]; [cbn in B; lia|]. inversion H; subst. exists n. split; [auto|cbn; lia].
Qed.

Lemma qstep_wlock m q q' l' rt : qstep m KWrite q = Some (q', l') -> inq (rt, q) = false -> l' = KWrite /\ inq (rt, q') = false.
Proof.
  intros H N. destruct q; cbn in H, N; try discriminate; inversion H; subst; split; try reflexivity;
    repeat match goal with |- context [match ?x with _ => _ end] => destruct x end; reflexivity.
Qed.

Lemma shut_app l k p q : wfp k p -> shut l k p -> shut l false q -> shut l k (p ++ q).
Proof.
  revert k. induction p as [|i p IH]; intros k W S Q; cbn in *; [subst; exact Q|]. destruct i.
  - destruct W. auto.
  - destruct W. auto.
  - destruct S. auto.
Qed.

Lemma shut_add l id ms f : shut l false (prog_add id ms f).
Proof. unfold prog_add. destruct ms; cbn; auto 10. Qed.

Lemma shut_urls o m : shut LUrlIds false (prog o m).
Proof.
  assert (N : forall ls : list loc, ~ In LUrlIds ls -> false = true \/ ~ In LUrlIds ls) by auto.
  destruct o; cbn [prog shut locked]; try (cbn; repeat split; auto; right; intros X; cbn in X; intuition discriminate); try apply shut_add.
  - destruct (aget k (m_amap m)); [destruct (callUse a (next_index m))|destruct (callUse _ (next_index m))]; cbn; repeat split; auto; right; intros X; cbn in X; intuition discriminate.
  - destruct (aget k (m_amap m)); [|cbn; auto]. destruct (callUnUse a (next_index m)); cbn; repeat split; auto.
  - destruct l as [|x [|y l]]; cbn; repeat split; auto; right; intros X; cbn in X; intuition discriminate.
  - split; [apply N; cbn; intuition discriminate|]. destruct on; [apply shut_add|cbn; auto].
  - split; [apply N; cbn; intuition discriminate|]. destruct yes; [apply shut_add|cbn; auto].
Qed.

Lemma shut_ids o m : (forall id f, o <> ORewrite id f) -> shut LIds false (prog o m).
Proof.
  assert (N : forall ls : list loc, ~ In LIds ls -> false = true \/ ~ In LIds ls) by auto.
  intros NR. destruct o; cbn [prog shut locked]; try (cbn; repeat split; auto; right; intros X; cbn in X; intuition discriminate); try apply shut_add.
  - destruct (aget k (m_amap m)); [destruct (callUse a (next_index m))|destruct (callUse _ (next_index m))]; cbn; repeat split; auto; right; intros X; cbn in X; intuition discriminate.
  - destruct (aget k (m_amap m)); [|cbn; auto]. destruct (callUnUse a (next_index m)); cbn; repeat split; auto.
  - destruct l as [|x [|y l]]; cbn; repeat split; auto; right; intros X; cbn in X; intuition discriminate.
  - split; [apply N; cbn; intuition discriminate|]. destruct on; [apply shut_add|cbn; auto].
  - destruct (NR id f eq_refl).
  - split; [apply N; cbn; intuition discriminate|]. destruct yes; [apply shut_add|cbn; auto].
Qed.

Lemma linv_step (nr : Prop) s s' : mstep s s' -> LInv nr s -> LInv nr s'.
Proof.
  unfold LInv. intros V (k & W & L & Z & U & R). destruct V; cbn [r_mux r_lock r_prog r_calls r_serving r_reqs] in *.
  - rewrite H in *. cbn in W. subst k. exists false. split; [apply wfp_prog|]. split; [exact L|]. split; [discriminate|]. split; [apply shut_urls|].
    intros n. destruct (R n) as (A & _). rewrite H0 in A. split; [intros id f X; apply (A id f); right; exact X|]. apply shut_ids. intros id f ->. apply (A id f). left. reflexivity.
  - rewrite H in *. cbn in W. subst k. exists false. split; [reflexivity|]. split; [exact L|]. split; [discriminate|]. split; [exact I|].
    intros n. destruct (R n) as (A & _). rewrite H0 in A. split; [intros id f X; apply (A id f); right; exact X|exact I].
  - rewrite H in *. cbn in W, U, R. destruct W as (-> & W). exists true. split; [exact W|]. split; [reflexivity|]. split; [|split; [exact U|exact R]].
    intros _. rewrite L in H0. destruct (inside (r_reqs s)); [reflexivity|discriminate].
  - rewrite H in *. cbn in W, U, R. destruct W as (-> & W). exists false. split; [exact W|]. split; [rewrite (Z eq_refl); reflexivity|]. split; [discriminate|]. split; [exact U|exact R].
  - rewrite H in *. cbn in W, U, R. exists k. destruct (snd (eff (r_mux s))).
    + split; [|split; [exact L|split; [exact Z|split]]].
      * rewrite L. destruct k; [cbn; auto|]. destruct (inside (r_reqs s)); reflexivity.
      * destruct (r_lock s); cbn; exact I.
      * intros n. destruct (R n) as (A & _). split; [exact A|]. destruct (r_lock s); cbn; exact I.
    + split; [exact W|]. split; [exact L|]. split; [exact Z|]. split; [apply U|]. intros n. destruct (R n) as (A & _ & B). auto.
  - exists k. split; [exact W|]. assert (E : inside (r_reqs s ++ [(rt, QStart rt)]) = inside (r_reqs s)) by (rewrite inside_app; cbn; lia). rewrite E. auto.
  - exists k. split; [exact W|]. pose proof (inside_setq s i rt q q' H) as E. destruct k.
    + specialize (Z eq_refl). pose proof (inside_zero _ _ _ _ Z H) as N. rewrite L in H0. destruct (qstep_wlock _ _ _ _ rt H0 N) as (-> & N').
      split; [reflexivity|]. split; [|auto]. intros _. unfold inside in E at 2 4. cbn [filter] in E. rewrite N, N' in E. cbn in E. lia.
    + rewrite L in H0. assert (B : (inside [(rt, q)] <= inside (r_reqs s))%nat).
      { unfold inside. cbn [filter]. destruct (inq (rt, q)) eqn:Q; [|cbn; lia]. apply nth_error_In in H. assert (I : In (rt, q) (filter inq (r_reqs s))) by (apply filter_In; auto).
        destruct (filter inq (r_reqs s)); [destruct I|cbn; lia]. }
      destruct (qstep_held _ _ _ _ _ rt H0 B) as (n' & -> & E'). split; [f_equal; lia|]. split; [discriminate|auto].
Qed.

Lemma linv_reach (nr : Prop) cs s : (nr -> forall id f, ~ In (MReg (ORewrite id f)) cs) -> msteps (mrun0 cs) s -> LInv nr s.
Proof.
  intros N V. assert (I0 : LInv nr (mrun0 cs)) by (exists false; cbn; auto 10).
  revert I0. induction V; auto. intros X. apply IHV. eapply linv_step; eassumption.
Qed.

Lemma p_C87_anchor_maps_partial : forall cs s, msteps (mrun0 cs) s ->
  ~ race_on LUrlIds s /\ ((forall id f, ~ In (MReg (ORewrite id f)) cs) -> ~ race_on LIds s).
Proof.
  assert (X : forall l s k, (k = true -> inside (r_reqs s) = 0%nat) ->
    shut l k (r_prog s) -> (forall q, In l (qreads q) -> inq (ById 0, q) = true) -> ~ race_on l s).
  { intros l s k Z S Q (rd & wr & eff & p & i & rt & q & P & W1 & N & R). rewrite P in S. cbn in S. destruct S as ([->|NW] & _); [|contradiction].
    pose proof (inside_zero _ _ _ _ (Z eq_refl) N) as F. pose proof (Q q R) as T. unfold inq in *. cbn [snd] in *. congruence. }
  intros cs s V. split.
  - destruct (linv_reach False cs s) as (k & W & L & Z & U & _); [tauto|exact V|]. apply (X LUrlIds s k); auto. intros q I. destruct q; cbn in I; intuition discriminate.
  - intros N. destruct (linv_reach True cs s) as (k & W & L & Z & _ & R); [intros _; exact N|exact V|]. destruct (R Logic.I) as (_ & S). apply (X LIds s k); auto. intros q I. destruct q; cbn in I; intuition discriminate.
Qed.

Lemma done_inside l : (forall i rt q, nth_error l i = Some (rt, q) -> exists p : plan, q = QDone p) -> inside l = 0%nat.
Proof.
  intros A. unfold inside. destruct (filter inq l) as [|x r] eqn:E; [reflexivity|]. assert (I : In x (filter inq l)) by (rewrite E; left; reflexivity).
  apply filter_In in I. destruct I as (I & Q). apply In_nth_error in I. destruct I as (i & N). destruct x as [rt q]. destruct (A _ _ _ N) as (p & ->). discriminate.
Qed.

(* requests alone can all finish when nobody holds the lock for writing *)
Lemma drain s : r_lock s <> KWrite -> exists s', msteps s s' /\ all_chosen s' /\ r_prog s' = r_prog s /\ r_calls s' = r_calls s /\ r_lock s' <> KWrite.
Proof.
  assert (F : forall n s i rt q, (qrank q < n)%nat -> r_lock s <> KWrite -> nth_error (r_reqs s) i = Some (rt, q) ->
    exists s' p, msteps s s' /\ chosen s' i rt p /\ r_lock s' <> KWrite /\ r_prog s' = r_prog s /\ r_calls s' = r_calls s /\ List.length (r_reqs s') = List.length (r_reqs s) /\
      forall j, j <> i -> nth_error (r_reqs s') j = nth_error (r_reqs s) j).
  { induction n as [|n IH]; intros s0 i rt q B N H; [lia|]. destruct (qstep_some (r_mux s0) (r_lock s0) q N) as [(p & ->)|(q' & l' & E & R & N')].
    - exists s0, p. split; [apply ms_refl|]. split; [exact H|auto 10].
    - pose proof (m_req s0 i rt q q' l' H E) as V. set (s1 := MR _ _ _ _ _ _) in V.
      assert (H1 : forall j, nth_error (r_reqs s1) j = if Nat.eqb j i then Some (rt, q') else nth_error (r_reqs s0) j).
      { intros j. unfold s1. cbn. apply nth_setq. congruence. }
      destruct (IH s1 i rt q' ltac:(lia) N') as (s' & p & W & C & L & P & K & Len & J). { rewrite H1, Nat.eqb_refl. reflexivity. }
      exists s', p. split; [eapply ms_more; eassumption|]. split; [exact C|]. split; [exact L|]. split; [exact P|]. split; [exact K|]. split.
      + rewrite Len. unfold s1. cbn [r_reqs]. unfold setq. assert (i < List.length (r_reqs s0))%nat by (apply nth_error_Some; congruence).
        rewrite app_length, firstn_length. cbn [List.length]. rewrite skipn_length. lia.
      + intros j D. rewrite J, H1 by exact D. destruct (Nat.eqb_spec j i); [congruence|reflexivity]. }
  assert (G : forall n, (n <= List.length (r_reqs s))%nat -> r_lock s <> KWrite -> exists s', msteps s s' /\ r_lock s' <> KWrite /\ r_prog s' = r_prog s /\ r_calls s' = r_calls s /\
    List.length (r_reqs s') = List.length (r_reqs s) /\ forall i rt q, (i < n)%nat -> nth_error (r_reqs s') i = Some (rt, q) -> exists p, q = QDone p).
  { induction n as [|n IH]; intros B N; [exists s; split; [apply ms_refl|]; repeat split; auto; intros; lia|].
    destruct IH as (s1 & V1 & L1 & P1 & C1 & Len1 & D1); [lia|exact N|]. destruct (nth_error (r_reqs s1) n) as [[rt q]|] eqn:E; [|apply nth_error_None in E; lia].
    destruct (F (S (qrank q)) s1 n rt q ltac:(lia) L1 E) as (s2 & p & V2 & C & L2 & P2 & K2 & Len2 & J). exists s2. split; [eapply ms_trans; eassumption|]. split; [exact L2|].
    split; [congruence|]. split; [congruence|]. split; [congruence|]. intros i rt' q' Hi Hn. destruct (Nat.eq_dec i n) as [->|D].
    - unfold chosen in C. rewrite C in Hn. inversion Hn. eauto.
    - rewrite J in Hn by exact D. apply (D1 i rt' q'); [lia|exact Hn]. }
  intros N. destruct (G _ (le_n _) N) as (s' & V & L & P & C & Len & D). exists s'. split; [exact V|]. split; [|auto]. intros i rt q H. apply (D i rt q); [|exact H]. rewrite <- Len. apply nth_error_Some. congruence.
Qed.

Lemma solo_calls cs m sv rq : exists m' sv', msteps (MR m KFree [] cs sv rq) (MR m' KFree [] [] sv' rq).
Proof.
  revert m sv. induction cs as [|c cs IH]; intros m sv; [exists m, sv; apply ms_refl|]. destruct c as [o|].
  - destruct (IH (fst (step o m)) sv) as (m' & sv' & V). exists m', sv'. eapply ms_trans; [apply solo_call|exact V].
  - destruct (IH m true) as (m' & sv' & V). exists m', sv'. eapply ms_more; [apply (m_serve (MR m KFree [] (MServe :: cs) sv rq) cs); reflexivity|exact V].
Qed.

Lemma p_C87_no_deadlock_partial : forall cs s, msteps (mrun0 cs) s -> exists s', msteps s s' /\ idle s' /\ all_chosen s' /\ r_lock s' = KFree.
Proof.
  intros cs s V. assert (A : exists s1, msteps s s1 /\ exists k, wfp k (r_prog s1) /\ r_lock s1 = lk k).
  { destruct (linv_reach False cs s) as (k & W & L & Z & _); [tauto|exact V|]. destruct k.
    - exists s. split; [apply ms_refl|]. exists true. auto.
    - destruct (drain s) as (s1 & V1 & D & P & C & N1); [rewrite L; destruct (inside (r_reqs s)); discriminate|]. exists s1. split; [exact V1|]. exists false. rewrite P. split; [exact W|].
      destruct (linv_reach False cs s1) as (k' & W' & L' & _); [tauto|eapply ms_trans; eassumption|]. rewrite L' in *. destruct k'; [destruct N1; reflexivity|]. rewrite (done_inside _ D). reflexivity. }
  destruct A as (s1 & V1 & k & W & L). destruct s1 as [m l p cs1 sv rq]. cbn [r_prog r_lock] in W, L. subst l.
  destruct (solo_calls cs1 (mexec p m) sv rq) as (m' & sv' & V2). assert (V3 : msteps s (MR m' KFree [] [] sv' rq)) by (eapply ms_trans; [exact V1|eapply ms_trans; [apply solo, W|exact V2]]).
  destruct (drain (MR m' KFree [] [] sv' rq)) as (s2 & V4 & D & P & C & N2); [discriminate|]. cbn [r_prog r_calls] in P, C. exists s2. split; [eapply ms_trans; eassumption|]. split; [split; assumption|]. split; [exact D|].
  destruct (linv_reach False cs s2) as (k' & W' & L' & _); [tauto|eapply ms_trans; [exact V|eapply ms_trans; eassumption]|]. rewrite P in W'. cbn in W'. subst k'. rewrite L', (done_inside _ D). reflexivity.
Qed.

Lemma in_flight h cs rt : msteps (mrun0 (regs (rev h) ++ MServe :: cs)) (MR (build h) KFree [] cs true [(rt, QStart rt)]).
Proof. eapply ms_snoc; [apply to_serve|]. exact (m_request (MR (build h) KFree [] cs true []) rt eq_refl). Qed.

Lemma req1 m l p cs rt q q' l' : qstep m l q = Some (q', l') ->
  mstep (MR m l p cs true [(rt, q)]) (MR m l' p cs true [(rt, q')]).
Proof. intros E. exact (m_req (MR m l p cs true [(rt, q)]) 0 rt q q' l' eq_refl E). Qed.

Lemma acc1 m l rd wr eff m' p cs sv rq : eff m = (m', false) ->
  mstep (MR m l (MAcc rd wr eff :: p) cs sv rq) (MR m' l p cs sv rq).
Proof. intros E. pose proof (m_acc (MR m l (MAcc rd wr eff :: p) cs sv rq) rd wr eff p eq_refl) as V. cbn [r_mux r_lock r_prog r_calls r_serving r_reqs] in V. rewrite E in V. exact V. Qed.

Lemma lock1 m p cs sv rq : mstep (MR m KFree (MLock :: p) cs sv rq) (MR m KWrite p cs sv rq).
Proof. exact (m_lock (MR m KFree (MLock :: p) cs sv rq) p eq_refl eq_refl). Qed.

Lemma unlock1 m l p cs sv rq : mstep (MR m l (MUnlock :: p) cs sv rq) (MR m KFree p cs sv rq).
Proof. exact (m_unlock (MR m l (MUnlock :: p) cs sv rq) p eq_refl). Qed.

Lemma call1 m l o cs sv rq : mstep (MR m l [] (MReg o :: cs) sv rq) (MR m l (prog o m) cs sv rq).
Proof. exact (m_call (MR m l [] (MReg o :: cs) sv rq) o cs eq_refl eq_refl). Qed.

(* the handler's own middlewares are stored *)
Lemma self_part id ms m p cs sv rq : (ms = [] \/ ahas id (m_self m) = false) -> exists m',
  msteps (MR m KFree ((match ms with [] => [] | _ => locked [LSelf] (AddSelf id ms) end) ++ p) cs sv rq) (MR m' KFree p cs sv rq) /\
  m_handlers m' = m_handlers m /\ m_ids m' = m_ids m /\ m_onmsg m' = m_onmsg m /\ m_hb_id m' = m_hb_id m /\ m_hb_through m' = m_hb_through m /\
  m_auth_id m' = m_auth_id m /\ m_auth_through m' = m_auth_through m.
Proof.
  intros H. destruct ms as [|x ms].
  - exists m. split; [apply ms_refl|]. auto 10.
  - destruct H as [H|H]; [discriminate|]. exists (set_self (aset id (x :: ms) (m_self m)) m). split; [|auto 10].
    cbn [locked app]. eapply ms_more; [apply lock1|]. eapply ms_more; [apply acc1; unfold AddSelf; rewrite H; reflexivity|].
    eapply ms_more; [apply unlock1|]. apply ms_refl.
Qed.

Lemma fresh_self h id ms f : refused (OAdd id ms f) h = false -> (ms = [] \/ ahas id (m_self (build h)) = false) /\ serving id h = None.
Proof.
  cbn. intros H. rewrite (inv_self h (inv_all h)). destruct ms as [|x ms]; [|destruct (own id h); [|discriminate]];
    (destruct (serving id h); [discriminate|]); auto.
Qed.

Lemma p_C87_race_refuted : forall h id ms f, refused (OAdd id ms f) h = false -> onmessage h = None ->
  exists s, msteps (mrun0 (regs (rev h) ++ [MServe; MReg (OAdd id ms f)])) s /\ reg_race s.
Proof.
  intros h id ms f R O. destruct (fresh_self _ _ _ _ R) as (F & S0).
  destruct (self_part id ms (build h) (locked [LHandlers] (AddHandleFunc id f) ++ [mtick] ++ locked [LIds] (fun m => AddMessageIDAnchor id (m_seed m) m))
    [] true [(ById id, QId id)] F) as (m' & V & _).
  eexists. split.
  - eapply ms_trans; [apply (in_flight h _ (ById id))|]. eapply ms_more.
    { apply req1. cbn. rewrite (i_onmsg _ (inv_all h)), O. reflexivity. }
    eapply ms_more; [apply call1|]. eapply ms_trans; [exact V|]. cbn [locked app]. eapply ms_more; [apply lock1|]. apply ms_refl.
  - unfold reg_race. do 4 eexists. exists 0%nat. do 3 eexists. cbn. split; [reflexivity|]. split; [left; reflexivity|]. split; [reflexivity|]. left. reflexivity.
Qed.

Lemma p_C87_crash_refuted : forall h id ms f, refused (OAdd id ms f) h = false -> onmessage h = None ->
  (id = beat_id h -> beat_through h = true) -> (id = auth_id h -> auth_through h = true) ->
  (exists s, msteps (mrun0 (regs (rev h) ++ [MServe; MReg (OAdd id ms f)])) s /\ chosen s 0 (ById id) PlanPanic) /\
  plan_of (ById id) (build h) = Unrouted /\ exists l, plan_of (ById id) (build (OAdd id ms f :: h)) = RunChain (l ++ [f]).
Proof.
  intros h id ms f R O B A. destruct (fresh_self _ _ _ _ R) as (F & S0). split; [|split].
  - destruct (self_part id ms (build h) (locked [LHandlers] (AddHandleFunc id f) ++ [mtick] ++ locked [LIds] (fun m => AddMessageIDAnchor id (m_seed m) m))
      [] true [(ById id, QStart (ById id))] F) as (m' & V & E1 & E2 & E3 & E4 & E5 & E6 & E7).
    pose proof (inv_all h) as I. rewrite (i_onmsg _ I), O in E3. rewrite (i_hbid _ I) in E4. rewrite (i_hbt _ I) in E5. rewrite (i_auid _ I) in E6. rewrite (i_aut _ I) in E7.
    assert (G1 : aget id (m_handlers m') = None) by (rewrite E1, (i_hand _ I), S0; reflexivity).
    assert (G2 : aget id (m_ids m') = None) by (rewrite E2, (i_ids _ I), S0; reflexivity).
    eexists. split.
    + eapply ms_trans; [apply (in_flight h _ (ById id))|]. eapply ms_more; [apply call1|]. eapply ms_trans; [exact V|]. cbn [locked app].
      eapply ms_more; [apply lock1|]. eapply ms_more. { apply acc1. unfold AddHandleFunc, ahas. rewrite G1. reflexivity. }
      eapply ms_more; [apply unlock1|].
      eapply ms_more. { apply req1. cbn. rewrite E3. reflexivity. }
      eapply ms_more. { apply req1. cbn [qstep set_handlers m_handlers]. rewrite aget_aset, keqb_refl. reflexivity. }
      eapply ms_more. { apply req1. cbn [qstep]. cbn [set_handlers m_hb_id m_hb_through m_auth_id m_auth_through]. rewrite E4, E5, E6, E7.
        replace ((id =? beat_id h) && negb (beat_through h)) with false by (destruct (Z.eqb_spec id (beat_id h)); [rewrite B by auto|]; reflexivity).
        replace ((id =? auth_id h) && negb (auth_through h)) with false by (destruct (Z.eqb_spec id (auth_id h)); [rewrite A by auto|]; reflexivity). reflexivity. }
      eapply ms_more; [apply req1; reflexivity|]. eapply ms_more; [apply req1; reflexivity|].
      eapply ms_more. { apply req1. cbn [qstep]. cbn [set_handlers m_ids]. rewrite G2. reflexivity. }
      apply ms_refl.
    + reflexivity.
  - unfold plan_of. rewrite (i_onmsg _ (inv_all h)), O. unfold plan_id. rewrite (i_hand _ (inv_all h)), S0. reflexivity.
  - rewrite p_C24_chain_exact by exact O. unfold spec_plan. cbn [serving beat_id beat_through auth_id auth_through]. rewrite S0, Z.eqb_refl. cbn [later option_map].
    assert (Y : (match ms, own id h with _ :: _, _ :: _ => None | _, _ => Some (Reg f h []) end) = Some (Reg f h [])).
    { cbn in R. destruct ms; [reflexivity|]. destruct (own id h); [reflexivity|discriminate]. }
    rewrite Y. cbn [r_fn].
    replace ((id =? beat_id h) && negb (beat_through h)) with false by (destruct (Z.eqb_spec id (beat_id h)); [rewrite B by auto|]; reflexivity).
    replace ((id =? auth_id h) && negb (auth_through h)) with false by (destruct (Z.eqb_spec id (auth_id h)); [rewrite A by auto|]; reflexivity).
    eexists. rewrite !app_assoc. reflexivity.
Qed.

Lemma same_refl x m : same_at x m m.
Proof. destruct x; cbn; auto. Qed.

Lemma select_one f i : select_anchors [Anchor "a" f [i] []] i = Ok [f].
Proof. cbn. rewrite Z.leb_refl. reflexivity. Qed.

Lemma keep_tick : keeps_to mtick.
Proof. split; [intros m x _; destruct x; cbn; auto|intros; split; [reflexivity|intros x []]]. Qed.

Lemma keep_panic : keeps_to mpanic.
Proof. split; [intros m x _; apply same_refl|intros; split; [reflexivity|intros x []]]. Qed.

Lemma keep_nothing ls b : keeps_to (MAcc ls [] (fun m => (m, b))).
Proof. split; [intros m x _; apply same_refl|intros; split; [reflexivity|intros x []]]. Qed.

Lemma keep_locked ls eff : keeps_to (MAcc ls ls eff) -> Forall keeps_to (locked ls eff).
Proof. intros K. constructor; [exact I|constructor; [exact K|constructor; [exact I|constructor]]]. Qed.

Lemma keep_self id ms : keeps_to (MAcc [LSelf] [LSelf] (AddSelf id ms)).
Proof.
  split.
  - intros m x N. unfold AddSelf. destruct (ahas id (m_self m)); [apply same_refl|]. destruct x; cbn; auto. exfalso. apply N. left. reflexivity.
  - intros m m' S0 A. pose proof (A LSelf (or_introl eq_refl)) as E. cbn in E. unfold AddSelf. rewrite E. destruct (ahas id (m_self m')); (split; [reflexivity|intros x [<-|[]]; cbn; auto; rewrite E; auto]).
Qed.

Lemma keep_func id f : keeps_to (MAcc [LHandlers] [LHandlers] (AddHandleFunc id f)).
Proof.
  split.
  - intros m x N. unfold AddHandleFunc. destruct (ahas id (m_handlers m)); [apply same_refl|]. destruct x; cbn; auto. exfalso. apply N. left. reflexivity.
  - intros m m' S0 A. pose proof (A LHandlers (or_introl eq_refl)) as E. cbn in E. unfold AddHandleFunc. rewrite E. destruct (ahas id (m_handlers m')); (split; [reflexivity|intros x [<-|[]]; cbn; auto; rewrite E; auto]).
Qed.

Lemma keep_anchor id : keeps_to (MAcc [LIds] [LIds] (fun m => AddMessageIDAnchor id (m_seed m) m)).
Proof.
  split.
  - intros m x N. unfold AddMessageIDAnchor. destruct (ahas id (m_ids m)); [apply same_refl|]. destruct x; cbn; auto. exfalso. apply N. left. reflexivity.
  - intros m m' S0 A. pose proof (A LIds (or_introl eq_refl)) as E. cbn in E. unfold AddMessageIDAnchor. rewrite E, S0. destruct (ahas id (m_ids m')); (split; [reflexivity|intros x [<-|[]]; cbn; auto; rewrite E; auto]).
Qed.

Lemma keep_urlanchor p : keeps_to (MAcc [LUrlIds] [LUrlIds] (fun m => AddURLAnchor p (m_seed m) m)).
Proof.
  split.
  - intros m x N. unfold AddURLAnchor. destruct (ahas p (m_urlids m)); [apply same_refl|]. destruct x; cbn; auto. exfalso. apply N. left. reflexivity.
  - intros m m' S0 A. pose proof (A LUrlIds (or_introl eq_refl)) as E. cbn in E. unfold AddURLAnchor. rewrite E, S0. destruct (ahas p (m_urlids m')); (split; [reflexivity|intros x [<-|[]]; cbn; auto; rewrite E; auto]).
Qed.

Lemma keep_urls p l : keeps_to (MAcc [LUrls] [LUrls] (fun m => ok (AddURLPatternHandler p l m))).
Proof.
  split.
  - intros m x N. unfold AddURLPatternHandler. destruct (aget p (m_urls m)); destruct x; cbn; auto; exfalso; apply N; left; reflexivity.
  - intros m m' S0 A. pose proof (A LUrls (or_introl eq_refl)) as E. cbn in E. split; [reflexivity|]. intros x [<-|[]]. cbn. unfold AddURLPatternHandler. rewrite E. destruct (aget p (m_urls m')); reflexivity.
Qed.

Lemma keep_globals l : keeps_to (MAcc [LGlobals] [LGlobals] (UseGlobal l)).
Proof.
  split.
  - intros m x N. destruct x; cbn; auto. exfalso. apply N. left. reflexivity.
  - intros m m' S0 A. pose proof (A LGlobals (or_introl eq_refl)) as E. cbn in E. split; [reflexivity|]. intros x [<-|[]]. cbn. rewrite E. reflexivity.
Qed.

Lemma keep_add_anchor a : keeps_to (MAcc [LAMap; LAnchors] [LAMap; LAnchors] (fun m => ok (add_anchor a m))).
Proof.
  split.
  - intros m x N. cbn [ok fst]. unfold add_anchor. destruct (ahas (a_key a) (m_amap m)); [apply same_refl|]. destruct x; cbn; auto; exfalso; apply N; cbn; auto.
  - intros m m' S0 A. pose proof (A LAMap (or_introl eq_refl)) as E. pose proof (A LAnchors (or_intror (or_introl eq_refl))) as E'. cbn in E, E'. split; [reflexivity|].
    cbn [ok fst]. unfold add_anchor. rewrite E. destruct (ahas (a_key a) (m_amap m')); intros x [<-|[<-|[]]]; cbn; auto; rewrite ?E, ?E'; reflexivity.
Qed.

Lemma keep_replace a : keeps_to (MAcc [LAMap; LAnchors] [LAMap; LAnchors] (replace_middleware a)).
Proof.
  split.
  - intros m x N. unfold replace_middleware. destruct (ahas (a_key a) (m_amap m)); [|apply same_refl]. destruct x; cbn; auto; exfalso; apply N; cbn; auto.
  - intros m m' S0 A. pose proof (A LAMap (or_introl eq_refl)) as E. pose proof (A LAnchors (or_intror (or_introl eq_refl))) as E'. cbn in E, E'.
    unfold replace_middleware. rewrite E. destruct (ahas (a_key a) (m_amap m')); (split; [reflexivity|intros x [<-|[<-|[]]]; cbn; auto; rewrite ?E, ?E'; reflexivity]).
Qed.

Lemma keep_prog_add id ms f : Forall keeps_to (prog_add id ms f).
Proof.
  unfold prog_add. apply Forall_app. split; [destruct ms; [constructor|apply keep_locked, keep_self]|].
  apply Forall_app. split; [apply keep_locked, keep_func|]. apply Forall_app. split; [constructor; [apply keep_tick|constructor]|]. apply keep_locked, keep_anchor.
Qed.

Lemma p_C87_footprint : forall o m, Forall keeps_to (prog o m).
Proof.
  intros o m. destruct o; cbn [prog].
  - constructor; [apply (keep_nothing [LAMap] false)|]. constructor; [apply keep_tick|].
    destruct (aget k (m_amap m)) as [a|]; [destruct (callUse a (next_index m)) as [a'|]|destruct (callUse _ (next_index m)) as [a'|]].
    + constructor; [|constructor]. split.
      * intros m0 x N. destruct x; cbn; auto. exfalso. apply N. left. reflexivity.
      * intros m0 m' S0 A. pose proof (A LAMap (or_introl eq_refl)) as E. cbn in E. split; [reflexivity|]. intros x [<-|[]]. cbn. rewrite E. reflexivity.
    + constructor; [apply keep_panic|constructor].
    + apply keep_locked, keep_add_anchor.
    + constructor; [apply keep_panic|constructor].
  - destruct (aget k (m_amap m)) as [a|]; [|constructor; [apply (keep_nothing [LAMap] true)|constructor]].
    constructor; [apply (keep_nothing [LAMap] false)|]. constructor; [apply keep_tick|].
    destruct (callUnUse a (next_index m)) as [a'|]; [apply keep_locked, keep_replace|constructor; [apply keep_panic|constructor]].
  - apply keep_locked, keep_globals.
  - apply keep_prog_add.
  - destruct l as [|h l]; [constructor; [apply keep_panic|constructor]|].
    apply Forall_app. split; [destruct (1 <? _)%nat; repeat (constructor; [apply keep_urls|]); constructor|].
    apply Forall_app. split; [constructor; [apply keep_tick|constructor]|]. apply keep_locked, keep_urlanchor.
  - constructor; [|destruct on; [apply keep_prog_add|constructor]]. split.
    + intros m0 x N. destruct x; cbn; auto. exfalso. apply N. left. reflexivity.
    + intros m0 m' S0 A. split; [reflexivity|]. intros x [<-|[]]. cbn. auto.
  - constructor; [|constructor; [|constructor; [|apply keep_prog_add]]].
    + split.
      * intros m0 x N. destruct x; cbn; auto. exfalso. apply N. left. reflexivity.
      * intros m0 m' S0 A. destruct (A LHb (or_introl eq_refl)) as (_ & E & _). pose proof (A LHandlers (or_intror (or_introl eq_refl))) as E'. cbn in E'.
        split; [reflexivity|]. intros x [<-|[]]. cbn. rewrite E, E'. reflexivity.
    + split.
      * intros m0 x N. destruct x; cbn; auto. exfalso. apply N. left. reflexivity.
      * intros m0 m' S0 A. destruct (A LHb (or_introl eq_refl)) as (_ & E & _). pose proof (A LIds (or_intror (or_introl eq_refl))) as E'. cbn in E'.
        split; [reflexivity|]. intros x [<-|[]]. cbn. rewrite E, E'. reflexivity.
    + split.
      * intros m0 x N. destruct x; cbn; auto. exfalso. apply N. left. reflexivity.
      * intros m0 m' S0 A. destruct (A LHb (or_introl eq_refl)) as (E1 & _ & E2). split; [reflexivity|]. intros x [<-|[]]. cbn. auto.
  - constructor; [|destruct yes; [apply keep_prog_add|constructor]]. split.
    + intros m0 x N. destruct x; cbn; auto. exfalso. apply N. left. reflexivity.
    + intros m0 m' S0 A. split; [reflexivity|]. intros x [<-|[]]. cbn. auto.
  - constructor; [|constructor]. split.
    + intros m0 x N. destruct x; cbn; auto. exfalso. apply N. left. reflexivity.
    + intros m0 m' S0 A. split; [reflexivity|]. intros x [<-|[]]. cbn. auto.
Qed.

Lemma p_C87_reads : forall q,
  (forall m m' l, (forall x, In x (qreads q) -> same_at x m m') -> qstep m l q = qstep m' l q) /\
  (forall x, In x (qreads q) -> matters q x).
Proof.
  intros q. split.
  - intros m m' l A. destruct q; cbn [qreads] in A; cbn [qstep]; try reflexivity.
    + rewrite (A LOnMsg (or_introl eq_refl) : m_onmsg m = m_onmsg m'). reflexivity.
    + rewrite (A LGlobals (or_introl eq_refl) : m_globals m = m_globals m'). reflexivity.
    + rewrite (A LAnchors (or_introl eq_refl) : m_anchors m = m_anchors m'). reflexivity.
    + rewrite (A LOnMsg (or_introl eq_refl) : m_onmsg m = m_onmsg m'). reflexivity.
    + rewrite (A LHandlers (or_introl eq_refl) : m_handlers m = m_handlers m'). reflexivity.
    + destruct (A LHb (or_introl eq_refl)) as (_ & E1 & E2). destruct (A LAuth (or_intror (or_introl eq_refl))) as (_ & E3 & E4). rewrite E1, E2, E3, E4. reflexivity.
    + rewrite (A LGlobals (or_introl eq_refl) : m_globals m = m_globals m'). reflexivity.
    + rewrite (A LIds (or_introl eq_refl) : m_ids m = m_ids m'). reflexivity.
    + rewrite (A LAnchors (or_introl eq_refl) : m_anchors m = m_anchors m'). reflexivity.
    + rewrite (A LSelf (or_introl eq_refl) : m_self m = m_self m'). reflexivity.
    + rewrite (A LUrls (or_introl eq_refl) : m_urls m = m_urls m'). reflexivity.
    + rewrite (A LGlobals (or_introl eq_refl) : m_globals m = m_globals m'). reflexivity.
    + rewrite (A LUrlIds (or_introl eq_refl) : m_urlids m = m_urlids m'). reflexivity.
    + rewrite (A LAnchors (or_introl eq_refl) : m_anchors m = m_anchors m'). reflexivity.
  - intros x I. destruct q; cbn [qreads] in I; repeat (destruct I as [<-|I]); try destruct I.
    + exists new_mux, (set_onmsg (Some (User 1)) new_mux), KFree. split; [intros y N; destruct y; cbn; auto; congruence|]. destruct rt; discriminate.
    + exists new_mux, (set_globals [User 1] new_mux), KFree. split; [intros y N; destruct y; cbn; auto; congruence|discriminate].
    + exists new_mux, (set_anchors [Anchor "a" (User 1) [] []] [] new_mux), KFree. split; [intros y N; destruct y; cbn; auto; congruence|].
      cbn. intros E. injection E as E. apply app_inv_head in E. discriminate E.
    + exists new_mux, (set_onmsg (Some (User 1)) new_mux), KFree. split; [intros y N; destruct y; cbn; auto; congruence|discriminate].
    + exists new_mux, (set_handlers [(id, User 1)] new_mux), KFree. split; [intros y N; destruct y; cbn; auto; congruence|].
      cbn. rewrite Z.eqb_refl. discriminate.
    + exists (set_hb false (id + 1) false (set_auth false (id + 1) false new_mux)), (set_hb false id false (set_auth false (id + 1) false new_mux)), KFree. split; [intros y N; destruct y; cbn; auto; congruence|].
      cbn. rewrite Z.eqb_refl. replace (id =? id + 1) with false by (symmetry; apply Z.eqb_neq; lia). discriminate.
    + exists (set_auth false (id + 1) false (set_hb false (id + 1) false new_mux)), (set_auth false id false (set_hb false (id + 1) false new_mux)), KFree. split; [intros y N; destruct y; cbn; auto; congruence|].
      cbn. rewrite Z.eqb_refl. replace (id =? id + 1) with false by (symmetry; apply Z.eqb_neq; lia). discriminate.
    + exists new_mux, (set_globals [User 1] new_mux), KFree. split; [intros y N; destruct y; cbn; auto; congruence|discriminate].
    + exists new_mux, (set_ids [(id, 1)] new_mux), KFree. split; [intros y N; destruct y; cbn; auto; congruence|].
      cbn. rewrite Z.eqb_refl. discriminate.
    + exists new_mux, (set_anchors [Anchor "a" (User 1) [i] []] [] new_mux), KFree. split; [intros y N; destruct y; cbn; auto; congruence|].
      cbn [qstep m_anchors set_anchors new_mux]. rewrite select_one. cbn [select_anchors]. intros E. injection E as E. apply app_inv_head in E. discriminate E.
    + exists new_mux, (set_self [(id, [User 1])] new_mux), KFree. split; [intros y N; destruct y; cbn; auto; congruence|].
      cbn. rewrite Z.eqb_refl. intros E. injection E as E. apply app_inv_head in E. discriminate E.
    + exists new_mux, (set_urls [(u, [User 1])] new_mux), KFree. split; [intros y N; destruct y; cbn; auto; congruence|].
      cbn. rewrite String.eqb_refl. discriminate.
    + exists new_mux, (set_globals [User 1] new_mux), KFree. split; [intros y N; destruct y; cbn; auto; congruence|discriminate].
    + exists new_mux, (set_urlids [(u, 1)] new_mux), KFree. split; [intros y N; destruct y; cbn; auto; congruence|].
      cbn. rewrite String.eqb_refl. discriminate.
    + exists new_mux, (set_anchors [Anchor "a" (User 1) [i] []] [] new_mux), KFree. split; [intros y N; destruct y; cbn; auto; congruence|].
      cbn [qstep m_anchors set_anchors new_mux]. rewrite select_one. cbn [select_anchors]. intros E. injection E as E. apply app_inv_head in E. apply (f_equal (@List.length hdl)) in E. cbn in E. lia.
Qed.

Lemma in_locked ls eff i x : In i (locked ls eff) -> writes i x -> i = MAcc ls ls eff /\ In x ls.
Proof. intros [<-|[<-|[<-|[]]]] W; cbn in W; try destruct W; auto; contradiction. Qed.

Lemma changes_add id ms f i x : In i (prog_add id ms f) -> writes i x -> changes i x.
Proof.
  unfold prog_add. intros I W. apply in_app_or in I. destruct I as [I|I].
  { destruct ms as [|h ms]; [destruct I|]. destruct (in_locked _ _ _ _ I W) as (-> & [<-|[]]). exists new_mux. discriminate. }
  apply in_app_or in I. destruct I as [I|I].
  { destruct (in_locked _ _ _ _ I W) as (-> & [<-|[]]). exists new_mux. discriminate. }
  apply in_app_or in I. destruct I as [[<-|[]]|I]; [destruct W|].
  destruct (in_locked _ _ _ _ I W) as (-> & [<-|[]]). exists new_mux. discriminate.
Qed.

Lemma p_C87_writes : forall o m i x, o <> OGlobal [] -> In i (prog o m) -> writes i x -> changes i x.
Proof.
  intros o m i x NG I W. destruct o; cbn [prog] in I.
  - destruct I as [<-|[<-|I]]; [destruct W|destruct W|].
    destruct (aget k (m_amap m)) as [a|]; [destruct (callUse a (next_index m)) as [a'|]|destruct (callUse _ (next_index m)) as [a'|]].
    + destruct I as [<-|[]]. destruct W as [<-|[]]. exists new_mux. discriminate.
    + destruct I as [<-|[]]. destruct W.
    + destruct (in_locked _ _ _ _ I W) as (-> & [<-|[<-|[]]]); exists new_mux; discriminate.
    + destruct I as [<-|[]]. destruct W.
  - destruct (aget k (m_amap m)) as [a|]; [|destruct I as [<-|[]]; destruct W].
    destruct I as [<-|[<-|I]]; [destruct W|destruct W|].
    destruct (callUnUse a (next_index m)) as [a'|]; [|destruct I as [<-|[]]; destruct W].
    destruct (in_locked _ _ _ _ I W) as (-> & L).
    set (o := Anchor (a_key a') (a_fn a') (0 :: a_starts a') (a_ends a')).
    assert (D : o <> a').
    { intros E. apply (f_equal (fun a => List.length (a_starts a))) in E. cbn in E. lia. }
    exists (set_anchors [o] [(a_key a', o)] new_mux). cbv [replace_middleware].
    assert (H0 : ahas (a_key a') (m_amap (set_anchors [o] [(a_key a', o)] new_mux)) = true) by (unfold ahas; cbn; rewrite String.eqb_refl; reflexivity).
    rewrite H0. destruct L as [<-|[<-|[]]]; cbn.
    + destruct (String.eqb_spec (a_key a') (a_key a')); [|congruence]. intros E. injection E as E. contradiction.
    + destruct (String.eqb_spec (a_key a') (a_key a')); [|congruence]. intros E. injection E as E. contradiction.
  - destruct (in_locked _ _ _ _ I W) as (-> & [<-|[]]). exists new_mux. destruct l; [contradiction|discriminate].
  - exact (changes_add _ _ _ _ _ I W).
  - destruct l as [|h l]; [destruct I as [<-|[]]; destruct W|]. apply in_app_or in I. destruct I as [I|I].
    + assert (i = MAcc [LUrls] [LUrls] (fun m => ok (AddURLPatternHandler p (h :: l) m))) as ->.
      { destruct (1 <? _)%nat; [destruct I as [<-|[<-|[]]]|destruct I as [<-|[]]]; reflexivity. }
      destruct W as [<-|[]]. exists new_mux. discriminate.
    + apply in_app_or in I. destruct I as [[<-|[]]|I]; [destruct W|]. destruct (in_locked _ _ _ _ I W) as (-> & [<-|[]]). exists new_mux. discriminate.
  - destruct I as [<-|I]; [|destruct on; [exact (changes_add _ _ _ _ _ I W)|destruct I]].
    destruct W as [<-|[]]. exists (set_hb (negb on) 0 false new_mux). cbn. destruct on; intros (E & _); discriminate E.
  - destruct I as [<-|[<-|[<-|I]]]; [destruct W as [<-|[]]..|exact (changes_add _ _ _ _ _ I W)].
    + exists (set_handlers [(0, f)] new_mux). discriminate.
    + exists (set_ids [(0, 0)] new_mux). discriminate.
    + exists (set_hb false (id + 1) false new_mux). cbn. intros (_ & E & _). lia.
  - destruct I as [<-|I]; [|destruct yes; [exact (changes_add _ _ _ _ _ I W)|destruct I]].
    destruct W as [<-|[]]. exists (set_auth (negb yes) 0 false new_mux). cbn. destruct yes; intros (E & _); discriminate E.
  - destruct I as [<-|[]]. destruct W as [<-|[]]. destruct f as [f|].
    + exists new_mux. discriminate.
    + exists (set_onmsg (Some (User 1)) new_mux). discriminate.
Qed.
