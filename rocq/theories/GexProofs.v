(* The graceful-exit example (C138). NODEMO *)
From Verif Require Export SpecGex ExitProofs.

(* the phases of the only goroutine and what has run by then *)
Definition tells (ph : phase) (ran : list nat) : Prop :=
  match ph with
  | BNew | BNotified | BWaiting => ran = []
  | BRunning l => (l = jobs /\ ran = []) \/ (l = [Hook 2 false] /\ ran = [1%nat]) \/ (l = [] /\ ran = [1%nat; 2%nat])
  | BGone => False
  end.

Definition ginv (l : list gop) (g : gex) : Prop :=
  match pr_waiters (gx_proc g) with
  | [] => gx_main g = GBegin /\ pr_ran (gx_proc g) = [] /\ pr_end (gx_proc g) <> Some ByExit /\ ~ In GBack l
  | [w] => gx_main g <> GBegin /\ b_hooks w = jobs /\ tells (b_phase w) (pr_ran (gx_proc g)) /\
      (b_phase w = BNew -> ~ In GBack l) /\
      (pr_end (gx_proc g) = Some ByExit -> b_phase w = BRunning []) /\
      (pr_end (gx_proc g) = Some BySignal -> In (GSig SigKill) l \/ b_phase w = BNew)
  | _ => False
  end.

Lemma main_after_not y ok : main_after (listens ok y) <> GBegin.
Proof. unfold main_after. destruct (listens ok y); discriminate. Qed.

Lemma ginv_step l g o g' : ginv l g -> gxstep g o = Some g' -> ginv (l ++ [o]) g'.
Proof.
  intros I H. unfold gxstep in H. unfold ginv in *. destruct g as [m [ws ran e]]. cbn [gx_main gx_proc pr_waiters pr_ran pr_end] in *.
  destruct e as [e|]; [destruct m; discriminate|].
  destruct ws as [|w [|w2 ws]]; [| |contradiction].
  - destruct I as (-> & -> & _ & N). destruct o as [ok|y| |sg]; cbn in H; try discriminate.
    + injection H as <-. cbn. repeat split; try discriminate. intros _ X. apply in_app_or in X as [X|[X|[]]]; [exact (N X)|discriminate].
    + destruct sg; cbn in H; injection H as <-; cbn; (split; [reflexivity|]); (split; [reflexivity|]); (split; [discriminate|]); intros X; apply in_app_or in X as [X|[X|[]]]; try discriminate; exact (N X).
  - destruct I as (M & HK & T & N & _ & _). destruct w as [hs ph]. cbn [b_hooks b_phase] in *. subst hs.
    assert (K : forall x o, o <> GBack -> (x = BNew -> ~ In GBack l) -> x = BNew -> ~ In GBack (l ++ [o])) by (intros x o0 D Q E X; apply in_app_or in X as [X|[X|[]]]; [exact (Q E X)|congruence]).
    destruct o as [ok|y| |sg].
    + destruct m; try discriminate; try contradiction. injection H as <-. cbn. split; [solve [apply main_after_not|discriminate]|]. split; [reflexivity|]. split; [exact T|]. split; [apply (K ph); [discriminate|exact N]|]. split; discriminate.
    + destruct m; try discriminate; try contradiction. injection H as <-. cbn. split; [solve [apply main_after_not|discriminate]|]. split; [reflexivity|]. split; [exact T|]. split; [apply (K ph); [discriminate|exact N]|]. split; discriminate.
    + assert (H' : with_proc (Gex m (Proc [Waiter jobs ph] ran None)) (pstep (Proc [Waiter jobs ph] ran None) (PStep 0)) = Some g') by (destruct m; try discriminate; exact H). clear H.
      destruct ph as [| | |hs|]; cbn in H'; try discriminate; try contradiction.
      * injection H' as <-. cbn. repeat split; auto; discriminate.
      * injection H' as <-. cbn. repeat split; auto; discriminate.
      * cbn [tells] in T. destruct T as [(-> & ->)|[(-> & ->)|(-> & ->)]]; cbn in H'; injection H' as <-; cbn; repeat split; auto; try discriminate.
    + assert (H' : with_proc (Gex m (Proc [Waiter jobs ph] ran None)) (pstep (Proc [Waiter jobs ph] ran None) (PSignal sg)) = Some g') by (destruct m; try discriminate; exact H). clear H.
      assert (KK : ph = BNew -> ~ In GBack (l ++ [GSig sg])) by (apply (K ph); [discriminate|exact N]).
      destruct (match sg with SigKill => true | _ => false end) eqn:SK.
      * destruct sg; try discriminate. cbn in H'. injection H' as <-. cbn. repeat split; auto; try discriminate. intros _. left. apply in_or_app. right. left. reflexivity.
      * assert (E : pstep (Proc [Waiter jobs ph] ran None) (PSignal sg) = if existsb notified [Waiter jobs ph] then Some (Proc (map wake [Waiter jobs ph]) ran None) else Some (Proc [Waiter jobs ph] ran (Some BySignal))) by (destruct sg; try discriminate; reflexivity).
        rewrite E in H'. destruct ph as [| | |hs|]; cbn in H'; injection H' as <-; cbn; repeat split; auto; try discriminate.
Qed.

Lemma gxrun_app a : forall g b, gxrun g (a ++ b) = match gxrun g a with Some g' => gxrun g' b | None => None end.
Proof. induction a as [|o a IH]; intros g b; cbn [app gxrun]; [reflexivity|]. destruct (gxstep g o); [apply IH|reflexivity]. Qed.

Lemma ginv_run l : forall g, gxrun gex0 l = Some g -> ginv l g.
Proof.
  induction l as [|o l IH] using rev_ind; intros g H.
  - injection H as <-. cbn. repeat split; auto; discriminate.
  - rewrite gxrun_app in H. destruct (gxrun gex0 l) as [g1|] eqn:E; [|discriminate]. cbn [gxrun] in H. destruct (gxstep g1 o) as [g2|] eqn:S; [|discriminate]. injection H as <-. exact (ginv_step l g1 o g2 (IH g1 eq_refl) S).
Qed.

Lemma p_C138_jobs_partial : forall l g, gxrun gex0 l = Some g -> ~ In (GSig SigKill) l ->
  (exists rest, both = said g ++ rest) /\ (pr_end (gx_proc g) = Some ByExit -> said g = both) /\
  (pr_end (gx_proc g) = Some BySignal -> said g = [] /\ ~ In GBack l).
Proof.
  intros l g H NK. pose proof (ginv_run l g H) as I. unfold ginv in I. unfold said. destruct (pr_waiters (gx_proc g)) as [|w [|w2 ws]]; [| |contradiction].
  - destruct I as (_ & -> & N & B). split; [exists both; reflexivity|]. split; [intros E; contradiction|]. intros _. split; [reflexivity|exact B].
  - destruct I as (_ & _ & T & N & X & Y). split; [|split].
    + destruct (b_phase w); cbn [tells] in T; try (rewrite T; exists both; reflexivity); [|contradiction]. destruct T as [(_ & ->)|[(_ & ->)|(_ & ->)]]; [exists both|exists ["job2 done"%string]|exists []]; reflexivity.
    + intros E. rewrite (X E) in T. cbn [tells] in T. destruct T as [(T & _)|[(T & _)|(_ & ->)]]; [discriminate T|discriminate T|reflexivity].
    + intros E. destruct (Y E) as [Z|Z]; [contradiction|]. rewrite Z in T. cbn [tells] in T. rewrite T. split; [reflexivity|exact (N Z)].
Qed.

Lemma p_C138_exits : forall l g sg, gxrun gex0 l = Some g -> ~ over g -> gx_main g = GListens -> sg <> SigKill ->
  exists l' g', (forall o, In o l' -> o = GBack \/ o = GSig sg) /\ gxrun g l' = Some g' /\ pr_end (gx_proc g') = Some ByExit /\ said g' = both.
Proof.
  intros l g sg H NO M SK. pose proof (ginv_run l g H) as I. unfold ginv in I. destruct g as [m [ws ran e]]. cbn [gx_main gx_proc pr_waiters pr_ran pr_end] in *. subst m.
  assert (e = None) as -> by (destruct e; [|reflexivity]; exfalso; apply NO; right; discriminate). clear NO H.
  destruct ws as [|w [|w2 ws]]; [destruct I; discriminate| |contradiction]. destruct I as (_ & HK & T & _). destruct w as [hs ph]. cbn [b_hooks b_phase] in *. subst hs.
  assert (IN : forall n o, In o (repeat GBack n) -> o = GBack) by (intros n o X; exact (repeat_spec _ _ _ X)).
  destruct ph as [| | |hs|]; cbn [tells] in T; [| | | |contradiction].
  - subst ran. exists [GBack; GBack; GSig sg; GBack; GBack; GBack]. eexists. split; [intros o [<-|[<-|[<-|[<-|[<-|[<-|[]]]]]]]; auto|]. destruct sg; try contradiction; cbn; repeat split.
  - subst ran. exists [GBack; GSig sg; GBack; GBack; GBack]. eexists. split; [intros o [<-|[<-|[<-|[<-|[<-|[]]]]]]; auto|]. destruct sg; try contradiction; cbn; repeat split.
  - subst ran. exists [GSig sg; GBack; GBack; GBack]. eexists. split; [intros o [<-|[<-|[<-|[<-|[]]]]]; auto|]. destruct sg; try contradiction; cbn; repeat split.
  - destruct T as [(-> & ->)|[(-> & ->)|(-> & ->)]].
    + exists [GBack; GBack; GBack]. eexists. split; [intros o [<-|[<-|[<-|[]]]]; auto|]. cbn; repeat split.
    + exists [GBack; GBack]. eexists. split; [intros o [<-|[<-|[]]]; auto|]. cbn; repeat split.
    + exists [GBack]. eexists. split; [intros o [<-|[]]; auto|]. cbn; repeat split.
Qed.

Lemma p_C138_port_refuted : exists g, gxrun gex0 [GMain true; GMain false] = Some g /\ over g /\ said g = [].
Proof. eexists. split; [reflexivity|]. split; [left; reflexivity|reflexivity]. Qed.

Lemma p_C138_accept_refuted : forall l g, gxrun gex0 l = Some g -> ~ over g -> gx_main g = GListens ->
  exists g', gxstep g (GLeft AcceptFailed) = Some g' /\ over g' /\ said g' = said g /\ pr_end (gx_proc g') = None /\ forall o, gxstep g' o = None.
Proof.
  intros l g _ NO M. destruct g as [m [ws ran e]]. cbn [gx_main gx_proc] in *. subst m.
  assert (e = None) as -> by (destruct e; [|reflexivity]; exfalso; apply NO; right; discriminate).
  eexists. split; [reflexivity|]. split; [left; reflexivity|]. split; [reflexivity|]. split; reflexivity.
Qed.
