(* Two ways of showing that a variable is not raced: the lock is held around every access; or the
   variable is only written while no other goroutine can know it. *)
From Verif Require Export SpecAccess BaseFacts CtxFacts.

Section Facts.
  Context {X : Type}.
  Implicit Types (p q k : acts X) (ts : list (acts X)).

  Inductive hold := HNone | HRead | HWrite.

  Fixpoint guarded (x : X) (h : hold) p : Prop :=
    match p with
    | PEnd => h = HNone
    | PLock k => h = HNone /\ guarded x HWrite k
    | PUnlock k => h = HWrite /\ guarded x HNone k
    | PRLock k => h = HNone /\ guarded x HRead k
    | PRUnlock k => h = HRead /\ guarded x HNone k
    | PRd y k => (y = x -> h <> HNone) /\ guarded x h k
    | PWr y k => (y = x -> h = HWrite) /\ guarded x h k
    | PGo q k => guarded x HNone q /\ guarded x h k
    end.

  Lemma guarded_then x q : guarded x HNone q -> forall p h, guarded x h p -> guarded x h (pthen p q).
  Proof. intros Q. induction p; cbn; intros h H; try (destruct H as (A & B); split; auto). subst. exact Q. Qed.

  Fixpoint holders (h : hold) (hs : list hold) : nat :=
    match hs with [] => 0 | g :: r => (if match h, g with HRead, HRead | HWrite, HWrite | HNone, HNone => true | _, _ => false end then 1 else 0) + holders h r end%nat.

  Lemma holders_upd h hs t g g' : nth_error hs t = Some g ->
    (holders h (upd hs t g') + holders h [g] = holders h hs + holders h [g'])%nat.
  Proof.
    revert t. induction hs as [|y hs IH]; intros [|t] H; cbn in *; try discriminate.
    - inversion H; subst. destruct h, g, g'; cbn; lia.
    - specialize (IH t H). lia.
  Qed.

  Lemma holders_app h hs g : (holders h (hs ++ [g]) = holders h hs + holders h [g])%nat.
  Proof. induction hs as [|y hs IH]; cbn in *; [lia|]. rewrite IH. lia. Qed.

  Lemma holders_one h hs t : nth_error hs t = Some h -> (1 <= holders h hs)%nat.
  Proof. revert t. induction hs as [|y hs IH]; intros [|t] H; cbn in *; try discriminate; [inversion H; subst; destruct h; lia|apply IH in H; lia]. Qed.

  Lemma holders_two h hs t1 t2 : t1 <> t2 -> nth_error hs t1 = Some h -> nth_error hs t2 = Some h -> (2 <= holders h hs)%nat.
  Proof.
    revert t1 t2. induction hs as [|y hs IH]; intros [|t1] [|t2] N A B; cbn in *; try discriminate; try lia.
    - inversion A; subst. apply holders_one in B. destruct h; lia.
    - inversion B; subst. apply holders_one in A. destruct h; lia.
    - assert (t1 <> t2) by congruence. pose proof (IH _ _ H A B). lia.
  Qed.

  Definition lock_is (l : rwm) (hs : list hold) : Prop :=
    holders HWrite hs = match l with RwWrite => 1%nat | _ => 0%nat end /\
    holders HRead hs = match l with RwRead n => S n | _ => 0%nat end.

  Definition GInv x (m : mach X) : Prop :=
    exists hs, Forall2 (guarded x) hs (mc_threads m) /\ lock_is (mc_lock m) hs.

  Lemma F2_nth {A B} (R : A -> B -> Prop) l1 l2 : Forall2 R l1 l2 -> forall t b, nth_error l2 t = Some b -> exists a, nth_error l1 t = Some a /\ R a b.
  Proof. induction 1; intros [|t] b' E; cbn in *; try discriminate; [inversion E; subst; eauto|eauto]. Qed.
  Lemma F2_upd {A B} (R : A -> B -> Prop) l1 l2 : Forall2 R l1 l2 -> forall t a b, R a b -> Forall2 R (upd l1 t a) (upd l2 t b).
  Proof. induction 1; intros [|t] a b E; cbn; auto. Qed.

  Lemma ginv_step x m m' : GInv x m -> astep m m' -> GInv x m'.
  Proof.
    intros (hs & F & W & R) S.
    assert (K : forall t p h' p', nth_error (mc_threads m) t = Some p -> forall h, nth_error hs t = Some h ->
      guarded x h' p' -> forall l, (forall hw hr, (holders HWrite (upd hs t h') + holders HWrite [h] = holders HWrite hs + holders HWrite [h'])%nat ->
        (holders HRead (upd hs t h') + holders HRead [h] = holders HRead hs + holders HRead [h'])%nat ->
        hw = holders HWrite (upd hs t h') -> hr = holders HRead (upd hs t h') ->
        hw = match l with RwWrite => 1%nat | _ => 0%nat end /\ hr = match l with RwRead n => Datatypes.S n | _ => 0%nat end) ->
      GInv x (Mach l (upd (mc_threads m) t p'))).
    { intros t p h' p' E h H G l L. exists (upd hs t h'). split; [apply F2_upd; auto|]. unfold lock_is. cbn [mc_lock].
      apply L; auto using holders_upd. }
    destruct S as [ts t k E|ts t k E|ts t k E|n ts t k E|ts t k E|n ts t k E|l ts t y k E|l ts t y k E|l ts t p k E]; cbn [mc_lock mc_threads] in *;
      destruct (F2_nth _ _ _ F _ _ E) as (h & H & G); cbn in G; destruct G as (G1 & G2).
    - subst h. eapply (K t _ HWrite k E HNone H G2). cbn. intros; lia.
    - subst h. eapply (K t _ HNone k E HWrite H G2). cbn. intros; lia.
    - subst h. eapply (K t _ HRead k E HNone H G2). cbn. intros; lia.
    - subst h. eapply (K t _ HRead k E HNone H G2). cbn. intros; lia.
    - subst h. eapply (K t _ HNone k E HRead H G2). cbn. intros; lia.
    - subst h. eapply (K t _ HNone k E HRead H G2). cbn. intros; lia.
    - eapply (K t _ h k E h H G2). intros; lia.
    - eapply (K t _ h k E h H G2). intros; lia.
    - destruct (K t _ h k E h H G2 l) as (hs' & F' & W' & R'); [intros; lia|]. cbn [mc_lock mc_threads] in *.
      exists (hs' ++ [HNone]). split; [apply Forall2_app; auto|]. unfold lock_is. cbn [mc_lock]. rewrite !holders_app. cbn. split; lia.
  Qed.

  Lemma ginv_race x m : GInv x m -> ~ race x m.
  Proof.
    intros (hs & F & W & R) (t1 & t2 & p1 & p2 & N & E1 & E2 & (k1 & ->) & k2 & A).
    destruct (F2_nth _ _ _ F _ _ E1) as (h1 & H1 & G1 & _). specialize (G1 eq_refl). subst h1.
    destruct (F2_nth _ _ _ F _ _ E2) as (h2 & H2 & G2).
    assert (X2 : h2 <> HNone). { destruct A as [->| ->]; cbn in G2; destruct G2 as (G2 & _); specialize (G2 eq_refl); congruence. }
    pose proof (holders_one _ _ _ H1). destruct (mc_lock m); try lia. destruct h2; [congruence| |].
    - pose proof (holders_one _ _ _ H2). lia.
    - pose proof (holders_two _ _ _ _ N H1 H2). lia.
  Qed.

  Lemma ginv_steps x m m' : GInv x m -> asteps m m' -> GInv x m'.
  Proof. intros I S. induction S as [m|m m1 m2 S IH T]; [exact I|]. eapply ginv_step; [apply IH, I|exact T]. Qed.

  Lemma guarded_free x ts : (forall p, In p ts -> guarded x HNone p) -> race_free x ts.
  Proof.
    intros H m S. apply ginv_race. eapply ginv_steps; [|exact S]. exists (map (fun _ => HNone) ts). split.
    - cbn [launch mc_threads]. clear S. induction ts as [|p ts IH]; cbn; constructor; [apply H; left; auto|apply IH; intros; apply H; right; auto].
    - unfold lock_is, launch. cbn [mc_lock]. clear. induction ts as [|p ts (A & B)]; cbn; auto.
  Qed.

  (* p, or a goroutine it starts, writes (accesses) x *)
  Fixpoint wr (x : X) p : Prop :=
    match p with
    | PEnd => False
    | PLock k | PUnlock k | PRLock k | PRUnlock k | PRd _ k => wr x k
    | PWr y k => y = x \/ wr x k
    | PGo q k => wr x q \/ wr x k
    end.
  Fixpoint ac (x : X) p : Prop :=
    match p with
    | PEnd => False
    | PLock k | PUnlock k | PRLock k | PRUnlock k => ac x k
    | PRd y k | PWr y k => y = x \/ ac x k
    | PGo q k => ac x q \/ ac x k
    end.
  (* whenever a goroutine is started, it and what follows agree not to write what the other accesses *)
  Fixpoint apart (x : X) p : Prop :=
    match p with
    | PEnd => True
    | PLock k | PUnlock k | PRLock k | PRUnlock k | PRd _ k | PWr _ k => apart x k
    | PGo q k => ~ (wr x q /\ ac x k) /\ ~ (ac x q /\ wr x k) /\ apart x q /\ apart x k
    end.

  Lemma wr_ac x p : wr x p -> ac x p.
  Proof. induction p; cbn; tauto. Qed.

  Definition AInv x (m : mach X) : Prop :=
    (forall t p, nth_error (mc_threads m) t = Some p -> apart x p) /\
    (forall t1 t2 p1 p2, t1 <> t2 -> nth_error (mc_threads m) t1 = Some p1 -> nth_error (mc_threads m) t2 = Some p2 -> ~ (wr x p1 /\ ac x p2)).

  Lemma nth_upd_some' {A} (l : list A) i j x y : nth_error (upd l i x) j = Some y -> (j = i /\ y = x) \/ (j <> i /\ nth_error l j = Some y).
  Proof.
    revert i j. induction l as [|z l IH]; intros [|i] [|j] H; cbn in *; try discriminate.
    - inversion H; auto.
    - right. auto.
    - right. auto.
    - destruct (IH _ _ H) as [(-> & ->)|(N & E)]; [left|right]; auto.
  Qed.

  Lemma nth_app_one {A} (l : list A) a t b : nth_error (l ++ [a]) t = Some b -> nth_error l t = Some b \/ (t = List.length l /\ b = a).
  Proof.
    intros H. destruct (Nat.lt_ge_cases t (List.length l)) as [L|L].
    - left. rewrite nth_error_app1 in H; auto.
    - right. rewrite nth_error_app2 in H by auto. destruct (t - List.length l)%nat as [|n] eqn:D; cbn in H.
      + inversion H. split; [lia|auto].
      + destruct n; discriminate.
  Qed.

  Lemma ainv_less x l l' ts t p k : AInv x (Mach l ts) -> nth_error ts t = Some p -> (wr x k -> wr x p) -> (ac x k -> ac x p) -> (apart x p -> apart x k) ->
    AInv x (Mach l' (upd ts t k)).
  Proof.
    intros (A & B) E W C P. cbn [mc_threads] in *. split; cbn [mc_threads].
    - intros t' q H. apply nth_upd_some' in H as [(-> & ->)|(N & H)]; eauto.
    - intros t1 t2 p1 p2 N H1 H2 (Q1 & Q2).
      apply nth_upd_some' in H1 as [(-> & ->)|(N1 & H1)]; apply nth_upd_some' in H2 as [(-> & ->)|(N2 & H2)]; try congruence.
      + eapply (B t t2); eauto.
      + eapply (B t1 t); eauto.
      + eapply (B t1 t2); eauto.
  Qed.

  Lemma ainv_step x m m' : AInv x m -> astep m m' -> AInv x m'.
  Proof.
    intros I S. destruct S as [ts t k E|ts t k E|ts t k E|n ts t k E|ts t k E|n ts t k E|l ts t y k E|l ts t y k E|l ts t p k E];
      try (eapply ainv_less; [exact I|exact E|cbn; tauto..]).
    assert (J : AInv x (Mach l (upd ts t k))). { eapply ainv_less; [exact I|exact E|cbn; tauto..]. }
    destruct I as (A & B), J as (A' & B'). cbn [mc_threads] in *. pose proof (A _ _ E) as P. cbn in P. destruct P as (P1 & P2 & P3 & P4).
    assert (O1 : forall t' q, nth_error (upd ts t k) t' = Some q -> ~ (wr x p /\ ac x q)).
    { intros t' q H (Q1 & Q2). apply nth_upd_some' in H as [(-> & ->)|(N & H)]; [tauto|]. eapply (B t t'); eauto. split; auto. cbn. auto. }
    assert (O2 : forall t' q, nth_error (upd ts t k) t' = Some q -> ~ (wr x q /\ ac x p)).
    { intros t' q H (Q1 & Q2). apply nth_upd_some' in H as [(-> & ->)|(N & H)]; [tauto|]. eapply (B t' t); eauto. split; auto. cbn. auto. }
    split; cbn [mc_threads].
    - intros t' q H. apply nth_app_one in H as [H|(-> & ->)]; eauto.
    - intros t1 t2 p1 p2 N H1 H2. apply nth_app_one in H1 as [H1|(-> & ->)]; apply nth_app_one in H2 as [H2|(-> & ->)]; try congruence; eauto.
  Qed.

  Lemma apart_free x p : apart x p -> race_free x [p].
  Proof.
    intros P m S.
    assert (I : AInv x m).
    { assert (I0 : AInv x (launch [p])).
      { split; cbn.
        - intros [|[|t]] q H; cbn in H; try discriminate. inversion H; subst. auto.
        - intros [|[|t1]] [|[|t2]] p1 p2 N H1 H2; cbn in *; try discriminate; congruence. }
      revert I0. clear P. induction S as [m|m m1 m2 S IH T]; [auto|]. intros I0. eapply ainv_step; [apply IH, I0|exact T]. }
    destruct I as (_ & B). intros (t1 & t2 & p1 & p2 & N & E1 & E2 & (k1 & ->) & k2 & A). apply (B _ _ _ _ N E1 E2).
    split; [cbn; auto|]. destruct A as [->| ->]; cbn; auto.
  Qed.

  (* a schedule as the list of the goroutines that step *)
  Definition step_of (m : mach X) (t : nat) : option (mach X) :=
    let ts := mc_threads m in
    match nth_error ts t with
    | Some (PLock k) => match mc_lock m with RwFree => Some (Mach RwWrite (upd ts t k)) | _ => None end
    | Some (PUnlock k) => match mc_lock m with RwWrite => Some (Mach RwFree (upd ts t k)) | _ => None end
    | Some (PRLock k) => match mc_lock m with RwFree => Some (Mach (RwRead 0) (upd ts t k)) | RwRead n => Some (Mach (RwRead (S n)) (upd ts t k)) | _ => None end
    | Some (PRUnlock k) => match mc_lock m with RwRead 0 => Some (Mach RwFree (upd ts t k)) | RwRead (S n) => Some (Mach (RwRead n) (upd ts t k)) | _ => None end
    | Some (PRd _ k) | Some (PWr _ k) => Some (Mach (mc_lock m) (upd ts t k))
    | Some (PGo p k) => Some (Mach (mc_lock m) (upd ts t k ++ [p]))
    | _ => None
    end.

  Fixpoint schedule (m : mach X) (l : list nat) : option (mach X) :=
    match l with [] => Some m | t :: r => match step_of m t with Some m1 => schedule m1 r | None => None end end.

  Lemma step_of_ok m t m' : step_of m t = Some m' -> astep m m'.
  Proof.
    unfold step_of. destruct m as [l ts]. cbn [mc_threads mc_lock]. destruct (nth_error ts t) as [[|k|k|k|k|y k|y k|p k]|] eqn:E; try discriminate;
      destruct l as [|[|n]|]; try discriminate; intros H; injection H as <-; econstructor; exact E.
  Qed.

  Lemma asteps_trans (m m1 m2 : mach X) : asteps m m1 -> asteps m1 m2 -> asteps m m2.
  Proof. intros A B. induction B as [m1|m1 m2 m3 B IH T]; [exact A|]. eapply as_step; [apply IH, A|exact T]. Qed.

  Lemma schedule_ok l (m m' : mach X) : schedule m l = Some m' -> asteps m m'.
  Proof.
    revert m. induction l as [|t l IH]; cbn; intros m H; [injection H as <-; constructor|].
    destruct (step_of m t) as [m1|] eqn:E; [|discriminate]. apply (asteps_trans m m1); [apply (as_step m m m1); [constructor|apply (step_of_ok m t), E]|apply IH, H].
  Qed.

  Lemma apart_nowrite x p : ~ wr x p -> apart x p.
  Proof. induction p; cbn; try tauto. Qed.
End Facts.
