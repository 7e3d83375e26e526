(* A connection's online state under its lock (C81). NODEMO *)
From Verif Require Export SpecState BaseFacts CtxFacts.

(* what a program still has to do, given what its goroutine holds *)
Inductive hold := NoneH | ReadH | WriteH.
Inductive sdisc : hold -> list sinstr -> Prop :=
| sd_calls cs : sdisc NoneH (flat_map sprog cs)
| sd_w2 cs : sdisc WriteH (SSet :: SUnlock :: flat_map sprog cs)
| sd_w1 cs : sdisc WriteH (SUnlock :: flat_map sprog cs)
| sd_r2 i cs : i = SGet \/ i = SPool -> sdisc ReadH (i :: SRUnlock :: flat_map sprog cs)
| sd_r1 cs : sdisc ReadH (SRUnlock :: flat_map sprog cs).

Definition sreading (p : list sinstr) : bool := match p with (SGet | SPool | SRUnlock) :: _ => true | _ => false end.
Definition swriting (p : list sinstr) : bool := match p with (SSet | SUnlock) :: _ => true | _ => false end.
Definition sreaders (l : list (list sinstr)) : nat := List.length (filter sreading l).

Lemma calls_head cs : sreading (flat_map sprog cs) = false /\ swriting (flat_map sprog cs) = false.
Proof. destruct cs as [|[] cs]; split; reflexivity. Qed.

Lemma sdisc_head m p : sdisc m p -> (sreading p = true <-> m = ReadH) /\ (swriting p = true <-> m = WriteH).
Proof.
  destruct 1 as [cs|cs|cs|i cs H|cs]; cbn.
  - destruct (calls_head cs) as (-> & ->). split; split; discriminate.
  - split; split; auto; discriminate.
  - split; split; auto; discriminate.
  - destruct H as [-> | ->]; split; split; auto; discriminate.
  - split; split; auto; discriminate.
Qed.

Lemma sreaders_upd l t q p : nth_error l t = Some p ->
  (sreaders (upd l t q) + (if sreading p then 1 else 0) = sreaders l + (if sreading q then 1 else 0))%nat.
Proof.
  revert t. unfold sreaders. induction l as [|x l IH]; intros [|t] H; cbn in *; try discriminate.
  - inversion H; subst. destruct (sreading p), (sreading q); cbn; lia.
  - specialize (IH t H). destruct (sreading x); cbn in *; lia.
Qed.

Definition SInv (s : sstate) : Prop :=
  (forall t p, nth_error (ss_threads s) t = Some p -> exists m, sdisc m p) /\
  (forall t p, nth_error (ss_threads s) t = Some p -> (swriting p = true <-> ss_lock s = MWrite t)) /\
  (forall t, ss_lock s = MWrite t -> (t < List.length (ss_threads s))%nat) /\
  sreaders (ss_threads s) = match ss_lock s with MRead n => n | _ => 0%nat end /\ ss_lock s <> MRead 0 /\
  ss_off s = set_before (ss_log s).

Lemma sinv0 calls : SInv (sstart calls).
Proof.
  assert (F : forall t p, nth_error (map (flat_map sprog) calls) t = Some p -> exists cs, p = flat_map sprog cs).
  { intros t p H. apply nth_error_In, in_map_iff in H as (cs & <- & _). eauto. }
  unfold SInv, sstart. cbn [ss_threads ss_lock ss_off ss_log]. split; [|split; [|split; [|split; [|split]]]].
  - intros t p H. destruct (F t p H) as (cs & ->). exists NoneH. constructor.
  - intros t p H. destruct (F t p H) as (cs & ->). destruct (calls_head cs) as (_ & ->). split; discriminate.
  - discriminate.
  - unfold sreaders. induction calls as [|cs calls IH]; [reflexivity|]. cbn. destruct (calls_head cs) as (-> & _). apply IH. intros t p H. exact (F (S t) p H).
  - discriminate.
  - reflexivity.
Qed.

(* the steps of one goroutine *)
Lemma disc_step m i r : sdisc m (i :: r) ->
  match i with
  | SLock => m = NoneH /\ sdisc WriteH r
  | SUnlock => m = WriteH /\ sdisc NoneH r
  | SRLock => m = NoneH /\ sdisc ReadH r
  | SRUnlock => m = ReadH /\ sdisc NoneH r
  | SSet => m = WriteH /\ sdisc WriteH r
  | SGet | SPool => m = ReadH /\ sdisc ReadH r
  end.
Proof.
  intros H. inversion H as [cs M E|cs M E|cs M E|x cs D M E|cs M E]; subst; try (split; [reflexivity|constructor]).
  - destruct cs as [|[] cs]; cbn in E; inversion E; subst; (split; [reflexivity|]); cbn; first [apply sd_w2|apply sd_r2; auto].
  - destruct D as [-> | ->]; split; try reflexivity; constructor.
Qed.

Lemma sinv_step t s s' : sact t s s' -> SInv s -> SInv s'.
Proof.
  intros V (D & W & B & R & Z & O).
  assert (G : forall i r, nth_error (ss_threads s) t = Some (i :: r) ->
    exists m, sdisc m (i :: r) /\
    (sreaders (upd (ss_threads s) t r) + (if sreading (i :: r) then 1 else 0) = sreaders (ss_threads s) + (if sreading r then 1 else 0))%nat).
  { intros i r H. destruct (D _ _ H) as (m & M). exists m. split; auto. apply sreaders_upd. exact H. }
  destruct V; destruct (G _ _ H) as (m & M & E); pose proof (disc_step _ _ _ M) as (Mm & N); pose proof (sdisc_head _ _ N) as (N1 & N2);
    pose proof (proj1 (sdisc_head _ _ M)) as M1; pose proof (W _ _ H) as Wt; cbn [sreading swriting] in E, Wt;
    unfold SInv; cbn [ss_threads ss_lock ss_off ss_log]; rewrite upd_length.
  all: split; [intros t' p A; rewrite nth_upd in A; destruct (Nat.eqb t' t) eqn:Q; [rewrite H in A; inversion A; subst; eauto|eapply D; eassumption]|].
  - (* Lock *)
    assert (X : sreading r = false) by (destruct (sreading r); auto; discriminate (proj1 N1 eq_refl)).
    rewrite X in E. rewrite H0 in *. split; [|split; [|split; [|split]]].
    + intros t' p A. rewrite nth_upd in A. destruct (Nat.eqb_spec t' t) as [->|Q].
      * rewrite H in A. inversion A; subst. split; auto. intros _. apply N2. reflexivity.
      * rewrite (W _ _ A). split; [discriminate|intros Y; inversion Y; congruence].
    + intros t' Y. inversion Y; subst. apply nth_error_Some. congruence.
    + lia.
    + discriminate.
    + exact O.
  - (* Unlock *)
    assert (X : sreading r = false) by (destruct (sreading r); auto; discriminate (proj1 N1 eq_refl)).
    assert (X2 : swriting r = false) by (destruct (swriting r); auto; discriminate (proj1 N2 eq_refl)).
    rewrite X in E. rewrite H0 in *. split; [|split; [|split; [|split]]].
    + intros t' p A. rewrite nth_upd in A. destruct (Nat.eqb_spec t' t) as [->|Q].
      * rewrite H in A. inversion A; subst. rewrite X2. split; discriminate.
      * rewrite (W _ _ A). split; [intros Y; inversion Y; congruence|discriminate].
    + discriminate.
    + lia.
    + discriminate.
    + exact O.
  - (* RLock, free *)
    assert (X : sreading r = true) by (apply N1; reflexivity).
    assert (X2 : swriting r = false) by (destruct (swriting r); auto; discriminate (proj1 N2 eq_refl)).
    rewrite X in E. rewrite H0 in *. split; [|split; [|split; [|split]]].
    + intros t' p A. rewrite nth_upd in A. destruct (Nat.eqb_spec t' t) as [->|Q].
      * rewrite H in A. inversion A; subst. rewrite X2. split; discriminate.
      * rewrite (W _ _ A). split; discriminate.
    + discriminate.
    + lia.
    + discriminate.
    + exact O.
  - (* RLock *)
    assert (X : sreading r = true) by (apply N1; reflexivity).
    assert (X2 : swriting r = false) by (destruct (swriting r); auto; discriminate (proj1 N2 eq_refl)).
    rewrite X in E. rewrite H0 in *. split; [|split; [|split; [|split]]].
    + intros t' p A. rewrite nth_upd in A. destruct (Nat.eqb_spec t' t) as [->|Q].
      * rewrite H in A. inversion A; subst. rewrite X2. split; discriminate.
      * rewrite (W _ _ A). split; discriminate.
    + discriminate.
    + lia.
    + discriminate.
    + exact O.
  - (* RUnlock *)
    assert (X : sreading r = false) by (destruct (sreading r); auto; discriminate (proj1 N1 eq_refl)).
    assert (X2 : swriting r = false) by (destruct (swriting r); auto; discriminate (proj1 N2 eq_refl)).
    rewrite X in E. rewrite H0 in *. split; [|split; [|split; [|split]]].
    + intros t' p A. rewrite nth_upd in A. destruct (Nat.eqb_spec t' t) as [->|Q].
      * rewrite H in A. inversion A; subst. rewrite X2. destruct n; split; discriminate.
      * rewrite (W _ _ A). destruct n; split; discriminate.
    + destruct n; discriminate.
    + destruct n; lia.
    + destruct n; discriminate.
    + exact O.
  - (* set *)
    assert (X : sreading r = false) by (destruct (sreading r); auto; discriminate (proj1 N1 eq_refl)).
    rewrite X in E. split; [|split; [exact B|split; [lia|split; [exact Z|reflexivity]]]].
    intros t' p A. rewrite nth_upd in A. destruct (Nat.eqb_spec t' t) as [->|Q]; [|exact (W _ _ A)].
    rewrite H in A. inversion A; subst. rewrite <- Wt. split; auto. intros _. apply N2. reflexivity.
  - (* get *)
    assert (X : sreading r = true) by (apply N1; reflexivity).
    rewrite X in E. split; [|split; [exact B|split; [lia|split; [exact Z|exact O]]]].
    intros t' p A. rewrite nth_upd in A. destruct (Nat.eqb_spec t' t) as [->|Q]; [|exact (W _ _ A)].
    rewrite H in A. inversion A; subst. rewrite <- Wt. split; [|discriminate]. intros Y. discriminate (proj1 N2 Y).
  - (* pool *)
    assert (X : sreading r = true) by (apply N1; reflexivity).
    rewrite X in E. split; [|split; [exact B|split; [lia|split; [exact Z|exact O]]]].
    intros t' p A. rewrite nth_upd in A. destruct (Nat.eqb_spec t' t) as [->|Q]; [|exact (W _ _ A)].
    rewrite H in A. inversion A; subst. rewrite <- Wt. split; [|discriminate]. intros Y. discriminate (proj1 N2 Y).
Qed.

Lemma sinv_reach calls s : ssteps (sstart calls) s -> SInv s.
Proof.
  intros V. remember (sstart calls) as s0 eqn:E. induction V; subst; [apply sinv0|]. eapply sinv_step; eauto.
Qed.

Lemma p_C81_no_race : forall calls s, ssteps (sstart calls) s -> ~ state_race s.
Proof.
  intros calls s V (t1 & t2 & i1 & i2 & r1 & r2 & N & A & B & Wr & Ac).
  destruct (sinv_reach _ _ V) as (D & W & _ & R & _ & _).
  assert (X : ss_lock s = MWrite t1). { apply (W _ _ A). destruct i1; try contradiction; reflexivity. }
  destruct i2; try contradiction.
  - assert (Y : ss_lock s = MWrite t2) by (apply (W _ _ B); reflexivity). congruence.
  - rewrite X in R. assert (Q : In (SGet :: r2) (filter sreading (ss_threads s))) by (apply filter_In; split; [eapply nth_error_In; eauto|reflexivity]).
    unfold sreaders in R. destruct (filter sreading (ss_threads s)); [contradiction|discriminate].
Qed.

Lemma p_C81_reads : forall calls s, ssteps (sstart calls) s ->
  forall l1 t off l2, ss_log s = l1 ++ EvGet t off :: l2 -> off = set_before l2.
Proof.
  intros calls s V. remember (sstart calls) as s0 eqn:E0. induction V as [s|s s1 s2 t0 V IH W]; subst.
  - intros l1 t off l2 E. cbn in E. destruct l1; discriminate.
  - specialize (IH eq_refl). destruct (sinv_reach _ _ V) as (_ & _ & _ & _ & _ & O). intros l1 t off l2 E. destruct W; cbn [ss_log] in E; eauto.
    + destruct l1 as [|e l1]; inversion E; subst. eauto.
    + destruct l1 as [|e l1]; inversion E; subst; eauto.
Qed.

Lemma p_C81_no_deadlock : forall calls s, ssteps (sstart calls) s -> all_done s \/ exists t s', sact t s s'.
Proof.
  intros calls s V. destruct (sinv_reach _ _ V) as (D & W & B & R & Z & _).
  destruct (existsb (fun p => match p with [] => false | _ => true end) (ss_threads s)) eqn:Q.
  2: { left. intros p H. destruct p; auto. rewrite <- not_true_iff_false in Q. exfalso. apply Q. apply existsb_exists. eexists; split; [exact H|reflexivity]. }
  right. apply existsb_exists in Q as (p & I & Q). destruct (In_nth_error _ _ I) as (t & H). destruct p as [|i r]; [discriminate|].
  destruct (ss_lock s) as [|t'|n] eqn:L.
  - exists t. destruct i.
    + eexists. eapply s_lock; eassumption.
    + exfalso. assert (X : MFree = MWrite t) by (apply (W _ _ H); reflexivity). discriminate.
    + eexists. eapply s_rlock_free; eassumption.
    + exfalso. assert (X : In (SRUnlock :: r) (filter sreading (ss_threads s))) by (apply filter_In; auto). unfold sreaders in R. destruct (filter sreading (ss_threads s)); [contradiction|discriminate].
    + eexists. eapply s_set; eassumption.
    + eexists. eapply s_get; eassumption.
    + eexists. eapply s_pool; eassumption.
  - pose proof (B t' eq_refl) as X. destruct (nth_error (ss_threads s) t') as [p|] eqn:H'; [|apply nth_error_None in H'; lia].
    assert (Y : swriting p = true) by (apply (W _ _ H'); reflexivity). exists t'. destruct p as [|[] p]; try discriminate; eexists; [eapply s_unlock; eassumption|eapply s_set; eassumption].
  - destruct n as [|n]; [congruence|]. unfold sreaders in R. destruct (filter sreading (ss_threads s)) as [|q l] eqn:F; [discriminate|].
    assert (X : In q (filter sreading (ss_threads s))) by (rewrite F; left; reflexivity). apply filter_In in X as (X & Y). destruct (In_nth_error _ _ X) as (t' & H').
    exists t'. destruct q as [|[] q]; try discriminate; eexists; [eapply s_runlock; eassumption|eapply s_get; eassumption|eapply s_pool; eassumption].
Qed.

Definition duties (p : list sinstr) : list bool := flat_map (fun i => match i with SSet => [true] | SGet => [false] | _ => [] end) p.

Lemma duties_calls l : duties (flat_map sprog l) = flat_map owed l.
Proof. induction l as [|c l IH]; [reflexivity|]. cbn [flat_map]. unfold duties in *. rewrite flat_map_app, IH. destruct c; reflexivity. Qed.

Lemma did_cons t e l : did t (e :: l) = did t l ++ match e with EvSet u => if Nat.eqb t u then [true] else [] | EvGet u _ => if Nat.eqb t u then [false] else [] end.
Proof. unfold did. cbn [rev]. rewrite flat_map_app. cbn [flat_map]. rewrite app_nil_r. reflexivity. Qed.

Lemma p_C81_accounts : forall calls s, ssteps (sstart calls) s -> forall t l, nth_error calls t = Some l ->
  exists p rest, nth_error (ss_threads s) t = Some p /\ flat_map owed l = did t (ss_log s) ++ rest /\ (p = [] -> rest = []).
Proof.
  assert (N : forall calls s, ssteps (sstart calls) s -> forall t l, nth_error calls t = Some l ->
    exists p, nth_error (ss_threads s) t = Some p /\ flat_map owed l = did t (ss_log s) ++ duties p).
  { intros calls s H. remember (sstart calls) as s0 eqn:E0. induction H as [s|s s1 s2 u H IH A]; intros t l Hl; subst.
    - exists (flat_map sprog l). cbn. split; [rewrite nth_error_map, Hl; reflexivity|]. rewrite duties_calls. reflexivity.
    - destruct (IH eq_refl t l Hl) as (p & Hp & E). rewrite E. clear IH.
      assert (X : forall i r s', nth_error (ss_threads s1) u = Some (i :: r) -> ss_threads s' = upd (ss_threads s1) u r ->
        did t (ss_log s') = did t (ss_log s1) ++ (if Nat.eqb t u then duties [i] else []) ->
        exists q, nth_error (ss_threads s') t = Some q /\ did t (ss_log s1) ++ duties p = did t (ss_log s') ++ duties q).
      { intros i r s' Hu -> ->. destruct (Nat.eqb_spec t u) as [->|Ne].
        - exists r. assert (p = i :: r) as -> by congruence. split; [rewrite nth_upd; rewrite Nat.eqb_refl, Hu; reflexivity|].
          change (i :: r) with ([i] ++ r). unfold duties at 1. rewrite flat_map_app, app_assoc. reflexivity.
        - exists p. split; [rewrite nth_upd; destruct (Nat.eqb_spec t u); [congruence|exact Hp]|]. rewrite app_nil_r. reflexivity. }
      destruct A as [s t' r Hu _|s t' r Hu _|s t' r Hu _|s t' r n Hu _|s t' r n Hu _|s t' r Hu|s t' r Hu|s t' r Hu]; (eapply X; [exact Hu|reflexivity|]);
        cbn [ss_log]; rewrite ?did_cons; cbn; destruct (Nat.eqb t t'); rewrite ?app_nil_r; reflexivity. }
  intros calls s H t l Hl. destruct (N calls s H t l Hl) as (p & Hp & E). exists p, (duties p). split; [exact Hp|]. split; [exact E|]. intros ->. reflexivity.
Qed.
