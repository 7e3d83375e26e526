(* Unsynchronised accesses to the client pool (C80). NODEMO *)
From Verif Require Export SpecPool SpecRace BaseFacts CtxFacts PoolFacts.

Definition reading (p : list instr) : bool :=
  match p with (ILookup _ | IGetDel _ | IRUnlock) :: _ => true | _ => false end.

Definition readers (l : list (list instr)) : nat := List.length (filter reading l).

Definition RInv (s : lstate) : Prop :=
  readers (ls_threads s) = match ls_lock s with MRead n => n | _ => 0%nat end /\ ls_lock s <> MRead 0.

Lemma disc_reading m p : disc m p -> (reading p = true <-> m = HRead).
Proof.
  destruct p as [|i r]; cbn; [intros ->; split; discriminate|]. destruct i, m; cbn; intros H; try contradiction; split; auto; discriminate.
Qed.

Lemma readers_upd l t q p : nth_error l t = Some p ->
  (readers (upd l t q) + (if reading p then 1 else 0) = readers l + (if reading q then 1 else 0))%nat.
Proof.
  revert t. unfold readers. induction l as [|x l IH]; intros [|t] H; cbn in *; try discriminate.
  - inversion H; subst. destruct (reading p), (reading q); cbn; lia.
  - specialize (IH t H). destruct (reading x); cbn in *; lia.
Qed.

Lemma rinv_start s : lock_start s -> RInv s.
Proof.
  intros (A & B & C & D). unfold RInv. rewrite B. split; [|discriminate]. unfold readers.
  assert (X : filter reading (ls_threads s) = []).
  { assert (F : forall p, In p (ls_threads s) -> reading p = false).
    { intros p H. apply D, call_prog_disc in H. apply disc_reading in H. destruct (reading p); auto. destruct H as (H & _). discriminate (H eq_refl). }
    induction (ls_threads s) as [|p l IH]; auto. cbn. rewrite F by (left; auto). apply IH; [|intros; apply F; right; auto].
    intros q Hq. apply D. right. auto. }
  rewrite X. reflexivity.
Qed.

Lemma disc_tl s t i r m : nth_error (ls_threads s) t = Some (i :: r) -> disc m (i :: r) -> (m = HWrite <-> ls_lock s = MWrite t) ->
  match i with
  | ILock => True
  | IUnlock | IRUnlock | ISet _ _ | IDel _ | IName _ _ | ISock _ | IEnd _ | IState _ => reading r = false
  | ILookup _ => reading r = true
  | IRLock => ls_lock s <> MWrite t -> reading r = true
  | _ => True
  end.
Proof.
  intros H D W.
  assert (F : forall m, m <> HRead -> disc m r -> reading r = false).
  { intros m' N X. apply disc_reading in X. destruct (reading r); auto. exfalso. apply N. apply X. reflexivity. }
  assert (T : disc HRead r -> reading r = true). { intros X. apply disc_reading in X. apply X. reflexivity. }
  destruct i, m; cbn in D; try contradiction; auto; try (eapply F; [|exact D]; discriminate).
  intros X. exfalso. apply X. apply W. reflexivity.
Qed.

Lemma rinv_step s s' : DInv s -> RInv s -> lstep s s' -> RInv s'.
Proof.
  intros I R (t & H). destruct R as (R & Z). unfold RInv.
  assert (G : forall i r q, nth_error (ls_threads s) t = Some (i :: r) ->
    (readers (upd (ls_threads s) t q) + (if reading (i :: r) then 1 else 0) = readers (ls_threads s) + (if reading q then 1 else 0))%nat /\
    exists m, disc m (i :: r) /\ (m = HWrite <-> ls_lock s = MWrite t)).
  { intros i r q A. split; [apply readers_upd; auto|]. apply I; auto. }
  destruct H; (match goal with |- context [upd (ls_threads s) t ?q] => pose proof (G _ _ q H) as (E & m & D & W) end || match goal with |- context [set_thread s t ?q] => pose proof (G _ _ q H) as (E & m & D & W) end);
    pose proof (disc_tl _ _ _ _ _ H D W) as T; cbn [set_thread ls_lock ls_threads] in *; cbn [reading] in E, T.
  - assert (Y : reading r = false). { destruct m; cbn in D; try contradiction. apply disc_reading in D. destruct (reading r); auto. destruct D as (D & _). discriminate (D eq_refl). }
    rewrite Y in E. rewrite H0 in R. split; [lia|discriminate].
  - rewrite T in E. rewrite H0 in R. split; [lia|discriminate].
  - rewrite T in E by congruence. rewrite H0 in R. split; [lia|discriminate].
  - rewrite T in E by congruence. rewrite H0 in R. split; [lia|discriminate].
  - rewrite T in E. rewrite H0 in R. destruct n; split; try lia; discriminate.
  - rewrite T in E. split; [lia|auto].
  - rewrite T in E. split; [lia|auto].
  - rewrite T in E. split; [lia|auto].
  - destruct (aget u (ls_pool s)); cbn [reading] in E; split; auto; lia.
  - rewrite T in E. split; [lia|auto].
  - rewrite T in E. split; [lia|auto].
  - rewrite T in E. split; [lia|auto].
  - assert (Y : reading r = false). { destruct m; cbn in D; try contradiction; apply disc_reading in D; destruct (reading r); auto; destruct D as (D & _); discriminate (D eq_refl). }
    destruct (lc_ref k), (lc_name k); cbn [reading] in E; try rewrite Y in E; split; auto; lia.
  - rewrite T in E. split; [lia|auto].
  - assert (Y : reading (range_body (ls_pool s) ks ++ r) = false).
    { destruct m; cbn in D; try contradiction. pose proof (range_disc (ls_pool s) ks r D) as X. apply disc_reading in X. destruct (reading _); auto. destruct X as (X & _). discriminate (X eq_refl). }
    rewrite Y in E. split; [lia|auto].
Qed.

Lemma rinv_reach s0 s : lock_start s0 -> lsteps s0 s -> RInv s.
Proof.
  intros H L. induction L; [apply rinv_start; auto|]. eapply rinv_step; eauto. eapply dinv_reach; eauto.
Qed.

Lemma p_C80_no_race : forall s0 s, lock_start s0 -> lsteps s0 s -> ~ map_race s.
Proof.
  intros s0 s S L (t1 & t2 & i1 & i2 & r1 & r2 & N & A & B & Wr & Ac).
  pose proof (dinv_reach _ _ S L) as D. destruct (rinv_reach _ _ S L) as (R & _).
  destruct (D _ _ A) as (m1 & D1 & W1). destruct (D _ _ B) as (m2 & D2 & W2).
  assert (X : ls_lock s = MWrite t1). { apply W1. destruct i1; try contradiction; destruct m1; cbn in D1; try contradiction; reflexivity. }
  assert (Y : m2 <> HWrite). { intros ->. destruct W2 as (W2 & _). specialize (W2 eq_refl). congruence. }
  assert (Z : reading (i2 :: r2) = true). { apply (disc_reading _ _ D2). destruct i2; try contradiction; destruct m2; cbn in D2; try contradiction; congruence. }
  rewrite X in R. assert (Q : In (i2 :: r2) (filter reading (ls_threads s))) by (apply filter_In; split; [eapply nth_error_In; eauto|exact Z]).
  unfold readers in R. destruct (filter reading (ls_threads s)); [contradiction|discriminate].
Qed.
