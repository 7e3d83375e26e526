(* The client pool: who SendToUsername reaches, closing a connection, Stop(true) (C39-C43). *)
From Verif Require Export SpecPool PoolFacts.

Lemma p_C39_send_latest_only : forall h s k u r ws,
  string_names h -> nth_error (pw_conns (prun h)) s = Some k ->
  SendToUsername (prun h) k u = (r, ws) -> ws <> [] ->
  exists d q, ws = [d] /\ r = POk /\ pool_of h s = Some q /\ last_online h q u = Some d /\
    is_conn h d = true /\ pool_of h d = Some q /\ was_closed h d = false.
Proof.
  intros h s k u r ws Hs Hk. pose proof (pinv_all h) as [L P C K E]. destruct (K s k Hk) as (A & _).
  unfold SendToUsername. rewrite A. destruct (pool_of h s) as [q|] eqn:Q; [|intros X; inversion X; congruence].
  unfold GetClientPool. rewrite E by (eapply pool_lt; eauto).
  destruct (dropped_since h q u); [intros X; inversion X; congruence|].
  destruct (last_online h q u) as [d|] eqn:LO; [|intros X; inversion X; congruence].
  destruct (last_online_conn _ _ _ _ LO) as (I1 & I2).
  destruct (nth_error (pw_conns (prun h)) d) as [kd|] eqn:D; [|intros X; inversion X; congruence].
  destruct (K d kd D) as (_ & _ & _ & _ & G). rewrite (G Hs).
  destruct (was_closed h d) eqn:W; cbn [negb]; [intros X; inversion X; congruence|].
  intros X _. inversion X. exists d, q. auto 8.
Qed.

Lemma p_C39_nonstring_name_refuted : exists h s k u d,
  nth_error (pw_conns (prun h)) s = Some k /\ SendToUsername (prun h) k u = (POk, [d]) /\ was_closed h d = true.
Proof.
  exists [PClose 0; PStoreName 0 (VOther 5); POnline 0 "u"; PAccept; PAccept; PWithPool true], 1%nat. eexists. exists "u"%string, 0%nat.
  vm_compute. auto.
Qed.

Lemma p_C40_pool_content : forall h q u, (q < pools_made h)%nat ->
  GetClientPool (prun h) q u = if dropped_since h q u then None else last_online h q u.
Proof. intros h q u H. apply (p_entry _ _ (pinv_all h)). auto. Qed.

Lemma p_C40_online_reachable_partial : forall h s k q u c,
  string_names h -> nth_error (pw_conns (prun h)) s = Some k -> pool_of h s = Some q ->
  last_online h q u = Some c -> was_closed h c = false -> dropped_since h q u = false ->
  SendToUsername (prun h) k u = (POk, [c]).
Proof.
  intros h s k q u c Hs Hk Q LO W Dr. pose proof (pinv_all h) as [L P C K E]. destruct (K s k Hk) as (A & _).
  unfold SendToUsername. rewrite A, Q. unfold GetClientPool. rewrite E by (eapply pool_lt; eauto). rewrite Dr, LO.
  destruct (last_online_conn _ _ _ _ LO) as (I1 & I2). destruct (conn_exists h c I1) as (kd & D). rewrite D.
  destruct (K c kd D) as (_ & _ & _ & _ & G). rewrite (G Hs), W. reflexivity.
Qed.

Lemma p_C40_online_reachable_refuted : forall h q u c0 c o s k,
  (o = POffline c0 \/ o = PClose c0) ->
  pool_of h c0 = Some q -> pool_of h c = Some q -> c0 <> c -> u <> ""%string -> was_closed h c = false ->
  pool_of h s = Some q -> s <> c0 ->
  nth_error (pw_conns (prun (o :: POnline c u :: POnline c0 u :: h))) s = Some k ->
  let h' := o :: POnline c u :: POnline c0 u :: h in
  last_online h' q u = Some c /\ was_closed h' c = false /\ SendToUsername (prun h') k u = (PErr, []).
Proof.
  intros h q u c0 c o s k Ho P0 Pc N Nu W Ps Ns Hk h'. apply Nat.eqb_neq in N as N'. rewrite Nat.eqb_sym in N'.
  apply String.eqb_neq in Nu as Nu'.
  assert (I0 := pool_of_conn _ _ _ P0).
  assert (PO : forall d x l, pool_of (POnline x l :: h) d = pool_of h d) by reflexivity.
  assert (PO2 : forall d x l y m, pool_of (POnline y m :: POnline x l :: h) d = pool_of h d) by reflexivity.
  assert (L1 : last_online (POnline c u :: POnline c0 u :: h) q u = Some c).
  { cbn [last_online]. rewrite PO, Pc. cbn [opt_is]. rewrite Nat.eqb_refl, String.eqb_refl, Nu'. reflexivity. }
  assert (LO : last_online h' q u = Some c) by (unfold h'; destruct Ho as [-> | ->]; exact L1).
  assert (NM : name_of (POnline c u :: POnline c0 u :: h) c0 = Some (VStr u)).
  { cbn [name_of]. rewrite Nat.eqb_sym, N'. cbn [andb]. rewrite Nat.eqb_refl, I0, Nu'. reflexivity. }
  assert (DR : dropped_since h' q u = true).
  { unfold h'. destruct Ho as [-> | ->]; cbn [dropped_since]; unfold drops; rewrite PO2, P0, NM; cbn [opt_is named];
      rewrite Nat.eqb_refl, String.eqb_refl; reflexivity. }
  split; [exact LO|]. split.
  - unfold h'. destruct Ho as [-> | ->]; cbn [was_closed]; rewrite ?N'; auto.
  - pose proof (pinv_all h') as [L P C K E]. destruct (K s k Hk) as (A & _).
    assert (Ps' : pool_of h' s = Some q) by (unfold h'; destruct Ho as [-> | ->]; exact Ps).
    unfold SendToUsername. rewrite A, Ps'. unfold GetClientPool. rewrite E by (eapply pool_lt; eauto). rewrite DR. reflexivity.
Qed.

Lemma p_C41_closeconn : forall h c, string_names h -> is_conn h c = true ->
  exists w k, pstep (PClose c) (prun h) = (POk, w) /\ nth_error (pw_conns w) c = Some k /\
    IsOffline k = true /\ pc_sock k = true /\ pc_end k = true /\
    (forall q n, pool_of h c = Some q -> name_of h c = Some (VStr n) -> GetClientPool w q n = None) /\
    (forall d, d <> c -> nth_error (pw_conns w) d = nth_error (pw_conns (prun h)) d).
Proof.
  intros h c Hs Hc. destruct (conn_exists h c Hc) as (k & Hk).
  assert (Hs' : string_names (PClose c :: h)). { intros d v [X|X]; [discriminate|]. eapply Hs; eauto. }
  pose proof (pinv_all h) as [L P C K E]. pose proof (pinv_all (PClose c :: h)) as [L' P' C' K' E'].
  destruct (K c k Hk) as (A & B & D & F & G).
  assert (SN : forall v, name_of h c = Some v -> exists n, v = VStr n).
  { clear - Hs. induction h as [|o p IH]; [discriminate|]. intros v Hv. assert (Hs' := string_names_tl _ _ Hs).
    destruct o; simpl in Hv; auto.
    - destruct (_ && _ && _); [inversion Hv; eauto|auto].
    - destruct (_ && _); auto. inversion Hv; subst. apply (Hs c0 v). left. auto. }
  assert (R : fst (pstep (PClose c) (prun h)) = POk).
  { cbn [pstep]. unfold pon. rewrite Hk. unfold CloseConn. destruct (pc_ref k) as [q|]; [|reflexivity].
    unfold Offline. cbn [pc_ref pc_user]. rewrite B. destruct (name_of h c) as [v|] eqn:Nm; [|reflexivity].
    destruct (SN v eq_refl) as (n & ->). reflexivity. }
  change (prun (PClose c :: h)) with (snd (pstep (PClose c) (prun h))) in *.
  destruct (conn_exists (PClose c :: h) c Hc) as (k' & Hk'). change (prun (PClose c :: h)) with (snd (pstep (PClose c) (prun h))) in Hk'.
  destruct (K' c k' Hk') as (A' & B' & D' & F' & G'). specialize (G' Hs').
  assert (WC : was_closed (PClose c :: h) c = true). { cbn [was_closed]. rewrite Nat.eqb_refl, Hc. reflexivity. }
  rewrite WC in *. exists (snd (pstep (PClose c) (prun h))), k'.
  split; [rewrite <- R; apply surjective_pairing|]. split; [exact Hk'|]. split; [unfold IsOffline; rewrite G'; reflexivity|].
  split; [exact D'|]. split; [exact F'|]. split.
  - intros q n Q Nm. unfold GetClientPool. rewrite E' by (apply (proj2 (pool_lt h) c); auto).
    cbn [dropped_since drops]. rewrite Q, Nm. cbn [opt_is named]. rewrite Nat.eqb_refl, String.eqb_refl. reflexivity.
  - intros d Nd. apply Nat.eqb_neq in Nd. cbn [pstep]. unfold pon. rewrite Hk. unfold CloseConn.
    assert (PQ : forall w kx q n e, (if Nat.eqb e c then True else nth_error (pw_conns (set_conn (PoolOffline w q n) c kx)) e = nth_error (pw_conns w) e)).
    { intros w kx q n e. destruct (Nat.eqb e c) eqn:X; auto. rewrite set_conn_nth, X. rewrite (proj1 (PoolOffline_conns w q n)). auto. }
    destruct (pc_ref k) as [q|] eqn:Rk.
    + unfold Offline. cbn [pc_ref pc_user]. rewrite B. destruct (name_of h c) as [v|] eqn:Nm.
      * destruct (SN v eq_refl) as (n & ->). cbn [snd].
        match goal with |- nth_error (pw_conns (set_conn (PoolOffline ?w ?a ?b) c ?kx)) d = _ => pose proof (PQ w kx a b d) as Y end.
        rewrite Nd in Y. rewrite Y. rewrite set_conn_nth, Nd. reflexivity.
      * cbn [snd]. rewrite !set_conn_nth, Nd. reflexivity.
    + cbn [snd]. rewrite !set_conn_nth, Nd. reflexivity.
Qed.

Lemma p_C41_idempotent : forall h c, string_names h -> is_conn h c = true ->
  pstep (PClose c) (prun (PClose c :: h)) = (POk, prun (PClose c :: h)).
Proof.
  intros h c Hs Hc. destruct (conn_exists h c Hc) as (k & Hk).
  assert (Hs' : string_names (PClose c :: h)). { intros d v [X|X]; [discriminate|]. eapply Hs; eauto. }
  destruct (p_C41_closeconn (PClose c :: h) c Hs' Hc) as (w2 & k2 & S2 & _).
  destruct (p_C41_closeconn h c Hs Hc) as (w1 & k1 & S1 & N1 & O1 & Sk1 & E1 & G1 & _).
  change (prun (PClose c :: h)) with (snd (pstep (PClose c) (prun h))) in *. rewrite S1 in *. cbn [snd] in *. rewrite S2. f_equal.
  pose proof (pinv_all (PClose c :: h)) as [L P C K E].
  change (prun (PClose c :: h)) with (snd (pstep (PClose c) (prun h))) in *. rewrite S1 in *. cbn [snd] in *.
  destruct (K c k1 N1) as (A & B & _).
  cbn [pstep] in S2. unfold pon in S2. rewrite N1 in S2. unfold CloseConn in S2.
  assert (EQ : PConn (pc_ref k1) (pc_user k1) (pc_online k1) true true = k1).
  { destruct k1 as [r1 u1 o1 e1 s1]. cbn in *. subst. reflexivity. }
  assert (EQ2 : PConn (pc_ref k1) (pc_user k1) false true true = k1).
  { rewrite <- EQ at 3. unfold IsOffline in O1. destruct (pc_online k1); [discriminate|reflexivity]. }
  assert (W : forall w, pw_conns w = pw_conns w1 -> pw_pools w = pw_pools w1 -> pw_cur w = pw_cur w1 -> set_conn w c k1 = w1).
  { intros w X Y Z. unfold set_conn. rewrite X, Y, Z. rewrite upd_same by exact N1. destruct w1; reflexivity. }
  rewrite EQ, EQ2 in S2. rewrite (W w1) in S2 by reflexivity.
  destruct (pc_ref k1) as [q|] eqn:Rk.
  - unfold Offline in S2. rewrite Rk, B in S2. cbn [name_of] in S2. destruct (name_of h c) as [[n|n|n]|] eqn:Nm.
    + unfold PoolOffline in S2. rewrite (G1 q n) in S2; auto. rewrite W in S2 by reflexivity. inversion S2. reflexivity.
    + inversion S2.
    + inversion S2.
    + rewrite W in S2 by reflexivity. inversion S2. reflexivity.
  - rewrite W in S2 by reflexivity. inversion S2. reflexivity.
Qed.

Lemma p_C41_nonstring_name_refuted : forall h c q v,
  pool_of h c = Some q -> name_of h c = Some v -> (forall n, v <> VStr n) ->
  fst (pstep (PClose c) (prun h)) = PPanic /\
  match nth_error (pw_conns (prun h)) c, nth_error (pw_conns (prun (PClose c :: h))) c with
  | Some k, Some k' => pc_online k' = pc_online k | _, _ => False end.
Proof.
  intros h c q v Q Nm Nv. destruct (conn_exists h c (pool_of_conn _ _ _ Q)) as (k & Hk).
  pose proof (pinv_all h) as [L P C K E]. destruct (K c k Hk) as (A & B & _). cbn [prun pstep]. rewrite Hk. unfold pon. rewrite Hk.
  unfold CloseConn. rewrite A, Q. unfold Offline. cbn [pc_ref pc_user]. rewrite B, Nm.
  destruct v as [n|n|n]; [destruct (Nv n); reflexivity| |]; cbn [fst snd]; rewrite set_conn_nth, Nat.eqb_refl, Hk; auto.
Qed.

Lemma p_C42_online_empty : forall w c k, nth_error (pw_conns w) c = Some k -> pstep (POnline c "") w = (PErr, w).
Proof. intros w c k H. cbn [pstep]. unfold pon. rewrite H. reflexivity. Qed.

Lemma p_C42_never_pooled : forall h q, GetClientPool (prun h) q "" = None.
Proof.
  intros h q. unfold GetClientPool. pose proof (pinv_all h) as [L P C K E].
  destruct (Nat.lt_ge_cases q (pools_made h)) as [H|H].
  - rewrite E by auto. destruct (dropped_since h q ""); auto.
    clear. induction h as [|o p IH]; auto. destruct o; auto. simpl. rewrite andb_false_r. auto.
  - unfold pool_at. rewrite nth_overflow by (rewrite P; auto). reflexivity.
Qed.

Lemma p_C43_stop_true_refuted : forall s0 s t r,
  lock_start s0 -> lsteps s0 s ->
  nth_error (ls_threads s) t = Some (IRange :: r) -> ls_lock s = MWrite t -> ls_pool s <> [] ->
  forall s', lsteps s s' ->
    ls_lock s' = MWrite t /\ (exists i p, nth_error (ls_threads s') t = Some (i :: p)) /\
    (closed_by t (ls_log s') <= S (closed_by t (ls_log s)))%nat /\
    forall s'', lstep s' s'' -> forall n i p, nth_error (ls_threads s') n = Some (i :: p) -> i = ILock \/ i = IRLock ->
      nth_error (ls_threads s'') n = Some (i :: p).
Proof.
  intros s0 s t r H0 HS HT HL HP s' HS'.
  assert (J : stuck s t (closed_by t (ls_log s))).
  { split; [eapply lock_inv_reach; eauto|]. split; [eapply dinv_reach; eauto|]. split; auto. left. eauto. }
  destruct (stuck_reach _ _ _ J s' HS') as (_ & _ & L & K). split; [exact L|].
  split; [|split; [|intros; eapply waits; eauto]].
  - destruct K as [(r0 & K & _)|(c & pre & rest & K & _ & _ & K2)]; [eauto|].
    destruct K2 as [(-> & _)|[(-> & _)|[(-> & _)|(-> & _)]]]; simpl in K; eauto.
  - destruct K as [(r0 & _ & _ & ->)|(c & pre & rest & _ & _ & _ & K2)]; [auto|].
    destruct K2 as [(_ & ->)|[(_ & ->)|[(_ & ->)|(_ & ->)]]]; auto.
Qed.

Lemma p_C43_empty_pool_partial : forall s t,
  nth_error (ls_threads s) t = Some [IRange; IUnlock] -> ls_lock s = MWrite t -> ls_pool s = [] ->
  exists s', lsteps s s' /\ ls_lock s' = MFree /\ nth_error (ls_threads s') t = Some [].
Proof.
  intros s t HT HL HP.
  assert (HT2 : nth_error (ls_threads (set_thread s t [IUnlock])) t = Some [IUnlock]).
  { unfold set_thread. cbn [ls_threads]. rewrite nth_upd, Nat.eqb_refl, HT. reflexivity. }
  eexists. split; [eapply ls_more; [eapply ls_more; [apply ls_refl|]|]|].
  - exists t. pose proof (l_range s t [IUnlock] [] HT (NoDup_nil _)) as X. rewrite HP in X. apply X. intros u. split; [intros []|discriminate].
  - exists t. eapply l_unlock; [exact HT2|exact HL].
  - cbn [ls_lock ls_threads]. split; auto. cbn [set_thread ls_threads range_body flat_map app]. rewrite !nth_upd, Nat.eqb_refl, HT. reflexivity.
Qed.
