(* C120: sending to a name while others log in and out.  NODEMO *)
From Verif Require Export SpecSend LinProofs.

Lemma step_online t s s' d k k' : qstep t s s' -> nth_error (pw_conns (qs_world s)) d = Some k -> nth_error (pw_conns (qs_world s')) d = Some k' ->
  pc_online k' = true -> pc_online k = true.
Proof.
  intros St K K' O. inversion St as [w ts lg k0 cs T|w ts lg k0 p cs p' w' T Nx|w ts lg k0 r cs T]; subst s s'; cbn in *; try congruence.
  assert (X : forall c0 k1 k2, nth_error (pw_conns w) c0 = Some k1 -> (pc_online k2 = pc_online k1 \/ pc_online k2 = false) -> w' = set_conn w c0 k2 -> pc_online k = true).
  { intros c0 k1 k2 H1 H2 ->. rewrite set_conn_nth in K'. destruct (Nat.eqb_spec d c0); [subst c0; rewrite H1 in K'; inversion K'; subst; destruct H2; congruence|congruence]. }
  destruct p as [c u|c u q|c|c|c cl|c cl q u|c cl q u|c|q u|r]; cbn in Nx; try (destruct (nth_error (pw_conns w) c) as [kc|] eqn:E; [|discriminate]); inversion Nx; subst; clear Nx;
    try (cbn in K'; congruence); eapply X; try exact E; try reflexivity; auto.
Qed.
Lemma step_keeps t s s' : qstep t s s' -> List.length (pw_conns (qs_world s')) = List.length (pw_conns (qs_world s)).
Proof. intros St. inversion St; subst; cbn; try reflexivity. eapply next_len; eauto. Qed.
Lemma steps_online s s' d k' : qsteps s s' -> nth_error (pw_conns (qs_world s')) d = Some k' ->
  exists k, nth_error (pw_conns (qs_world s)) d = Some k /\ (pc_online k' = true -> pc_online k = true).
Proof.
  intros H. revert k'. induction H as [s|s s' s'' t H IH St]; intros k' K'; [eauto|].
  destruct (nth_error (pw_conns (qs_world s')) d) as [k1|] eqn:K1.
  - destruct (IH k1 eq_refl) as (k & K & O). exists k. split; [exact K|]. intros O'. apply O. eapply step_online; eauto.
  - exfalso. apply nth_error_None in K1. rewrite <- (step_keeps _ _ _ St) in K1. apply nth_error_None in K1. congruence.
Qed.
Lemma qsteps_trans s s' s'' : qsteps s s' -> qsteps s' s'' -> qsteps s s''.
Proof. intros H1 H2. induction H2 as [|a b c t H2 IH St]; [exact H1|]. eapply qs_more; [exact (IH H1)|exact St]. Qed.

Lemma path_steps s1 l s2 : path s1 l s2 -> qsteps s1 s2.
Proof. intros H. induction H; [constructor|]. eapply qs_more; eauto. Qed.
Lemma path_ends s1 l s2 : path s1 l s2 -> In s1 l.
Proof. intros H. induction H; [left; reflexivity|right; assumption]. Qed.

Lemma p_C120_sent : forall s1 s2 s3 q u r l, qsteps s1 s2 -> send_split (Some q) (qs_world s1) (qs_world s2) (qs_world s3) u = (r, l) ->
  (r = POk /\ exists d, l = [d] /\ target (qs_world s1) q u = Some d /\ exists k, nth_error (pw_conns (qs_world s3)) d = Some k /\ pc_sock k = false) \/
  (r = PErr /\ l = []).
Proof.
  intros s1 s2 s3 q u r l H D. unfold send_split, decide in D. unfold target. destruct (GetClientPool (qs_world s1) q u) as [d'|]; [|right; inversion D; auto].
  destruct (nth_error (pw_conns (qs_world s2)) d') as [k2|] eqn:K2; [|right; inversion D; auto]. unfold IsOffline in D.
  destruct (pc_online k2) eqn:O2; cbn in D; [|right; inversion D; auto]. unfold deliver in D.
  destruct (nth_error (pw_conns (qs_world s3)) d') as [k3|] eqn:K3; [|right; inversion D; auto]. destruct (pc_sock k3) eqn:S3; [right; inversion D; auto|].
  left. inversion D; subst. split; [reflexivity|]. exists d'. split; [reflexivity|]. destruct (steps_online _ _ _ _ H K2) as (k1 & K1 & O1). rewrite K1, (O1 O2). eauto.
Qed.

(* a connection being closed whose name is gone does not come back under it *)
Definition gone (s : qstate) : Prop := forall t d k q u, running (qs_threads s) t (QClose d) (AtState d) -> nth_error (pw_conns (qs_world s)) d = Some k ->
  pc_ref k = Some q -> pc_user k = Some (VStr u) -> GetClientPool (qs_world s) q u <> Some d.
Lemma get_set w q u d q' u' : GetClientPool (SetClientPool w q u d) q' u' = GetClientPool w q' u' \/ GetClientPool (SetClientPool w q u d) q' u' = Some d.
Proof.
  unfold GetClientPool, SetClientPool. rewrite pool_at_set. destruct (Nat.eqb_spec q' q) as [->|]; cbn [andb]; [|auto]. destruct (q <? _)%nat; [|auto].
  rewrite aget_aset. destruct (keqb u' u); auto.
Qed.
Lemma get_del w q u q' u' : GetClientPool (DeleteFromClientPool w q u) q' u' = GetClientPool w q' u' \/ GetClientPool (DeleteFromClientPool w q u) q' u' = None.
Proof.
  unfold GetClientPool, DeleteFromClientPool. rewrite pool_at_set. destruct (Nat.eqb_spec q' q) as [->|]; cbn [andb]; [|auto]. destruct (q <? _)%nat; [|auto].
  rewrite aget_adel. destruct (keqb u' u); auto.
Qed.
Lemma get_del_same w q u : GetClientPool (DeleteFromClientPool w q u) q u = None.
Proof.
  unfold GetClientPool, DeleteFromClientPool. rewrite pool_at_set, Nat.eqb_refl. cbn [andb]. destruct (Nat.ltb_spec q (List.length (pw_pools w))).
  - apply aget_adel_same.
  - unfold pool_at. rewrite nth_overflow by lia. reflexivity.
Qed.
Lemma get_same w w' q u : pw_pools w' = pw_pools w -> GetClientPool w' q u = GetClientPool w q u.
Proof. intros E. unfold GetClientPool, pool_at. rewrite E. reflexivity. Qed.
(* reaching AtState with a name: it is not in the pool then *)
Lemma reaches_state w k p p' w' c kk q u : shape w k p -> qnext w p = Some (p', w') -> p' = AtState c -> nth_error (pw_conns w') c = Some kk ->
  pc_ref kk = Some q -> pc_user kk = Some (VStr u) -> k = QClose c /\ p <> AtState c /\ GetClientPool w' q u = None.
Proof.
  intros Sh Nx -> K Q U. destruct p as [c0 u0|c0 u0 q0|c0|c0|c0 cl|c0 cl q0 u0|c0 cl q0 u0|c0|q0 u0|r]; cbn in Nx.
  - destruct (nth_error (pw_conns w) c0) as [k0|]; [|discriminate]. destruct (pc_ref k0); inversion Nx.
  - inversion Nx.
  - destruct (nth_error (pw_conns w) c0) as [k0|]; [|discriminate]. inversion Nx.
  - destruct (nth_error (pw_conns w) c0) as [k0|] eqn:K0; [|discriminate]. destruct (pc_ref k0) eqn:R0; inversion Nx; subst. rewrite set_conn_nth, Nat.eqb_refl, K0 in K. inversion K; subst. cbn in Q. congruence.
  - destruct (nth_error (pw_conns w) c0) as [k0|] eqn:K0; [|discriminate]. destruct (pc_ref k0) as [q1|] eqn:R0; [destruct (pc_user k0) as [[u1| |]|] eqn:U0|]; destruct cl; cbn in Nx; inversion Nx; subst; congruence.
  - cbn in Sh. destruct Sh as (-> & k0 & K0 & _ & Q0 & U0). destruct (GetClientPool w q0 u0) eqn:G; destruct cl; cbn in Nx; inversion Nx; subst.
    assert (kk = k0) by congruence. subst kk. assert (q0 = q) by congruence. assert (u0 = u) by congruence. subst. split; [reflexivity|]. split; [discriminate|exact G].
  - cbn in Sh. destruct Sh as (-> & k0 & K0 & _ & Q0 & U0). destruct cl; cbn in Nx; inversion Nx; subst. cbn in K.
    assert (kk = k0) by congruence. subst kk. assert (q0 = q) by congruence. assert (u0 = u) by congruence. subst. split; [reflexivity|]. split; [discriminate|apply get_del_same].
  - destruct (nth_error (pw_conns w) c0) as [k0|]; inversion Nx.
  - inversion Nx.
  - discriminate.
Qed.
Lemma gone_step t s s' : gone s -> all_apart (qs_threads s) -> (forall t k p, running (qs_threads s) t k p -> shape (qs_world s) k p) -> qstep t s s' -> gone s'.
Proof.
  intros G AA SH St t0 d k q u R K Q U.
  inversion St as [w ts lg k0 cs T|w ts lg k0 p cs p' w' T Nx|w ts lg k0 r cs T]; subst s s'; cbn in *.
  - destruct (running_upd _ _ _ _ _ _ R) as [(_ & R1)|(_ & cs1 & X)]; [eapply G; eauto|]. injection X as X1 X2 X3. subst k0. cbn in X2. destruct (nth_error (pw_conns w) d); discriminate.
  - assert (Run : running ts t k0 p) by (exists cs; exact T). pose proof (SH _ _ _ Run) as Sh.
    destruct (running_upd _ _ _ _ _ _ R) as [(N & R1)|(-> & cs1 & X)].
    + assert (AP : compat k0 (QClose d)) by (eapply (AA t t0); eauto).
      assert (K0 : exists k1, nth_error (pw_conns w) d = Some k1).
      { destruct (nth_error (pw_conns w) d) eqn:E; [eauto|]. exfalso. apply nth_error_None in E. rewrite <- (next_len _ _ _ _ Nx) in E. apply nth_error_None in E. congruence. }
      destruct K0 as (k1 & K0). destruct (next_grows _ _ _ _ d k1 Nx K0) as (k1' & K1' & Rf & _ & _ & Us).
      assert (k1' = k) by congruence. subst k1'.
      assert (U1 : pc_user k1 = Some (VStr u)).
      { destruct Us as [Us|(v & ->)]; [congruence|]. cbn in Sh. destruct Sh as (-> & _). destruct (AP eq_refl ltac:(discriminate)) as (Z & _). discriminate. }
      assert (G0 : GetClientPool w q u <> Some d) by (eapply (G t0 d k1); eauto; congruence).
      assert (PP : pw_pools w' = pw_pools w -> GetClientPool w' q u <> Some d) by (intros E; rewrite (get_same w w' q u E); exact G0).
      destruct p as [c1 u1|c1 u1 q1|c1|c1|c1 cl|c1 cl q1 u1|c1 cl q1 u1|c1|q1 u1|r]; cbn in Nx; try (destruct (nth_error (pw_conns w) c1) as [kc|]; [|discriminate]); inversion Nx; subst; try (apply PP; reflexivity).
      * cbn in Sh. destruct Sh as (-> & _). assert (c1 <> d) by (intros ->; destruct (AP eq_refl ltac:(discriminate)) as (Z & _); discriminate).
        destruct (get_set w q1 u1 c1 q u) as [E|E]; rewrite E; congruence.
      * destruct (get_del w q1 u1 q u) as [E|E]; rewrite E; congruence.
    + injection X as -> -> ->. destruct (reaches_state _ _ _ _ _ _ _ _ _ Sh Nx eq_refl K Q U) as (_ & _ & E). rewrite E. discriminate.
  - destruct (running_upd _ _ _ _ _ _ R) as [(_ & R1)|(_ & cs1 & X)]; [eapply G; eauto|discriminate].
Qed.
Lemma apart_step t s s' : qstep t s s' -> apart (qs_log s') -> apart (qs_log s).
Proof. intros St Ap. destruct (log_grows _ _ _ St) as [X|(e & X)]; rewrite X in Ap; [exact Ap|eapply apart_before; eauto]. Qed.
Lemma apart_steps s s' : qsteps s s' -> apart (qs_log s') -> apart (qs_log s).
Proof. intros H. induction H as [|s s' s'' t H IH St]; auto. intros Ap. apply IH. eapply apart_step; eauto. Qed.
Lemma gone_run h calls s : qsteps (qstart (prun h) calls) s -> apart (qs_log s) -> gone s.
Proof.
  intros H. remember (qstart (prun h) calls) as s0 eqn:E. induction H as [s|s s' s'' t H IH St]; intros Ap.
  - subst s. intros t d k q u (cs & X). cbn in X. rewrite nth_error_map in X. destruct (nth_error calls t); discriminate.
  - subst s. pose proof (apart_step _ _ _ St Ap) as Ap'. destruct (sim_run _ _ _ H Ap') as (gh & A & M). eapply gone_step; eauto; [exact (m_apart _ _ _ _ M)|exact (m_shape _ _ _ _ M)].
Qed.

(* what stays until the name has been taken from the connection *)
Definition still (s : qstate) (d q : nat) (u : string) : Prop :=
  (exists k, nth_error (pw_conns (qs_world s)) d = Some k /\ pc_ref k = Some q /\ pc_user k = Some (VStr u) /\ pc_online k = true) /\
  forall t, ~ running (qs_threads s) t (QClose d) (AtState d).
Lemma still_step calls t s s' d q u : made calls s -> only_name calls d u -> (forall t k p, running (qs_threads s) t k p -> shape (qs_world s) k p /\ In (EInv t k) (qs_log s)) ->
  still s d q u -> qstep t s s' -> still s' d q u \/ GetClientPool (qs_world s') q u = None.
Proof.
  intros Mk Only SH ((k & K & Q & U & O) & NS) St.
  inversion St as [w ts lg k0 cs T|w ts lg k0 p cs p' w' T Nx|w ts lg k0 r cs T]; subst s s'; cbn in *.
  - left. split; cbn; [eauto|]. intros t0 R. destruct (running_upd _ _ _ _ _ _ R) as [(_ & R1)|(_ & cs1 & X)]; [eapply NS; eauto|]. injection X as X1 X2 X3. subst k0. cbn in X2. rewrite K in X2. discriminate.
  - assert (Run : running ts t k0 p) by (exists cs; exact T). destruct (SH _ _ _ Run) as (Sh & Lg).
    destruct (next_grows _ _ _ _ d k Nx K) as (k' & K' & Rf & _ & _ & Us).
    assert (U' : pc_user k' = Some (VStr u)).
    { destruct Us as [Us|(v & ->)]; [congruence|]. cbn in Sh. destruct Sh as (-> & _). pose proof (made_in _ _ _ _ Mk Lg) as I1. pose proof (Only _ _ I1) as ->.
      cbn in Nx. rewrite K in Nx. inversion Nx; subst. rewrite set_conn_nth, Nat.eqb_refl, K in K'. inversion K'. reflexivity. }
    assert (Dec : p' = AtState d \/ p' <> AtState d) by (destruct p' as [| | | | | | |c'| |]; try (right; discriminate); destruct (Nat.eq_dec c' d); [left; congruence|right; congruence]).
    destruct Dec as [E|E].
    + right. destruct (reaches_state _ _ _ _ _ _ _ q u Sh Nx E K' ltac:(congruence) U') as (_ & _ & X). exact X.
    + left. split; cbn.
      * exists k'. split; [exact K'|]. split; [congruence|]. split; [exact U'|].
        destruct p as [c1 u1|c1 u1 q1|c1|c1|c1 cl|c1 cl q1 u1|c1 cl q1 u1|c1|q1 u1|r]; cbn in Nx;
          try (destruct (nth_error (pw_conns w) c1) as [kc|] eqn:E1; [|discriminate]); inversion Nx; subst; cbn in K';
          try (rewrite K in K'; inversion K'; subst; exact O);
          try (rewrite nth_upd in K'; destruct (Nat.eqb_spec d c1); [subst c1; rewrite K in K', E1; inversion K'; inversion E1; subst; cbn; assumption|rewrite K in K'; inversion K'; subst; exact O]).
        rewrite nth_upd in K'. destruct (Nat.eqb_spec d c1) as [->|]; [|congruence]. cbn in Sh. destruct Sh as (-> & _). destruct (NS _ Run).
      * intros t0 R. destruct (running_upd _ _ _ _ _ _ R) as [(_ & R1)|(_ & cs1 & X)]; [eapply NS; eauto|]. injection X as X1 X2 X3. apply E. congruence.
  - left. split; cbn; [eauto|]. intros t0 R. destruct (running_upd _ _ _ _ _ _ R) as [(_ & R1)|(_ & cs1 & X)]; [eapply NS; eauto|discriminate].
Qed.

Lemma refused h calls s1 s2 lp q u : qsteps (qstart (prun h) calls) s1 -> path s1 lp s2 -> apart (qs_log s2) ->
  (forall d, GetClientPool (qs_world s1) q u = Some d -> only_name calls d u /\
     exists k, nth_error (pw_conns (qs_world s1)) d = Some k /\ pc_ref k = Some q /\ pc_user k = Some (VStr u)) ->
  decide (Some q) (qs_world s1) (qs_world s2) u = None ->
  exists s, In s lp /\ target (qs_world s) q u = None.
Proof.
  intros H1 P2 Ap Hd D. unfold decide in D.
  destruct (GetClientPool (qs_world s1) q u) as [d|] eqn:G1.
  2: { exists s1. split; [eapply path_ends; eauto|]. unfold target. rewrite G1. reflexivity. }
  destruct (Hd d eq_refl) as (Only & k & K & Q & U).
  destruct (pc_online k) eqn:O.
  2: { exists s1. split; [eapply path_ends; eauto|]. unfold target. rewrite G1, K, O. reflexivity. }
  assert (NS : still s1 d q u).
  { split; [eauto 6|]. intros t R. apply (gone_run h calls s1 H1 (apart_steps _ _ (path_steps _ _ _ P2) Ap) t d k q u R K Q U). exact G1. }
  assert (X : (exists s, In s lp /\ GetClientPool (qs_world s) q u = None) \/ still s2 d q u).
  { clear D G1 Hd K Q U O k. revert Ap. induction P2 as [|lp s' s2 t P2 IH St]; intros Ap; [right; exact NS|].
    pose proof (apart_step _ _ _ St Ap) as Ap'. destruct (IH Ap') as [(s & I1 & E)|S']; [left; exists s; split; [right; exact I1|exact E]|].
    pose proof (qsteps_trans _ _ _ H1 (path_steps _ _ _ P2)) as H. destruct (sim_run _ _ _ H Ap') as (gh & A & M).
    destruct (still_step calls t s' s2 d q u (made_run _ _ _ H) Only) as [S2|E]; auto.
    - intros t0 k0 p0 R. split; [eapply (m_shape _ _ _ _ M); eauto|]. destruct R as (cs & R). pose proof (m_phase _ _ _ _ M _ _ R) as P.
      destruct (phase_inside _ _ _ _ _ _ P) as (l2 & l1 & E & _). rewrite <- (m_log _ _ _ _ M), E. apply in_app_iff. right. left. reflexivity.
    - left. exists s2. split; [left; reflexivity|exact E]. }
  destruct X as [(s & B & E)|((k2 & K2 & _ & _ & O2) & _)].
  - exists s. split; [exact B|]. unfold target. rewrite E. reflexivity.
  - exfalso. rewrite K2 in D. unfold IsOffline in D. rewrite O2 in D. discriminate.
Qed.

Lemma p_C120_refused_partial : forall h calls s1 lp s2 s3 q u, qsteps (qstart (prun h) calls) s1 -> path s1 lp s2 -> apart (qs_log s2) ->
  (forall d, GetClientPool (qs_world s1) q u = Some d -> only_name calls d u /\
     exists k, nth_error (pw_conns (qs_world s1)) d = Some k /\ pc_ref k = Some q /\ pc_user k = Some (VStr u)) ->
  qsteps s2 s3 -> fst (send_split (Some q) (qs_world s1) (qs_world s2) (qs_world s3) u) = PErr ->
  (exists s, In s lp /\ target (qs_world s) q u = None) \/
  (exists d k, target (qs_world s1) q u = Some d /\ nth_error (pw_conns (qs_world s3)) d = Some k /\ pc_sock k = true).
Proof.
  intros h calls s1 lp s2 s3 q u H1 P Ap Hd H3 E. unfold send_split in E. destruct (decide (Some q) (qs_world s1) (qs_world s2) u) as [d|] eqn:D.
  2: { left. eapply refused; eauto. }
  right. unfold decide in D. destruct (GetClientPool (qs_world s1) q u) as [d'|] eqn:G; [|discriminate].
  destruct (nth_error (pw_conns (qs_world s2)) d') as [k2|] eqn:K2; [|discriminate]. unfold IsOffline in D. destruct (pc_online k2) eqn:O2; [|discriminate]. inversion D; subst d'.
  destruct (steps_online _ _ _ _ (path_steps _ _ _ P) K2) as (k1 & K1 & O1).
  assert (T1 : target (qs_world s1) q u = Some d) by (unfold target; rewrite G, K1, (O1 O2); reflexivity).
  assert (K3 : exists k3, nth_error (pw_conns (qs_world s3)) d = Some k3).
  { clear E D Ap P Hd O1. revert k2 K2 O2. induction H3 as [|s2 s' s3 t H3 IH St]; intros k2 K2 O2; [eauto|]. destruct (IH k2 K2 O2) as (k3 & K3). destruct (nth_error (pw_conns (qs_world s3)) d) eqn:N; [eauto|]. exfalso.
    apply nth_error_None in N. rewrite (step_keeps _ _ _ St) in N. apply nth_error_None in N. congruence. }
  destruct K3 as (k3 & K3). unfold deliver in E. rewrite K3 in E. destruct (pc_sock k3) eqn:S3; [|discriminate]. eauto 6.
Qed.

(* the states passed when goroutines run in a given order, newest first *)
Fixpoint passed (ts : list nat) (l : list qstate) (s : qstate) : list qstate * qstate :=
  match ts with [] => (l, s) | t :: r => passed r (qexec s t :: l) (qexec s t) end.
Definition can_move (s : qstate) (t : nat) : bool :=
  match nth_error (qs_threads s) t with
  | Some (QT None (_ :: _)) => true
  | Some (QT (Some (_, AtRet _)) _) => true
  | Some (QT (Some (_, p)) _) => match qnext (qs_world s) p with Some _ => true | None => false end
  | _ => false
  end.
Fixpoint all_move (ts : list nat) (s : qstate) : bool := match ts with [] => true | t :: r => can_move s t && all_move r (qexec s t) end.
Lemma exec_one s t : can_move s t = true -> qstep t s (qexec s t).
Proof.
  unfold can_move, qexec. destruct s as [w th lg]. cbn. destruct (nth_error th t) as [[[(k, p)|] cs]|] eqn:T; [| |discriminate].
  - destruct p as [c u|c u q|c|c|c cl|c cl q u|c cl q u|c|q u|r];
      try (intros _; eapply q_return; exact T);
      match goal with |- context [qnext w ?p] => destruct (qnext w p) as [(p', w')|] eqn:N; [|discriminate] end; intros _; eapply q_go; eauto.
  - destruct cs as [|k cs]; [discriminate|]. intros _. apply q_call. exact T.
Qed.
Lemma passed_path ts : forall s1 l s, path s1 l s -> all_move ts s = true -> path s1 (fst (passed ts l s)) (snd (passed ts l s)).
Proof.
  induction ts as [|t ts IH]; cbn; intros s1 l s P A; [exact P|]. apply andb_true_iff in A. destruct A as (A1 & A2). apply IH; [|exact A2].
  eapply path_more; [exact P|]. apply exec_one. exact A1.
Qed.

Lemma p_C120_two_names_refuted : exists h calls s1 lp s2 u, own_conns calls /\ qsteps (qstart (prun h) calls) s1 /\ path s1 lp s2 /\
  (forall s, In s lp -> target (qs_world s) 0 u <> None) /\ decide (Some 0%nat) (qs_world s1) (qs_world s2) u = None.
Proof.
  set (h := [POnline 0 "v"; POnline 0 "u"; PAccept; PAccept; PWithPool true]). set (calls := [[QOnline 1 "u"]; [QClose 0]]).
  set (s1 := qstart (prun h) calls). set (x := passed [0;0;0;0;1;1;1;1;1;1;1;1]%nat [s1] s1).
  exists h, calls, s1, (fst x), (snd x), "u"%string. split; [|split; [constructor|split; [|split]]].
  - intros t t' c u k N I1 I2. unfold calls in *. destruct t as [|[|t]]; cbn in I1; [| |destruct t; destruct I1].
    + destruct I1 as [I1|[]]; inversion I1; subst. destruct t' as [|[|t']]; [congruence| |destruct t'; destruct I2]. destruct I2 as [<-|[]]; cbn; congruence.
    + destruct I1 as [I1|[]]; inversion I1.
  - apply passed_path; [constructor|vm_compute; reflexivity].
  - assert (F : forallb (fun s => match target (qs_world s) 0 "u" with None => false | _ => true end) (fst x) = true) by (vm_compute; reflexivity).
    intros s I1 E. rewrite forallb_forall in F. specialize (F s I1). cbn beta in F. rewrite E in F. discriminate.
  - vm_compute. reflexivity.
Qed.

Lemma p_C120_overlap_refuted : exists h calls s1 lp s2 u, (forall d, only_name calls d u) /\ qsteps (qstart (prun h) calls) s1 /\ path s1 lp s2 /\
  (exists k, nth_error (pw_conns (qs_world s1)) 0 = Some k /\ pc_user k = Some (VStr u)) /\
  (forall s, In s lp -> target (qs_world s) 0 u <> None) /\ decide (Some 0%nat) (qs_world s1) (qs_world s2) u = None.
Proof.
  set (h := [PAccept; PAccept; PWithPool true]). set (calls := [[QOnline 0 "u"]; [QClose 0]; [QOnline 1 "u"]]).
  set (s0 := qstart (prun h) calls). set (y := passed [0;0;1;1;1;1;1;0]%nat [s0] s0). set (s1 := snd y). set (x := passed [2;2;2;1]%nat [s1] s1).
  exists h, calls, s1, (fst x), (snd x), "u"%string. split; [|split; [|split; [|split; [|split]]]].
  - intros d t v I1. unfold calls in I1. destruct t as [|[|[|t]]]; cbn in I1; [| | |destruct t; destruct I1]; destruct I1 as [I1|[]]; inversion I1; reflexivity.
  - eapply path_steps. apply passed_path; [constructor|vm_compute; reflexivity].
  - apply passed_path; [constructor|vm_compute; reflexivity].
  - eexists. split; vm_compute; reflexivity.
  - assert (F : forallb (fun s => match target (qs_world s) 0 "u" with None => false | _ => true end) (fst x) = true) by (vm_compute; reflexivity).
    intros s I1 E. rewrite forallb_forall in F. specialize (F s I1). cbn beta in F. rewrite E in F. discriminate.
  - vm_compute. reflexivity.
Qed.

Lemma p_C120_closing_refuted : exists h calls s1 lp s2 u, own_conns calls /\ (forall d, only_name calls d u) /\ qsteps (qstart (prun h) calls) s1 /\ path s1 lp s2 /\
  (forall s, In s lp -> target (qs_world s) 0 u <> None) /\
  send_split (Some 0%nat) (qs_world s1) (qs_world s2) (qs_world s2) u = (PErr, []).
Proof.
  set (h := [POnline 0 "u"; PAccept; PWithPool true]). set (calls := [[QClose 0]]).
  set (s1 := qstart (prun h) calls). set (x := passed [0;0]%nat [s1] s1).
  exists h, calls, s1, (fst x), (snd x), "u"%string. split; [|split; [|split; [constructor|split; [|split]]]].
  - intros t t' c u k N I1 I2. unfold calls in *. destruct t as [|t]; cbn in I1; [destruct I1 as [I1|[]]; inversion I1|destruct t; destruct I1].
  - intros d t v I1. unfold calls in I1. destruct t as [|t]; cbn in I1; [destruct I1 as [I1|[]]; inversion I1|destruct t; destruct I1].
  - apply passed_path; [constructor|vm_compute; reflexivity].
  - assert (F : forallb (fun s => match target (qs_world s) 0 "u" with None => false | _ => true end) (fst x) = true) by (vm_compute; reflexivity).
    intros s I1 E. rewrite forallb_forall in F. specialize (F s I1). cbn beta in F. rewrite E in F. discriminate.
  - vm_compute. reflexivity.
Qed.
