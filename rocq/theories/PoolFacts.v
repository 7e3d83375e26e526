(* Lemmas about PoolModel.v: the state after any history, in terms of SpecPool. *)
From Verif Require Export SpecPool BaseFacts CtxFacts.

Lemma pool_lt h : (forall q, cur_pool h = Some q -> (q < pools_made h)%nat) /\
  (forall c q, pool_of h c = Some q -> (q < pools_made h)%nat).
Proof.
  induction h as [|o p (IH1 & IH2)]; [split; [discriminate|intros [|c]; discriminate]|].
  assert (M : (pools_made p <= pools_made (o :: p))%nat).
  { destruct o as [[|]| | | | | |]; simpl; auto. destruct (cur_pool p); auto. }
  split.
  - intros q H. destruct o as [[|]| | | | | |]; simpl in *; try (apply IH1; auto; fail); try discriminate.
    + inversion H. lia.
    + destruct (cur_pool p); inversion H; subst. lia.
  - intros c q H. destruct o as [[|]| | | | | |];
      try (apply (Nat.lt_le_trans _ (pools_made p)); [|exact M]; apply (IH2 c); exact H).
    unfold pool_of in *. cbn [accepted] in H. simpl pools_made.
    destruct (Nat.lt_ge_cases c (List.length (accepted p))) as [L|L].
    + rewrite app_nth1 in H by auto. apply (IH2 c). auto.
    + rewrite app_nth2 in H by auto. destruct (c - List.length (accepted p))%nat as [|[|?]]; simpl in H; try discriminate. apply IH1. auto.
Qed.

Lemma is_conn_iff h c : is_conn h c = true <-> (c < List.length (accepted h))%nat.
Proof. apply Nat.ltb_lt. Qed.

Lemma pool_of_conn h c q : pool_of h c = Some q -> is_conn h c = true.
Proof.
  unfold pool_of. intros H. apply is_conn_iff. destruct (Nat.lt_ge_cases c (List.length (accepted h))); auto.
  rewrite nth_overflow in H by auto. discriminate.
Qed.

Lemma nth_upd_same {A} (l : list A) i a d j : nth j (upd l i a) d = if Nat.eqb j i && Nat.ltb i (List.length l) then a else nth j l d.
Proof.
  revert i j. induction l as [|x l IH]; intros [|i] [|j]; simpl; auto; rewrite ?andb_false_r; auto.
  rewrite IH. reflexivity.
Qed.

Lemma upd_same {A} (l : list A) i a : nth_error l i = Some a -> upd l i a = l.
Proof. revert i. induction l as [|x l IH]; intros [|i] H; simpl in *; try discriminate; auto. congruence. f_equal. auto. Qed.

Record PInv (h : list pop) (w : pworld) : Prop := {
  p_len : List.length (pw_conns w) = List.length (accepted h);
  p_pools : List.length (pw_pools w) = pools_made h;
  p_cur : pw_cur w = cur_pool h;
  p_conn : forall c k, nth_error (pw_conns w) c = Some k ->
    pc_ref k = pool_of h c /\ pc_user k = name_of h c /\ pc_sock k = was_closed h c /\ pc_end k = was_closed h c /\
    (string_names h -> pc_online k = negb (was_closed h c));
  p_entry : forall q u, (q < pools_made h)%nat ->
    aget u (pool_at w q) = if dropped_since h q u then None else last_online h q u }.

Lemma last_online_new h q u : (pools_made h <= q)%nat -> last_online h q u = None.
Proof.
  induction h as [|o p IH]; auto. intros H.
  assert (M : (pools_made p <= pools_made (o :: p))%nat).
  { destruct o as [[|]| | | | | |]; simpl; auto. destruct (cur_pool p); auto. }
  assert (E : last_online p q u = None) by (apply IH; lia).
  destruct o; simpl; auto. destruct (opt_is (pool_of p c) q) eqn:Q; auto. exfalso.
  destruct (pool_of p c) as [q'|] eqn:R; [|discriminate]. simpl in Q. apply Nat.eqb_eq in Q. subst q'.
  apply (proj2 (pool_lt p)) in R. lia.
Qed.

Lemma string_names_tl o p : string_names (o :: p) -> string_names p.
Proof. intros H c v I. apply (H c v). right. auto. Qed.

Lemma entry_new w q cs cur : (q < List.length (pw_pools w))%nat -> pool_at (PW cs (pw_pools w ++ [[]]) cur) q = pool_at w q.
Proof. intros H. unfold pool_at. cbn [pw_pools]. apply app_nth1. auto. Qed.
Lemma entry_last w cs cur : pool_at (PW cs (pw_pools w ++ [[]]) cur) (List.length (pw_pools w)) = [].
Proof. unfold pool_at. cbn [pw_pools]. rewrite app_nth2, Nat.sub_diag; auto. Qed.

Definition psubject (o : pop) : option nat :=
  match o with POnline c _ | POffline c | PClose c | PStoreName c _ => Some c | _ => None end.

Lemma subj_shape o p : psubject o <> None -> pools_made (o :: p) = pools_made p /\ cur_pool (o :: p) = cur_pool p /\
  accepted (o :: p) = accepted p.
Proof. destruct o; simpl; auto; congruence. Qed.

Lemma pinv_noconn o p w d : PInv p w -> psubject o = Some d -> nth_error (pw_conns w) d = None -> PInv (o :: p) w.
Proof.
  intros [L P C K E] S N. destruct (subj_shape o p) as (H1 & H2 & H3); [congruence|].
  assert (X : is_conn p d = false). { apply Nat.ltb_ge. rewrite <- L. apply nth_error_None. auto. }
  assert (Y : pool_of p d = None). { destruct (pool_of p d) eqn:Q; auto. apply pool_of_conn in Q. congruence. }
  constructor; rewrite ?H1, ?H2, ?H3; auto.
  - intros c k Hc. destruct (K c k Hc) as (A & B & D & F & G).
    assert (Nc : Nat.eqb c d = false). { apply Nat.eqb_neq. intros ->. congruence. }
    unfold pool_of. rewrite H3. fold (pool_of p c). split; auto.
    destruct o; simpl in S; inversion S; subst; simpl; rewrite ?Nc; simpl;
      (split; [auto|split; [auto|split; [auto|intros Hs; apply G; eapply string_names_tl; eauto]]]).
  - intros q u Hq. rewrite E by auto. destruct o; simpl in S; inversion S; subst; simpl; unfold drops; rewrite ?Y; simpl; auto.
Qed.

(* a connection whose record is only touched in ways that do not matter for [f] *)
Lemma set_conn_nth w c k d : nth_error (pw_conns (set_conn w c k)) d = if Nat.eqb d c then match nth_error (pw_conns w) c with Some _ => Some k | None => None end else nth_error (pw_conns w) d.
Proof. unfold set_conn. cbn [pw_conns]. apply nth_upd. Qed.

Lemma pool_at_set w p m q : pool_at (set_pool w p m) q = if Nat.eqb q p && Nat.ltb p (List.length (pw_pools w)) then m else pool_at w q.
Proof. unfold pool_at, set_pool. cbn [pw_pools]. apply nth_upd_same. Qed.

Lemma PoolOffline_get w p u q v : (p < List.length (pw_pools w))%nat ->
  aget v (pool_at (PoolOffline w p u) q) = if Nat.eqb q p && String.eqb u v then None else aget v (pool_at w q).
Proof.
  intros H. unfold PoolOffline, GetClientPool, DeleteFromClientPool. apply Nat.ltb_lt in H.
  destruct (aget u (pool_at w p)) eqn:G.
  - rewrite pool_at_set, H, andb_true_r. destruct (Nat.eqb q p) eqn:Q; auto. apply Nat.eqb_eq in Q. subst q.
    rewrite aget_adel. change (keqb v u) with (String.eqb v u). rewrite String.eqb_sym. cbn [andb]. destruct (String.eqb u v); auto.
  - destruct (Nat.eqb q p) eqn:Q; auto. destruct (String.eqb u v) eqn:V; auto. apply Nat.eqb_eq in Q. apply String.eqb_eq in V. subst. auto.
Qed.
Lemma PoolOffline_conns w p u : pw_conns (PoolOffline w p u) = pw_conns w /\ List.length (pw_pools (PoolOffline w p u)) = List.length (pw_pools w) /\ pw_cur (PoolOffline w p u) = pw_cur w.
Proof. unfold PoolOffline. destruct (GetClientPool w p u); auto. unfold DeleteFromClientPool, set_pool. cbn. rewrite upd_length. auto. Qed.

Lemma opt_is_iff o q : opt_is o q = true <-> o = Some q.
Proof. destruct o; simpl; [rewrite Nat.eqb_eq; split; congruence|split; discriminate]. Qed.

Lemma pinv_step o p w : PInv p w -> PInv (o :: p) (snd (pstep o w)).
Proof.
  intros I. pose proof I as [L P C K E]. pose proof (pool_lt p) as (LT1 & LT2).
  assert (HC : forall d k, nth_error (pw_conns w) d = Some k -> is_conn p d = true).
  { intros d k H. apply is_conn_iff. rewrite <- L. apply nth_error_Some. congruence. }
  destruct o as [[|]| | |c u|c|c|c v]; cbn [pstep snd].
  - (* PWithPool true *) constructor; cbn [pw_conns pw_pools pw_cur accepted pools_made cur_pool]; auto.
    + rewrite app_length. simpl. lia.
    + intros c k H. destruct (K c k H) as (A & B & D & F & G). repeat (split; [auto|]). intros Hs. apply G. eapply string_names_tl; eauto.
    + intros q u Hq. cbn [dropped_since last_online]. unfold drops. simpl orb.
      destruct (Nat.eq_dec q (pools_made p)) as [->|Nq].
      * rewrite <- P at 1. rewrite entry_last. rewrite (last_online_new p (pools_made p) u) by auto. destruct (dropped_since p (pools_made p) u); auto.
      * rewrite entry_new by lia. apply E. lia.
  - constructor; cbn [pw_conns pw_pools pw_cur accepted pools_made cur_pool]; auto.
    intros c k H. destruct (K c k H) as (A & B & D & F & G). repeat (split; [auto|]). intros Hs. apply G. eapply string_names_tl; eauto.
  - (* PNewPool *) rewrite C. destruct (cur_pool p) as [q0|] eqn:Cp.
    + constructor; cbn [pw_conns pw_pools pw_cur accepted pools_made cur_pool]; rewrite ?Cp; auto.
      * rewrite app_length. simpl. lia.
      * intros c k H. destruct (K c k H) as (A & B & D & F & G). repeat (split; [auto|]). intros Hs. apply G. eapply string_names_tl; eauto.
      * intros q u Hq. cbn [dropped_since last_online]. unfold drops. simpl orb.
        destruct (Nat.eq_dec q (pools_made p)) as [->|Nq].
        -- rewrite <- P at 1. rewrite entry_last. rewrite (last_online_new p (pools_made p) u) by auto. destruct (dropped_since p (pools_made p) u); auto.
        -- rewrite entry_new by lia. apply E. lia.
    + constructor; cbn [accepted pools_made cur_pool]; rewrite ?Cp; auto.
      * intros c k H. destruct (K c k H) as (A & B & D & F & G). repeat (split; [auto|]). intros Hs. apply G. eapply string_names_tl; eauto.
  - (* PAccept *) constructor; cbn [pw_conns pw_pools pw_cur accepted pools_made cur_pool]; auto.
    + rewrite !app_length. simpl. lia.
    + intros c k H. apply nth_snoc in H as [H|(-> & ->)].
      * destruct (K c k H) as (A & B & D & F & G).
        assert (Hc : (c < List.length (accepted p))%nat) by (rewrite <- L; apply nth_error_Some; congruence).
        unfold pool_of. cbn [accepted]. rewrite app_nth1 by auto. repeat (split; [auto|]). intros Hs. apply G. eapply string_names_tl; eauto.
      * cbn [pc_ref pc_user pc_online pc_end pc_sock]. rewrite L. unfold pool_of. cbn [accepted]. rewrite app_nth2, Nat.sub_diag by auto. simpl nth.
        assert (X : is_conn p (List.length (accepted p)) = false) by apply Nat.ltb_irrefl.
        assert (NN : name_of p (List.length (accepted p)) = None /\ was_closed p (List.length (accepted p)) = false).
        { cut (forall h n, (List.length (accepted h) <= n)%nat -> name_of h n = None /\ was_closed h n = false); [intros Q; apply Q; auto|].
          clear. induction h as [|o h IH]; intros n Hn; auto.
          assert (Hh : (List.length (accepted h) <= n)%nat). { destruct o; simpl in Hn; auto. rewrite app_length in Hn. simpl in Hn. lia. }
          destruct (IH n Hh) as (I1 & I2).
          assert (X : is_conn h n = false) by (apply Nat.ltb_ge; auto).
          destruct o; simpl; rewrite ?X, ?andb_false_r; simpl; auto. }
        cbn [name_of was_closed]. destruct NN as (-> & ->). auto.
  - (* POnline *) unfold pon. destruct (nth_error (pw_conns w) c) as [k|] eqn:Hk; [|cbn [snd]; eapply pinv_noconn; eauto; reflexivity].
    unfold Online. change EmptyString with ""%string. destruct (String.eqb u "") eqn:Eu.
    + cbn [snd]. constructor; cbn [accepted pools_made cur_pool]; auto.
      * intros d kd H. destruct (K d kd H) as (A & B & D & F & G). cbn [name_of was_closed]. rewrite Eu, andb_false_r.
        repeat (split; [auto|]). intros Hs. apply G. eapply string_names_tl; eauto.
      * intros q u' Hq. cbn [dropped_since last_online]. rewrite E by auto. apply String.eqb_eq in Eu. subst u.
        destruct (String.eqb_spec u' ""); [subst; simpl; rewrite andb_false_r|simpl; rewrite andb_false_r]; auto.
    + destruct (K c k Hk) as (A & B & D & F & G). pose proof (HC c k Hk) as Ic.
      assert (KK : forall d kd, nth_error (pw_conns (set_conn w c (store_name k (VStr u)))) d = Some kd ->
        pc_ref kd = pool_of (POnline c u :: p) d /\ pc_user kd = name_of (POnline c u :: p) d /\
        pc_sock kd = was_closed (POnline c u :: p) d /\ pc_end kd = was_closed (POnline c u :: p) d /\
        (string_names (POnline c u :: p) -> pc_online kd = negb (was_closed (POnline c u :: p) d))).
      { intros d kd H. rewrite set_conn_nth in H. cbn [name_of was_closed]. rewrite Eu. cbn [negb]. rewrite andb_true_r.
        destruct (Nat.eqb d c) eqn:Q.
        - apply Nat.eqb_eq in Q. subst d. rewrite Hk in H. inversion H; subst kd. cbn [store_name pc_ref pc_user pc_online pc_end pc_sock].
          rewrite Ic. simpl. repeat (split; [auto|]). intros Hs. apply G. eapply string_names_tl; eauto.
        - destruct (K d kd H) as (A' & B' & D' & F' & G'). simpl. repeat (split; [auto|]). intros Hs. apply G'. eapply string_names_tl; eauto. }
      rewrite A. destruct (pool_of p c) as [q0|] eqn:Pc; cbn [snd].
      * assert (Hq0 := LT2 _ _ Pc). constructor; auto.
        -- cbn. rewrite upd_length. auto.
        -- cbn. rewrite upd_length. auto.
        -- intros q u' Hq. unfold SetClientPool. rewrite pool_at_set. cbn [set_conn pw_pools]. rewrite P.
           assert (Hb : Nat.ltb q0 (pools_made p) = true) by (apply Nat.ltb_lt; auto). rewrite Hb, andb_true_r.
           cbn [dropped_since last_online]. rewrite Pc. cbn [opt_is].
           change (pool_at (set_conn w c (store_name k (VStr u))) q0) with (pool_at w q0).
           change (pool_at (set_conn w c (store_name k (VStr u))) q) with (pool_at w q).
           destruct (Nat.eqb q q0) eqn:Qq.
           ++ apply Nat.eqb_eq in Qq. subst q. rewrite Nat.eqb_refl. cbn [andb]. rewrite aget_aset. change (keqb u' u) with (String.eqb u' u).
              destruct (String.eqb_spec u' u) as [->|Nu]; cbn [andb].
              ** rewrite Eu. reflexivity.
              ** apply E. exact Hq.
           ++ rewrite Nat.eqb_sym, Qq. cbn [andb]. apply E. exact Hq.
      * constructor; auto.
        -- cbn. rewrite upd_length. auto.
        -- intros q u' Hq. cbn [dropped_since last_online]. rewrite Pc. cbn [opt_is andb]. apply E. exact Hq.
  - (* POffline *) unfold pon. destruct (nth_error (pw_conns w) c) as [k|] eqn:Hk; [|cbn [snd]; eapply pinv_noconn; eauto; reflexivity].
    destruct (K c k Hk) as (A & B & D & F & G). unfold Offline. rewrite A, B.
    assert (KK : forall d kd, nth_error (pw_conns w) d = Some kd ->
        pc_ref kd = pool_of (POffline c :: p) d /\ pc_user kd = name_of (POffline c :: p) d /\
        pc_sock kd = was_closed (POffline c :: p) d /\ pc_end kd = was_closed (POffline c :: p) d /\
        (string_names (POffline c :: p) -> pc_online kd = negb (was_closed (POffline c :: p) d))).
    { intros d kd H. destruct (K d kd H) as (A' & B' & D' & F' & G'). cbn [name_of was_closed]. repeat (split; [auto|]). intros Hs. apply G'. eapply string_names_tl; eauto. }
    destruct (pool_of p c) as [q0|] eqn:Pc.
    + destruct (name_of p c) as [[n| |]|] eqn:Nm; cbn [snd].
      * destruct (PoolOffline_conns w q0 n) as (Q1 & Q2 & Q3). constructor; rewrite ?Q1, ?Q2, ?Q3; auto.
        intros q u' Hq. rewrite PoolOffline_get by (rewrite P; eapply LT2; eauto). rewrite E by exact Hq.
        cbn [dropped_since last_online drops]. rewrite Pc, Nm. cbn [opt_is named]. rewrite (Nat.eqb_sym q0 q).
        destruct (Nat.eqb q q0 && String.eqb n u'); auto.
      * constructor; auto. intros q u' Hq. cbn [dropped_since last_online drops]. rewrite Nm. cbn [named]. rewrite andb_false_r. apply E. exact Hq.
      * constructor; auto. intros q u' Hq. cbn [dropped_since last_online drops]. rewrite Nm. cbn [named]. rewrite andb_false_r. apply E. exact Hq.
      * constructor; auto. intros q u' Hq. cbn [dropped_since last_online drops]. rewrite Nm. cbn [named]. rewrite andb_false_r. apply E. exact Hq.
    + cbn [snd]. constructor; auto. intros q u' Hq. cbn [dropped_since last_online drops]. rewrite Pc. cbn [opt_is andb orb]. apply E. exact Hq.
  - (* PClose *) unfold pon. destruct (nth_error (pw_conns w) c) as [k|] eqn:Hk; [|cbn [snd]; eapply pinv_noconn; eauto; reflexivity].
    destruct (K c k Hk) as (A & B & D & F & G). pose proof (HC c k Hk) as Ic. unfold CloseConn.
    set (k1 := PConn (pc_ref k) (pc_user k) (pc_online k) true true). set (w1 := set_conn w c k1).
    set (k2 := PConn (pc_ref k) (pc_user k) false true true).
    assert (KK : forall kx w2, pw_conns w2 = upd (pw_conns w) c kx ->
        (kx = k2 \/ (kx = k1 /\ (string_names (PClose c :: p) -> False))) ->
        forall d kd, nth_error (pw_conns w2) d = Some kd ->
        pc_ref kd = pool_of (PClose c :: p) d /\ pc_user kd = name_of (PClose c :: p) d /\
        pc_sock kd = was_closed (PClose c :: p) d /\ pc_end kd = was_closed (PClose c :: p) d /\
        (string_names (PClose c :: p) -> pc_online kd = negb (was_closed (PClose c :: p) d))).
    { intros kx w2 Hw2 Hx d kd H. rewrite Hw2, nth_upd in H. cbn [name_of was_closed].
      destruct (Nat.eqb d c) eqn:Q.
      - apply Nat.eqb_eq in Q. subst d. rewrite Hk in H. inversion H; subst kd. rewrite Ic. cbn [andb orb negb].
        destruct Hx as [->|(-> & X)]; cbn [k1 k2 pc_ref pc_user pc_online pc_end pc_sock]; repeat (split; [auto|]); auto. intros Hs. destruct (X Hs).
      - destruct (K d kd H) as (A' & B' & D' & F' & G'). cbn [andb orb]. repeat (split; [auto|]). intros Hs. apply G'. eapply string_names_tl; eauto. }
    assert (U2 : forall kx ky, upd (upd (pw_conns w) c kx) c ky = upd (pw_conns w) c ky).
    { intros kx ky. generalize (pw_conns w). intros l. clear. revert c. induction l as [|a l IH]; intros [|c]; simpl; auto. f_equal. apply IH. }
    assert (LL : forall kx, List.length (upd (pw_conns w) c kx) = List.length (accepted (PClose c :: p))) by (intros; rewrite upd_length; exact L).
    destruct (pc_ref k) as [q0|] eqn:Rk.
    + unfold Offline. cbn [k1 pc_ref pc_user]. rewrite B.
      destruct (name_of p c) as [[n|n|n]|] eqn:Nm; cbn [snd].
      * destruct (PoolOffline_conns w1 q0 n) as (Q1 & Q2 & Q3).
        assert (CN : pw_conns (set_conn (PoolOffline w1 q0 n) c k2) = upd (pw_conns w) c k2).
        { unfold set_conn at 1. cbn [pw_conns]. rewrite Q1. unfold w1, set_conn. cbn [pw_conns]. apply U2. }
        constructor.
        -- rewrite CN. apply LL.
        -- cbn. rewrite Q2. exact P.
        -- cbn. rewrite Q3. exact C.
        -- apply (KK k2 _ CN). auto.
        -- intros q u' Hq. change (pool_at (set_conn (PoolOffline w1 q0 n) c k2) q) with (pool_at (PoolOffline w1 q0 n) q).
           rewrite PoolOffline_get by (cbn; rewrite P; eapply LT2; rewrite <- A; reflexivity).
           change (pool_at w1 q) with (pool_at w q). rewrite E by exact Hq.
           cbn [dropped_since last_online drops]. rewrite <- A, Nm. cbn [opt_is named]. rewrite (Nat.eqb_sym q0 q).
           destruct (Nat.eqb q q0 && String.eqb n u'); auto.
      * assert (CN : pw_conns w1 = upd (pw_conns w) c k1) by reflexivity. constructor.
        -- rewrite CN. apply LL.
        -- exact P.
        -- exact C.
        -- apply (KK k1 _ CN). right. split; auto. intros Hs. exfalso.
           clear - Nm Hs. apply string_names_tl in Hs. revert Nm Hs. induction p as [|o p IH]; [discriminate|]. intros Nm Hs.
           assert (Hs' := string_names_tl _ _ Hs). destruct o; simpl in Nm; auto.
           ++ destruct (_ && _ && _); [discriminate|auto].
           ++ destruct (_ && _); auto. inversion Nm; subst. destruct (Hs c0 (VChan n)) as (s & Q); [left; auto|discriminate].
        -- intros q u' Hq. change (pool_at w1 q) with (pool_at w q). cbn [dropped_since last_online drops]. rewrite Nm. cbn [named]. rewrite andb_false_r. apply E. exact Hq.
      * assert (CN : pw_conns w1 = upd (pw_conns w) c k1) by reflexivity. constructor.
        -- rewrite CN. apply LL.
        -- exact P.
        -- exact C.
        -- apply (KK k1 _ CN). right. split; auto. intros Hs. exfalso.
           clear - Nm Hs. apply string_names_tl in Hs. revert Nm Hs. induction p as [|o p IH]; [discriminate|]. intros Nm Hs.
           assert (Hs' := string_names_tl _ _ Hs). destruct o; simpl in Nm; auto.
           ++ destruct (_ && _ && _); [discriminate|auto].
           ++ destruct (_ && _); auto. inversion Nm; subst. destruct (Hs c0 (VOther n)) as (s & Q); [left; auto|discriminate].
        -- intros q u' Hq. change (pool_at w1 q) with (pool_at w q). cbn [dropped_since last_online drops]. rewrite Nm. cbn [named]. rewrite andb_false_r. apply E. exact Hq.
      * assert (CN : forall kx, pw_conns (set_conn w1 c kx) = upd (pw_conns w) c kx).
        { intros kx. unfold w1, set_conn. cbn [pw_conns]. apply U2. }
        constructor.
        -- rewrite CN. apply LL.
        -- exact P.
        -- exact C.
        -- apply (KK _ _ (CN _)). left. unfold k2. rewrite B. reflexivity.
        -- intros q u' Hq. change (pool_at (set_conn w1 c _) q) with (pool_at w q). cbn [dropped_since last_online drops]. rewrite Nm. cbn [named]. rewrite andb_false_r. apply E. exact Hq.
    + cbn [snd].
      assert (CN : forall kx, pw_conns (set_conn w1 c kx) = upd (pw_conns w) c kx).
      { intros kx. unfold w1, set_conn. cbn [pw_conns]. apply U2. }
      constructor.
      * rewrite CN. apply LL.
      * exact P.
      * exact C.
      * apply (KK _ _ (CN _)). left. reflexivity.
      * intros q u' Hq. change (pool_at (set_conn w1 c _) q) with (pool_at w q). cbn [dropped_since last_online drops]. rewrite <- A. cbn [opt_is andb orb]. apply E. exact Hq.
  - (* PStoreName *) unfold pon. destruct (nth_error (pw_conns w) c) as [k|] eqn:Hk; [|cbn [snd]; eapply pinv_noconn; eauto; reflexivity].
    cbn [snd]. destruct (K c k Hk) as (A & B & D & F & G). pose proof (HC c k Hk) as Ic. constructor; auto.
    + cbn. rewrite upd_length. auto.
    + intros d kd H. rewrite set_conn_nth in H. cbn [name_of was_closed]. destruct (Nat.eqb d c) eqn:Q.
      * apply Nat.eqb_eq in Q. subst d. rewrite Hk in H. inversion H; subst kd. rewrite Ic. cbn [store_name pc_ref pc_user pc_online pc_end pc_sock andb].
        repeat (split; [auto|]). intros Hs. apply G. eapply string_names_tl; eauto.
      * destruct (K d kd H) as (A' & B' & D' & F' & G'). cbn [andb]. repeat (split; [auto|]). intros Hs. apply G'. eapply string_names_tl; eauto.
Qed.

Lemma pinv_all h : PInv h (prun h).
Proof.
  induction h as [|o p IH].
  - constructor; simpl; auto. intros [|c] k H; discriminate. intros q u H. lia.
  - apply pinv_step. exact IH.
Qed.

Lemma conn_exists h c : is_conn h c = true -> exists k, nth_error (pw_conns (prun h)) c = Some k.
Proof.
  intros H. apply is_conn_iff in H. rewrite <- (p_len _ _ (pinv_all h)) in H. apply nth_error_Some in H.
  destruct (nth_error (pw_conns (prun h)) c); eauto. congruence.
Qed.
Lemma exists_conn h c k : nth_error (pw_conns (prun h)) c = Some k -> is_conn h c = true.
Proof. intros H. apply is_conn_iff. rewrite <- (p_len _ _ (pinv_all h)). apply nth_error_Some. congruence. Qed.

Lemma last_online_conn h q u d : last_online h q u = Some d -> is_conn h d = true /\ pool_of h d = Some q.
Proof.
  induction h as [|o p IH]; [discriminate|]. intros H.
  assert (M : forall d, pool_of p d = Some q -> is_conn p d = true -> is_conn (o :: p) d = true /\ pool_of (o :: p) d = Some q).
  { intros e Pe Ie. destruct o; auto. apply is_conn_iff in Ie. unfold is_conn, pool_of in *. cbn [accepted].
    rewrite app_nth1 by auto. split; auto. apply Nat.ltb_lt. rewrite app_length. lia. }
  assert (R : last_online p q u = Some d \/ (exists u', o = POnline d u' /\ pool_of p d = Some q)).
  { destruct o; auto. simpl in H. destruct (_ && _ && _) eqn:X; auto. right. inversion H; subst. exists u0. split; auto.
    apply andb_true_iff in X as (X & _). apply andb_true_iff in X as (X & _). apply opt_is_iff in X. auto. }
  destruct R as [R|(u' & -> & R)].
  - destruct (IH R) as (A & B). apply M; auto.
  - apply M; auto. eapply pool_of_conn; eauto.
Qed.

(* ------------------------------------------------------------------ *)
(* the lock *)

Definition has_pool (cs : list lconn) (c : nat) : Prop := exists k, nth_error cs c = Some k /\ lc_ref k = true.
Definition has_name (cs : list lconn) (c : nat) : Prop := exists k n, nth_error cs c = Some k /\ lc_name k = Some n.

(* every ISet in the program is for a connection of the pool that has a name by then; [nm] = those
   named earlier in the program *)
Fixpoint sets_ok (cs : list lconn) (nm : list nat) (p : list instr) : Prop :=
  match p with
  | [] => True
  | IName c u :: r => sets_ok cs (c :: nm) r
  | ISet u c :: r => has_pool cs c /\ (has_name cs c \/ In c nm) /\ sets_ok cs nm r
  | _ :: r => sets_ok cs nm r
  end.

Definition grows (cs cs' : list lconn) : Prop :=
  forall c, (has_pool cs c -> has_pool cs' c) /\ (has_name cs c -> has_name cs' c).

Lemma sets_ok_grows cs cs' p : grows cs cs' -> forall nm nm', (forall c, In c nm -> In c nm' \/ has_name cs' c) ->
  sets_ok cs nm p -> sets_ok cs' nm' p.
Proof.
  intros G. induction p as [|i r IH]; intros nm nm' N H; auto.
  destruct i; simpl in *; try (eapply IH; eauto; fail).
  - destruct H as (A & B & C). split; [apply G; auto|]. split; [|eapply IH; eauto].
    destruct B as [B|B]; [left; apply G; auto|]. destruct (N _ B); auto.
  - eapply IH; [|exact H]. intros d [D|D]; [left; left; auto|]. destruct (N d D); auto. left. right. auto.
Qed.

Lemma sets_ok_app cs nm p q : sets_ok cs nm p -> sets_ok cs nm q -> sets_ok cs nm (p ++ q).
Proof.
  revert nm. induction p as [|i p IH]; intros nm H K; auto. destruct i; simpl in *; auto.
  - destruct H as (A & B & C). auto.
  - apply IH; auto. eapply sets_ok_grows; [|intros d D; left; right; exact D|exact K]. intros d; auto.
Qed.

Lemma sets_ok_range cs nm m ks : sets_ok cs nm (range_body m ks).
Proof.
  induction ks as [|k ks IH]; simpl; auto. destruct (aget k m); auto.
Qed.

Record LInv (s : lstate) : Prop := {
  li_pool : forall u c, aget u (ls_pool s) = Some c -> has_pool (ls_conns s) c /\ has_name (ls_conns s) c;
  li_prog : forall t p, nth_error (ls_threads s) t = Some p -> sets_ok (ls_conns s) [] p }.

Lemma call_prog_ok cs p : call_prog cs p -> sets_ok cs [] p.
Proof.
  induction 1; simpl; auto. split; [eexists; split; [eauto|reflexivity]|]. split; auto.
  eapply sets_ok_grows; [| |exact IHcall_prog]; [intros d; auto|intros d []].
Qed.

Lemma lock_inv_start s : lock_start s -> LInv s.
Proof.
  intros (A & B & C & D). constructor.
  - rewrite A. discriminate.
  - intros t p H. apply call_prog_ok. apply D. eapply nth_error_In; eauto.
Qed.

Lemma grows_upd cs c k k' : nth_error cs c = Some k -> lc_ref k' = lc_ref k -> (lc_name k <> None -> lc_name k' <> None) -> grows cs (upd cs c k').
Proof.
  intros H R N d. split.
  - intros (kd & Hd & Rd). unfold has_pool. rewrite nth_upd. destruct (Nat.eqb d c) eqn:X; [|eauto].
    apply Nat.eqb_eq in X. subst d. rewrite H. exists k'. split; auto. congruence.
  - intros (kd & n & Hd & Rd). unfold has_name. rewrite nth_upd. destruct (Nat.eqb d c) eqn:X; [|eauto].
    apply Nat.eqb_eq in X. subst d. rewrite H. destruct (lc_name k') as [n'|] eqn:Y; [eauto|]. exfalso. apply N; congruence.
Qed.

Lemma grows_refl cs : grows cs cs.
Proof. intros c; auto. Qed.

Lemma linv_gen s s' t i r p' : LInv s -> nth_error (ls_threads s) t = Some (i :: r) ->
  grows (ls_conns s) (ls_conns s') ->
  ls_threads s' = upd (ls_threads s) t p' ->
  sets_ok (ls_conns s') [] p' ->
  (forall u c, aget u (ls_pool s') = Some c -> (exists v, aget v (ls_pool s) = Some c) \/ (has_pool (ls_conns s') c /\ has_name (ls_conns s') c)) ->
  LInv s'.
Proof.
  intros [A B] H G T P Q. constructor.
  - intros u c Hc. destruct (Q u c Hc) as [(v & Hv)|X]; auto. destruct (A v c Hv). split; apply G; auto.
  - intros n p Hn. rewrite T, nth_upd in Hn. destruct (Nat.eqb n t).
    + rewrite H in Hn. inversion Hn; subst. auto.
    + eapply sets_ok_grows; [exact G| |eapply B; eauto]. intros c [].
Qed.

Lemma lock_inv_step s s' : LInv s -> lstep s s' -> LInv s'.
Proof.
  intros I (t & H). pose proof I as [A B].
  destruct H; match goal with X : nth_error (ls_threads s) t = Some _ |- _ => pose proof (B _ _ X) as OK; simpl in OK;
    eapply (linv_gen s _ t _ r _ I X); [| reflexivity | |] end; cbn [set_thread ls_conns ls_pool ls_threads];
    try apply grows_refl; eauto.
  - destruct OK as (_ & _ & OK). auto.
  - destruct OK as (X & [Y|[]] & OK). intros v d Hd. rewrite aget_aset in Hd. destruct (keqb v u); eauto. inversion Hd; subst. auto.
  - intros v d Hd. rewrite aget_adel in Hd. destruct (keqb v u); [discriminate|eauto].
  - destruct (aget u (ls_pool s)); simpl; auto.
  - eapply grows_upd; eauto. simpl. discriminate.
  - assert (G : grows (ls_conns s) (upd (ls_conns s) c (LConn (lc_ref k) (Some u) (lc_off k)))) by (eapply grows_upd; eauto; simpl; discriminate).
    eapply sets_ok_grows; [exact G| |exact OK]. intros d [<-|[]]. right.
    exists (LConn (lc_ref k) (Some u) (lc_off k)), u. rewrite nth_upd, Nat.eqb_refl, H0. auto.
  - destruct (lc_ref k), (lc_name k); simpl; auto.
  - eapply grows_upd; eauto.
  - assert (G : grows (ls_conns s) (upd (ls_conns s) c (LConn (lc_ref k) (lc_name k) true))) by (eapply grows_upd; eauto).
    eapply sets_ok_grows; [exact G| |exact OK]. intros d [].
  - apply sets_ok_app; auto. apply sets_ok_range.
Qed.

Lemma lock_inv_reach s0 s : lock_start s0 -> lsteps s0 s -> LInv s.
Proof. intros H. induction 1; [apply lock_inv_start; auto|eapply lock_inv_step; eauto]. Qed.


(* lock discipline: who may touch the map *)
Inductive hold := HNone | HWrite | HRead.
Fixpoint disc (m : hold) (p : list instr) : Prop :=
  match p with
  | [] => m = HNone
  | i :: r =>
      match i, m with
      | ILock, HNone => disc HWrite r
      | IUnlock, HWrite => disc HNone r
      | IRLock, HNone => disc HRead r
      | IRLock, HWrite => True
      | IRUnlock, HRead => disc HNone r
      | (ISet _ _ | IDel _ | IRange), HWrite => disc HWrite r
      | ILookup _, HRead => disc HRead r
      | IGetDel _, HRead => disc HNone r
      | (IName _ _ | ISock _ | IEnd _ | IState _ | IOff _), (HNone | HWrite) => disc m r
      | _, _ => False
      end
  end.

Definition DInv (s : lstate) : Prop :=
  forall t p, nth_error (ls_threads s) t = Some p -> exists m, disc m p /\ (m = HWrite <-> ls_lock s = MWrite t).

Lemma call_prog_disc cs p : call_prog cs p -> disc HNone p.
Proof. induction 1; simpl; auto. Qed.

Lemma dinv_start s : lock_start s -> DInv s.
Proof.
  intros (A & B & C & D) t p H. exists HNone. split; [eapply call_prog_disc; eapply D; eapply nth_error_In; eauto|].
  rewrite B. split; discriminate.
Qed.

Lemma range_disc m ks r : disc HWrite r -> disc HWrite (range_body m ks ++ r).
Proof.
  intros H. induction ks as [|k ks IH]; simpl; auto. destruct (aget k m); simpl; auto.
Qed.

Lemma dinv_gen s s' t i r p' : DInv s -> nth_error (ls_threads s) t = Some (i :: r) ->
  ls_threads s' = upd (ls_threads s) t p' ->
  (forall m, disc m (i :: r) -> (m = HWrite <-> ls_lock s = MWrite t) -> exists m', disc m' p' /\ (m' = HWrite <-> ls_lock s' = MWrite t)) ->
  (forall n, n <> t -> (ls_lock s = MWrite n <-> ls_lock s' = MWrite n)) ->
  DInv s'.
Proof.
  intros D H T P Q n p Hn. rewrite T, nth_upd in Hn. destruct (Nat.eqb n t) eqn:X.
  - apply Nat.eqb_eq in X. subst n. rewrite H in Hn. inversion Hn; subst. destruct (D t _ H) as (m & D1 & D2). eauto.
  - apply Nat.eqb_neq in X. destruct (D n p Hn) as (m & D1 & D2). exists m. split; auto. rewrite D2. auto.
Qed.

Lemma dinv_step s s' : DInv s -> lstep s s' -> DInv s'.
Proof.
  intros I (t & H).
  destruct H; (match goal with X : nth_error (ls_threads s) t = Some _ |- _ =>
    eapply (dinv_gen s _ t _ r _ I X); [reflexivity | |] end); cbn [set_thread ls_lock];
    try tauto; try (intros m D W; destruct m; simpl in D; try contradiction; try (exists HNone; tauto); try (exists HWrite; tauto); exists HRead; tauto).
  - intros n N. rewrite H0. split; [discriminate|]. congruence.
  - intros m D W. destruct m; simpl in D; try contradiction. exists HNone. split; auto. split; discriminate.
  - intros n N. rewrite H0. split; [congruence|discriminate].
  - intros m D W. destruct m; simpl in D; try contradiction; [exists HRead; split; auto; split; discriminate|].
    destruct W as (W & _). rewrite H0 in W. discriminate (W eq_refl).
  - intros n N. rewrite H0. split; discriminate.
  - intros m D W. destruct m; simpl in D; try contradiction; [exists HRead; split; auto; split; discriminate|].
    destruct W as (W & _). rewrite H0 in W. discriminate (W eq_refl).
  - intros n0 N. rewrite H0. split; discriminate.
  - intros m D W. destruct m; simpl in D; try contradiction. exists HNone. split; auto. destruct n; split; discriminate.
  - intros n0 N. rewrite H0. destruct n; split; discriminate.
  - intros m D W. destruct m; simpl in D; try contradiction. exists HRead. destruct (aget u (ls_pool s)); simpl; auto.
  - intros m D W. exists m. split; auto. destruct (lc_ref k), (lc_name k), m; simpl in *; try contradiction; auto.
  - intros m D W. destruct m; simpl in D; try contradiction. exists HWrite. split; auto. apply range_disc. auto.
Qed.

Lemma dinv_reach s0 s : lock_start s0 -> lsteps s0 s -> DInv s.
Proof. intros H. induction 1; [apply dinv_start; auto|eapply dinv_step; eauto]. Qed.

(* where the closing goroutine is: [pre] ends in the read lock it can never get *)
Definition in_close (s : lstate) (t n0 : nat) : Prop :=
  exists c pre rest, nth_error (ls_threads s) t = Some (pre ++ rest) /\ has_pool (ls_conns s) c /\ has_name (ls_conns s) c /\
    ((pre = [ISock c; IEnd c; IOff c] /\ closed_by t (ls_log s) = n0) \/
     (pre = [IEnd c; IOff c] /\ closed_by t (ls_log s) = S n0) \/
     (pre = [IOff c] /\ closed_by t (ls_log s) = S n0) \/
     (pre = [IRLock] /\ closed_by t (ls_log s) = S n0)).

Definition stuck (s : lstate) (t n0 : nat) : Prop :=
  LInv s /\ DInv s /\ ls_lock s = MWrite t /\
  ((exists r, nth_error (ls_threads s) t = Some (IRange :: r) /\ ls_pool s <> [] /\ closed_by t (ls_log s) = n0) \/ in_close s t n0).

Lemma grows_step t s s' : lact t s s' -> grows (ls_conns s) (ls_conns s').
Proof. destruct 1; try apply grows_refl; cbn [ls_conns]; eapply grows_upd; eauto; simpl; discriminate. Qed.

Lemma closed_by_cons t u c l : closed_by t ((u, c) :: l) = if Nat.eqb u t then S (closed_by t l) else closed_by t l.
Proof. unfold closed_by. simpl. destruct (Nat.eqb u t); reflexivity. Qed.

(* a step of another goroutine *)
Lemma other_step t n s s' : lact t s s' -> n <> t ->
  nth_error (ls_threads s') n = nth_error (ls_threads s) n /\ closed_by n (ls_log s') = closed_by n (ls_log s) /\
  (ls_lock s = MWrite n -> ls_lock s' = MWrite n) /\ (DInv s -> ls_lock s = MWrite n -> ls_pool s' = ls_pool s).
Proof.
  intros H N. assert (N' := N). apply Nat.eqb_neq in N'.
  assert (DD : forall i r, nth_error (ls_threads s) t = Some (i :: r) -> DInv s -> ls_lock s = MWrite n -> (forall u c, i <> ISet u c) /\ (forall u, i <> IDel u)).
  { intros i r X D L. destruct (D t _ X) as (m & D1 & D2). split; intros; intros ->; simpl in D1; destruct m; try contradiction;
    destruct D2 as (D2 & _); rewrite L in D2; specialize (D2 eq_refl); congruence. }
  destruct H; cbn [set_thread ls_threads ls_log ls_lock ls_pool];
  (split; [rewrite nth_upd, N'; reflexivity|]);
  (split; [try reflexivity; rewrite closed_by_cons, Nat.eqb_sym, N'; reflexivity|]);
  (split; [intros; congruence|]); try reflexivity; intros D L;
  match goal with X : nth_error (ls_threads s) t = Some _ |- _ => destruct (DD _ _ X D L) as (Y & Z) end.
  - destruct (Y u c). reflexivity.
  - destruct (Z u). reflexivity.
Qed.

Lemma stuck_step s s' t n0 : stuck s t n0 -> lstep s s' -> stuck s' t n0.
Proof.
  intros (LI & DI & LK & J) H. assert (LI' := lock_inv_step _ _ LI H). assert (DI' := dinv_step _ _ DI H).
  destruct H as (n & H). assert (G := grows_step _ _ _ H). split; [exact LI'|]. split; [exact DI'|].
  destruct (Nat.eq_dec t n) as [<-|Nn].
  - (* the closer itself moves *)
    destruct J as [(r0 & HT & HP & HC)|(c & pre & rest & HT & HPo & HNa & J)].
    + inversion H; subst; match goal with X : nth_error (ls_threads s) t = Some _ |- _ => rewrite HT in X; inversion X; subst end.
      cbn [set_thread ls_threads ls_log ls_conns ls_lock ls_pool]. split; auto. right. unfold in_close. cbn [set_thread ls_threads ls_log ls_conns ls_lock ls_pool].
      destruct ks as [|k ks].
      { exfalso. destruct (ls_pool s) as [|(u & c) m] eqn:E; [congruence|]. apply (proj2 (H2 u)). unfold ahas. simpl. rewrite String.eqb_refl. reflexivity. }
      assert (K : ahas k (ls_pool s) = true) by (apply H2; left; auto). unfold ahas in K. destruct (aget k (ls_pool s)) as [c|] eqn:Kc; [|discriminate].
      destruct (li_pool s LI k c Kc) as (P1 & P2).
      exists c, [ISock c; IEnd c; IOff c]. eexists. split; [|split; [exact P1|split; [exact P2|left; auto]]].
      rewrite nth_upd, Nat.eqb_refl, HT. cbn [range_body flat_map]. rewrite Kc. reflexivity.
    + assert (HPo' : has_pool (ls_conns s') c) by (apply G; auto). assert (HNa' : has_name (ls_conns s') c) by (apply G; auto).
      destruct J as [(-> & JC)|[(-> & JC)|[(-> & JC)|(-> & JC)]]]; simpl app in HT;
        inversion H; subst; match goal with X : nth_error (ls_threads s) t = Some _ |- _ => rewrite HT in X; inversion X; subst end;
        try congruence; cbn [set_thread ls_threads ls_log ls_conns ls_lock ls_pool] in *; split; auto; right; unfold in_close;
        cbn [set_thread ls_threads ls_log ls_conns ls_lock ls_pool].
      * exists c0, [IEnd c0; IOff c0], rest. rewrite nth_upd, Nat.eqb_refl, HT, closed_by_cons, Nat.eqb_refl. auto 8.
      * exists c0, [IOff c0], rest. rewrite nth_upd, Nat.eqb_refl, HT. auto 8.
      * destruct HPo as (k1 & Q1 & Q2). destruct HNa as (k2 & n & Q3 & Q4).
        assert (k1 = k) by congruence. assert (k2 = k) by congruence. subst. rewrite Q2, Q4.
        exists c0, [IRLock], (IGetDel n :: r). rewrite nth_upd, Nat.eqb_refl, HT. auto 8.
  - destruct (other_step _ _ _ _ H Nn) as (T & C & L & P). specialize (L LK). specialize (P DI LK). split; [exact L|].
    destruct J as [(r0 & HT & HP & HC)|(c & pre & rest & HT & HPo & HNa & J)].
    + left. exists r0. rewrite T, P, C. auto.
    + right. exists c, pre, rest. rewrite T, C. split; auto. split; [apply G; auto|]. split; [apply G; auto|]. auto.
Qed.

Lemma stuck_reach s t n0 : stuck s t n0 -> forall s', lsteps s s' -> stuck s' t n0.
Proof. intros J s' H. induction H; auto. eapply stuck_step; [apply IHlsteps; auto|eauto]. Qed.

Lemma waits s s' t : ls_lock s = MWrite t -> lstep s s' -> forall n i p, nth_error (ls_threads s) n = Some (i :: p) -> i = ILock \/ i = IRLock ->
  nth_error (ls_threads s') n = Some (i :: p).
Proof.
  intros LK (m & H) n i p Hn Hi. destruct (Nat.eq_dec n m) as [<-|N].
  - exfalso. inversion H; subst; match goal with X : nth_error (ls_threads s) n = Some _ |- _ => rewrite Hn in X; inversion X; subst end;
      try congruence; destruct Hi; discriminate.
  - destruct (other_step _ _ _ _ H N) as (T & _). congruence.
Qed.

(* one connection of the pool, going online; Stop(true); a second goroutine looking somebody up *)
Definition demo_lock : lstate :=
  LS [] MFree [LConn true None false] [prog_online 0 "u"; prog_closer; prog_get "u"] [].
Lemma demo_lock_start : lock_start demo_lock.
Proof.
  split; [reflexivity|]. split; [reflexivity|]. split; [reflexivity|]. intros p [<-|[<-|[<-|[]]]].
  - rewrite <- (app_nil_r (prog_online 0 "u")). eapply cp_online; [reflexivity|constructor].
  - rewrite <- (app_nil_r prog_closer). repeat constructor.
  - rewrite <- (app_nil_r (prog_get "u")). repeat constructor.
Qed.
