(* The pool used through its exported methods (C131). NODEMO *)
From Verif Require Export SpecDirect PoolFacts.

Lemma d_lt h : (forall q, d_current h = Some q -> (q < d_made h)%nat) /\ (forall c q, d_pool h c = Some q -> (q < d_made h)%nat).
Proof.
  induction h as [|o p (IH1 & IH2)]; [split; [discriminate|intros [|c]; discriminate]|].
  assert (M : (d_made p <= d_made (o :: p))%nat).
  { destruct o as [[[|]| | | | | |]| | | |]; simpl; auto. destruct (d_current p); auto. }
  split.
  - intros q H. destruct o as [[[|]| | | | | |]| | | |]; simpl in *; try (apply IH1; auto; fail); try discriminate.
    + inversion H. lia.
    + destruct (d_current p); inversion H; subst. lia.
    + specialize (IH1 _ H). lia.
  - intros c q H. destruct o as [[[|]| | | | | |]| | | |]; try (apply (Nat.lt_le_trans _ (d_made p)); [|exact M]; apply (IH2 c); exact H).
    unfold d_pool in *. cbn [d_accepted] in H. simpl d_made.
    destruct (Nat.lt_ge_cases c (List.length (d_accepted p))) as [L|L].
    + rewrite app_nth1 in H by auto. apply (IH2 c). auto.
    + rewrite app_nth2 in H by auto. destruct (c - List.length (d_accepted p))%nat as [|[|?]]; simpl in H; try discriminate. apply IH1. auto.
Qed.

Lemma d_conn_iff h c : d_conn h c = true <-> (c < List.length (d_accepted h))%nat.
Proof. apply Nat.ltb_lt. Qed.

Lemma d_pool_conn h c q : d_pool h c = Some q -> d_conn h c = true.
Proof.
  unfold d_pool. intros H. apply d_conn_iff. destruct (Nat.lt_ge_cases c (List.length (d_accepted h))); auto.
  rewrite nth_overflow in H by auto. discriminate.
Qed.

Lemma d_sane_tl o p : d_sane (o :: p) -> d_sane p.
Proof. intros H l q x E. apply (H (o :: l)). cbn. congruence. Qed.

Lemma d_sane_hd o p : d_sane (o :: p) -> match o with DSet q _ _ | DDelete q _ | DOffline q _ => (q < d_made p)%nat | _ => True end.
Proof. intros H. exact (H [] p o eq_refl). Qed.

Lemma sane_nil : d_sane [].
Proof. intros [|x l] p o E; discriminate. Qed.
Lemma sane_cons o p : d_sane p -> match o with DSet q _ _ | DDelete q _ | DOffline q _ => (q < d_made p)%nat | _ => True end -> d_sane (o :: p).
Proof. intros H X [|x l] p' o' E; cbn in E; inversion E; subst; [exact X|]. apply (H l p' o'). reflexivity. Qed.

Lemma puts_fun p q u x y o : puts p q u x o -> puts p q u y o -> x = y.
Proof.
  intros [(-> & _)|(c & -> & -> & _)] [(E & _)|(c' & -> & E & _)]; try discriminate; inversion E; reflexivity.
Qed.
Lemma puts_takes p q u x o : puts p q u x o -> takes p q u o -> False.
Proof. intros [(-> & _)|(c & -> & -> & _)] [E|(c' & [E|E] & _)]; discriminate. Qed.
Lemma puts_delete p q u x : puts p q u x (DDelete q u) -> False.
Proof. intros [(E & _)|(c & _ & E & _)]; discriminate. Qed.
Lemma takes_delete p q u : takes p q u (DDelete q u) -> False.
Proof. intros [E|(c' & [E|E] & _)]; discriminate. Qed.

Lemma holds_fun h q u : forall e e', holds h q u e -> holds h q u e' -> e = e'.
Proof.
  induction h as [|o p IH]; intros e e' H H'.
  - inversion H; inversion H'; congruence.
  - inversion H as [|p0 q0 u0 x0 o0 P|p0 q0 u0|p0 q0 u0 o0 c0 T K|p0 q0 u0 o0 e0 T K N|p0 q0 u0 o0 e0 K NP NT ND]; subst;
    inversion H' as [|p1 q1 u1 x1 o1 P'|p1 q1 u1|p1 q1 u1 o1 c1 T' K'|p1 q1 u1 o1 e1 T' K' N'|p1 q1 u1 o1 e1 K' NP' NT' ND']; subst;
    try reflexivity; try congruence;
    try (exfalso; eapply puts_delete; eassumption); try (exfalso; eapply takes_delete; eassumption);
    try (exfalso; eapply puts_takes; eassumption); try contradiction; try (exfalso; eapply NP; eassumption); try (exfalso; eapply NP'; eassumption).
    + f_equal. eapply puts_fun; eassumption.
    + exfalso. eapply N'. eapply IH; eassumption.
    + exfalso. eapply N. eapply IH; eassumption.
    + eapply IH; eassumption.
    + eapply IH; eassumption.
Qed.

Lemma holds_new h q u : d_sane h -> (d_made h <= q)%nat -> holds h q u None.
Proof.
  induction h as [|o p IH]; intros S0 H; [constructor|].
  assert (M : (d_made p <= d_made (o :: p))%nat).
  { destruct o as [[[|]| | | | | |]| | | |]; simpl; auto. destruct (d_current p); auto. }
  assert (E : holds p q u None) by (apply IH; [eapply d_sane_tl; eauto|lia]). pose proof (d_sane_hd _ _ S0) as Hd.
  assert (NP : forall c, d_pool p c <> Some q). { intros c Q. apply (proj2 (d_lt p)) in Q. lia. }
  apply ho_same; auto.
  - intros x [(-> & _)|(c & _ & _ & _ & Q)]; [lia|exact (NP c Q)].
  - intros [->|(c & _ & Q & _)]; [lia|exact (NP c Q)].
  - intros ->. lia.
Qed.

Fixpoint closedb (h : list dop) (c : nat) : bool :=
  match h with
  | [] => false
  | DIndirect (PClose d) :: p => (Nat.eqb c d && d_conn p c) || closedb p c
  | _ :: p => closedb p c
  end.

Lemma closedb_iff h c : closedb h c = true <-> d_closed h c.
Proof.
  induction h as [|o p IH]; [split; [discriminate|intros (l & p & E & _); destruct l; discriminate]|].
  assert (G : d_closed (o :: p) c <-> (o = DIndirect (PClose c) /\ d_conn p c = true) \/ d_closed p c).
  { split.
    - intros (l & p' & E & Hc). destruct l as [|x l]; cbn in E; inversion E; subst; [left; auto|right; exists l, p'; auto].
    - intros [(-> & Hc)|(l & p' & -> & Hc)]; [exists [], p; auto|exists (o :: l), p'; auto]. }
  rewrite G, <- IH. destruct o as [[| | | | |d|]| | | |]; cbn [closedb]; try (split; [auto|intros [(X & _)|X]; [discriminate|auto]]).
  rewrite orb_true_iff, andb_true_iff, Nat.eqb_eq. split; intros [X|X]; auto.
  - destruct X as (-> & X). auto.
  - destruct X as (X & Y). inversion X. auto.
Qed.

Record DInv (h : list dop) (w : dworld) : Prop := {
  di_len : List.length (dw_conns w) = List.length (d_accepted h);
  di_pools : List.length (dw_pools w) = d_made h;
  di_cur : dw_cur w = d_current h;
  di_conn : forall c k, nth_error (dw_conns w) c = Some k ->
    pc_ref k = d_pool h c /\ pc_user k = d_name h c /\ (d_string_names h -> pc_online k = negb (closedb h c));
  di_entry : forall q u, (q < d_made h)%nat -> holds h q u (aget u (dpool_at w q)) }.

Lemma d_names_tl o p : d_string_names (o :: p) -> d_string_names p.
Proof. intros H c v I. apply (H c v). right. auto. Qed.

Lemma dpool_set w p m q : dpool_at (d_set_pool w p m) q = if Nat.eqb q p && Nat.ltb p (List.length (dw_pools w)) then m else dpool_at w q.
Proof. unfold dpool_at, d_set_pool. cbn [dw_pools]. apply nth_upd_same. Qed.
Lemma dpool_conn w c k q : dpool_at (d_set_conn w c k) q = dpool_at w q.
Proof. reflexivity. Qed.

Definition taken (e : option (option nat)) : option (option nat) := match e with Some (Some _) => None | Some None => Some None | None => None end.

Lemma offline_get w p u q v : (p < List.length (dw_pools w))%nat ->
  aget v (dpool_at (dPoolOffline w p u) q) =
    if Nat.eqb q p && String.eqb u v then taken (aget v (dpool_at w q)) else aget v (dpool_at w q).
Proof.
  intros H. unfold dPoolOffline, dGet, dDelete. apply Nat.ltb_lt in H.
  destruct (aget u (dpool_at w p)) as [[c|]|] eqn:G.
  - rewrite dpool_set, H, andb_true_r. destruct (Nat.eqb_spec q p) as [->|N]; auto. cbn [andb].
    rewrite aget_adel. change (keqb v u) with (String.eqb v u). rewrite String.eqb_sym. destruct (String.eqb_spec u v) as [->|]; auto. rewrite G. reflexivity.
  - destruct (Nat.eqb_spec q p) as [->|N]; auto. destruct (String.eqb_spec u v) as [->|]; auto. cbn [andb]. rewrite G. reflexivity.
  - destruct (Nat.eqb_spec q p) as [->|N]; auto. destruct (String.eqb_spec u v) as [->|]; auto. cbn [andb]. rewrite G. reflexivity.
Qed.
Lemma offline_rest w p u : dw_conns (dPoolOffline w p u) = dw_conns w /\ List.length (dw_pools (dPoolOffline w p u)) = List.length (dw_pools w) /\ dw_cur (dPoolOffline w p u) = dw_cur w.
Proof. unfold dPoolOffline. destruct (dGet w p u); auto. unfold dDelete, d_set_pool. cbn. rewrite upd_length. auto. Qed.

Lemma holds_take_any p q u o e : takes p q u o -> holds p q u e -> holds (o :: p) q u (taken e).
Proof. intros T H. destruct e as [[c|]|]; [eapply ho_take; eauto|apply ho_take_nil; auto; discriminate|apply ho_take_nil; auto; discriminate]. Qed.

(* calls that leave everything but the pools' number or the connections alone *)
Lemma holds_skip p q u o e : holds p q u e ->
  match o with DMake | DIndirect (PWithPool _ | PNewPool | PAccept | PStoreName _ _) => True | _ => False end -> holds (o :: p) q u e.
Proof.
  intros H X. apply ho_same; auto.
  - intros x [(-> & _)|(c & _ & -> & _)]; exact X.
  - intros [->|(c & [-> | ->] & _)]; exact X.
  - intros ->. exact X.
Qed.

Lemma dinv_step o p w : d_sane (o :: p) -> DInv p w -> DInv (o :: p) (snd (dstep o w)).
Proof.
  intros S0 I. pose proof I as [L P C K E]. pose proof (d_lt p) as (LT1 & LT2). pose proof (d_sane_hd _ _ S0) as Hd. pose proof (d_sane_tl _ _ S0) as St.
  assert (HC : forall d k, nth_error (dw_conns w) d = Some k -> d_conn p d = true).
  { intros d k H. apply d_conn_iff. rewrite <- L. apply nth_error_Some. congruence. }
  assert (HN : forall d, nth_error (dw_conns w) d = None -> d_conn p d = false).
  { intros d H. apply Nat.ltb_ge. rewrite <- L. apply nth_error_None. auto. }
  assert (HNP : forall d, nth_error (dw_conns w) d = None -> forall q, d_pool p d <> Some q).
  { intros d H q Q. apply d_pool_conn in Q. rewrite HN in Q; auto. discriminate. }
  (* a new pool *)
  assert (NEW : forall cur', d_made (o :: p) = S (d_made p) -> d_accepted (o :: p) = d_accepted p -> d_current (o :: p) = cur' ->
    (forall c, d_name (o :: p) c = d_name p c) -> (forall c, closedb (o :: p) c = closedb p c) ->
    match o with DMake | DIndirect (PWithPool _ | PNewPool | PAccept | PStoreName _ _) => True | _ => False end ->
    DInv (o :: p) (d_add_pool w cur')).
  { intros cur' H1 H2 H3 H4 H5 H6. constructor; unfold d_add_pool; cbn [dw_conns dw_pools dw_cur]; auto.
    - rewrite H2. auto.
    - rewrite app_length, H1. cbn. lia.
    - intros c k Hk. destruct (K c k Hk) as (A & B & D). unfold d_pool. rewrite H2, H4, H5. split; [auto|]. split; [auto|]. intros Hs. apply D. eapply d_names_tl; eauto.
    - intros q u Hq. rewrite H1 in Hq. apply holds_skip; auto. unfold dpool_at. cbn [dw_pools]. destruct (Nat.eq_dec q (d_made p)) as [->|Nq].
      + rewrite <- P at 2. rewrite app_nth2, Nat.sub_diag by auto. cbn. apply holds_new; auto.
      + rewrite app_nth1 by lia. apply E. lia. }
  (* only the entries change *)
  assert (ENT : forall w', dw_conns w' = dw_conns w -> List.length (dw_pools w') = List.length (dw_pools w) -> dw_cur w' = dw_cur w ->
    d_made (o :: p) = d_made p -> d_accepted (o :: p) = d_accepted p -> d_current (o :: p) = d_current p ->
    (forall c, d_name (o :: p) c = d_name p c) -> (forall c, closedb (o :: p) c = closedb p c) ->
    (forall q u, (q < d_made p)%nat -> holds (o :: p) q u (aget u (dpool_at w' q))) -> DInv (o :: p) w').
  { intros w' E1 E2 E3 H1 H2 H3 H4 H5 H6. constructor; rewrite ?E1, ?E2, ?E3, ?H1, ?H2, ?H3; auto.
    intros c k Hk. destruct (K c k Hk) as (A & B & D). unfold d_pool. rewrite H2, H4, H5. split; [auto|]. split; [auto|]. intros Hs. apply D. eapply d_names_tl; eauto. }
  destruct o as [[[|]| | |c u|c|c|c v]| |q0 u0 x|q0 u0|q0 u0]; cbn [dstep d_pop snd].
  - (* PWithPool true *) apply NEW; auto. cbn [d_current]. rewrite P. reflexivity.
  - (* PWithPool false *) constructor; cbn [dw_conns dw_pools dw_cur d_accepted d_made d_current]; auto.
    + intros c k H. destruct (K c k H) as (A & B & D). split; [auto|]. split; [auto|]. intros Hs. apply D. eapply d_names_tl; eauto.
    + intros q u Hq. apply holds_skip; auto. apply (E q u Hq).
  - (* PNewPool *) rewrite C. destruct (d_current p) as [q1|] eqn:Cp.
    + apply NEW; auto; cbn [d_made d_current]; rewrite ?Cp; auto.
    + apply ENT; auto; cbn [d_made d_current]; rewrite ?Cp; auto. intros q u Hq. apply holds_skip; auto.
  - (* PAccept *) constructor; cbn [dw_conns dw_pools dw_cur d_accepted d_made d_current]; auto.
    + rewrite !app_length. simpl. lia.
    + intros c k H. apply nth_snoc in H as [H|(-> & ->)].
      * destruct (K c k H) as (A & B & D). cbn [d_name closedb].
        assert (Q : d_pool (DIndirect PAccept :: p) c = d_pool p c). { unfold d_pool. cbn [d_accepted]. apply app_nth1. rewrite <- L. apply nth_error_Some. congruence. }
        rewrite Q. split; [auto|]. split; [auto|]. intros Hs. apply D. eapply d_names_tl; eauto.
      * assert (NN : forall h c', (List.length (d_accepted h) <= c')%nat -> d_name h c' = None /\ closedb h c' = false).
        { clear. induction h as [|o h IH]; intros c' H; [auto|].
          assert (Hm : (List.length (d_accepted h) <= c')%nat) by (destruct o as [[[|]| | | | | |]| | | |]; cbn in H; rewrite ?app_length in H; cbn in H; lia).
          destruct (IH c' Hm) as (A & B). assert (X : d_conn h c' = false) by (apply Nat.ltb_ge; auto).
          destruct o as [[[|]| | | | | |]| | | |]; cbn [d_name closedb]; rewrite ?X, ?andb_false_r; auto. }
        cbn [pc_ref pc_user pc_online d_name closedb]. destruct (NN p (List.length (dw_conns w))) as (-> & ->); [rewrite L; auto|].
        unfold d_pool. cbn [d_accepted]. rewrite L, app_nth2, Nat.sub_diag by auto. cbn. auto.
    + intros q u Hq. apply holds_skip; auto. apply (E q u Hq).
  - (* POnline *) unfold don. destruct (nth_error (dw_conns w) c) as [k|] eqn:Hk.
    + destruct (K c k Hk) as (A & B & D). pose proof (HC c k Hk) as Ic. unfold dOnline. change EmptyString with ""%string.
      destruct (String.eqb_spec u "") as [->|Nu].
      * apply ENT; auto. { intros c'. cbn [d_name]. rewrite String.eqb_refl, andb_false_r. reflexivity. }
        intros q v Hq. apply ho_same; auto; [intros x [(X & _)|(c' & _ & X & N & _)]; [discriminate|inversion X; congruence]|intros [X|(c' & [X|X] & _)]; discriminate|discriminate].
      * assert (CN : forall w', dw_conns w' = upd (dw_conns w) c (store_name k (VStr u)) -> forall c' k', nth_error (dw_conns w') c' = Some k' ->
            pc_ref k' = d_pool (DIndirect (POnline c u) :: p) c' /\ pc_user k' = d_name (DIndirect (POnline c u) :: p) c' /\
            (d_string_names (DIndirect (POnline c u) :: p) -> pc_online k' = negb (closedb (DIndirect (POnline c u) :: p) c'))).
        { intros w' -> c' k' H. rewrite nth_upd in H. cbn [d_name closedb]. apply String.eqb_neq in Nu. rewrite Nu. change (d_pool (DIndirect (POnline c u) :: p) c') with (d_pool p c').
          destruct (Nat.eqb_spec c' c) as [->|Nc].
          - rewrite Hk in H. inversion H; subst. rewrite Ic. cbn. split; [auto|]. split; [auto|]. intros Hs. apply D. eapply d_names_tl; eauto.
          - destruct (K c' k' H) as (A' & B' & D'). cbn. split; [auto|]. split; [auto|]. intros Hs. apply D'. eapply d_names_tl; eauto. }
        destruct (pc_ref k) as [p1|] eqn:R; cbn [snd].
        -- constructor; cbn [dSet d_set_pool d_set_conn dw_conns dw_pools dw_cur d_accepted d_made d_current]; rewrite ?upd_length; auto; [apply (CN (dSet (d_set_conn w c (store_name k (VStr u))) p1 u (Some c))); reflexivity|].
           intros q v Hq. match goal with |- holds _ _ _ (aget _ (dpool_at ?w' _)) => change w' with (dSet (d_set_conn w c (store_name k (VStr u))) p1 u (Some c)) end. unfold dSet. rewrite dpool_set, !dpool_conn. change (List.length (dw_pools (d_set_conn w c (store_name k (VStr u))))) with (List.length (dw_pools w)).
           assert (Lp : (p1 < d_made p)%nat) by (eapply LT2; symmetry; exact A). rewrite P. apply Nat.ltb_lt in Lp. rewrite Lp, andb_true_r.
           destruct (Nat.eqb_spec q p1) as [->|Nq].
           ++ rewrite aget_aset. change (keqb v u) with (String.eqb v u). destruct (String.eqb_spec v u) as [->|Nv].
              ** apply ho_put. right. exists c. auto.
              ** apply ho_same; [apply E; auto| | |discriminate].
                 --- intros x [(X & _)|(c' & _ & X & _)]; [discriminate|inversion X; congruence].
                 --- intros [X|(c' & [X|X] & _)]; discriminate.
           ++ apply ho_same; [apply E; auto| | |discriminate].
              ** intros x [(X & _)|(c' & _ & X & _ & Q)]; [discriminate|inversion X; subst; congruence].
              ** intros [X|(c' & [X|X] & _)]; discriminate.
        -- constructor; cbn [d_set_conn dw_conns dw_pools dw_cur d_accepted d_made d_current]; rewrite ?upd_length; auto; [apply (CN (d_set_conn w c (store_name k (VStr u)))); reflexivity|].
           intros q v Hq. apply ho_same; [apply (E q v); auto| | |discriminate].
           ++ intros x [(X & _)|(c' & _ & X & _ & Q)]; [discriminate|inversion X; subst; congruence].
           ++ intros [X|(c' & [X|X] & _)]; discriminate.
    + apply ENT; auto.
      * intros c'. cbn [d_name]. destruct (Nat.eqb_spec c' c) as [->|]; auto. rewrite (HN c Hk). reflexivity.
      * intros q v Hq. apply ho_same; [apply E; auto| | |discriminate].
        -- intros x [(X & _)|(c' & _ & X & _ & Q)]; [discriminate|inversion X; subst; eapply HNP; eauto].
        -- intros [X|(c' & [X|X] & _)]; discriminate.
  - (* POffline *) unfold don. destruct (nth_error (dw_conns w) c) as [k|] eqn:Hk.
    + destruct (K c k Hk) as (A & B & D). unfold dOffline. rewrite A, B.
      assert (NO : forall q v, (d_pool p c <> Some q \/ d_name p c <> Some (VStr v)) -> (q < d_made p)%nat -> holds (DIndirect (POffline c) :: p) q v (aget v (dpool_at w q))).
      { intros q v N Hq. apply ho_same; [apply E; auto| | |discriminate].
        - intros x [(X & _)|(c' & _ & X & _)]; discriminate.
        - intros [X|(c' & [X|X] & Q1 & Q2)]; try discriminate. inversion X; subst. destruct N; auto. }
      destruct (d_pool p c) as [p1|] eqn:R; [|cbn [snd]; apply ENT; auto; intros q v Hq; apply NO; auto; left; discriminate].
      destruct (d_name p c) as [[n|n|n]|] eqn:Nm; cbn [snd]; try (apply ENT; auto; intros q v Hq; apply NO; auto; right; discriminate).
      destruct (offline_rest w p1 n) as (O1 & O2 & O3). apply ENT; auto.
      intros q v Hq. rewrite offline_get by (rewrite P; eapply LT2; eauto). destruct (Nat.eqb_spec q p1) as [->|Nq]; cbn [andb].
      * destruct (String.eqb_spec n v) as [->|Nv]; [|apply NO; auto; right; congruence]. apply holds_take_any; [right; exists c; auto|apply E; auto].
      * apply NO; auto. left. congruence.
    + apply ENT; auto. intros q v Hq. apply ho_same; [apply E; auto| | |discriminate].
      * intros x [(X & _)|(c' & _ & X & _)]; discriminate.
      * intros [X|(c' & [X|X] & Q & _)]; try discriminate. inversion X; subst. eapply HNP; eauto.
  - (* PClose *) unfold don. destruct (nth_error (dw_conns w) c) as [k|] eqn:Hk.
    + destruct (K c k Hk) as (A & B & D). pose proof (HC c k Hk) as Ic. unfold dCloseConn.
      set (k1 := PConn (pc_ref k) (pc_user k) (pc_online k) true true). set (w1 := d_set_conn w c k1).
      assert (NO : forall q v, (d_pool p c <> Some q \/ d_name p c <> Some (VStr v)) -> (q < d_made p)%nat -> holds (DIndirect (PClose c) :: p) q v (aget v (dpool_at w q))).
      { intros q v N Hq. apply ho_same; [apply E; auto| | |discriminate].
        - intros x [(X & _)|(c' & _ & X & _)]; discriminate.
        - intros [X|(c' & [X|X] & Q1 & Q2)]; try discriminate. inversion X; subst. destruct N; auto. }
      (* the final record of the connection *)
      assert (CN : forall w' on, dw_conns w' = upd (upd (dw_conns w) c k1) c (PConn (pc_ref k) (pc_user k) on true true) \/ dw_conns w' = upd (dw_conns w) c (PConn (pc_ref k) (pc_user k) on true true) ->
          (d_string_names (DIndirect (PClose c) :: p) -> on = false) -> forall c' k', nth_error (dw_conns w') c' = Some k' ->
          pc_ref k' = d_pool (DIndirect (PClose c) :: p) c' /\ pc_user k' = d_name (DIndirect (PClose c) :: p) c' /\
          (d_string_names (DIndirect (PClose c) :: p) -> pc_online k' = negb (closedb (DIndirect (PClose c) :: p) c'))).
      { intros w' on Hw Hon c' k' H. change (d_pool (DIndirect (PClose c) :: p) c') with (d_pool p c'). change (d_name (DIndirect (PClose c) :: p) c') with (d_name p c').
        assert (X : if Nat.eqb c' c then k' = PConn (pc_ref k) (pc_user k) on true true else nth_error (dw_conns w) c' = Some k').
        { destruct Hw as [Hw|Hw]; rewrite Hw in H; rewrite ?nth_upd in H; destruct (Nat.eqb_spec c' c) as [->|Nc]; auto; rewrite ?Nat.eqb_refl, Hk in H; congruence. }
        cbn [closedb]. destruct (Nat.eqb_spec c' c) as [->|Nc].
        - subst k'. cbn [pc_ref pc_user pc_online]. rewrite Ic. split; [auto|]. split; [auto|]. intros Hs. rewrite (Hon Hs). reflexivity.
        - destruct (K c' k' X) as (A' & B' & D'). split; [auto|]. split; [auto|]. intros Hs. cbn. apply D'. eapply d_names_tl; eauto. }
      assert (SN : d_string_names (DIndirect (PClose c) :: p) -> forall v, d_name p c = Some v -> exists s, v = VStr s).
      { intros Hs. apply d_names_tl in Hs. revert Hs. clear. induction p as [|o p IH]; [discriminate|]. intros Hs v H. specialize (IH (d_names_tl _ _ Hs)).
        destruct o as [[[|]| | |d u|d|d|d v0]| | | |]; cbn in H; auto.
        - destruct (_ && _ && _); [inversion H; eauto|auto].
        - destruct (_ && _); [inversion H; subst; apply (Hs d v); left; auto|auto]. }
      assert (ASM : forall w' on, (dw_conns w' = upd (upd (dw_conns w) c k1) c (PConn (pc_ref k) (pc_user k) on true true) \/ dw_conns w' = upd (dw_conns w) c (PConn (pc_ref k) (pc_user k) on true true)) ->
          List.length (dw_pools w') = List.length (dw_pools w) -> dw_cur w' = dw_cur w -> (d_string_names (DIndirect (PClose c) :: p) -> on = false) ->
          (forall q u, (q < d_made p)%nat -> holds (DIndirect (PClose c) :: p) q u (aget u (dpool_at w' q))) -> DInv (DIndirect (PClose c) :: p) w').
      { intros w' on Hw E2 E3 Hon En. constructor; cbn [d_accepted d_made d_current]; rewrite ?E2, ?E3; auto.
        - destruct Hw as [-> | ->]; rewrite ?upd_length; auto.
        - intros c' k' H. eapply CN; eauto. }
      destruct (pc_ref k) as [p1|] eqn:R.
      * unfold dOffline. cbn [pc_ref pc_user]. subst k1. cbn [pc_ref pc_user]. rewrite B.
        destruct (d_name p c) as [[n|n|n]|] eqn:Nm; cbn [snd].
        -- destruct (offline_rest w1 p1 n) as (O1 & O2 & O3).
           apply (ASM _ false); cbn [d_set_conn dw_conns dw_pools dw_cur]; rewrite ?O1, ?O2, ?O3; auto; [left; unfold w1; cbn; rewrite ?B, ?Nm; reflexivity|].
           intros q v Hq. rewrite dpool_conn, offline_get by (unfold w1; cbn; rewrite P; eapply LT2; eauto). unfold w1. rewrite dpool_conn.
           destruct (Nat.eqb_spec q p1) as [->|Nq]; cbn [andb].
           ++ destruct (String.eqb_spec n v) as [->|Nv]; [|apply NO; auto; right; congruence]. apply holds_take_any; [right; exists c; auto|apply E; auto].
           ++ apply NO; auto. left. congruence.
        -- apply (ASM _ (pc_online k)); [right; unfold w1; cbn; rewrite ?B, ?Nm; reflexivity|reflexivity|reflexivity|intros Hs; destruct (SN Hs _ eq_refl); discriminate|intros q v Hq; apply NO; auto; right; discriminate].
        -- apply (ASM _ (pc_online k)); [right; unfold w1; cbn; rewrite ?B, ?Nm; reflexivity|reflexivity|reflexivity|intros Hs; destruct (SN Hs _ eq_refl); discriminate|intros q v Hq; apply NO; auto; right; discriminate].
        -- apply (ASM _ false); [left; unfold w1; cbn; rewrite ?B, ?Nm; reflexivity|reflexivity|reflexivity|reflexivity|]. intros q v Hq. apply NO; auto. right. discriminate.
      * cbn [snd]. apply (ASM _ false); [left; unfold w1; cbn; rewrite ?R; reflexivity|reflexivity|reflexivity|reflexivity|]. intros q v Hq. apply NO; auto. left. congruence.
    + apply ENT; auto.
      * intros c'. cbn [closedb]. destruct (Nat.eqb_spec c' c) as [->|]; auto. rewrite (HN c Hk). reflexivity.
      * intros q v Hq. apply ho_same; [apply E; auto| | |discriminate].
        -- intros x [(X & _)|(c' & _ & X & _)]; discriminate.
        -- intros [X|(c' & [X|X] & Q & _)]; try discriminate. inversion X; subst. eapply HNP; eauto.
  - (* PStoreName *) unfold don. destruct (nth_error (dw_conns w) c) as [k|] eqn:Hk.
    + constructor; cbn [snd d_set_conn dw_conns dw_pools dw_cur d_accepted d_made d_current]; rewrite ?upd_length; auto.
      * intros c' k' H. rewrite nth_upd in H. change (d_pool (DIndirect (PStoreName c v) :: p) c') with (d_pool p c'). cbn [d_name closedb]. destruct (Nat.eqb_spec c' c) as [->|Nc].
        -- rewrite Hk in H. inversion H; subst. destruct (K c k Hk) as (A & B & D). rewrite (HC c k Hk). cbn. split; [auto|]. split; [auto|]. intros Hs. apply D. eapply d_names_tl; eauto.
        -- destruct (K c' k' H) as (A & B & D). cbn. split; [auto|]. split; [auto|]. intros Hs. apply D. eapply d_names_tl; eauto.
      * intros q u Hq. apply holds_skip; auto. apply (E q u Hq).
    + apply ENT; auto.
      * intros c'. cbn [d_name]. destruct (Nat.eqb_spec c' c) as [->|]; auto. rewrite (HN c Hk). reflexivity.
      * intros q u Hq. apply holds_skip; auto.
  - (* DMake *) apply NEW; auto.
  - (* DSet *)
    assert (PUT : (forall c, x = Some c -> d_conn p c = true) -> DInv (DSet q0 u0 x :: p) (dSet w q0 u0 x)).
    { intros V. apply ENT; auto; unfold dSet; cbn [d_set_pool dw_pools]; rewrite ?upd_length; auto.
      intros q v Hq. match goal with |- holds _ _ _ (aget _ (dpool_at ?w' _)) => change w' with (d_set_pool w q0 (aset u0 x (dpool_at w q0))) end. rewrite dpool_set, P. apply Nat.ltb_lt in Hd. rewrite Hd, andb_true_r. destruct (Nat.eqb_spec q q0) as [->|Nq].
      - rewrite aget_aset. change (keqb v u0) with (String.eqb v u0). destruct (String.eqb_spec v u0) as [->|Nv].
        + apply ho_put. left. auto.
        + apply ho_same; [apply E; auto| | |discriminate].
          * intros y [(X & _)|(c' & _ & X & _)]; [inversion X; congruence|discriminate].
          * intros [X|(c' & [X|X] & _)]; discriminate.
      - apply ho_same; [apply E; auto| | |discriminate].
        * intros y [(X & _)|(c' & _ & X & _)]; [inversion X; congruence|discriminate].
        * intros [X|(c' & [X|X] & _)]; discriminate. }
    destruct x as [c|]; [|apply PUT; discriminate]. unfold don. destruct (nth_error (dw_conns w) c) as [k|] eqn:Hk.
    + apply PUT. intros c' X. inversion X; subst. eapply HC; eauto.
    + apply ENT; auto. intros q v Hq. apply ho_same; [apply E; auto| | |discriminate].
      * intros y [(X & Y)|(c' & _ & X & _)]; [|discriminate]. inversion X; subst. specialize (Y c eq_refl). rewrite (HN c Hk) in Y. discriminate.
      * intros [X|(c' & [X|X] & _)]; discriminate.
  - (* DDelete *) apply ENT; auto; unfold dDelete; cbn [d_set_pool dw_pools]; rewrite ?upd_length; auto.
    intros q v Hq. match goal with |- holds _ _ _ (aget _ (dpool_at ?w' _)) => change w' with (d_set_pool w q0 (adel u0 (dpool_at w q0))) end. rewrite dpool_set, P. apply Nat.ltb_lt in Hd. rewrite Hd, andb_true_r. destruct (Nat.eqb_spec q q0) as [->|Nq].
    + rewrite aget_adel. change (keqb v u0) with (String.eqb v u0). destruct (String.eqb_spec v u0) as [->|Nv]; [constructor|].
      apply ho_same; [apply E; auto| | |congruence].
      * intros y [(X & _)|(c' & _ & X & _)]; discriminate.
      * intros [X|(c' & [X|X] & _)]; discriminate.
    + apply ho_same; [apply E; auto| | |congruence].
      * intros y [(X & _)|(c' & _ & X & _)]; discriminate.
      * intros [X|(c' & [X|X] & _)]; discriminate.
  - (* DOffline *) destruct (offline_rest w q0 u0) as (O1 & O2 & O3). apply ENT; auto.
    intros q v Hq. rewrite offline_get by (rewrite P; auto). destruct (Nat.eqb_spec q q0) as [->|Nq]; cbn [andb].
    + destruct (String.eqb_spec u0 v) as [->|Nv]; [apply holds_take_any; [left; auto|apply E; auto]|].
      apply ho_same; [apply E; auto| | |discriminate].
      * intros y [(X & _)|(c' & _ & X & _)]; discriminate.
      * intros [X|(c' & [X|X] & _)]; try discriminate. inversion X. congruence.
    + apply ho_same; [apply E; auto| | |discriminate].
      * intros y [(X & _)|(c' & _ & X & _)]; discriminate.
      * intros [X|(c' & [X|X] & _)]; try discriminate. inversion X. congruence.
Qed.

Lemma dinv_all h : d_sane h -> DInv h (drun h).
Proof.
  induction h as [|o p IH]; intros S0; [|apply dinv_step; auto; apply IH; eapply d_sane_tl; eauto].
  constructor; auto; [intros [|c] k H; discriminate|cbn; intros; lia].
Qed.

Lemma p_C131_content : forall h q u e, d_sane h -> (q < d_made h)%nat -> (holds h q u e <-> aget u (dpool_at (drun h) q) = e).
Proof.
  intros h q u e S0 Hq. pose proof (di_entry _ _ (dinv_all h S0) q u Hq) as H. split; [intros X; eapply holds_fun; eauto|intros <-; exact H].
Qed.

Lemma p_C131_lookup : forall h q u, d_sane h -> (q < d_made h)%nat ->
  (forall c, dGet (drun h) q u = Some c <-> holds h q u (Some (Some c))) /\
  (dIsOnline (drun h) q u = true <-> exists x, holds h q u (Some x)).
Proof.
  intros h q u S0 Hq. split.
  - intros c. rewrite (p_C131_content h q u _ S0 Hq). unfold dGet. destruct (aget u (dpool_at (drun h) q)) as [x|]; split; intros H; try discriminate; congruence.
  - unfold dIsOnline, ahas. split.
    + intros H. destruct (aget u (dpool_at (drun h) q)) as [x|] eqn:G; [|discriminate]. exists x. apply p_C131_content; auto.
    + intros (x & H). apply p_C131_content in H; auto. rewrite H. reflexivity.
Qed.

Lemma conn_mono o p c : d_conn p c = true -> d_conn (o :: p) c = true.
Proof.
  rewrite !d_conn_iff. intros H. destruct o as [[[|]| | | | | |]| | | |]; cbn [d_accepted]; auto. rewrite app_length. lia.
Qed.
Lemma holds_conn h q u : forall c, holds h q u (Some (Some c)) -> d_conn h c = true.
Proof.
  induction h as [|o p IH]; intros c H; inversion H as [|p0 q0 u0 x0 o0 P| | |p0 q0 u0 o0 e0 T K N|p0 q0 u0 o0 e0 K NP NT ND]; subst.
  - apply conn_mono. destruct P as [(-> & V)|(c' & X & -> & _ & Q)]; [apply V; auto|]. inversion X; subst. eapply d_pool_conn; eauto.
  - exfalso. exact (N c eq_refl).
  - apply conn_mono. auto.
Qed.

Lemma p_C131_send : forall h c k u, d_sane h -> d_string_names h -> nth_error (dw_conns (drun h)) c = Some k ->
  (forall d, dSendToUsername (drun h) k u = (POk, [d]) <-> exists q, d_pool h c = Some q /\ holds h q u (Some (Some d)) /\ ~ d_closed h d) /\
  ((forall d, dSendToUsername (drun h) k u <> (POk, [d])) -> dSendToUsername (drun h) k u = (PErr, [])).
Proof.
  intros h c k u S0 Sn Hk. pose proof (dinv_all h S0) as [L P C K E]. destruct (K c k Hk) as (A & _ & _). unfold dSendToUsername. rewrite A.
  destruct (d_pool h c) as [q|] eqn:Q.
  2:{ split; [|auto]. intros d. split; [discriminate|intros (q & X & _); discriminate]. }
  assert (Hq : (q < d_made h)%nat) by (eapply (proj2 (d_lt h)); eauto).
  destruct (p_C131_lookup h q u S0 Hq) as (G & _).
  destruct (dGet (drun h) q u) as [d0|] eqn:Gt.
  2:{ split; [|auto]. intros d. split; [discriminate|]. intros (q' & X & Y & _). inversion X; subst. apply G in Y. discriminate. }
  pose proof (proj1 (G d0) eq_refl) as H0. pose proof (holds_conn _ _ _ _ H0) as Hc. apply d_conn_iff in Hc. rewrite <- L in Hc.
  destruct (nth_error (dw_conns (drun h)) d0) as [kd|] eqn:Hd; [|apply nth_error_None in Hd; lia].
  destruct (K d0 kd Hd) as (_ & _ & On). rewrite (On Sn).
  assert (U : forall q' d, Some q = Some q' -> holds h q' u (Some (Some d)) -> d = d0).
  { intros q' d X Y. inversion X; subst. apply G in Y. congruence. }
  destruct (closedb h d0) eqn:Cl; cbn [negb].
  - split; [|auto]. intros d. split; [discriminate|]. intros (q' & X & Y & N). exfalso. apply N. rewrite (U _ _ X Y). apply closedb_iff. auto.
  - split; [|intros X; exfalso; exact (X d0 eq_refl)]. intros d. split.
    + intros X. inversion X; subst. exists q. split; [auto|]. split; [auto|]. intros D. apply closedb_iff in D. congruence.
    + intros (q' & X & Y & _). rewrite (U _ _ X Y). reflexivity.
Qed.

Lemma p_C131_close_partial : forall h q u c x, d_pool h c = Some q -> d_name h c = Some (VStr u) ->
  holds (DIndirect (PClose c) :: h) q u (Some x) -> x = None.
Proof.
  intros h q u c x Q N H.
  inversion H as [|p0 q0 u0 x0 o0 P| | |p0 q0 u0 o0 e0 T K NN|p0 q0 u0 o0 e0 K NP NT ND]; subst.
  - destruct P as [(X & _)|(c' & _ & X & _)]; discriminate.
  - destruct x as [d|]; auto. exfalso. exact (NN d eq_refl).
  - exfalso. apply NT. right. exists c. auto.
Qed.

Lemma p_C131_stale_refuted : ~ forall h q u c, d_sane h -> d_string_names h -> d_closed h c -> dGet (drun h) q u <> Some c.
Proof.
  intros H.
  apply (H [DIndirect (PClose 0%nat); DSet 0%nat "b" (Some 0%nat); DIndirect (POnline 0%nat "a"); DIndirect PAccept; DIndirect (PWithPool true)] 0%nat "b"%string 0%nat).
  - repeat (apply sane_cons; [|cbn; auto]); apply sane_nil.
  - intros c v I. cbn in I. intuition discriminate.
  - eexists [], _. split; reflexivity.
  - reflexivity.
Qed.

Lemma p_C131_nil_refuted : (~ forall h q u, d_sane h -> (q < d_made h)%nat -> dIsOnline (drun (DOffline q u :: h)) q u = false) /\
  (forall h q u, dIsOnline (drun (DDelete q u :: h)) q u = false).
Proof.
  split.
  - intros H. specialize (H [DSet 0%nat "a" None; DMake] 0%nat "a"%string). discriminate H; [|repeat constructor].
    repeat (apply sane_cons; [|cbn; auto]); apply sane_nil.
  - intros h q u. cbn [drun dstep snd]. unfold dIsOnline, ahas, dDelete. rewrite dpool_set.
    destruct (Nat.ltb_spec q (List.length (dw_pools (drun h)))) as [Hq|Hq]; rewrite ?andb_true_r, ?andb_false_r, ?Nat.eqb_refl.
    + rewrite aget_adel, keqb_refl. reflexivity.
    + unfold dpool_at. rewrite nth_overflow; auto.
Qed.

Lemma p_C131_offline : forall h q u q' u', d_sane h -> (q < d_made h)%nat -> (q' < d_made h)%nat ->
  aget u' (dpool_at (drun (DOffline q u :: h)) q') =
    (if Nat.eqb q' q && String.eqb u u' then match dGet (drun h) q u with Some _ => None | None => aget u (dpool_at (drun h) q) end
     else aget u' (dpool_at (drun h) q')).
Proof.
  intros h q u q' u' S0 Hq Hq'. pose proof (dinv_all h S0) as [L P C K E]. cbn [drun dstep snd]. rewrite offline_get by (rewrite P; auto).
  destruct (Nat.eqb_spec q' q) as [->|]; auto. destruct (String.eqb_spec u u') as [->|]; auto. cbn [andb]. unfold dGet.
  destruct (aget u' (dpool_at (drun h) q)) as [[x|]|]; reflexivity.
Qed.

Lemma p_C131_empty : forall h q c, d_sane h -> (q < d_made h)%nat -> d_conn h c = true ->
  dGet (drun (DSet q "" (Some c) :: h)) q "" = Some c /\ forall q' c', puts h q' "" (Some c') (DIndirect (POnline c' "")) -> False.
Proof.
  intros h q c S0 Hq Hc. split.
  - assert (S1 : d_sane (DSet q "" (Some c) :: h)).
    { intros l p o E. destruct l as [|x l]; cbn in E; inversion E; subst; auto. apply (S0 l p o). reflexivity. }
    apply (p_C131_lookup _ q ""%string S1); [exact Hq|]. apply ho_put. left. split; auto. intros c' X. inversion X; subst. exact Hc.
  - intros q' c' [(X & _)|(d & _ & _ & N & _)]; [discriminate|congruence].
Qed.

Lemma embed_get u m : aget u (embed m) = option_map (@Some nat) (aget u m).
Proof. induction m as [|(k, v) m IH]; cbn; auto. destruct (String.eqb u k); auto. Qed.
Lemma embed_del u m : adel u (embed m) = embed (adel u m).
Proof. induction m as [|(k, v) m IH]; cbn; auto. destruct (String.eqb u k); cbn; auto. f_equal. exact IH. Qed.
Lemma embed_set u c m : aset u (Some c) (embed m) = embed (aset u c m).
Proof. unfold aset. rewrite embed_del. reflexivity. Qed.
Definition dlift (w : pworld) : dworld := DW (pw_conns w) (map embed (pw_pools w)) (pw_cur w).
Lemma dlift_pool w q : dpool_at (dlift w) q = embed (pool_at w q).
Proof. unfold dpool_at, pool_at, dlift. cbn [dw_pools]. change [] with (embed []) at 1. apply map_nth. Qed.
Lemma map_upd {A B} (f : A -> B) l n a : map f (upd l n a) = upd (map f l) n (f a).
Proof. revert n. induction l as [|b l IH]; intros [|n]; cbn; auto. f_equal. apply IH. Qed.
Lemma dlift_setpool w q m : dlift (set_pool w q m) = d_set_pool (dlift w) q (embed m).
Proof. unfold dlift, set_pool, d_set_pool. cbn. rewrite map_upd. reflexivity. Qed.
Lemma dlift_offline w q u : dPoolOffline (dlift w) q u = dlift (PoolOffline w q u).
Proof.
  unfold dPoolOffline, PoolOffline, dGet, GetClientPool, dDelete, DeleteFromClientPool. rewrite dlift_pool, embed_get.
  destruct (aget u (pool_at w q)); cbn; auto. rewrite dlift_setpool, embed_del. reflexivity.
Qed.
Lemma dlift_step o w : d_pop o (dlift w) = (fst (pstep o w), dlift (snd (pstep o w))).
Proof.
  assert (OFF : forall w k, dOffline (dlift w) k = (fst (Offline w k), dlift (snd (Offline w k)))).
  { intros w1 k. unfold dOffline, Offline. destruct (pc_ref k); auto. destruct (pc_user k) as [[| |]|]; auto. rewrite dlift_offline. reflexivity. }
  destruct o as [[|]| | |c u|c|c|c v]; cbn [d_pop pstep fst snd]; auto.
  - unfold dlift, d_add_pool. cbn. rewrite map_app, map_length. reflexivity.
  - unfold dlift, d_add_pool. cbn. destruct (pw_cur w) eqn:Cu; cbn; rewrite ?Cu, ?map_app, ?map_length; reflexivity.
  - unfold don, pon. cbn [dw_conns dlift]. destruct (nth_error (pw_conns w) c) as [k|]; auto. unfold dOnline, Online. destruct (String.eqb u EmptyString); auto.
    destruct (pc_ref k) as [q|]; auto. cbn [fst snd]. f_equal. unfold SetClientPool, dSet. rewrite dlift_setpool, <- embed_set.
    change (d_set_conn (dlift w) c (store_name k (VStr u))) with (dlift (set_conn w c (store_name k (VStr u)))). rewrite dlift_pool. reflexivity.
  - unfold don, pon. cbn [dw_conns dlift]. destruct (nth_error (pw_conns w) c) as [k|]; [apply OFF|reflexivity].
  - unfold don, pon. cbn [dw_conns dlift]. destruct (nth_error (pw_conns w) c) as [k|]; auto. unfold dCloseConn, CloseConn.
    destruct (pc_ref k) as [q|] eqn:R; auto.
    match goal with |- context [dOffline ?w1 ?k1] => change w1 with (dlift (set_conn w c k1)); rewrite (OFF (set_conn w c k1) k1); destruct (Offline (set_conn w c k1) k1) as [[| |] w2] end; reflexivity.
  - unfold don, pon. cbn [dw_conns dlift]. destruct (nth_error (pw_conns w) c) as [k|]; auto.
Qed.

Lemma p_C131_conservative : forall h,
  dw_conns (drun (map DIndirect h)) = pw_conns (prun h) /\ dw_pools (drun (map DIndirect h)) = map embed (pw_pools (prun h)) /\
  dw_cur (drun (map DIndirect h)) = pw_cur (prun h) /\
  (forall k u, dSendToUsername (drun (map DIndirect h)) k u = SendToUsername (prun h) k u).
Proof.
  intros h. assert (G : drun (map DIndirect h) = dlift (prun h)).
  { induction h as [|o p IH]; [reflexivity|]. cbn [map drun prun dstep]. rewrite IH, dlift_step. reflexivity. }
  rewrite G. repeat (split; [reflexivity|]). intros k u. unfold dSendToUsername, SendToUsername. destruct (pc_ref k) as [q|]; auto.
  unfold dGet, GetClientPool. rewrite dlift_pool, embed_get. destruct (aget u (pool_at (prun h) q)); reflexivity.
Qed.
