(* Deadlines: what the server-wide settings do to connections (C84), whom a context's deadline concerns (C85). NODEMO *)
From Verif Require Export SpecDead BaseFacts CtxFacts.

Lemma nth_upd_same {A} (l : list A) i a : (i < List.length l)%nat -> nth_error (upd l i a) i = Some a.
Proof. intros H. rewrite nth_upd, Nat.eqb_refl. apply Nat.ltb_lt in H. destruct (nth_error l i) eqn:E; auto. apply nth_error_None in E. apply Nat.ltb_lt in H. lia. Qed.

Lemma nth_upd_other {A} (l : list A) i j a : i <> j -> nth_error (upd l i a) j = nth_error l j.
Proof. intros H. rewrite nth_upd. destruct (Nat.eqb j i) eqn:E; [apply Nat.eqb_eq in E; congruence|reflexivity]. Qed.

Lemma srv_inv h : td_read (dw_srv (drun h)) = only_read h /\ td_write (dw_srv (drun h)) = only_write h.
Proof.
  induction h as [|o p (A & B)]; [split; reflexivity|]. cbn [drun]. destruct o as [[t|t|t]| | |c o|k now]; cbn; auto.
  - destruct (nth_error _ c); auto. destruct (nth_error _ n); auto.
  - destruct (nth_error _ k); auto. destruct (sk_open s); auto. destruct (expired _ _); destruct (sk_udp s); auto.
Qed.

Lemma nth_error_snoc {A} (l : list A) x : nth_error (l ++ [x]) (List.length l) = Some x.
Proof. rewrite nth_error_app2, Nat.sub_diag; auto. Qed.

Lemma p_C84_new_socket_partial : forall h o, o = DAccept \/ o = DListen ->
  has_dl (drun (o :: h)) (List.length (dw_socks (drun h))) (SDL (only_read h) (only_write h)).
Proof.
  intros h o O. destruct (srv_inv h) as (A & B).
  destruct O as [O|O]; subst o; cbn [drun dstep]; (eexists; split; [cbn [dw_socks]; apply nth_error_snoc|]);
    cbn; rewrite A, B; reflexivity.
Qed.

Lemma p_C84_without_both_partial : forall h o, o = DAccept \/ o = DListen ->
  (forall t, ~ In (DServer (DBoth t)) h) ->
  has_dl (drun (o :: h)) (List.length (dw_socks (drun h))) (SDL (asked_read h) (asked_write h)).
Proof.
  intros h o O N. assert (E : only_read h = asked_read h /\ only_write h = asked_write h).
  { clear O o. induction h as [|o p IH]; [split; reflexivity|]. destruct IH as (A & B); [intros t H; exact (N t (or_intror H))|].
    destruct o as [[t|t|t]| | |c o|k now]; cbn; auto. destruct (N t (or_introl eq_refl)). }
  destruct E as (E1 & E2). rewrite <- E1, <- E2. apply p_C84_new_socket_partial, O.
Qed.

Lemma p_C84_ignored_refuted : forall h t o, o = DAccept \/ o = DListen ->
  (forall e, In (DServer e) h -> exists t', e = DBoth t') ->
  asked_read (DServer (DBoth (Some t)) :: h) = Some t /\ asked_write (DServer (DBoth (Some t)) :: h) = Some t /\
  has_dl (drun (o :: DServer (DBoth (Some t)) :: h)) (List.length (dw_socks (drun h))) (SDL None None).
Proof.
  intros h t o O N. split; [reflexivity|]. split; [reflexivity|].
  assert (E : only_read h = None /\ only_write h = None).
  { clear O o. induction h as [|o p IH]; [split; reflexivity|]. destruct IH as (A & B); [intros e H; exact (N e (or_intror H))|].
    destruct o as [e| | |c o|k now]; cbn; auto. destruct (N e (or_introl eq_refl)) as (t' & ->). auto. }
  destruct E as (E1 & E2). pose proof (p_C84_new_socket_partial (DServer (DBoth (Some t)) :: h) o O) as X. cbn [only_read only_write] in X.
  rewrite E1, E2 in X. exact X.
Qed.

Lemma sock_keep h k s o : nth_error (dw_socks (drun h)) k = Some s -> quiet (drun h) k o ->
  exists s', nth_error (dw_socks (drun (o :: h))) k = Some s' /\ sk_dl s' = sk_dl s /\ sk_udp s' = sk_udp s.
Proof.
  intros H Q. cbn [drun]. assert (L : (k < List.length (dw_socks (drun h)))%nat) by (apply nth_error_Some; congruence).
  destruct o as [e| | |c e|j now]; cbn [dstep].
  - exists s; auto.
  - exists s. cbn. rewrite nth_error_app1 by auto. auto.
  - exists s. cbn. rewrite nth_error_app1 by auto. auto.
  - specialize (Q c e eq_refl). unfold sock_of in Q. destruct (nth_error (dw_ctxs (drun h)) c) as [j|]; [|exists s; auto].
    destruct (nth_error (dw_socks (drun h)) j) as [s1|] eqn:J; [|exists s; auto]. exists s. cbn.
    rewrite nth_upd_other by congruence. auto.
  - destruct (nth_error (dw_socks (drun h)) j) as [s1|] eqn:J; [|exists s; auto].
    destruct (sk_open s1) eqn:O1; [|exists s; auto].
    destruct (expired _ _); destruct (sk_udp s1) eqn:U; try (exists s; auto; fail).
    destruct (Nat.eq_dec j k) as [->|D].
    + rewrite H in J. inversion J; subst s1. eexists. split; [cbn; apply nth_upd_same; auto|]. cbn. auto.
    + exists s. cbn. rewrite nth_upd_other by congruence. auto.
Qed.

Lemma p_C85_tcp_own_partial : forall h c e k d, has_dl (drun h) k d -> sock_of (drun h) c <> Some k ->
  has_dl (drun (DCtx c e :: h)) k d.
Proof.
  intros h c e k d (s & H & D) N. destruct (sock_keep h k s (DCtx c e) H) as (s' & H' & D' & _).
  - intros c' e' E. inversion E; subst. exact N.
  - exists s'. split; [exact H'|congruence].
Qed.

Lemma p_C85_tcp_distinct_partial : forall h c1 c2 k1 k2 s1, sock_of (drun h) c1 = Some k1 -> sock_of (drun h) c2 = Some k2 ->
  nth_error (dw_socks (drun h)) k1 = Some s1 -> sk_udp s1 = false -> c1 <> c2 -> k1 <> k2.
Proof.
  intros h. assert (I : (forall c k, nth_error (dw_ctxs (drun h)) c = Some k -> (k < List.length (dw_socks (drun h)))%nat) /\
     forall c1 c2 k s, nth_error (dw_ctxs (drun h)) c1 = Some k -> nth_error (dw_ctxs (drun h)) c2 = Some k ->
       nth_error (dw_socks (drun h)) k = Some s -> sk_udp s = false -> c1 = c2).
  { induction h as [|o p (A & B)].
    { split; [intros [|c] k H; discriminate|]. intros [|c1] c2 k s H; discriminate. }
    cbn [drun]. set (w := drun p) in *. clearbody w. destruct o as [e| | |c e|j now]; cbn [dstep dw_socks dw_ctxs]; auto.
    - split.
      + intros c k H. rewrite app_length. cbn. destruct (lt_dec c (List.length (dw_ctxs w))) as [L|L].
        * rewrite nth_error_app1 in H by auto. specialize (A _ _ H). lia.
        * rewrite nth_error_app2 in H by lia. destruct (c - List.length (dw_ctxs w))%nat as [|[|]]; try discriminate. inversion H. lia.
      + assert (S1 : forall c k, nth_error (dw_ctxs w ++ [List.length (dw_socks w)]) c = Some k ->
           ((k < List.length (dw_socks w))%nat /\ nth_error (dw_ctxs w) c = Some k) \/ (k = List.length (dw_socks w) /\ c = List.length (dw_ctxs w))).
        { intros c k H. destruct (lt_dec c (List.length (dw_ctxs w))) as [L|L].
          - rewrite nth_error_app1 in H by auto. left. split; [exact (A _ _ H)|exact H].
          - rewrite nth_error_app2 in H by lia. right. destruct (c - List.length (dw_ctxs w))%nat as [|[|]] eqn:E; try discriminate. inversion H. lia. }
        intros c1 c2 k s H1 H2 K U. destruct (S1 _ _ H1) as [(L1 & N1)|(L1 & N1)], (S1 _ _ H2) as [(L2 & N2)|(L2 & N2)]; try lia.
        rewrite nth_error_app1 in K by auto. exact (B _ _ _ _ N1 N2 K U).
    - split.
      + intros c k H. rewrite app_length. specialize (A _ _ H). lia.
      + intros c1 c2 k s H1 H2 K U. rewrite nth_error_app1 in K by exact (A _ _ H1). exact (B _ _ _ _ H1 H2 K U).
    - destruct (nth_error (dw_ctxs w) c) as [k0|]; auto. destruct (nth_error (dw_socks w) k0) as [s0|] eqn:K0; auto. cbn [dw_socks dw_ctxs]. split.
      + intros c1 k H. rewrite upd_length. exact (A _ _ H).
      + intros c1 c2 k s H1 H2 K U. destruct (Nat.eq_dec k0 k) as [->|D].
        * rewrite nth_upd_same in K by exact (A _ _ H1). inversion K; subst s. cbn in U. exact (B _ _ _ _ H1 H2 K0 U).
        * rewrite nth_upd_other in K by congruence. exact (B _ _ _ _ H1 H2 K U).
    - destruct (nth_error (dw_socks w) j) as [s0|] eqn:K0; auto. destruct (sk_open s0); auto. destruct (expired _ _); destruct (sk_udp s0) eqn:U0; auto; cbn [dw_socks dw_ctxs].
      + split.
        * intros c1 k H. rewrite upd_length. exact (A _ _ H).
        * intros c1 c2 k s H1 H2 K U. destruct (Nat.eq_dec j k) as [->|D].
          -- exact (B _ _ _ _ H1 H2 K0 U0).
          -- rewrite nth_upd_other in K by congruence. exact (B _ _ _ _ H1 H2 K U).
      + assert (J : (j < List.length (dw_socks w))%nat) by (apply nth_error_Some; congruence).
        assert (S1 : forall c k, nth_error (dw_ctxs w ++ [j]) c = Some k -> k = j \/ nth_error (dw_ctxs w) c = Some k).
        { intros c k H. destruct (lt_dec c (List.length (dw_ctxs w))) as [L|L].
          - rewrite nth_error_app1 in H by auto. auto.
          - rewrite nth_error_app2 in H by lia. destruct (c - List.length (dw_ctxs w))%nat as [|[|]]; try discriminate. inversion H. auto. }
        split.
        * intros c k H. destruct (S1 _ _ H) as [->|H']; [exact J|exact (A _ _ H')].
        * intros c1 c2 k s H1 H2 K U. destruct (S1 _ _ H1) as [->|H1']; [congruence|]. destruct (S1 _ _ H2) as [->|H2']; [congruence|].
          exact (B _ _ _ _ H1' H2' K U). }
  destruct I as (_ & I). intros c1 c2 k1 k2 s1 H1 H2 K U D E. subst k2. exact (D (I _ _ _ _ H1 H2 K U)).
Qed.

Lemma p_C85_sets_partial : forall h c e k d, has_dl (drun h) k d -> sock_of (drun h) c = Some k ->
  has_dl (drun (DCtx c e :: h)) k (SDL (match read_arg e with Some t => t | None => sd_read d end) (match write_arg e with Some t => t | None => sd_write d end)).
Proof.
  intros h c e k d (s & N & D) S. unfold sock_of in S. unfold has_dl. cbn [drun dstep]. rewrite S, N. eexists. split.
  - cbn [dw_socks]. apply nth_upd_same. apply nth_error_Some. congruence.
  - cbn [sk_dl]. rewrite D. destruct e; destruct d; reflexivity.
Qed.

Lemma p_C85_udp_shared_refuted : forall h c k s e, sock_of (drun h) c = Some k ->
  nth_error (dw_socks (drun h)) k = Some s -> forall c', sock_of (drun h) c' = Some k ->
  exists k', sock_of (drun (DCtx c e :: h)) c' = Some k' /\ has_dl (drun (DCtx c e :: h)) k' (sock_set e (sk_dl s)).
Proof.
  intros h c k s e C K c' C'. exists k. unfold sock_of in *. cbn [drun dstep]. rewrite C, K. cbn [dw_ctxs dw_socks].
  split; [exact C'|]. eexists. split; [apply nth_upd_same, nth_error_Some; congruence|reflexivity].
Qed.

Lemma p_C85_udp_deaf_refuted : forall h c k s t e os, sock_of (drun h) c = Some k ->
  nth_error (dw_socks (drun h)) k = Some s -> sk_udp s = true -> read_arg e = Some (Some t) ->
  (forall o p q, os = p ++ o :: q -> quiet (drun (q ++ DCtx c e :: h)) k o) -> (forall o, In o os -> late k t o) ->
  forall now, t <= now -> let w := drun (os ++ DCtx c e :: h) in
  dstep w (DRecv k now) = w /\ count_occ Nat.eq_dec (dw_ctxs w) k = count_occ Nat.eq_dec (dw_ctxs (drun h)) k.
Proof.
  intros h c k s t e os C K U E Q L now LE.
  assert (X : exists s', nth_error (dw_socks (drun (os ++ DCtx c e :: h))) k = Some s' /\ sd_read (sk_dl s') = Some t /\ sk_udp s' = true /\
     count_occ Nat.eq_dec (dw_ctxs (drun (os ++ DCtx c e :: h))) k = count_occ Nat.eq_dec (dw_ctxs (drun h)) k).
  { revert Q L. induction os as [|o os IH]; intros Q L.
    - cbn [app drun dstep]. unfold sock_of in C. rewrite C, K. cbn [dw_socks dw_ctxs]. eexists. split; [apply nth_upd_same, nth_error_Some; congruence|].
      cbn. split; [destruct e; cbn in *; congruence|auto].
    - destruct IH as (s1 & K1 & T1 & U1 & N1).
      { intros o' p q E'. apply (Q o' (o :: p) q). rewrite E'. reflexivity. }
      { intros o' H. apply L. right. exact H. }
      cbn [app]. destruct (sock_keep (os ++ DCtx c e :: h) k s1 o K1) as (s2 & K2 & D2 & U2).
      { exact (Q o [] os eq_refl). }
      exists s2. split; [exact K2|]. split; [congruence|]. split; [congruence|]. rewrite <- N1. cbn [drun].
      set (w := drun (os ++ DCtx c e :: h)) in *. clearbody w. destruct o as [e'| | |c' e'|j now']; cbn [dstep dw_ctxs]; auto.
      + rewrite count_occ_app. cbn [count_occ]. destruct (Nat.eq_dec (List.length (dw_socks w)) k) as [D|D]; [|lia].
        assert (k < List.length (dw_socks w))%nat by (apply nth_error_Some; congruence). lia.
      + destruct (nth_error (dw_ctxs w) c'); auto. destruct (nth_error (dw_socks w) n); auto.
      + destruct (nth_error (dw_socks w) j) as [s0|] eqn:J; auto. destruct (sk_open s0); auto.
        destruct (expired (sd_read (sk_dl s0)) now') eqn:X; destruct (sk_udp s0) eqn:U0; auto. cbn [dw_ctxs].
        rewrite count_occ_app. cbn [count_occ]. destruct (Nat.eq_dec j k) as [->|D]; [|lia].
        rewrite K1 in J. inversion J; subst s0. specialize (L _ (or_introl eq_refl) now' eq_refl). rewrite T1 in X. cbn in X. lia. }
  destruct X as (s' & K' & T' & U' & N'). cbv zeta. split; [|exact N'].
  set (w := drun (os ++ DCtx c e :: h)) in *. clearbody w. cbn [dstep]. rewrite K'. rewrite U', T'. cbn [expired].
  replace (t <=? now) with true by lia. destruct (sk_open s'); reflexivity.
Qed.

Lemma p_C84_passed_closes : forall h k s now t, nth_error (dw_socks (drun h)) k = Some s -> sk_udp s = false -> sk_open s = true ->
  sd_read (sk_dl s) = Some t -> t <= now ->
  exists s', nth_error (dw_socks (drun (DRecv k now :: h))) k = Some s' /\ sk_open s' = false.
Proof.
  intros h k s now t K U O T LE. cbn [drun dstep]. rewrite K, O, U, T. cbn [expired]. replace (t <=? now) with true by lia. cbn [dw_socks].
  eexists. split; [apply nth_upd_same, nth_error_Some; congruence|reflexivity].
Qed.

Lemma p_C84_not_before : forall h k s now, nth_error (dw_socks (drun h)) k = Some s -> sk_open s = true ->
  (forall t, sd_read (sk_dl s) = Some t -> now < t) ->
  dw_socks (drun (DRecv k now :: h)) = dw_socks (drun h) /\
  dw_ctxs (drun (DRecv k now :: h)) = dw_ctxs (drun h) ++ (if sk_udp s then [k] else []).
Proof.
  intros h k s now K O T. cbn [drun dstep]. rewrite K, O.
  assert (X : expired (sd_read (sk_dl s)) now = false).
  { unfold expired. destruct (sd_read (sk_dl s)) as [t|]; [|reflexivity]. apply Z.leb_gt. apply T. reflexivity. }
  rewrite X. destruct (sk_udp s); cbn; [auto|]. rewrite app_nil_r. auto.
Qed.

Lemma p_C84_closed_by_late_read : forall h k s, nth_error (dw_socks (drun h)) k = Some s -> sk_open s = false ->
  exists p q now s0 t, h = p ++ DRecv k now :: q /\ nth_error (dw_socks (drun q)) k = Some s0 /\ sk_udp s0 = false /\
    sd_read (sk_dl s0) = Some t /\ t <= now.
Proof.
  induction h as [|o h IH]; intros k s K O; [destruct k; discriminate K|].
  assert (U : forall s1, nth_error (dw_socks (drun h)) k = Some s1 -> sk_open s1 = false ->
    exists p q now s0 t, o :: h = p ++ DRecv k now :: q /\ nth_error (dw_socks (drun q)) k = Some s0 /\ sk_udp s0 = false /\ sd_read (sk_dl s0) = Some t /\ t <= now).
  { intros s1 A B. destruct (IH k s1 A B) as (p & q & now & s0 & t & -> & R). exists (o :: p), q, now, s0, t. split; [reflexivity|exact R]. }
  assert (N : forall x, sk_open x = true -> nth_error (dw_socks (drun h) ++ [x]) k = Some s -> nth_error (dw_socks (drun h)) k = Some s).
  { intros x X A. destruct (Nat.lt_ge_cases k (List.length (dw_socks (drun h)))) as [L|L].
    - rewrite nth_error_app1 in A by exact L. exact A.
    - rewrite nth_error_app2 in A by exact L. destruct (k - List.length (dw_socks (drun h)))%nat as [|n]; cbn in A; [injection A as <-; congruence|destruct n; discriminate A]. }
  cbn [drun] in K. destruct o as [e| | |c e|j now]; cbn [dstep] in K.
  - eapply U; eauto.
  - apply (U s); [eapply N; [|exact K]; reflexivity|exact O].
  - apply (U s); [eapply N; [|exact K]; reflexivity|exact O].
  - destruct (nth_error (dw_ctxs (drun h)) c) as [j|]; [|eapply U; eauto].
    destruct (nth_error (dw_socks (drun h)) j) as [s1|] eqn:J; [|eapply U; eauto].
    cbn [dw_socks] in K. rewrite nth_upd, J in K. destruct (Nat.eqb_spec k j) as [->|D]; [|eapply U; eauto].
    injection K as <-. cbn in O. eapply U; eauto.
  - destruct (nth_error (dw_socks (drun h)) j) as [s1|] eqn:J; [|eapply U; eauto].
    destruct (sk_open s1) eqn:O1; [|eapply U; eauto].
    destruct (expired (sd_read (sk_dl s1)) now) eqn:X; destruct (sk_udp s1) eqn:Ud; try (eapply U; eauto; fail).
    cbn [dw_socks] in K. rewrite nth_upd, J in K. destruct (Nat.eqb_spec k j) as [->|D]; [|eapply U; eauto].
    unfold expired in X. destruct (sd_read (sk_dl s1)) as [t|] eqn:T; [|discriminate X]. apply Z.leb_le in X.
    exists [], h, now, s1, t. repeat split; auto.
Qed.
