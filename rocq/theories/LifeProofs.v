(* The life cycle of a server (C50-C55) and the UDP server's socket (C62). NODEMO *)
From Verif Require Export SpecLife BaseFacts CtxFacts.

Lemma running_exact hb h : lf_running (liferun hb h) = is_running h.
Proof.
  induction h as [|o p IH]; [reflexivity|]. cbn [liferun]. destruct o; cbn [lopstep snd is_running]; auto.
  - unfold on_conn. destruct (nth_error (lf_conns (liferun hb p)) c); auto.
  - unfold on_conn. destruct (nth_error (lf_conns (liferun hb p)) c); auto.
  - unfold on_conn. destruct (nth_error (lf_conns (liferun hb p)) c); auto.
  - unfold Stop. rewrite IH. destruct (is_running p) eqn:E; cbn [negb snd]; [|congruence].
    destruct closeAll; [|reflexivity]. unfold closeAllConnection. cbn [set_listeners set_running lf_signals lf_chan lf_chans].
    destruct (lf_signals (liferun hb p)); [|reflexivity]. destruct (lf_chan (liferun hb p)) as [c|]; [|reflexivity].
    destruct (nth c (lf_chans (liferun hb p)) false); reflexivity.
Qed.

(* what Stop leaves alone *)
Lemma Stop_frame s b : lf_props (snd (Stop s b)) = lf_props s /\ lf_conns (snd (Stop s b)) = lf_conns s /\
  lf_signals (snd (Stop s b)) = lf_signals s /\ lf_chan (snd (Stop s b)) = lf_chan s /\ lf_hbon (snd (Stop s b)) = lf_hbon s /\
  lf_listeners (snd (Stop s b)) = (if lf_running s then close_listeners (lf_props s) (lf_listeners s) else lf_listeners s).
Proof.
  unfold Stop. destruct (lf_running s); cbn [negb]; [|cbn; auto 8]. destruct b; [|cbn; auto 8].
  unfold closeAllConnection. cbn [set_listeners set_running lf_signals lf_chan lf_chans].
  destruct (lf_signals s) eqn:S; [|cbn; auto 8]. destruct (lf_chan s) as [c|] eqn:C; [|cbn; auto 8]. destruct (nth c (lf_chans s) false); cbn; auto 8.
Qed.

Lemma Stop_chans s b : lf_chans (snd (Stop s b)) =
  if lf_running s && b && lf_signals s then match lf_chan s with Some c => upd (lf_chans s) c true | None => lf_chans s end else lf_chans s.
Proof.
  unfold Stop. destruct (lf_running s); cbn [negb]; [|reflexivity]. destruct b; [|reflexivity]. cbn [andb].
  unfold closeAllConnection. cbn [set_listeners set_running lf_signals lf_chan lf_chans].
  destruct (lf_signals s) eqn:S; [|reflexivity]. destruct (lf_chan s) as [c|]; [|reflexivity].
  destruct (nth c (lf_chans s) false) eqn:N; [|reflexivity]. cbn [snd set_listeners set_running lf_chans].
  symmetry. clear - N. revert c N. generalize (lf_chans s). induction l as [|x l IH]; intros [|c] N; simpl in *; try discriminate; [subst; auto|]. f_equal. auto.
Qed.

Lemma on_conn_frame s c f : lf_props (on_conn s c f) = lf_props s /\ lf_listeners (on_conn s c f) = lf_listeners s /\
  lf_signals (on_conn s c f) = lf_signals s /\ lf_chan (on_conn s c f) = lf_chan s /\ lf_chans (on_conn s c f) = lf_chans s /\
  lf_running (on_conn s c f) = lf_running s /\ lf_hbon (on_conn s c f) = lf_hbon s.
Proof. unfold on_conn. destruct (nth_error (lf_conns s) c); cbn; auto 8. Qed.

Lemma on_conn_nth s c f d : nth_error (lf_conns (on_conn s c f)) d =
  if Nat.eqb d c then match nth_error (lf_conns s) c with Some k => Some (f k) | None => None end else nth_error (lf_conns s) d.
Proof.
  unfold on_conn. destruct (nth_error (lf_conns s) c) as [k|] eqn:E; cbn [set_lconns lf_conns].
  - rewrite nth_upd, E. reflexivity.
  - destruct (Nat.eqb d c) eqn:X; auto. apply Nat.eqb_eq in X. congruence.
Qed.

Lemma is_running_sig h yes : is_running (h ++ [OSignals yes]) = is_running h.
Proof. induction h as [|[] p IH]; simpl; auto. Qed.

(* the state when WithBroadCastSignal(true) is called once, first *)
Lemma sig_inv hb h : no_signal_call h -> let s := liferun hb (h ++ [OSignals true]) in
  lf_signals s = true /\ lf_chan s = Some 0%nat /\ lf_chans s = [fired h] /\ lf_hbon s = hb /\
  (forall c k, nth_error (lf_conns s) c = Some k -> lv_sig k = Some 0%nat /\ (lv_bcast k = false -> lv_open k = false) /\ (hb = true -> lv_hb k = false -> lv_open k = false)).
Proof.
  induction h as [|o p IH]; intros N; cbv zeta.
  - cbn. do 4 (split; [reflexivity|]). intros [|c] k H; discriminate.
  - assert (N' : no_signal_call p) by (intros y X; apply (N y); right; auto). specialize (IH N'). cbv zeta in IH. cbn [app liferun].
    set (s := liferun hb (p ++ [OSignals true])) in *. destruct IH as (A & B & C & D & E).
    assert (SC : sig_closed s (Some 0%nat) = fired p) by (unfold sig_closed; rewrite C; reflexivity).
    destruct o; cbn [lopstep snd fired].
    + destruct (N yes). left. reflexivity.
    + cbn. auto 8.
    + cbn. auto 8.
    + cbn [set_lconns lf_signals lf_chan lf_chans lf_hbon lf_conns]. do 4 (split; [auto|]). intros c k H. apply nth_snoc in H as [H|(-> & ->)]; [eauto|].
      cbn [lv_sig lv_bcast lv_hb lv_open]. rewrite A, D. split; auto. split; [discriminate|congruence].
    + destruct (on_conn_frame s c (fun k => LCn false (lv_sig k) (lv_bcast k) (lv_hb k) (lv_hbsig k))) as (F1 & F2 & F3 & F4 & F5 & F6 & F7). rewrite F3, F4, F5, F7.
      do 4 (split; [auto|]). intros d k H. rewrite on_conn_nth in H. destruct (Nat.eqb d c); [|eauto].
      destruct (nth_error (lf_conns s) c) as [k0|] eqn:K; inversion H as [Q]; subst k. destruct (E _ _ K). cbn. auto.
    + match goal with |- context [on_conn s c ?f] => destruct (on_conn_frame s c f) as (F1 & F2 & F3 & F4 & F5 & F6 & F7) end. rewrite F3, F4, F5, F7.
      do 4 (split; [auto|]). intros d k H. rewrite on_conn_nth in H. destruct (Nat.eqb d c); [|eauto].
      destruct (nth_error (lf_conns s) c) as [k0|] eqn:K; inversion H as [Q]; subst k. destruct (E _ _ K) as (E1 & E2 & E3).
      destruct (lv_bcast k0) eqn:LB; [|auto]. destruct (sig_closed s (lv_sig k0)); [cbn; auto|]. destruct (lv_open k0) eqn:LO; cbn; rewrite ?LO; auto.
      repeat split; auto. congruence.
    + match goal with |- context [on_conn s c ?f] => destruct (on_conn_frame s c f) as (F1 & F2 & F3 & F4 & F5 & F6 & F7) end. rewrite F3, F4, F5, F7.
      do 4 (split; [auto|]). intros d k H. rewrite on_conn_nth in H. destruct (Nat.eqb d c); [|eauto].
      destruct (nth_error (lf_conns s) c) as [k0|] eqn:K; inversion H as [Q]; subst k. destruct (E _ _ K) as (E1 & E2 & E3).
      destruct (lv_hb k0) eqn:LB; [|auto]. destruct (lf_running s); cbn [negb]; [|cbn; auto].
      destruct (sig_closed s (lv_hbsig k0)); [cbn; auto|]. destruct (lv_open k0) eqn:LO; cbn; rewrite ?LO; repeat split; auto; congruence.
    + destruct (Stop_frame s closeAll) as (F1 & F2 & F3 & F4 & F5 & _). rewrite F2, F3, F4, F5, Stop_chans, A, B, C.
      assert (R : lf_running s = is_running p) by (unfold s; rewrite running_exact; apply is_running_sig). rewrite R.
      do 2 (split; [auto|]). destruct closeAll; [|rewrite andb_false_r; auto]. rewrite !andb_true_r. split; [|auto].
      destruct (is_running p); reflexivity.
Qed.

Lemma conn_open_on s c f d : conn_open (on_conn s c f) d =
  if Nat.eqb d c then match nth_error (lf_conns s) c with Some k => lv_open (f k) | None => false end else conn_open s d.
Proof. unfold conn_open. rewrite on_conn_nth. destruct (Nat.eqb d c); auto. destruct (nth_error (lf_conns s) c); auto. Qed.

Lemma p_C50_broadcast_partial : forall hb h, no_signal_call h ->
  let s := liferun hb (h ++ [OSignals true]) in
  (fired h = false -> forall c d, conn_open (snd (lopstep (OBcast c) s)) d = conn_open s d) /\
  (fired h = true -> forall c, conn_open (snd (lopstep (OBcast c) s)) c = false).
Proof.
  intros hb h N s. destruct (sig_inv hb h N) as (A & B & C & D & E). fold s in A, B, C, D, E.
  assert (SC : sig_closed s (Some 0%nat) = fired h) by (unfold sig_closed; rewrite C; reflexivity).
  split; intros F; rewrite F in SC.
  - intros c d. cbn [lopstep snd]. rewrite conn_open_on. destruct (Nat.eqb d c) eqn:X; auto. apply Nat.eqb_eq in X. subst d.
    unfold conn_open. destruct (nth_error (lf_conns s) c) as [k|] eqn:K; auto. destruct (E _ _ K) as (E1 & E2 & _). rewrite E1, SC.
    destruct (lv_bcast k); auto. destruct (lv_open k) eqn:O; cbn; auto.
  - intros c. cbn [lopstep snd]. rewrite conn_open_on, Nat.eqb_refl. destruct (nth_error (lf_conns s) c) as [k|] eqn:K; auto.
    destruct (E _ _ K) as (E1 & E2 & _). rewrite E1, SC. destruct (lv_bcast k) eqn:LB; auto.
Qed.

Lemma p_C50_repeat_refuted : forall hb h, no_signal_call h -> fired h = true -> is_running h = true ->
  let s := liferun hb (h ++ [OSignals true]) in
  fst (Stop s true) = RPanic /\
  let s1 := snd (lopstep OAccept s) in let c := List.length (lf_conns s) in
  conn_open s1 c = true /\ conn_open (snd (lopstep (OBcast c) s1)) c = false.
Proof.
  intros hb h N F R s. destruct (sig_inv hb h N) as (A & B & C & D & E). fold s in A, B, C, D, E.
  assert (Rs : lf_running s = true) by (unfold s; rewrite running_exact, is_running_sig; auto). split.
  - unfold Stop. rewrite Rs. cbn [negb]. unfold closeAllConnection. cbn [set_listeners set_running lf_signals lf_chan lf_chans].
    rewrite A, B, C, F. reflexivity.
  - assert (N' : no_signal_call (OAccept :: h)) by (intros y [X|X]; [discriminate|apply (N y X)]).
    destruct (p_C50_broadcast_partial hb (OAccept :: h) N') as (_ & P). specialize (P F (List.length (lf_conns s))). split; [|exact P].
    unfold conn_open. cbn [lopstep snd set_lconns lf_conns]. rewrite nth_snoc_last. reflexivity.
Qed.

Lemma p_C51_stop_false_refuted : forall h c, is_running h = true -> conn_open (liferun true h) c = true ->
  conn_open (liferun true (OStop false :: h)) c = true /\ conn_open (liferun true (OHb c :: OStop false :: h)) c = false.
Proof.
  intros h c R O. assert (K : conn_open (liferun true (OStop false :: h)) c = true).
  { cbn [liferun lopstep]. unfold conn_open in *. rewrite (proj1 (proj2 (Stop_frame _ _))). exact O. }
  split; [exact K|]. cbn [liferun lopstep snd]. rewrite conn_open_on, Nat.eqb_refl.
  set (s := liferun true h) in *. assert (F := Stop_frame s false). destruct F as (_ & F2 & _). cbn [lopstep]. rewrite F2.
  unfold conn_open in O. destruct (nth_error (lf_conns s) c) as [k|] eqn:Kc; [|discriminate].
  assert (HB : lf_hbon s = true /\ forall d k, nth_error (lf_conns s) d = Some k -> lv_hb k = false -> lv_open k = false).
  { unfold s. clear. induction h as [|o p (I1 & I2)]; [split; [reflexivity|intros [|d] k H; discriminate]|]. cbn [liferun]. set (s := liferun true p) in *.
    destruct o; cbn [lopstep snd]; auto.
    - cbn [set_lconns lf_hbon lf_conns]. split; auto. intros d k H. apply nth_snoc in H as [H|(-> & ->)]; [eauto|]. cbn. congruence.
    - match goal with |- context [on_conn s c ?f] => destruct (on_conn_frame s c f) as (F1 & F2 & F3 & F4 & F5 & F6 & F7) end. rewrite F7. split; auto.
      intros d k H. rewrite on_conn_nth in H. destruct (Nat.eqb d c); [|eauto]. destruct (nth_error (lf_conns s) c); inversion H; subst. auto.
    - match goal with |- context [on_conn s c ?f] => destruct (on_conn_frame s c f) as (F1 & F2 & F3 & F4 & F5 & F6 & F7) end. rewrite F7. split; auto.
      intros d k H. rewrite on_conn_nth in H. destruct (Nat.eqb d c); [|eauto]. destruct (nth_error (lf_conns s) c) as [k0|] eqn:K; inversion H; subst.
      specialize (I2 _ _ K). destruct (lv_bcast k0); auto. destruct (sig_closed s (lv_sig k0)); cbn; auto. destruct (lv_open k0) eqn:O; cbn; rewrite ?O; auto.
    - match goal with |- context [on_conn s c ?f] => destruct (on_conn_frame s c f) as (F1 & F2 & F3 & F4 & F5 & F6 & F7) end. rewrite F7. split; auto.
      intros d k H. rewrite on_conn_nth in H. destruct (Nat.eqb d c); [|eauto]. destruct (nth_error (lf_conns s) c) as [k0|] eqn:K; inversion H; subst.
      specialize (I2 _ _ K). destruct (lv_hb k0) eqn:B; auto. destruct (negb (lf_running s)); cbn; auto. destruct (sig_closed s (lv_hbsig k0)); cbn; auto.
      destruct (lv_open k0) eqn:O; cbn; rewrite ?O; auto; congruence.
    - destruct (Stop_frame s closeAll) as (F1 & F2 & F3 & F4 & F5 & _). rewrite F2, F5. auto. }
  destruct HB as (_ & HB). destruct (lv_hb k) eqn:B; [|rewrite (HB _ _ Kc B) in O; discriminate].
  assert (RR : lf_running (snd (Stop s false)) = false).
  { unfold s. change (snd (Stop (liferun true h) false)) with (liferun true (OStop false :: h)). rewrite running_exact. reflexivity. }
  rewrite RR. reflexivity.
Qed.

Lemma never_signalled h : (forall o, In o h -> o <> OStop true) -> forall hb k, nth k (lf_chans (liferun hb h)) false = false.
Proof.
  induction h as [|o p IH]; intros N hb k; [destruct k; reflexivity|].
  assert (N' : forall o, In o p -> o <> OStop true) by (intros x X; apply N; right; auto). specialize (IH N' hb). cbn [liferun].
  destruct o; cbn [lopstep snd]; try (rewrite (proj1 (proj2 (proj2 (proj2 (proj2 (on_conn_frame _ _ _))))))); auto.
  - cbn [lf_chans]. destruct (Nat.lt_ge_cases k (List.length (lf_chans (liferun hb p)))); [rewrite app_nth1 by auto; auto|].
    rewrite app_nth2 by auto. destruct (k - List.length (lf_chans (liferun hb p)))%nat as [|[|?]]; reflexivity.
  - rewrite Stop_chans. destruct closeAll; [destruct (N (OStop true)); [left|]; reflexivity|]. rewrite andb_false_r. auto.
Qed.

Lemma p_C51_stop_false_partial : forall h1 h2 c,
  (forall o, In o (h2 ++ h1) -> o <> OStop true) -> (forall o, In o h2 -> o <> OGone c) ->
  conn_open (liferun false h1) c = true -> conn_open (liferun false (h2 ++ h1)) c = true.
Proof.
  intros h1 h2 c N G O. induction h2 as [|o p IH]; [exact O|].
  assert (N' : forall o, In o (p ++ h1) -> o <> OStop true) by (intros x X; apply N; right; auto).
  assert (G' : forall o, In o p -> o <> OGone c) by (intros x X; apply G; right; auto). specialize (IH N' G').
  cbn [app liferun]. set (s := liferun false (p ++ h1)) in *.
  assert (SC : forall k, sig_closed s k = false) by (intros [k|]; [apply never_signalled; auto|reflexivity]).
  assert (HB : lf_hbon s = false /\ forall d k, nth_error (lf_conns s) d = Some k -> lv_hb k = false).
  { unfold s. generalize (p ++ h1). clear. induction l as [|o p (I1 & I2)]; [split; [reflexivity|intros [|d] k H; discriminate]|]. cbn [liferun]. set (s := liferun false p) in *.
    destruct o; cbn [lopstep snd]; auto; try (match goal with |- context [on_conn s ?c ?f] => destruct (on_conn_frame s c f) as (F1 & F2 & F3 & F4 & F5 & F6 & F7); rewrite F7; split; [auto|]; intros d k H; rewrite on_conn_nth in H; destruct (Nat.eqb d c); [|eauto]; destruct (nth_error (lf_conns s) c) as [k0|] eqn:K; inversion H; subst; specialize (I2 _ _ K) end).
    - cbn [set_lconns lf_hbon lf_conns]. split; auto. intros d k H. apply nth_snoc in H as [H|(-> & ->)]; [eauto|]. auto.
    - auto.
    - destruct (lv_bcast k0); auto. destruct (sig_closed s (lv_sig k0)); auto. destruct (negb (lv_open k0)); auto.
    - rewrite I2. auto.
    - destruct (Stop_frame s closeAll) as (F1 & F2 & F3 & F4 & F5 & _). rewrite F2, F5. auto. }
  destruct HB as (_ & HB). unfold conn_open in IH. destruct (nth_error (lf_conns s) c) as [k|] eqn:K; [|discriminate].
  destruct o; cbn [lopstep snd]; try (unfold conn_open; cbn [lf_conns set_running]; rewrite K; exact IH).
  - unfold conn_open. cbn [set_lconns lf_conns]. rewrite nth_error_app1 by (apply nth_error_Some; congruence). rewrite K. exact IH.
  - rewrite conn_open_on. destruct (Nat.eqb c c0) eqn:X; [apply Nat.eqb_eq in X; subst; destruct (G (OGone c0)); [left|]; reflexivity|]. unfold conn_open. rewrite K. exact IH.
  - rewrite conn_open_on. destruct (Nat.eqb c c0) eqn:X; [apply Nat.eqb_eq in X; subst; rewrite K, SC, IH; destruct (lv_bcast k); exact IH|]. unfold conn_open. rewrite K. exact IH.
  - rewrite conn_open_on. destruct (Nat.eqb c c0) eqn:X; [apply Nat.eqb_eq in X; subst; rewrite K, (HB _ _ K); exact IH|]. unfold conn_open. rewrite K. exact IH.
  - unfold conn_open. rewrite (proj1 (proj2 (Stop_frame s closeAll))), K. exact IH.
Qed.

Lemma same_addr_iff a b : same_addr a b = true <-> a = b.
Proof.
  unfold same_addr. destruct a as (a1 & a2), b as (b1 & b2). cbn. rewrite andb_true_iff, !String.eqb_eq. split; [intros (-> & ->); auto|intros E; inversion E; auto].
Qed.

Lemma replace_first_spec nw ad l : forall ps, NoDup (map key ps) ->
  match replace_first ps nw ad l with
  | Some ps' => In (nw, ad) (map key ps) /\ map key ps' = map key ps /\
      forall p, In p ps' <-> (key p = (nw, ad) /\ p_listener p = l) \/ (In p ps /\ key p <> (nw, ad))
  | None => ~ In (nw, ad) (map key ps)
  end.
Proof.
  induction ps as [|[n0 a0 l0] r IH]; intros ND; [intros []|]. cbn [replace_first p_network p_port map key] in *. inversion ND as [|x y NI ND']; subst.
  specialize (IH ND'). destruct (String.eqb n0 nw && String.eqb a0 ad) eqn:E.
  - apply andb_true_iff in E as (E1 & E2). apply String.eqb_eq in E1. apply String.eqb_eq in E2. subst.
    split; [left; reflexivity|]. split; [reflexivity|]. intros p. split.
    + intros [<-|H]; [left; auto|]. right. split; [right; auto|]. intros X. apply NI. unfold key in X. inversion X; subst. apply (in_map key) in H. exact H.
    + intros [(A & B)|([<-|H] & B)]; [left; destruct p; cbn in *; inversion A; subst; auto|destruct B; reflexivity|right; auto].
  - assert (Ne : (n0, a0) <> (nw, ad)). { intros X. inversion X; subst. rewrite !String.eqb_refl in E. discriminate. }
    destruct (replace_first r nw ad l) as [r'|].
    + destruct IH as (A & B & C). split; [right; auto|]. split; [cbn; rewrite B; reflexivity|]. intros p. split.
      * intros [<-|H]; [right; split; [left; auto|exact Ne]|]. apply C in H as [H|(H1 & H2)]; [auto|right; split; [right; auto|auto]].
      * intros [H|([<-|H] & Hn)]; [right; apply C; auto|left; auto|right; apply C; auto].
    + intros [X|X]; [exact (Ne X)|auto].
Qed.

Lemma fill_spec ps nw ad l : NoDup (map key ps) ->
  NoDup (map key (fillProperty ps nw ad l)) /\
  (forall a, In a (map key (fillProperty ps nw ad l)) <-> a = (nw, ad) \/ In a (map key ps)) /\
  (forall p, In p (fillProperty ps nw ad l) <-> (key p = (nw, ad) /\ p_listener p = l) \/ (In p ps /\ key p <> (nw, ad))).
Proof.
  intros ND. pose proof (replace_first_spec nw ad l ps ND) as R. unfold fillProperty. destruct (replace_first ps nw ad l) as [ps'|].
  - destruct R as (A & B & C). rewrite B. split; [auto|]. split; [|exact C]. intros a. split; auto. intros [->|X]; auto.
  - rewrite map_app. cbn. split; [|split].
    + clear - ND R. induction (map key ps) as [|x m IH]; cbn; [constructor; auto; constructor|]. inversion ND; subst. constructor.
      * rewrite in_app_iff. intros [X|[X|[]]]; [auto|]. apply R. left. symmetry. exact X.
      * apply IH; auto. intros X. apply R. right. auto.
    + intros a. rewrite in_app_iff. cbn. intuition.
    + intros p. rewrite in_app_iff. cbn. split.
      * intros [X|[<-|[]]]; [right; split; auto; intros Y; apply R; rewrite <- Y; apply in_map; auto|left; auto].
      * intros [(X & Y)|(X & Y)]; [right; left; destruct p; cbn in *; inversion X; subst; auto|left; auto].
Qed.

Lemma props_inv hb h : let s := liferun hb h in
  List.length (lf_listeners s) = List.length (listens h) /\ NoDup (map key (lf_props s)) /\
  (forall a, In a (map key (lf_props s)) <-> In a (listens h)) /\
  (forall p, In p (lf_props s) -> latest (listens h) (key p) = Some (p_listener p)).
Proof.
  induction h as [|o p (I1 & I2 & I3 & I4)]; cbv zeta.
  - cbn. split; auto. split; [constructor|]. split; [tauto|]. intros p [].
  - cbn [liferun]. set (s := liferun hb p) in *. destruct o; cbn [lopstep snd listens]; auto.
    + cbn [lf_listeners lf_props]. destruct (fill_spec (lf_props s) network addr (List.length (lf_listeners s)) I2) as (A & B & C).
      split; [rewrite app_length, I1; cbn; lia|]. split; [exact A|]. split.
      * intros a. rewrite B, I3. cbn. intuition.
      * intros q H. apply C in H as [(X & Y)|(X & Y)]; cbn [latest]; rewrite ?X.
        -- assert (Z : same_addr (network, addr) (network, addr) = true) by (apply same_addr_iff; auto). rewrite Z, Y, I1. reflexivity.
        -- destruct (same_addr (key q) (network, addr)) eqn:Z; [apply same_addr_iff in Z; congruence|]. auto.
    + destruct (on_conn_frame s c (fun k => LCn false (lv_sig k) (lv_bcast k) (lv_hb k) (lv_hbsig k))) as (F1 & F2 & _). rewrite F1, F2. auto.
    + match goal with |- context [on_conn s c ?f] => destruct (on_conn_frame s c f) as (F1 & F2 & _) end. rewrite F1, F2. auto.
    + match goal with |- context [on_conn s c ?f] => destruct (on_conn_frame s c f) as (F1 & F2 & _) end. rewrite F1, F2. auto.
    + destruct (Stop_frame s closeAll) as (F1 & _ & _ & _ & _ & F6). rewrite F1, F6. split; [|auto].
      rewrite <- I1. destruct (lf_running s); auto. unfold close_listeners. generalize (lf_props s) (lf_listeners s). clear.
      induction l as [|p r IH]; intros ls; cbn; auto. rewrite IH. destruct (stop_closes (p_network p)); auto. apply upd_length.
Qed.

Lemma p_C54_one_record : forall hb h, let ps := lf_props (liferun hb h) in
  NoDup (map key ps) /\ (forall a, In a (map key ps) <-> In a (listens h)) /\
  (forall p, In p ps -> latest (listens h) (key p) = Some (p_listener p)).
Proof. intros hb h. exact (proj2 (props_inv hb h)). Qed.

Lemma upd_nth {A} (l : list A) i a d j : nth j (upd l i a) d = if Nat.eqb j i && Nat.ltb i (List.length l) then a else nth j l d.
Proof.
  revert i j. induction l as [|x l IH]; intros [|i] [|j]; simpl; auto; rewrite ?andb_false_r; auto. rewrite IH. reflexivity.
Qed.

Lemma close_listeners_nth l : forall ps ls, nth l (close_listeners ps ls) false =
  nth l ls false && negb (existsb (fun p => stop_closes (p_network p) && Nat.eqb (p_listener p) l) ps).
Proof.
  induction ps as [|p r IH]; intros ls; cbn [close_listeners fold_left existsb]; [rewrite andb_true_r; reflexivity|].
  change (fold_left _ r ?x) with (close_listeners r x). rewrite IH. destruct (stop_closes (p_network p)); cbn [andb orb]; auto.
  rewrite upd_nth, Nat.eqb_sym. destruct (Nat.eqb (p_listener p) l) eqn:E; cbn [andb orb negb]; auto.
  apply Nat.eqb_eq in E. rewrite E. rewrite andb_false_r. destruct (Nat.ltb l (List.length ls)) eqn:L; [reflexivity|].
  apply Nat.ltb_ge in L. rewrite nth_overflow by auto. reflexivity.
Qed.

Lemma latest_In ls a l : latest ls a = Some l -> In a ls /\ nth_error (rev ls) l = Some a.
Proof.
  induction ls as [|b r IH]; [discriminate|]. cbn [latest rev]. destruct (same_addr a b) eqn:E.
  - apply same_addr_iff in E. subst. intros H. inversion H; subst. split; [left; auto|]. rewrite nth_error_app2 by (rewrite rev_length; auto).
    rewrite rev_length, Nat.sub_diag. reflexivity.
  - intros H. destruct (IH H) as (X & Y). split; [right; auto|]. rewrite nth_error_app1; auto. apply nth_error_Some. congruence.
Qed.

Lemma p_C52_stop_exact : forall hb h b l nw ad, is_running h = true -> nth_error (rev (listens h)) l = Some (nw, ad) ->
  let s := liferun hb h in
  (listener_open (snd (Stop s b)) l = true <->
   listener_open s l = true /\ ~ (stopped_network nw /\ latest (listens h) (nw, ad) = Some l)).
Proof.
  intros hb h b l nw ad R N s. destruct (props_inv hb h) as (P1 & P2 & P3 & P4). fold s in P1, P2, P3, P4.
  unfold listener_open. destruct (Stop_frame s b) as (_ & _ & _ & _ & _ & F). rewrite F. unfold s at 1. rewrite running_exact, R.
  rewrite close_listeners_nth, andb_true_iff, negb_true_iff.
  assert (X : existsb (fun p => stop_closes (p_network p) && Nat.eqb (p_listener p) l) (lf_props s) = true <->
    stopped_network nw /\ latest (listens h) (nw, ad) = Some l).
  { assert (SN : forall x, stop_closes x = true <-> stopped_network x).
    { intros x. unfold stop_closes, stopped_network. rewrite !orb_true_iff, !String.eqb_eq. tauto. }
    rewrite existsb_exists. split.
    - intros (p & I & E). apply andb_true_iff in E as (E1 & E2). apply Nat.eqb_eq in E2. specialize (P4 p I). rewrite E2 in P4.
      destruct (latest_In _ _ _ P4) as (_ & Y). rewrite N in Y. inversion Y as [Q]. unfold key in Q. inversion Q; subst. split; [apply SN; auto|exact P4].
    - intros (A & B). assert (IN : In (nw, ad) (map key (lf_props s))) by (apply P3; eapply latest_In; eauto).
      apply in_map_iff in IN as (p & K & I). exists p. split; auto. specialize (P4 p I). rewrite K, B in P4. inversion P4 as [Q].
      unfold key in K. inversion K; subst. apply andb_true_iff. split; [apply SN; auto|]. apply Nat.eqb_refl. }
  rewrite <- X. destruct (existsb _ (lf_props s)); intuition congruence.
Qed.

Lemma p_C52_other_networks_refuted : forall hb h b l nw ad, is_running h = true -> nth_error (rev (listens h)) l = Some (nw, ad) ->
  ~ stopped_network nw -> listener_open (liferun hb h) l = true -> listener_open (snd (Stop (liferun hb h) b)) l = true.
Proof. intros hb h b l nw ad R N S O. apply (p_C52_stop_exact hb h b l nw ad R N). tauto. Qed.

Lemma p_C52_stop_closes_partial : forall hb h b, is_running h = true ->
  (forall l nw ad, nth_error (rev (listens h)) l = Some (nw, ad) -> listener_open (liferun hb h) l = true ->
     stopped_network nw /\ latest (listens h) (nw, ad) = Some l) ->
  forall l, listener_open (snd (Stop (liferun hb h) b)) l = false.
Proof.
  intros hb h b R H l. destruct (listener_open (snd (Stop (liferun hb h) b)) l) eqn:E; auto. exfalso.
  destruct (nth_error (rev (listens h)) l) as [[nw ad]|] eqn:N.
  - pose proof (p_C52_stop_exact hb h b l nw ad R N) as X. cbv zeta in X. destruct X as (X & _). specialize (X E). destruct X as (X1 & X2). apply X2. eapply H; eauto.
  - apply nth_error_None in N. rewrite rev_length in N. unfold listener_open in E.
    destruct (Stop_frame (liferun hb h) b) as (_ & _ & _ & _ & _ & F). rewrite F, running_exact, R, close_listeners_nth in E.
    rewrite nth_overflow in E; [discriminate|]. rewrite (proj1 (props_inv hb h)). exact N.
Qed.

Lemma p_C53_start_refuted : forall ps p, ps <> [] ->
  exists calls, starts (ps ++ [p]) calls /\ forall a, In a calls -> a = key p.
Proof.
  intros ps p _. exists (map (fun _ => key p) (ps ++ [p])). split.
  - split; [apply map_length|]. intros i nw ad H.
    assert (L : (i < List.length (ps ++ [p]))%nat). { rewrite <- (map_length (fun _ => key p)). apply nth_error_Some. congruence. }
    apply nth_error_In, in_map_iff in H as (q & K & _). unfold key in K. inversion K; subst.
    rewrite app_length in L. cbn in L. exists (List.length ps), (List.length ps), p, p. repeat split; try lia; apply nth_snoc_last.
  - intros a H. apply in_map_iff in H as (q & K & _). auto.
Qed.

Lemma p_C53_torn_refuted : exists ps calls a, starts ps calls /\ In a calls /\ ~ In a (map key ps).
Proof.
  exists [Prop_ "tcp" ":1" 0; Prop_ "udp" ":2" 1], [("tcp", ":2"); ("udp", ":2")]%string, ("tcp", ":2")%string. split; [|split].
  - split; [reflexivity|]. intros [|[|i]] nw ad H; cbn in H; inversion H; subst.
    + exists 0%nat, 1%nat. eexists. eexists. cbn. repeat split; auto.
    + exists 1%nat, 1%nat. eexists. eexists. cbn. repeat split; auto.
    + destruct i; discriminate.
  - left. reflexivity.
  - cbn. intros [X|[X|[]]]; inversion X.
Qed.

Lemma p_C53_start_partial : forall ps calls, starts ps calls ->
  ((List.length ps <= 1)%nat -> calls = map key ps) /\
  (forall qs p, ps = qs ++ [p] -> In (key p) calls).
Proof.
  intros ps calls (L & H). split.
  - intros L1. destruct ps as [|p [|q r]]; [destruct calls; [reflexivity|discriminate]| |cbn in L1; lia].
    destruct calls as [|[nw ad] [|x y]]; try discriminate. destruct (H 0%nat nw ad eq_refl) as (a & b & pa & pb & A & B & C & D & E & F).
    destruct a as [|a]; [|destruct a; discriminate]. destruct b as [|b]; [|destruct b; discriminate]. cbn in C, D. inversion C; inversion D; subst. subst. reflexivity.
  - intros qs p ->. rewrite app_length in L. cbn in L. destruct (nth_error calls (List.length qs)) as [[nw ad]|] eqn:N.
    + destruct (H _ _ _ N) as (a & b & pa & pb & A & B & C & D & E & F).
      assert (La : (a < List.length (qs ++ [p]))%nat) by (apply nth_error_Some; congruence). assert (Lb : (b < List.length (qs ++ [p]))%nat) by (apply nth_error_Some; congruence).
      rewrite app_length in La, Lb. cbn in La, Lb. assert (a = List.length qs) by lia. assert (b = List.length qs) by lia. subst a b.
      rewrite nth_snoc_last in C, D. inversion C; inversion D; subst. subst. apply nth_error_In in N. exact N.
    + apply nth_error_None in N. lia.
Qed.

Lemma p_C55_stop_start : forall hb h b, let s := liferun hb h in
  (fst (Stop s b) = RErr <-> is_running h = false) /\ (is_running h = false -> Stop s b = (RErr, s)) /\
  (is_running h = true -> lf_running (snd (Stop s b)) = false /\ fst (Stop s false) = ROk) /\
  (Start s = RErr <-> is_running h = true) /\ (Start s = ROk <-> is_running h = false).
Proof.
  intros hb h b s. assert (R : lf_running s = is_running h) by apply running_exact. unfold Start. rewrite R.
  destruct (is_running h) eqn:E.
  - assert (S1 : fst (Stop s b) <> RErr).
    { unfold Stop. rewrite R. cbn [negb]. destruct b; [|discriminate]. unfold closeAllConnection. cbn [set_listeners set_running lf_signals lf_chan lf_chans].
      destruct (lf_signals s); [|discriminate]. destruct (lf_chan s) as [c|]; [|discriminate]. destruct (nth c (lf_chans s) false); discriminate. }
    split; [split; [congruence|discriminate]|]. split; [discriminate|]. split.
    + intros _. split; [change (snd (Stop s b)) with (liferun hb (OStop b :: h)); rewrite running_exact; reflexivity|]. unfold Stop. rewrite R. reflexivity.
    + split; split; congruence.
  - unfold Stop. rewrite R. cbn [negb fst]. split; [split; auto|]. split; [auto|]. split; [discriminate|]. split; split; congruence.
Qed.

Lemma p_C55_restart : forall hb h b hooks, let s := liferun hb h in
  match Stop s b with
  | (ROk, s1) => lf_running s1 = false /\
      Restart s b hooks = ((if lf_running (fold_left (fun s f => f s) hooks s1) then RErr else ROk), fold_left (fun s f => f s) hooks s1)
  | (r, s1) => Restart s b hooks = (r, s1)
  end.
Proof.
  intros hb h b hooks s. unfold Restart, Start. destruct (Stop s b) as (r & s1) eqn:E. destruct r; auto. split; [|reflexivity].
  assert (X : s1 = snd (Stop s b)) by (rewrite E; reflexivity). rewrite X. change (snd (Stop s b)) with (liferun hb (OStop b :: h)). rewrite running_exact. reflexivity.
Qed.

Lemma udp_closed u os u' : uruns u os u' -> ud_open u = false -> ud_open u' = false /\ ~ In UDatagram os.
Proof.
  induction 1 as [u|u o u1 os u2 S R IH]; intros C; [auto|].
  assert (C1 : ud_open u1 = false /\ o <> UDatagram).
  { destruct S; cbn; try (split; [auto|discriminate]). congruence. }
  destruct C1 as (C1 & D). destruct (IH C1) as (A & B). split; auto. intros [X|X]; congruence.
Qed.

Lemma udp_three k : forall u os u', uruns u os u' -> forall c, nth_error (ud_ctxs u) k = Some c -> uc_watch c = true -> uc_times c < 3 ->
  beats os k = 0%nat -> uc_times c + Z.of_nat (expiries os k) = 3 -> ud_open u' = false.
Proof.
  induction 1 as [u|u o u1 os u2 S R IH]; intros c Hk Hw Ht HB HE.
  - cbn in HE. lia.
  - destruct S as [u O Ru|u O Ru|u j cj Hj Wj|u j cj Hj Wj Nj|u j cj Hj Wj Nj]; cbn [ud_ctxs] in *.
    + apply (IH c); auto. rewrite nth_error_app1; auto. apply nth_error_Some. congruence.
    + apply (IH c); auto.
    + unfold beats in HB. cbn [filter] in HB. destruct (Nat.eqb j k) eqn:E; [discriminate|].
      apply (IH c); auto. rewrite nth_upd, Nat.eqb_sym, E. auto.
    + unfold expiries in HE. cbn [filter] in HE. destruct (Nat.eqb j k) eqn:E.
      * apply Nat.eqb_eq in E. subst j. rewrite Hk in Hj. inversion Hj; subst cj. cbn [List.length] in HE.
        apply (IH (UC (uc_times c + 1) true)); cbn [uc_times uc_watch]; auto.
        -- rewrite nth_upd, Nat.eqb_refl, Hk. reflexivity.
        -- lia.
        -- unfold expiries. lia.
      * apply (IH c); auto. rewrite nth_upd, Nat.eqb_sym, E. auto.
    + eapply udp_closed in R; [|reflexivity]. tauto.
Qed.

Lemma p_C62_udp_heartbeat_refuted : forall os0 u u1 os u',
  uruns (udp0 true) os0 u -> ustep u UDatagram u1 -> uruns u1 os u' ->
  let k := List.length (ud_ctxs u) in
  beats os k = 0%nat -> expiries os k = 3%nat ->
  ud_open u' = false /\ forall os' u'', uruns u' os' u'' -> ud_open u'' = false /\ ~ In UDatagram os'.
Proof.
  intros os0 u u1 os u' R0 S R k HB HE.
  enough (O : ud_open u' = false) by (split; [exact O|intros; eapply udp_closed; eauto]).
  assert (HH : ud_hb u = true).
  { clear - R0. remember (udp0 true) as v. assert (X : ud_hb v = true) by (subst; reflexivity). clear Heqv. induction R0 as [|? ? ? ? ? S]; auto. apply IHR0. destruct S; auto. }
  inversion S; subst. eapply udp_three; [exact R| | | |exact HB|].
  - cbn [ud_ctxs]. apply nth_snoc_last.
  - exact HH.
  - cbn. lia.
  - cbn [uc_times]. fold k. rewrite HE. reflexivity.
Qed.

Lemma p_C62_udp_no_heartbeat_partial : forall os u, uruns (udp0 false) os u -> ud_open u = true /\ ud_errs u = 0%nat /\ exists u', ustep u UDatagram u'.
Proof.
  intros os u R. assert (X : forall u os u', uruns u os u' -> ud_open u = true -> ud_errs u = 0%nat -> ud_hb u = false ->
    ud_running u = true -> (forall k c, nth_error (ud_ctxs u) k = Some c -> uc_watch c = false) -> ud_open u' = true /\ ud_errs u' = 0%nat /\ exists u2, ustep u' UDatagram u2).
  { clear. induction 1 as [u|u o u1 os u2 S R IH]; intros O E H Rn W; [split; [exact O|split; [exact E|eexists; apply u_datagram; auto]]|]. destruct S as [u O' Ru|u O' Ru|u j cj Hj Wj|u j cj Hj Wj Nj|u j cj Hj Wj Nj]; try congruence;
      try (rewrite (W _ _ Hj) in Wj; discriminate).
    apply IH; cbn [ud_open ud_hb ud_ctxs ud_errs]; auto. intros k c X. apply nth_snoc in X as [X|(-> & ->)]; eauto. }
  apply (X _ _ _ R); auto. intros [|k] c H; discriminate.
Qed.

Lemma uruns_snoc u os u' : uruns u os u' -> forall o u2, ustep u' o u2 -> uruns u (os ++ [o]) u2.
Proof. induction 1 as [u|u o1 u1 os u2 V R IH]; intros o u3 W; [eapply ur_cons; [exact W|constructor]|]. cbn [app]. eapply ur_cons; [exact V|apply IH; exact W]. Qed.
Lemma uruns_last os : forall u o u', uruns u (os ++ [o]) u' -> exists u1, uruns u os u1 /\ ustep u1 o u'.
Proof.
  induction os as [|a os IH]; intros u o u' R; cbn [app] in R; inversion R as [|? ? u1 ? ? V R1]; subst.
  - inversion R1; subst. exists u. split; [constructor|exact V].
  - destruct (IH _ _ _ R1) as (u2 & A & B). exists u2. split; [eapply ur_cons; eauto|exact B].
Qed.

Record udp_ok (hb : bool) (h : list uop) (u : udp) : Prop := {
  uk_hb : ud_hb u = hb;
  uk_run : ud_running u = true;
  uk_len : List.length (ud_ctxs u) = datagrams h;
  uk_ctx : forall k c, nth_error (ud_ctxs u) k = Some c ->
    uc_times c = Z.of_nat (silence h k) /\ (silence h k <= 3)%nat /\ uc_watch c = (hb && negb (Nat.eqb (silence h k) 3))%bool;
  uk_new : forall k, (datagrams h <= k)%nat -> silence h k = 0%nat;
  uk_open : ud_open u = false <-> exists k, silence h k = 3%nat
}.
Lemma udp_ok_step hb h u o u' : udp_ok hb h u -> ustep u o u' -> udp_ok hb (o :: h) u'.
Proof.
  intros [Hb Rn Ln Cx Nw Op] V.
  destruct V as [u O' Ru|u O' Ru|u j cj Hj Wj|u j cj Hj Wj Nj|u j cj Hj Wj Nj]; constructor; cbn [ud_hb ud_running ud_ctxs ud_open ud_errs datagrams silence]; auto.
  - rewrite app_length, Ln. cbn. lia.
  - intros k c X. apply nth_snoc in X as [X|(-> & ->)]; [apply Cx; exact X|]. cbn [uc_times uc_watch]. rewrite Nw by lia. rewrite Hb. cbn. split; [reflexivity|]. split; [lia|]. destruct hb; reflexivity.
  - intros k L. apply Nw. lia.
  - rewrite <- Op, O'. tauto.
  - rewrite upd_length. exact Ln.
  - intros k c X. rewrite nth_upd in X. rewrite Nat.eqb_sym. destruct (Nat.eqb_spec k j) as [->|N]; [|apply Cx; exact X]. rewrite Hj in X. injection X as <-. cbn. split; [reflexivity|]. split; [lia|].
    destruct (Cx j cj Hj) as (_ & _ & W). rewrite Wj in W. symmetry in W. apply andb_prop in W as (W & _). rewrite W. reflexivity.
  - intros k L. destruct (Nat.eqb j k); auto.
  - rewrite Op. destruct (Cx j cj Hj) as (_ & _ & W). rewrite Wj in W. symmetry in W. apply andb_prop in W as (_ & W). apply negb_true_iff, Nat.eqb_neq in W.
    split; intros (k & E); exists k; destruct (Nat.eqb_spec j k) as [->|N]; auto; [contradiction|discriminate].
  - rewrite upd_length. exact Ln.
  - destruct (Cx j cj Hj) as (Ti & Le & W). intros k c X. rewrite nth_upd in X. rewrite Nat.eqb_sym. destruct (Nat.eqb_spec k j) as [->|N]; [|apply Cx; exact X]. rewrite Hj in X. injection X as <-. cbn [uc_times uc_watch].
    rewrite Wj in W. symmetry in W. apply andb_prop in W as (W & W'). apply negb_true_iff, Nat.eqb_neq in W'. split; [lia|]. split; [lia|]. rewrite W. cbn [andb]. symmetry. apply negb_true_iff, Nat.eqb_neq. lia.
  - intros k L. destruct (Nat.eqb_spec j k) as [->|N]; auto. assert (k < List.length (ud_ctxs u))%nat by (apply nth_error_Some; congruence). lia.
  - rewrite Op. destruct (Cx j cj Hj) as (Ti & Le & W). rewrite Wj in W. symmetry in W. apply andb_prop in W as (_ & W). apply negb_true_iff, Nat.eqb_neq in W.
    split; intros (k & E); exists k; destruct (Nat.eqb_spec j k) as [->|N]; auto; lia.
  - rewrite upd_length. exact Ln.
  - destruct (Cx j cj Hj) as (Ti & Le & W). intros k c X. rewrite nth_upd in X. rewrite Nat.eqb_sym. destruct (Nat.eqb_spec k j) as [->|N]; [|apply Cx; exact X]. rewrite Hj in X. injection X as <-. cbn [uc_times uc_watch].
    split; [lia|]. split; [lia|]. assert (silence h j = 2)%nat as -> by lia. rewrite andb_false_r. reflexivity.
  - intros k L. destruct (Nat.eqb_spec j k) as [->|N]; auto. assert (k < List.length (ud_ctxs u))%nat by (apply nth_error_Some; congruence). lia.
  - split; [intros _|auto]. exists j. rewrite Nat.eqb_refl. destruct (Cx j cj Hj) as (Ti & Le & W). lia.
Qed.
Lemma udp_ok_all hb os : forall u, uruns (udp0 hb) os u -> udp_ok hb (rev os) u.
Proof.
  induction os as [|o os IH] using rev_ind; intros u R.
  - inversion R; subst. constructor; cbn; auto.
    + intros [|k] c X; discriminate.
    + split; [discriminate|intros (k & X); discriminate].
  - rewrite rev_app_distr. cbn [rev app]. destruct (uruns_last os _ _ _ R) as (u1 & A & B). eapply udp_ok_step; eauto.
Qed.

Lemma p_C62_udp_exact : forall hb os u, uruns (udp0 hb) os u ->
  (ud_open u = false <-> exists k, silence (rev os) k = 3%nat) /\
  ((exists u', ustep u UDatagram u') <-> forall k, silence (rev os) k <> 3%nat) /\
  forall k o, o = UBeat k \/ o = UExpire k ->
    ((exists u', ustep u o u') <-> hb = true /\ (k < datagrams (rev os))%nat /\ (silence (rev os) k < 3)%nat).
Proof.
  intros hb os u R. destruct (udp_ok_all hb os u R) as [Hb Rn Ln Cx Nw Op]. split; [exact Op|]. split.
  - split.
    + intros (u' & V) k X. inversion V; subst. assert (ud_open u = false) by (apply Op; eauto). congruence.
    + intros N. eexists. apply u_datagram; auto. destruct (ud_open u); auto. destruct (proj1 Op eq_refl) as (k & X). destruct (N k X).
  - intros k o Ho. split.
    + intros (u' & V). assert (X : exists c, nth_error (ud_ctxs u) k = Some c /\ uc_watch c = true).
      { destruct Ho as [-> | ->]; inversion V; subst; eauto. }
      destruct X as (c & Hk & W). destruct (Cx k c Hk) as (_ & Le & W'). rewrite W in W'. symmetry in W'. apply andb_prop in W' as (H1 & H2). apply negb_true_iff, Nat.eqb_neq in H2.
      split; auto. split; [rewrite <- Ln; apply nth_error_Some; congruence|lia].
    + intros (-> & L & S3). rewrite <- Ln in L. destruct (nth_error (ud_ctxs u) k) as [c|] eqn:Hk; [|apply nth_error_None in Hk; lia].
      destruct (Cx k c Hk) as (Ti & _ & W). assert (Wt : uc_watch c = true) by (rewrite W; cbn [andb]; apply negb_true_iff, Nat.eqb_neq; lia).
      destruct Ho as [-> | ->]; [eexists; eapply u_beat; eauto|]. destruct (Z.eq_dec (uc_times c + 1) 3); eexists; [eapply u_loss|eapply u_expire]; eauto.
Qed.

Lemma p_C62_udp_spins_refuted : forall hb os u, uruns (udp0 hb) os u -> ud_open u = false ->
  forall n, exists u', uruns u (repeat UReadFails n) u' /\ ud_errs u' = (n + ud_errs u)%nat /\ ud_open u' = false.
Proof.
  intros hb os u R O. assert (X : ud_running u = true).
  { assert (Y : forall u os u', uruns u os u' -> ud_running u = true -> ud_running u' = true) by (induction 1 as [|? ? ? ? ? V]; auto; intros Q; apply IHuruns; destruct V; exact Q).
    apply (Y _ _ _ R). reflexivity. }
  clear R os. intros n. revert u O X. induction n as [|n IH]; intros u O X; [exists u; split; [constructor|split; [reflexivity|exact O]]|].
  destruct (IH (UDP (ud_open u) (ud_hb u) (ud_running u) (ud_ctxs u) (S (ud_errs u))) O X) as (u' & R & E & O'). exists u'. split; [|split; [rewrite E; cbn; lia|exact O']].
  cbn [repeat]. eapply ur_cons; [apply u_fail; assumption|exact R].
Qed.

Lemma no_signals_state hb h : (forall b, ~ In (OSignals b) h) ->
  lf_signals (liferun hb h) = false /\ forall k, In k (lf_conns (liferun hb h)) -> lv_bcast k = false.
Proof.
  induction h as [|o h IH]; intros N; [cbn; split; [reflexivity|intros k []]|].
  destruct IH as [A B]; [intros b I; apply (N b); right; exact I|]. cbn [liferun].
  assert (O : forall c f, (forall k, In k (lf_conns (liferun hb h)) -> lv_bcast (f k) = false) ->
    lf_signals (on_conn (liferun hb h) c f) = false /\ forall k, In k (lf_conns (on_conn (liferun hb h) c f)) -> lv_bcast k = false).
  { intros c f F. unfold on_conn. destruct (nth_error (lf_conns (liferun hb h)) c) as [k0|] eqn:E; [|split; assumption].
    cbn [set_lconns lf_signals lf_conns]. split; [exact A|]. intros k I. apply In_nth_error in I as (j & J).
    rewrite nth_upd in J. rewrite E in J. destruct (Nat.eqb j c).
    - injection J as <-. apply F. eapply nth_error_In; exact E.
    - apply B. eapply nth_error_In; exact J. }
  destruct o as [y|nw ad| | |c|c|c|b]; cbn [lopstep snd].
  - destruct (N y); left; reflexivity.
  - split; assumption.
  - split; assumption.
  - cbn [set_lconns lf_signals lf_conns]. split; [exact A|]. intros k I. apply in_app_or in I as [I|[<-|[]]]; [auto|exact A].
  - apply O. intros k I. cbn. auto.
  - apply O. intros k I. cbn. rewrite (B k I). cbn. auto.
  - apply O. intros k I. cbn. pose proof (B k I) as X. destruct (lv_hb k); [|exact X]. destruct (negb (lf_running (liferun hb h))); [exact X|]. destruct (sig_closed _ _); [exact X|]. destruct (negb (lv_open k)); exact X.
  - unfold Stop. destruct (negb (lf_running (liferun hb h))); [split; assumption|]. destruct b; [|split; assumption].
    unfold closeAllConnection. cbn [set_listeners set_running lf_signals]. rewrite A. split; assumption.
Qed.

Lemma p_C50_no_signals : forall hb h, no_signal_call h ->
  (forall b, fst (Stop (liferun hb h) b) <> RPanic) /\ forall k, In k (lf_conns (liferun hb h)) -> lv_bcast k = false.
Proof.
  intros hb h N. destruct (no_signals_state hb h N) as [A B]. split; [|exact B]. intros b. unfold Stop.
  destruct (negb (lf_running (liferun hb h))); [discriminate|]. destruct b; [|discriminate].
  unfold closeAllConnection. cbn [set_listeners set_running lf_signals]. rewrite A. discriminate.
Qed.
