(* The models of one goroutine agree (C44, C47, C48, C50, C51, C52, C82, C90). NODEMO *)
From Verif Require Export SpecAgree CtxFacts.

Lemma loop_snoc f e evs : forall t, hb_loop f t (evs ++ [e]) =
  match hb_loop f t evs with (None, a) => (None, a) | (Some t', a) => let '(s, b) := hb_iter f t' e in (s, a ++ b) end.
Proof.
  induction evs as [|x r IH]; intros t.
  - cbn [app hb_loop]. destruct (hb_iter f t e) as ([t'|] & a); cbn; rewrite ?app_nil_r; reflexivity.
  - cbn [app hb_loop]. destruct (hb_iter f t x) as ([t'|] & a); [|reflexivity]. rewrite IH.
    destruct (hb_loop f t' r) as ([t2|] & b); [|reflexivity]. destruct (hb_iter f t2 e) as (s & c). rewrite app_assoc. reflexivity.
Qed.

Lemma p_C44_timed_described : forall I D tr s, wruns I D tr s -> exists es, saw I D tr s es.
Proof.
  intros I D tr s H. induction H as [|l tr s s' _ (es & IH) T]; [exists []; constructor|].
  destruct l.
  - exists es. apply saw_tick with (s := s); assumption.
  - destruct (ws_phase s) as [dl|b|] eqn:P.
    + exists (es ++ [WBeat]). apply saw_beat with (s := s) (dl := dl); assumption.
    + exists es. apply saw_beat_later with (s := s); [assumption|assumption|]. intros dl. rewrite P. discriminate.
    + exists es. apply saw_beat_later with (s := s); [assumption|assumption|]. intros dl. rewrite P. discriminate.
  - exists (es ++ [WExpire]). apply saw_expire with (s := s); assumption.
  - destruct (ws_chan s) eqn:C.
    + exists (es ++ [WBeat]). apply saw_enter_beat with (s := s); assumption.
    + exists es. apply saw_enter with (s := s); assumption.
  - exists (es ++ [WEnd]). apply saw_quit with (s := s); auto.
Qed.

Definition tied (f : onloss) (s : wst) (es : list wev) : Prop :=
  match ws_phase s with
  | PDone => fst (hb_loop f 0 es) = None /\ (ws_loss s <> None -> exists es', es = es' ++ [WExpire] /\ hb_loop f 0 es' = (Some 2, [])) /\
      (ws_loss s = None -> exists es' e n, es = es' ++ [e] /\ (e = WStop \/ e = WAll \/ e = WEnd) /\ hb_loop f 0 es' = (Some n, []))
  | _ => hb_loop f 0 es = (Some (ws_times s), []) /\ ws_loss s = None
  end.
Lemma tied_saw I D f tr s es : saw I D tr s es -> tied f s es.
Proof.
  induction 1 as [|tr s es d s' _ IH T|tr s es s' dl _ IH T P|tr s es s' _ IH T P|tr s es s' _ IH T|tr s es s' _ IH T C|tr s es s' _ IH T C|tr s es s' e _ IH T Q]; [split; reflexivity|..]; unfold tied in *.
  - inversion T; subst; exact IH.
  - inversion T; subst; cbn [ws_phase ws_times ws_loss] in *; try discriminate. destruct IH as [L N]. rewrite loop_snoc, L. cbn. auto.
  - inversion T; subst; cbn [ws_phase ws_times ws_loss] in *; [destruct (P _ eq_refl)|exact IH|exact IH].
  - inversion T; subst; cbn [ws_phase ws_times ws_loss] in *; destruct IH as [L N].
    + rewrite loop_snoc, L. cbn [hb_iter]. destruct (n + 1 =? 3) eqn:E; [apply Z.eqb_eq in E; contradiction|]. cbn [app]. auto.
    + rewrite loop_snoc, L. cbn [hb_iter]. replace (n + 1 =? 3) with true by (symmetry; apply Z.eqb_eq; assumption). cbn [fst]. split; [reflexivity|]. split; [|discriminate].
      intros _. exists es. split; [reflexivity|]. replace 2 with n by lia. exact L.
  - inversion T; subst; cbn [ws_phase ws_times ws_loss ws_chan] in *; [discriminate|exact IH].
  - inversion T; subst; cbn [ws_phase ws_times ws_loss ws_chan] in *; [|discriminate]. destruct IH as [L N]. rewrite loop_snoc, L. cbn. auto.
  - inversion T as [| | | | | | | | | |now p n c l NP]; subst; cbn [ws_phase ws_times ws_loss ws_chan] in *.
    assert (X : hb_loop f 0 es = (Some n, []) /\ l = None) by (destruct p; [exact IH|exact IH|congruence]).
    destruct X as [L ->]. rewrite loop_snoc, L. split; [destruct Q as [->|[->| ->]]; reflexivity|]. split; [congruence|]. intros _. exists es, e, n. auto.
Qed.

Lemma p_C44_timed_agrees : forall I D tr s es f, saw I D tr s es ->
  (ws_phase s <> PDone -> hb_loop f 0 es = (Some (ws_times s), [])) /\
  (ws_phase s = PDone -> fst (hb_loop f 0 es) = None) /\
  (ws_loss s <> None <-> snd (hb_loop (Some false) 0 es) = [ALoss; AClose]).
Proof.
  intros I D tr s es f H. assert (A := tied_saw I D f tr s es H). assert (B := tied_saw I D (Some false) tr s es H). unfold tied in *.
  destruct (ws_phase s) as [dl|b|] eqn:P.
  - destruct A as [A _], B as [B N]. split; [auto|]. split; [discriminate|]. rewrite B, N. cbn. split; [congruence|discriminate].
  - destruct A as [A _], B as [B N]. split; [auto|]. split; [discriminate|]. rewrite B, N. cbn. split; [congruence|discriminate].
  - destruct A as [A _], B as (_ & B1 & B2). split; [congruence|]. split; [auto|]. destruct (ws_loss s) as [t|].
    + destruct (B1 ltac:(discriminate)) as (es' & -> & L). rewrite loop_snoc, L. cbn. split; [reflexivity|discriminate].
    + destruct (B2 eq_refl) as (es' & e & n & -> & Q & L). rewrite loop_snoc, L. split; [congruence|]. destruct Q as [->|[->| ->]]; discriminate.
Qed.

Lemma p_C90_beat_agrees : forall w c y b, may_end w GBeat c y = Some b <->
  exists f times e acts, hb_iter f times e = (None, acts) /\ beat_ready w c e /\ y = beat_leaves f e /\ b = closes acts.
Proof.
  intros w c y b. split.
  - intros H. destruct y; cbn in H; try discriminate.
    + destruct (ended w c) eqn:E; [|discriminate]. injection H as <-. exists None, 0, WEnd, []. repeat split; assumption.
    + destruct (gw_all w) eqn:E; [|discriminate]. injection H as <-. exists None, 0, WAll, [AClose]. repeat split; assumption.
    + destruct (gw_stop w) eqn:E; [|discriminate]. injection H as <-. exists None, 0, WStop, [AClose]. repeat split; assumption.
    + injection H as <-. exists None, 2, WExpire, [AClose]. repeat split.
    + injection H as <-. exists (Some true), 2, WExpire, [ALoss; APanic]. repeat split.
  - intros (f & times & e & acts & H & R & -> & ->). destruct e; cbn in H, R; try discriminate.
    + injection H as <-. cbn. rewrite R. reflexivity.
    + destruct (times + 1 =? 3); [|discriminate]. injection H as <-. destruct f as [[]|]; reflexivity.
    + injection H as <-. cbn. rewrite R. reflexivity.
    + injection H as <-. cbn. rewrite R. reflexivity.
Qed.

Lemma p_C90_auth_agrees : forall w c y b, may_end w GAuth c y = Some b <->
  exists e, auth_ready w c e /\ y = auth_leaves e /\ b = closes (auth_out e).
Proof.
  intros w c y b. split.
  - intros H. destruct y; cbn in H; try discriminate.
    + destruct (ended w c) eqn:E; [|discriminate]. injection H as <-. exists AvEnd. repeat split; assumption.
    + destruct (gw_all w) eqn:E; [|discriminate]. injection H as <-. exists AvAll. repeat split; assumption.
    + injection H as <-. exists AvDeadline. repeat split.
    + injection H as <-. exists (AvSig PASS). repeat split.
    + injection H as <-. exists (AvSig DENY). repeat split.
  - intros (e & R & -> & ->). destruct e as [|v| |]; cbn in R |- *; try reflexivity; [|rewrite R; reflexivity|rewrite R; reflexivity].
    destruct (v >=? 0); reflexivity.
Qed.

Lemma p_C90_broadcast_agrees : forall w c y b, may_end w GBroadcast c y = Some b <->
  exists e, (e = WAll \/ e = WEnd) /\ beat_ready w c e /\ y = beat_leaves None e /\ b = closes (broadcastSignalWatch true [e]).
Proof.
  intros w c y b. split.
  - intros H. destruct y; cbn in H; try discriminate.
    + destruct (ended w c) eqn:E; [|discriminate]. injection H as <-. exists WEnd. repeat split; auto.
    + destruct (gw_all w) eqn:E; [|discriminate]. injection H as <-. exists WAll. repeat split; auto.
  - intros (e & [->| ->] & R & -> & ->); cbn in R |- *; rewrite R; reflexivity.
Qed.

Lemma p_C82_take_agrees : forall s s',
  (chstep CAuth s KTake s' -> exists v, ch_slot s = Some v /\ ch_watch s' = false /\
     ch_open s' = (if closes (auth_out (AvSig v)) then false else ch_open s) /\ ch_end s' = (if closes (auth_out (AvSig v)) then true else ch_end s)) /\
  (chstep CBeat s KTake s' -> (exists v, ch_slot s = Some v) /\ (forall f times, hb_iter f times WBeat = (Some 0, [])) /\ ch_watch s' = true /\ ch_open s' = ch_open s /\ ch_end s' = ch_end s).
Proof.
  intros s s'. split; intros H; inversion H; subst; try discriminate.
  - exists v. split; [assumption|]. cbn [auth_out]. destruct (v >=? 0); cbn; auto.
  - split; [eauto|]. cbn. auto.
Qed.

Lemma p_C82_leave_agrees : forall s s' c,
  (chstep CAuth s (KQuit c) s' -> exists e, (e = AvDeadline \/ e = AvAll) /\ c = closes (auth_out e)) /\
  (chstep CBeat s (KQuit c) s' -> exists f times e acts, hb_iter f times e = (None, acts) /\ e <> WEnd /\ c = closes acts) /\
  (forall k, chstep k s (KQuit c) s' -> ch_watch s' = false /\ ch_open s' = (if c then false else ch_open s) /\ ch_end s' = (if c then true else ch_end s)) /\
  (forall k, chstep k s KEnd s' -> ch_end s = true /\ ch_watch s' = false /\ ch_open s' = ch_open s /\ closes (auth_out AvEnd) = false /\ forall f times, hb_iter f times WEnd = (None, [])).
Proof.
  intros s s' c. repeat split; try (inversion H; subst; cbn; auto; fail).
  - intros H. exists AvDeadline. split; [auto|]. inversion H; subst. destruct c; [reflexivity|]. match goal with K : _ -> CAuth = CBeat |- _ => discriminate (K eq_refl) end.
  - intros H. destruct c; [exists None, 2, WExpire, [AClose]|exists (Some true), 2, WExpire, [ALoss; APanic]]; repeat split; discriminate.
Qed.

Definition in_step (n : nat) (s : hbw) (k : chn) : Prop :=
  hw_store s = Some 0%nat /\ (hw_watch s = WGet \/ hw_watch s = WSel 0) /\
  (exists x, hw_chans s = [x] /\ ch_slot k = if x then Some 1 else None) /\
  ch_watch k = true /\ ch_end k = false /\ ch_open k = true /\
  List.length (hw_beats s) = n /\ (forall i b, nth_error (hw_beats s) i = Some b -> b = BGet \/ b = BSend 0 \/ b = BDone 0) /\
  ch_calls k = map (fun b => match b with BDone _ => [] | _ => [1] end) (hw_beats s).

Lemma bset_upd {A} (l : list A) i x : bset l i x = upd l i x.
Proof. revert i. induction l as [|a l IH]; intros [|i]; reflexivity. Qed.
Lemma map_upd' {A B} (g : A -> B) l i x : map g (upd l i x) = upd (map g l) i (g x).
Proof. revert i. induction l as [|a l IH]; intros [|i]; cbn; try reflexivity. rewrite IH. reflexivity. Qed.
Lemma upd_same' {A} (l : list A) i x : nth_error l i = Some x -> upd l i x = l.
Proof. revert i. induction l as [|a l IH]; intros [|i] H; cbn in *; try discriminate; [congruence|]. rewrite (IH _ H). reflexivity. Qed.
Lemma nth_upd_cases {A} (l : list A) i j x y : nth_error (upd l i x) j = Some y -> (j = i /\ y = x) \/ nth_error l j = Some y.
Proof. revert i j. induction l as [|z l IH]; intros [|i] [|j] H; cbn in *; try discriminate; auto; [injection H as <-; auto|]. destruct (IH _ _ H) as [[-> ->]|E]; auto. Qed.

Lemma chruns_snoc k s os s1 o s2 : chruns k s os s1 -> chstep k s1 o s2 -> chruns k s (os ++ [o]) s2.
Proof. induction 1 as [s|s o' s1 os s2' H H' IH]; intros T; cbn [app]; [econstructor; [exact T|constructor]|]. econstructor; [exact H|auto]. Qed.
Lemma takes_app a b : takes (a ++ b) = (takes a + takes b)%nat.
Proof. unfold takes. rewrite filter_app, app_length. reflexivity. Qed.

Lemma in_step_step n s s' k : in_step n s k -> hstep s s' ->
  (in_step n s' k /\ received s' = received s) \/ exists o k', chstep CBeat k o k' /\ in_step n s' k' /\ received s' = (received s + takes [o])%nat.
Proof.
  intros (ST & W & (x & CH & SL) & CW & CE & CO & LN & BS & CC) H. unfold in_step.
  inversion H; subst; cbn [hw_store hw_watch hw_chans hw_beats hw_log]; rewrite ?bset_upd in *.
  - left. assert (c = 0%nat) by congruence. subst c. split; [|reflexivity]. repeat split; eauto.
  - congruence.
  - destruct W; congruence.
  - right. assert (c = 0%nat) by (destruct W; congruence). subst c. rewrite CH in *. match goal with K : nth_error _ _ = Some true |- _ => cbn in K; injection K as -> end.
    eexists KTake, _. split; [apply k_take_beat with (v := 1); [reflexivity|assumption|assumption]|]. cbn [ch_slot ch_watch ch_end ch_open ch_calls bset upd]. split; [|unfold received, takes; cbn; lia].
    repeat split; eauto.
  - left. split; [|reflexivity]. repeat split; eauto.
  - left. assert (c = 0%nat) by congruence. subst c. split; [|reflexivity]. repeat split; eauto.
    + rewrite upd_length. reflexivity.
    + intros j b E. destruct (nth_upd_cases _ _ _ _ _ E) as [[_ ->]|E']; [auto|eauto].
    + rewrite map_upd'. rewrite CC. rewrite upd_same'; [reflexivity|]. rewrite nth_error_map. match goal with K : nth_error (hw_beats s) i = _ |- _ => rewrite K end. reflexivity.
  - congruence.
  - match goal with K : nth_error (hw_beats s) i = _ |- _ => destruct (BS _ _ K) as [?|[?|?]]; discriminate end.
  - right. match goal with K : nth_error (hw_beats s) i = _ |- _ => destruct (BS _ _ K) as [X|[X|X]]; try discriminate; injection X as -> end. rewrite CH in *.
    match goal with K : nth_error [x] _ = Some false |- _ => cbn in K; injection K as -> end.
    eexists (KSend i 1), _. split; [apply k_send with (r := []); [assumption|]|].
    + rewrite CC, nth_error_map. match goal with K : nth_error (hw_beats s) i = _ |- _ => rewrite K end. reflexivity.
    + cbn [ch_slot ch_watch ch_end ch_open ch_calls bset upd]. split; [|unfold received, takes; cbn; lia].
      repeat split; eauto.
      * rewrite upd_length. reflexivity.
      * intros j b E. destruct (nth_upd_cases _ _ _ _ _ E) as [[_ ->]|E']; [auto|eauto].
      * rewrite map_upd', CC. reflexivity.
Qed.

Lemma p_C47_stored_agrees : forall n s, hsteps (stored_start n) s ->
  exists os k, chruns CBeat (ch_start true (repeat [1] n)) os k /\ takes os = received s /\
    (ch_slot k <> None <-> nth_error (hw_chans s) 0 = Some true) /\
    forall i, nth_error (ch_calls k) i = Some [] <-> exists c, nth_error (hw_beats s) i = Some (BDone c).
Proof.
  intros n s H.
  assert (G : exists os k, chruns CBeat (ch_start true (repeat [1] n)) os k /\ takes os = received s /\ in_step n s k).
  { remember (stored_start n) as s0 eqn:E0. induction H as [s|s s1 s2 H IH T].
    - subst s. exists [], (ch_start true (repeat [1] n)). split; [constructor|]. split; [reflexivity|].
      unfold in_step, stored_start, ch_start. cbn [hw_store hw_watch hw_chans hw_beats ch_slot ch_watch ch_end ch_open ch_calls]. repeat split; auto.
      + exists false. auto.
      + apply repeat_length.
      + intros i b N. left. apply nth_error_In, repeat_spec in N. exact N.
      + induction n; [reflexivity|]. cbn. rewrite <- IHn. reflexivity.
    - destruct (IH E0) as (os & k & R & TK & A). destruct (in_step_step n s1 s2 k A T) as [[A' RC]|(o & k' & C & A' & RC)].
      + exists os, k. split; [exact R|]. split; [congruence|exact A'].
      + exists (os ++ [o]), k'. split; [eapply chruns_snoc; eassumption|]. split; [rewrite takes_app; congruence|exact A']. }
  destruct G as (os & k & R & TK & (ST & W & (x & CH & SL) & CW & CE & CO & LN & BS & CC)). exists os, k. split; [exact R|]. split; [exact TK|]. split.
  - rewrite SL, CH. destruct x; cbn; split; congruence.
  - intros i. rewrite CC, nth_error_map. destruct (nth_error (hw_beats s) i) as [b|]; cbn; [|split; [discriminate|intros (c & E); discriminate]].
    destruct b; split; try discriminate; try (intros (c' & E); discriminate); eauto.
Qed.

Lemma p_C50_watch_agrees : forall s c k, nth_error (lf_conns s) c = Some k ->
  (lv_hb k = true -> exists e k', nth_error (lf_conns (snd (lopstep (OHb c) s))) c = Some k' /\
     (e = WStop <-> lf_running s = false) /\ (e = WAll -> sig_closed s (lv_hbsig k) = true) /\ (e = WEnd -> lv_open k = false) /\
     lv_hb k' = (match fst (hb_iter None 0 e) with Some _ => true | None => false end) /\
     lv_open k' = (if closes (snd (hb_iter None 0 e)) then false else lv_open k) /\ lv_bcast k' = lv_bcast k) /\
  (lv_bcast k = true -> exists k', nth_error (lf_conns (snd (lopstep (OBcast c) s))) c = Some k' /\
     ((exists e, (e = WAll /\ sig_closed s (lv_sig k) = true \/ e = WEnd /\ lv_open k = false) /\ lv_bcast k' = false /\
        lv_open k' = (if closes (broadcastSignalWatch true [e]) then false else lv_open k) /\ lv_hb k' = lv_hb k) \/
      sig_closed s (lv_sig k) = false /\ lv_open k = true /\ k' = k)).
Proof.
  intros s c k N. assert (L : (c < List.length (lf_conns s))%nat) by (apply nth_error_Some; congruence). split; intros B.
  - cbn [lopstep snd]. unfold on_conn. rewrite N. cbn [set_lconns lf_conns]. rewrite B.
    assert (U : forall x, nth_error (upd (lf_conns s) c x) c = Some x) by (intros x; rewrite nth_upd, Nat.eqb_refl, N; reflexivity).
    destruct (lf_running s) eqn:R; cbn [negb].
    + destruct (sig_closed s (lv_hbsig k)) eqn:S.
      * exists WAll. eexists. rewrite U. split; [reflexivity|]. cbn. repeat split; try discriminate; auto.
      * destruct (lv_open k) eqn:O; cbn [negb].
        -- exists WBeat. eexists. rewrite U. split; [reflexivity|]. cbn. repeat split; try discriminate; auto.
        -- exists WEnd. eexists. rewrite U. split; [reflexivity|]. cbn. repeat split; try discriminate; auto.
    + exists WStop. eexists. rewrite U. split; [reflexivity|]. cbn. repeat split; try discriminate; auto.
  - cbn [lopstep snd]. unfold on_conn. rewrite N. cbn [set_lconns lf_conns]. rewrite B.
    assert (U : forall x, nth_error (upd (lf_conns s) c x) c = Some x) by (intros x; rewrite nth_upd, Nat.eqb_refl, N; reflexivity).
    destruct (sig_closed s (lv_sig k)) eqn:S.
    + eexists. rewrite U. split; [reflexivity|]. left. exists WAll. cbn. auto.
    + destruct (lv_open k) eqn:O; cbn [negb].
      * eexists. rewrite U. split; [reflexivity|]. right. auto.
      * eexists. rewrite U. split; [reflexivity|]. left. exists WEnd. cbn. auto.
Qed.

Lemma shut_agrees ps ls : map ll_open (shut_recorded ps ls) = close_listeners ps (map ll_open ls).
Proof.
  unfold shut_recorded, close_listeners. revert ls. induction ps as [|p ps IH]; intros ls; [reflexivity|]. cbn [fold_left]. rewrite IH. f_equal.
  destruct (stop_closes (p_network p)); [|reflexivity]. destruct (nth_error ls (p_listener p)) as [l|] eqn:N.
  - rewrite map_upd'. reflexivity.
  - clear IH. revert N. generalize (p_listener p) as i. induction ls as [|a ls IH]; intros [|i] N; cbn in *; try discriminate; try reflexivity. rewrite <- (IH _ N). reflexivity.
Qed.

Lemma p_C52_stop_agrees : forall ex s o s' n, vstep ex s o s' ->
  match o with
  | VStopTest => callrun (as_calls s n) [CStop false; CGo (List.length (lp_stops s))] = Some (as_calls s' n)
  | VStopState j | VStopClose j => callstep (as_calls s n) (CGo j) = Some (as_calls s' n)
  | VOpen _ => callstep (as_calls s n) COpen = Some (as_calls s' n)
  | VStart _ => callrun (as_calls s n) [CStart; CGo (List.length (lp_stops s))] = Some (CW (as_life s') (cw_calls (as_calls s' n) ++ [CRet ROk]) (S n))
  | _ => lp_running s' = lp_running s /\ lp_stops s' = lp_stops s
  end.
Proof.
  intros ex s o s' n H. unfold as_calls, as_life.
  assert (NL : forall (x : cpc), nth_error (map as_call (lp_stops s) ++ [x]) (List.length (lp_stops s)) = Some x).
  { intros x. rewrite nth_error_app2, map_length, Nat.sub_diag by (rewrite map_length; lia). reflexivity. }
  assert (UL : forall (x y : cpc), upd (map as_call (lp_stops s) ++ [x]) (List.length (lp_stops s)) y = map as_call (lp_stops s) ++ [y]).
  { intros x y. generalize (lp_stops s). induction l as [|a l IH]; [reflexivity|]. cbn. rewrite IH. reflexivity. }
  inversion H; subst; cbn [lp_running lp_props lp_loops lp_stops lp_calls set_loop] in *; auto.
  - cbn [callstep cw_life cw_calls cw_launched]. unfold set_running. cbn [lf_props lf_listeners lf_signals lf_chan lf_chans lf_hbon lf_conns]. rewrite map_upd'. cbn [set_pc ll_open].
    rewrite upd_same'; [reflexivity|]. rewrite nth_error_map. match goal with K : nth_error (lp_loops s) i = _ |- _ => rewrite K end. reflexivity.
  - cbn [callrun callstep cw_life cw_calls cw_launched]. rewrite NL. cbn [lf_running]. match goal with K : lp_running s = true |- _ => rewrite K end. rewrite UL, map_app. reflexivity.
  - cbn [callstep cw_life cw_calls cw_launched]. rewrite nth_error_map. match goal with K : nth_error (lp_stops s) j = _ |- _ => rewrite K end. cbn [option_map as_call]. rewrite map_upd'. reflexivity.
  - cbn [callstep cw_life cw_calls cw_launched]. rewrite nth_error_map. match goal with K : nth_error (lp_stops s) j = _ |- _ => rewrite K end. cbn [option_map as_call]. rewrite map_upd', shut_agrees. reflexivity.
  - cbn [callrun callstep cw_life cw_calls cw_launched]. rewrite NL. cbn [lf_running]. match goal with K : lp_running s = false |- _ => rewrite K end. rewrite UL. reflexivity.
Qed.
