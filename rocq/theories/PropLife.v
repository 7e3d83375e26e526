(* Property theorems. Each is closed by the lemma of the same name in LifeProofs.v. *)
From Verif Require Export LifeProofs.

(* C50, the part that holds: with WithBroadCastSignal(true) called once, first, then for every
   history: as long as no Stop(true) happened the broadcast watchers close nothing, and from the
   first Stop(true) on, a connection is closed at the latest when its watcher next runs.
   Example: C50_case. *)
Theorem C50_broadcast_partial : forall hb h, no_signal_call h ->
  let s := liferun hb (h ++ [OSignals true]) in
  (fired h = false -> forall c d, conn_open (snd (lopstep (OBcast c) s)) d = conn_open s d) /\
  (fired h = true -> forall c, conn_open (snd (lopstep (OBcast c) s)) c = false).
Proof. exact p_C50_broadcast_partial. Qed.
Print Assumptions C50_broadcast_partial.

(* C50 as stated is false: it works once.  After a Stop(true), when the server runs again, another
   Stop(true) panics (the channel is closed already), and every connection accepted meanwhile is
   closed by its own watcher as soon as that runs. *)
Theorem C50_repeat_refuted : forall hb h, no_signal_call h -> fired h = true -> is_running h = true ->
  let s := liferun hb (h ++ [OSignals true]) in
  fst (Stop s true) = RPanic /\
  let s1 := snd (lopstep OAccept s) in let c := List.length (lf_conns s) in
  conn_open s1 c = true /\ conn_open (snd (lopstep (OBcast c) s1)) c = false.
Proof. exact p_C50_repeat_refuted. Qed.
Print Assumptions C50_repeat_refuted.

Example C50_case :
  let h := [OOpen; OStop true; OAccept; OAccept; OOpen; OListen "tcp" ":7171"] in
  no_signal_call h /\ fired h = true /\ is_running h = true /\
  conn_open (liferun false (h ++ [OSignals true])) 1 = true /\
  conn_open (liferun false ((OBcast 1 :: h) ++ [OSignals true])) 1 = false.
Proof. split; [intros y H; simpl in H; repeat (destruct H as [H|H]; [discriminate|]); destruct H|]. vm_compute. auto. Qed.

(* C51 as stated is false with heartbeats on: after Stop(false) every connection is closed as soon
   as its heartbeat watcher goes round its loop.
   Example: C51_case. *)
Theorem C51_stop_false_refuted : forall h c, is_running h = true -> conn_open (liferun true h) c = true ->
  conn_open (liferun true (OStop false :: h)) c = true /\ conn_open (liferun true (OHb c :: OStop false :: h)) c = false.
Proof. exact p_C51_stop_false_refuted. Qed.
Print Assumptions C51_stop_false_refuted.

(* C51, the part that holds: with heartbeats off and no Stop(true), no goroutine of the server ever
   closes a connection, before or after Stop(false). *)
Theorem C51_stop_false_partial : forall h1 h2 c,
  (forall o, In o (h2 ++ h1) -> o <> OStop true) -> (forall o, In o h2 -> o <> OGone c) ->
  conn_open (liferun false h1) c = true -> conn_open (liferun false (h2 ++ h1)) c = true.
Proof. exact p_C51_stop_false_partial. Qed.
Print Assumptions C51_stop_false_partial.

Example C51_case :
  let h := [OAccept; OOpen; OListen "tcp" ":7171"] in
  is_running h = true /\ conn_open (liferun true h) 0 = true /\
  conn_open (liferun false (OHb 0 :: OBcast 0 :: OStop false :: h)) 0 = true /\ conn_open (liferun true (OHb 0 :: OStop false :: h)) 0 = false.
Proof. vm_compute. auto. Qed.

(* C54: one record per address, holding the latest listener. *)
Theorem C54_one_record : forall hb h, let ps := lf_props (liferun hb h) in
  NoDup (map key ps) /\ (forall a, In a (map key ps) <-> In a (listens h)) /\
  (forall p, In p ps -> latest (listens h) (key p) = Some (p_listener p)).
Proof. exact p_C54_one_record. Qed.
Print Assumptions C54_one_record.

Example C54_case : lf_props (liferun false [OListen "tcp" ":1"; OListen "udp" ":1"; OStop false; OOpen; OListen "tcp" ":1"]) =
  [Prop_ "tcp" ":1" 2; Prop_ "udp" ":1" 1].
Proof. reflexivity. Qed.

(* What a successful Stop does to the listeners, exactly: number l is closed by it precisely when
   its network is written "tcp", "udp" or "kcp" and no later listen was made on its address.
   Example: C52_case. *)
Theorem C52_stop_exact : forall hb h b l nw ad, is_running h = true -> nth_error (rev (listens h)) l = Some (nw, ad) ->
  let s := liferun hb h in
  (listener_open (snd (Stop s b)) l = true <->
   listener_open s l = true /\ ~ (stopped_network nw /\ latest (listens h) (nw, ad) = Some l)).
Proof. exact p_C52_stop_exact. Qed.
Print Assumptions C52_stop_exact.

(* C52 as stated is false for every other network ListenAndServe serves: tcp4, tcp6, unix,
   unixpacket, udp4, udp6, unixgram, ip...: the listener stays open.
   Example: C52_case. *)
Theorem C52_other_networks_refuted : forall hb h b l nw ad, is_running h = true -> nth_error (rev (listens h)) l = Some (nw, ad) ->
  ~ stopped_network nw -> listener_open (liferun hb h) l = true -> listener_open (snd (Stop (liferun hb h) b)) l = true.
Proof. exact p_C52_other_networks_refuted. Qed.
Print Assumptions C52_other_networks_refuted.

(* C52, the part that holds: if every open listener is on tcp, udp or kcp and is the latest on its
   address, a successful Stop closes them all. *)
Theorem C52_stop_closes_partial : forall hb h b, is_running h = true ->
  (forall l nw ad, nth_error (rev (listens h)) l = Some (nw, ad) -> listener_open (liferun hb h) l = true ->
     stopped_network nw /\ latest (listens h) (nw, ad) = Some l) ->
  forall l, listener_open (snd (Stop (liferun hb h) b)) l = false.
Proof. exact p_C52_stop_closes_partial. Qed.
Print Assumptions C52_stop_closes_partial.

Example C52_case :
  let h := [OOpen; OListen "tcp4" ":2"; OListen "udp" ":1"; OListen "tcp" ":1"] in
  is_running h = true /\ lf_listeners (liferun false h) = [true; true; true] /\
  lf_listeners (snd (Stop (liferun false h) false)) = [false; false; true].
Proof. vm_compute. auto. Qed.

(* C53 as stated is false: for every list of at least two records, all goroutines may see the last
   value of the loop variable, and then only the last address is served.
   Example: C53_case. *)
Theorem C53_start_refuted : forall ps p, ps <> [] ->
  exists calls, starts (ps ++ [p]) calls /\ forall a, In a calls -> a = key p.
Proof. exact p_C53_start_refuted. Qed.
Print Assumptions C53_start_refuted.

(* ... and a goroutine may even combine the network of one record with the address of another. *)
Theorem C53_torn_refuted : exists ps calls a, starts ps calls /\ In a calls /\ ~ In a (map key ps).
Proof. exact p_C53_torn_refuted. Qed.
Print Assumptions C53_torn_refuted.

(* C53, the part that holds: with at most one record it is served, and the last record always is. *)
Theorem C53_start_partial : forall ps calls, starts ps calls ->
  ((List.length ps <= 1)%nat -> calls = map key ps) /\
  (forall qs p, ps = qs ++ [p] -> In (key p) calls).
Proof. exact p_C53_start_partial. Qed.
Print Assumptions C53_start_partial.

Example C53_case : starts [Prop_ "tcp" ":1" 0; Prop_ "tcp" ":2" 1] [("tcp", ":2"); ("tcp", ":2")]%string /\
  starts [Prop_ "tcp" ":1" 0] [("tcp", ":1")]%string.
Proof.
  split; (split; [reflexivity|]).
  - intros [|[|i]] nw ad H; cbn in H; inversion H; subst; [| |destruct i; discriminate]; exists 1%nat, 1%nat; eexists; eexists; cbn; repeat split; auto.
  - intros [|i] nw ad H; cbn in H; inversion H; subst; [|destruct i; discriminate]. exists 0%nat, 0%nat. eexists. eexists. cbn. repeat split; auto.
Qed.

(* C55: after any history, Stop is refused exactly when the server is not running, and then changes
   nothing; Start is refused exactly when it is running.  Stop(false) otherwise succeeds; Stop(true)
   may instead panic, see C50.
   Example: C55_case. *)
Theorem C55_stop_start : forall hb h b, let s := liferun hb h in
  (fst (Stop s b) = RErr <-> is_running h = false) /\ (is_running h = false -> Stop s b = (RErr, s)) /\
  (is_running h = true -> lf_running (snd (Stop s b)) = false /\ fst (Stop s false) = ROk) /\
  (Start s = RErr <-> is_running h = true) /\ (Start s = ROk <-> is_running h = false).
Proof. exact p_C55_stop_start. Qed.
Print Assumptions C55_stop_start.

(* C55: Restart is refused without touching anything when Stop is; otherwise it runs its hooks in
   order on the stopped server, and succeeds unless they left it running. *)
Theorem C55_restart : forall hb h b hooks, let s := liferun hb h in
  match Stop s b with
  | (ROk, s1) => lf_running s1 = false /\
      Restart s b hooks = ((if lf_running (fold_left (fun s f => f s) hooks s1) then RErr else ROk), fold_left (fun s f => f s) hooks s1)
  | (r, s1) => Restart s b hooks = (r, s1)
  end.
Proof. exact p_C55_restart. Qed.
Print Assumptions C55_restart.

Example C55_case :
  let h := [OOpen; OListen "tcp" ":1"] in
  is_running h = true /\ fst (Restart (liferun false h) false [fun s => s]) = ROk /\
  fst (Restart (liferun false h) false [fun s => set_running s true]) = RErr /\ fst (Restart (liferun false []) false []) = RErr.
Proof. vm_compute. auto. Qed.

(* C62 as stated is false: for every datagram ever received with heartbeats on, once three intervals
   of its watcher pass without a heartbeat for that very datagram - whatever other peers send and
   beat meanwhile - the one socket is closed and no datagram of any peer is received again.
   Example: C62_case. *)
Theorem C62_udp_heartbeat_refuted : forall os0 u u1 os u',
  uruns (udp0 true) os0 u -> ustep u UDatagram u1 -> uruns u1 os u' ->
  let k := List.length (ud_ctxs u) in
  beats os k = 0%nat -> expiries os k = 3%nat ->
  ud_open u' = false /\ forall os' u'', uruns u' os' u'' -> ud_open u'' = false /\ ~ In UDatagram os'.
Proof. exact p_C62_udp_heartbeat_refuted. Qed.
Print Assumptions C62_udp_heartbeat_refuted.

(* C62, the part that holds: with heartbeats off nothing closes the socket, and the
   next datagram can always be received.
   Example: C62_off_case. *)
Theorem C62_udp_no_heartbeat_partial : forall os u, uruns (udp0 false) os u -> ud_open u = true /\ ud_errs u = 0%nat /\ exists u', ustep u UDatagram u'.
Proof. exact p_C62_udp_no_heartbeat_partial. Qed.
Print Assumptions C62_udp_no_heartbeat_partial.

Example C62_off_case : exists u, uruns (udp0 false) [UDatagram; UDatagram] u /\ List.length (ud_ctxs u) = 2%nat.
Proof. eexists. split; [eapply ur_cons; [constructor; reflexivity|]; eapply ur_cons; [constructor; reflexivity|]; constructor|reflexivity]. Qed.

(* C62, exactly when: the socket is closed exactly when some datagram's watcher has counted three
   intervals in a row without a heartbeat for that datagram, and then no datagram is received any more;
   until then each watcher goes on, taking heartbeats and counting intervals, and afterwards it does neither.
   Example: C62_case. *)
Theorem C62_udp_exact : forall hb os u, uruns (udp0 hb) os u ->
  (ud_open u = false <-> exists k, silence (rev os) k = 3%nat) /\
  ((exists u', ustep u UDatagram u') <-> forall k, silence (rev os) k <> 3%nat) /\
  forall k o, o = UBeat k \/ o = UExpire k ->
    ((exists u', ustep u o u') <-> hb = true /\ (k < datagrams (rev os))%nat /\ (silence (rev os) k < 3)%nat).
Proof. exact p_C62_udp_exact. Qed.
Print Assumptions C62_udp_exact.

(* ... and from then on the loop does nothing but fail to read and log it, any number of times.
   Example: C62_case. *)
Theorem C62_udp_spins_refuted : forall hb os u, uruns (udp0 hb) os u -> ud_open u = false ->
  forall n, exists u', uruns u (repeat UReadFails n) u' /\ ud_errs u' = (n + ud_errs u)%nat /\ ud_open u' = false.
Proof. exact p_C62_udp_spins_refuted. Qed.
Print Assumptions C62_udp_spins_refuted.

(* datagram 0 has no beats; datagram 1, from another peer, keeps beating *)
Example C62_case : exists u u1 u', uruns (udp0 true) [] u /\ ustep u UDatagram u1 /\
  uruns u1 [UDatagram; UExpire 0; UBeat 1; UExpire 0; UBeat 1; UExpire 0; UReadFails] u' /\ ud_open u' = false /\ ud_errs u' = 1%nat.
Proof.
  eexists. eexists. eexists. split; [constructor|]. split; [constructor; reflexivity|]. split.
  - eapply ur_cons; [constructor; reflexivity|]. cbn [app ud_hb udp0 ud_ctxs ud_open ud_running ud_errs].
    eapply ur_cons; [eapply u_expire; [reflexivity|reflexivity|cbn; lia]|]. cbn [upd ud_hb ud_ctxs ud_open ud_running ud_errs uc_times].
    eapply ur_cons; [eapply u_beat; reflexivity|]. cbn [upd ud_hb ud_ctxs ud_open ud_running ud_errs uc_times].
    eapply ur_cons; [eapply u_expire; [reflexivity|reflexivity|cbn; lia]|]. cbn [upd ud_hb ud_ctxs ud_open ud_running ud_errs uc_times].
    eapply ur_cons; [eapply u_beat; reflexivity|]. cbn [upd ud_hb ud_ctxs ud_open ud_running ud_errs uc_times].
    eapply ur_cons; [eapply u_loss; [reflexivity|reflexivity|cbn; lia]|]. cbn [upd ud_hb ud_ctxs ud_open ud_running ud_errs uc_times].
    eapply ur_cons; [eapply u_fail; reflexivity|]. constructor.
  - split; reflexivity.
Qed.

(* C50: a server without the signals: Stop never panics, and no connection has a watcher waiting for the
   broadcast.
   Example: C50_no_signals_case. *)
Theorem C50_no_signals : forall hb h, no_signal_call h ->
  (forall b, fst (Stop (liferun hb h) b) <> RPanic) /\ forall k, In k (lf_conns (liferun hb h)) -> lv_bcast k = false.
Proof. exact p_C50_no_signals. Qed.
Print Assumptions C50_no_signals.

Example C50_no_signals_case : let h := [OAccept; OOpen; OListen "tcp" ":1"] in no_signal_call h /\
  fst (Stop (liferun true h) true) = ROk /\ List.length (lf_conns (liferun true h)) = 1%nat.
Proof. split; [|split; reflexivity]. intros b H. repeat (destruct H as [H|H]; [discriminate|]). destruct H. Qed.
