(* Property theorems. Each is closed by the lemma of the same name in GorProofs.v. *)
From Verif Require Export GorProofs.

(* C90, the part that holds.  For every execution, whatever is switched on: when the goroutine
   of a TCP or raw connection has ended, or anybody has called CloseConn on it, then its reading and
   watching goroutines can all end without waiting for anything else, and they
   stay able to: whatever happens next, they can still end. *)
Theorem C90_connection_partial : forall sg bt au os w c s, gsteps sg bt au gworld0 os w -> from_src w c s -> s <> FromUdp ->
  ((~ runs_for w GReader c /\ ~ runs_for w GRaw c) \/ ended w c = true) ->
  forall os1 w1, gsteps sg bt au w os1 w1 ->
  exists os2 w2, only_ends os2 /\ gsteps sg bt au w1 os2 w2 /\ gone w2 c.
Proof. exact p_C90_connection_partial. Qed.
Print Assumptions C90_connection_partial.

Example C90_case : exists w, gsteps true true true gworld0 [GNew FromTcp; GMsg 0; GEnd 3 WPeer] w /\ from_src w 0 FromTcp /\ ~ runs_for w GReader 0 /\ ~ runs_for w GRaw 0 /\
  runs_for w GBroadcast 0 /\ runs_for w GBeat 0 /\ runs_for w GAuth 0.
Proof.
  eexists. split.
  - eapply gr_cons; [apply gs_new|]. eapply gr_cons; [apply (gs_msg _ _ _ _ 0 3); reflexivity|].
    eapply gr_cons; [apply (gs_end _ _ _ _ 3 GReader 0 WPeer true); reflexivity|]. apply gr_nil.
  - split; [eexists; split; reflexivity|]. unfold runs_for. cbn. split; [|split; [|auto 10]];
    intros H; repeat (destruct H as [H|H]; [discriminate|]); destruct H.
Qed.

(* C90 is false for datagrams: with WithBroadCastSignal every datagram leaves a goroutine behind
   that nothing ends: as long as no context is closed and the server is not stopped, at least as
   many goroutines run as datagrams have arrived, although all their handlers may have returned. *)
Theorem C90_datagram_refuted : forall bt au os w, gsteps true bt au gworld0 os w -> (forall o, In o os -> harmless o) ->
  (datagrams os <= live w)%nat /\ forall c, from_src w c FromUdp -> runs_for w GBroadcast c /\ forall i y b, ~ (nth_error (gw_gors w) i = Some (G GBroadcast c true) /\ may_end w GBroadcast c y = Some b).
Proof. exact p_C90_datagram_refuted. Qed.
Print Assumptions C90_datagram_refuted.

(* two datagrams, both handled, both leave a goroutine *)
Example C90_datagram_case : exists w, gsteps true false false gworld0 [GNew FromUdp; GEnd 1 WDone; GNew FromUdp; GEnd 3 WDone] w /\
  (forall o, In o [GNew FromUdp; GEnd 1 WDone; GNew FromUdp; GEnd 3 WDone] -> harmless o) /\ live w = 2%nat /\
  ~ runs_for w GHandler 0 /\ ~ runs_for w GHandler 1.
Proof.
  eexists. split; [|split; [|split; [|split]]].
  - eapply gr_cons; [apply gs_new|]. eapply gr_cons; [apply (gs_end _ _ _ _ 1 GHandler 0 WDone false); reflexivity|].
    eapply gr_cons; [apply gs_new|]. eapply gr_cons; [apply (gs_end _ _ _ _ 3 GHandler 1 WDone false); reflexivity|]. apply gr_nil.
  - intros o H. repeat (destruct H as [<-|H]; [exact I|]). destruct H.
  - reflexivity.
  - unfold runs_for. cbn. intros H. repeat (destruct H as [H|H]; [discriminate|]). destruct H.
  - unfold runs_for. cbn. intros H. repeat (destruct H as [H|H]; [discriminate|]). destruct H.
Qed.

(* C90, the other way round: no goroutine ends early.  The broadcast ends one only after a Stop(true)
   of a server with signals, the state only after a Stop. *)
Theorem C90_not_early : forall sg bt au os w, gsteps sg bt au gworld0 os w -> forall i,
  (In (GEnd i WAll) os -> sg = true /\ In (GStop true) os) /\ (In (GEnd i WStop) os -> exists all, In (GStop all) os).
Proof. exact p_C90_not_early. Qed.
Print Assumptions C90_not_early.

Example C90_not_early_case : exists w, gsteps true true true gworld0 [GNew FromTcp; GStop true; GEnd 0 WAll; GEnd 1 WStop] w.
Proof.
  eexists. eapply gr_cons; [apply gs_new|]. eapply gr_cons; [apply gs_stop|].
  eapply gr_cons; [eapply (gs_end _ _ _ _ 0 _ _ WAll); reflexivity|]. eapply gr_cons; [eapply (gs_end _ _ _ _ 1 _ _ WStop); reflexivity|]. apply gr_nil.
Qed.

(* C90, the handling goroutines: messages of a connection start them as long as its reading
   goroutine runs, and none is started after that one has ended. *)
Theorem C90_handlers : forall sg bt au w c s, from_src w c s ->
  (runs_for w GReader c -> exists w', gstep sg bt au w (GMsg c) w' /\ runs_for w' GHandler c) /\
  (~ runs_for w GReader c -> forall os1 w1, gsteps sg bt au w os1 w1 -> ~ In (GMsg c) os1 /\ ~ runs_for w1 GReader c).
Proof. exact p_C90_handlers. Qed.
Print Assumptions C90_handlers.

Example C90_handlers_case : exists w w', gsteps true true true gworld0 [GNew FromTcp] w /\ from_src w 0 FromTcp /\ runs_for w GReader 0 /\
  gsteps true true true w [GMsg 0; GEnd 3 WPeer; GEnd 4 WDone] w' /\ from_src w' 0 FromTcp /\ ~ runs_for w' GReader 0.
Proof.
  eexists. eexists. split; [eapply gr_cons; [apply gs_new|apply gr_nil]|]. split; [eexists; split; reflexivity|]. split; [cbn; unfold runs_for; cbn; auto 10|]. split.
  - eapply gr_cons; [apply (gs_msg _ _ _ _ 0 3); reflexivity|].
    eapply gr_cons; [apply (gs_end _ _ _ _ 3 GReader 0 WPeer true); reflexivity|].
    eapply gr_cons; [apply (gs_end _ _ _ _ 4 GHandler 0 WDone false); reflexivity|]. apply gr_nil.
  - split; [eexists; split; reflexivity|]. unfold runs_for. cbn. intros H. repeat (destruct H as [H|H]; [discriminate|]). destruct H.
Qed.

(* C90: which goroutines take their connection with them when they end: the reader and the raw
   goroutine always, the watchers for their timers, a denial or a stopped server, but not when the
   connection is closed already, a login passes or OnHeartbeatLoss panics; and nothing else is closed.
   Example: C90_closing_case. *)
Theorem C90_closing : forall sg bt au w i k c y w', nth_error (gw_gors w) i = Some (G k c true) -> gstep sg bt au w (GEnd i y) w' ->
  forall c', ended w' c' = true <-> ended w c' = true \/ (c' = c /\ closes k y /\ (c < List.length (gw_ctxs w))%nat).
Proof. exact p_C90_closing. Qed.
Print Assumptions C90_closing.

(* the heartbeat watcher panics: the connection stays; the auth watcher's deadline: it is closed *)
Example C90_closing_case : exists w w1 w2, gsteps false true true gworld0 [GNew FromTcp] w /\
  nth_error (gw_gors w) 0 = Some (G GBeat 0 true) /\ nth_error (gw_gors w) 1 = Some (G GAuth 0 true) /\
  gstep false true true w (GEnd 0 WPanic) w1 /\ ended w1 0 = false /\ gstep false true true w1 (GEnd 1 WTime) w2 /\ ended w2 0 = true.
Proof.
  do 3 eexists. split; [eapply gr_cons; [apply gs_new|apply gr_nil]|]. split; [reflexivity|]. split; [reflexivity|].
  split; [eapply (gs_end _ _ _ _ 0 GBeat 0 WPanic false); reflexivity|]. split; [reflexivity|]. split; [eapply (gs_end _ _ _ _ 1 GAuth 0 WTime true); reflexivity|]. reflexivity.
Qed.

(* C90: and the watchers do see the stop: the heartbeat watcher can end for it exactly while the server is
   stopped; every watcher can end for the broadcast exactly from the first Stop(true) of a server with
   signals on.
   Example: C90_not_early_case. *)
Theorem C90_stop_seen : forall sg bt au os w i k c, gsteps sg bt au gworld0 os w -> nth_error (gw_gors w) i = Some (G k c true) ->
  ((exists w', gstep sg bt au w (GEnd i WStop) w') <-> k = GBeat /\ stopped os = true) /\
  ((exists w', gstep sg bt au w (GEnd i WAll) w') <-> (k = GBroadcast \/ k = GBeat \/ k = GAuth) /\ all_signalled sg os).
Proof. exact p_C90_stop_seen. Qed.
Print Assumptions C90_stop_seen.

(* C90: what a new context starts: on every server the broadcast watcher with signals on and the heartbeat
   watcher with heartbeats on; the auth watcher only on the TCP server; and exactly one goroutine that
   reads (TCP), runs the raw handler, or handles the one datagram (UDP).
   Example: C90_started_case. *)
Theorem C90_started : forall sg bt au w src w' k, gstep sg bt au w (GNew src) w' ->
  let c := List.length (gw_ctxs w) in
  List.length (gw_ctxs w') = (c + 1)%nat /\
  (forall g, In g (gw_gors w) -> In g (gw_gors w')) /\
  ((exists n, nth_error (gw_gors w') (List.length (gw_gors w) + n) = Some (G k c true)) <->
   match k with
   | GBroadcast => sg = true
   | GBeat => bt = true
   | GAuth => au = true /\ src = FromTcp
   | GReader => src = FromTcp
   | GRaw => src = FromRaw
   | GHandler => src = FromUdp
   end).
Proof. exact p_C90_started. Qed.
Print Assumptions C90_started.

Example C90_started_case : exists w, gstep true true true gworld0 (GNew FromUdp) w /\ map g_kind (gw_gors w) = [GBroadcast; GBeat; GHandler].
Proof. eexists. split; [constructor|reflexivity]. Qed.
