(* Property theorems. Each is closed by the lemma of the same name in CtxFieldProofs.v. *)
From Verif Require Export CtxFieldProofs.

(* the integer behind userState is never raced, whatever the handlers do
   Example: C105_case, C105_raw_case, C105_udp_case. *)
Theorem C105_state_partial : forall o ws p, tcp_conn o p \/ raw_conn o p \/ udp_datagram o ws p -> race_free UserState [p].
Proof. exact p_C105_state_partial. Qed.
Print Assumptions C105_state_partial.

(* TCP: no field of the connection's contexts is raced if there is no OnHeartbeatLoss and handlers do
   not go on using their context in goroutines of their own
   Example: C105_case. *)
Theorem C105_tcp_partial : forall o p x, tcp_conn o p -> co_loss o = false -> co_back o = false -> race_free x [p].
Proof. exact p_C105_tcp_partial. Qed.
Print Assumptions C105_tcp_partial.

Theorem C105_raw_partial : forall o p x, raw_conn o p -> co_loss o = false -> co_back o = false -> race_free x [p].
Proof. exact p_C105_raw_partial. Qed.
Print Assumptions C105_raw_partial.

(* a raw connection in the pool whose handler writes and whose OnClose looks at the state *)
Example C105_raw_case : exists p m, raw_conn (Copts false false true) p /\ asteps (launch [p]) m /\ List.length (mc_threads m) = 3%nat.
Proof.
  pose (r := call false MInitReaderAndWriter 0 (whole 0 (rd 2 [CHandlers; CHandlers] (PWr (Of 2 CHandlers) (rd 2 [CHandlers]
        (call false MNext 2 (pthen (call false MReply 2 (call false MClientIP 2 PEnd)) (call false MReset 2 (pthen (call false MIsOnline 0 PEnd) (CloseConn false true 0 PEnd)))))))))).
  pose (w := conn_value false 0 (rd 0 [CRecvEnd] (CloseConn false true 0 PEnd))).
  pose (p := PWr (Of 0 CPoolRef) (pthen PEnd (fold_right PGo (PGo r PEnd) [w]))).
  destruct (schedule (launch [p]) (repeat 0 3 ++ repeat 2 30)%nat) as [m|] eqn:E; [|vm_compute in E; discriminate].
  exists p, m. split; [|split; [exact (schedule_ok _ _ _ E)|vm_compute in E; injection E as <-; reflexivity]].
  apply (t_raw (Copts false false true) true PEnd [w] r); [constructor|constructor; [repeat constructor|constructor]|].
  unfold r. apply w_raw; repeat constructor.
Qed.

(* a datagram, with neither heartbeat nor broadcast signal and without Online *)
Theorem C105_udp_partial : forall o ws p x, udp_datagram o ws p -> Forall (eq PEnd) ws -> co_pool o = false -> co_back o = false -> race_free x [p].
Proof. exact p_C105_udp_partial. Qed.
Print Assumptions C105_udp_partial.

(* a datagram whose handler stores for the request and answers *)
Example C105_udp_case : exists p m, udp_datagram (Copts false false false) [PEnd; PEnd] p /\ Forall (eq PEnd) [@PEnd cloc; PEnd] /\ asteps (launch [p]) m /\ List.length (mc_threads m) = 4%nat.
Proof.
  pose (h := whole 0 (rd 0 [CStream; CHandlers; CHandlers] (PWr (Of 0 CHandlers) (rd 0 [CHandlers]
        (call true MNext 0 (pthen (call true MRequestValue 0 (call true MReply 0 PEnd)) (call true MReset 0 PEnd))))))).
  pose (p := fold_right PGo (PWr (Of 0 CPoolRef) (PWr (Of 0 CStream) (PGo h PEnd))) [PEnd; PEnd]).
  destruct (schedule (launch [p]) (repeat 0 5 ++ repeat 3 30)%nat) as [m|] eqn:E; [|vm_compute in E; discriminate].
  exists p, m. split; [|split; [repeat constructor|split; [exact (schedule_ok _ _ _ E)|vm_compute in E; injection E as <-; reflexivity]]].
  apply (t_udp (Copts false false false) [PEnd; PEnd] true h); [repeat constructor|]. unfold h. apply h_chain. repeat constructor.
Qed.

(* OnHeartbeatLoss is given a copy of the connection's context, made while the reader stores the next message in it *)
Theorem C105_loss_refuted : exists p m, tcp_conn (Copts true false false) p /\ asteps (launch [p]) m /\ race (Of 0 CStream) m.
Proof. exact p_C105_loss_refuted. Qed.
Print Assumptions C105_loss_refuted.

(* the same on a raw connection, whose goroutine sets the context's reader and writer *)
Theorem C105_raw_refuted : exists p m, raw_conn (Copts true false false) p /\ asteps (launch [p]) m /\ race (Of 0 CConnReader) m.
Proof. exact p_C105_raw_refuted. Qed.
Print Assumptions C105_raw_refuted.

(* a handler starts a goroutine that asks for the ClientIP: the whole context is copied while the
   chain goes on *)
Theorem C105_background_refuted : exists p m, tcp_conn (Copts false true false) p /\ asteps (launch [p]) m /\ race (Of 2 COffset) m.
Proof. exact p_C105_background_refuted. Qed.
Print Assumptions C105_background_refuted.

(* a datagram's watchers are started before its context gets its pool *)
Theorem C105_udp_pool_refuted : exists ws p m, udp_datagram (Copts false false false) ws p /\ asteps (launch [p]) m /\ race (Of 0 CPoolRef) m.
Proof. exact p_C105_udp_pool_refuted. Qed.
Print Assumptions C105_udp_pool_refuted.

(* its heartbeat watcher looks for the channel among the values of the request, which Reset replaces *)
Theorem C105_udp_reset_refuted : exists ws p m, udp_datagram (Copts false false false) ws p /\ asteps (launch [p]) m /\ race (Of 0 CPerRequest) m.
Proof. exact p_C105_udp_reset_refuted. Qed.
Print Assumptions C105_udp_reset_refuted.

(* two messages handled at the same time, one of whose handlers went Online and is written to *)
Example C105_case : exists p m, tcp_conn (Copts false false true) p /\ asteps (launch [p]) m /\ List.length (mc_threads m) = 6%nat.
Proof.
  pose (f := IsOnline 2 (Reply false 2 PEnd)).
  pose (h2 := whole 2 (rd 2 [CStream] (conn_value false 2 (rd 2 [CPoolRef; CPoolRef] (PGo f PEnd))))).
  pose (h3 := whole 3 (rd 3 [CStream; CHandlers; CHandlers] (PWr (Of 3 CHandlers) (rd 3 [CHandlers] (call false MNext 3 (pthen (call false MReply 3 PEnd) (call false MReset 3 PEnd))))))).
  pose (r3 := rd 0 [CPackx; CConn] (PWr (Of 0 CStream) (whole 0 (rd 3 [CStream] (PGo h3 (rd 0 [CPackx; CConn] (PWr (Of 0 CStream) (CloseConn false true 0 PEnd)))))))).
  pose (r := rd 0 [CPackx; CConn] (PWr (Of 0 CStream) (whole 0 (rd 2 [CStream] (PGo h2 r3))))).
  pose (w := rd 0 [CRecvEnd; CRecvAuth] (CloseConn false true 0 PEnd)).
  pose (p := PWr (Of 0 CPoolRef) (pthen PEnd (fold_right PGo (PGo r PEnd) [w]))).
  destruct (schedule (launch [p]) (repeat 0 3 ++ repeat 2 42 ++ repeat 3 22)%nat) as [m|] eqn:E; [|vm_compute in E; discriminate].
  exists p, m. split; [|split; [exact (schedule_ok _ _ _ E)|vm_compute in E; injection E as <-; reflexivity]].
  apply (t_conn (Copts false false true) true PEnd [w] r); [constructor|constructor; [repeat constructor|constructor]|].
  unfold r. apply d_message.
  - unfold h2. apply h_alone. apply u_online; [reflexivity| |constructor]. unfold f. repeat constructor.
  - unfold r3. apply d_message; [|constructor]. unfold h3. apply h_chain. apply u_call. constructor.
Qed.
