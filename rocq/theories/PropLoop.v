(* Property theorems. Each is closed by the lemma of the same name in LoopProofs.v. *)
From Verif Require Export LoopProofs.

(* C55 with the goroutines of all listening loops and of all calls of Stop interleaved: Stop passes its
   test exactly when the last thing that happened to the state was a loop's openState, Start exactly
   when it was not. *)
Theorem C55_interleaved : forall ex os s, vruns ex loops0 os s ->
  lp_running s = said_running os /\ ((exists s', vstep ex s VStopTest s') <-> said_running os = true) /\
  ((exists calls s', vstep ex s (VStart calls) s') <-> said_running os = false).
Proof. exact p_C55_interleaved. Qed.
Print Assumptions C55_interleaved.

Example C55_interleaved_case : said_running (listen_ops KTcp "tcp" ":1") = true /\ said_running (listen_ops KTcp "tcp" ":1" ++ stop_ops) = false /\
  exists s, vruns (fun _ _ => true) loops0 (listen_ops KTcp "tcp" ":1" ++ stop_ops) s.
Proof. split; [reflexivity|]. split; [reflexivity|]. eexists. apply vdos_sound; vm_compute; reflexivity. Qed.

(* C73: once the server is stopped (and until it is opened again) every listening loop accepts at
   most one more connection - only if it was inside Accept or ReadFrom - and takes at most three
   more steps.
   Example: C73_case. *)
Theorem C73_after_stop : forall ex s os s', vruns ex s os s' -> lp_running s = false -> not_opened os ->
  forall i, (conns_on i os <= 1)%nat /\ (loop_pc s i <> Some QRead -> conns_on i os = 0%nat) /\ (own_steps i os <= 3)%nat.
Proof. exact p_C73_after_stop. Qed.
Print Assumptions C73_after_stop.

(* C73, the part that holds: a listener recorded for a "tcp", "udp" or "kcp" address accepts nothing
   after Stop has closed the listeners, whatever happens next.
   Example: C73_case. *)
Theorem C73_recorded_partial : forall ex s j s1 i os s2, vstep ex s (VStopClose j) s1 -> nth_error (lp_loops s) i <> None -> recorded s i ->
  vruns ex s1 os s2 -> conns_on i os = 0%nat /\ loop_open s2 i = false.
Proof. exact p_C73_recorded_partial. Qed.
Print Assumptions C73_recorded_partial.

(* C73 fails on every other network: a server listening on tcp4, say, is stopped, and afterwards a
   connection is accepted and served.
   Example: C73_case. *)
Theorem C73_other_network_refuted : forall ex nw ad, ~ stopped_network nw ->
  exists s, vruns ex loops0 (listen_ops KTcp nw ad ++ stop_ops ++ [VConn 0; VServe 0 false]) s.
Proof. exact p_C73_other_network_refuted. Qed.
Print Assumptions C73_other_network_refuted.

(* tcp against tcp4: after Stop the first accepts nothing, the second still does *)
Example C73_case : (~ stopped_network "tcp4") /\ stopped_network "tcp" /\
  exists s, vruns (fun _ _ => true) loops0 (listen_ops KTcp "tcp4" ":7171" ++ stop_ops ++ [VConn 0; VServe 0 false]) s.
Proof.
  assert (N : ~ stopped_network "tcp4") by (intros [X|[X|X]]; discriminate). split; [exact N|split; [left; reflexivity|]].
  apply p_C73_other_network_refuted. exact N.
Qed.

(* C74: when ListenAndServeTCP or ListenAndServeRaw has returned its listener is closed, and it
   stays closed.
   Example: C74_case. *)
Theorem C74_returned_closed : forall ex s i l, vreach ex s -> nth_error (lp_loops s) i = Some l -> udp_kind (ll_kind l) = false -> ll_pc l = QDone ->
  ll_open l = false /\ forall os s', vruns ex s os s' -> loop_open s' i = false.
Proof. exact p_C74_returned_closed. Qed.
Print Assumptions C74_returned_closed.

(* C74 fails for UDP on a network Stop does not close, udp4 say: ListenAndServeUDP waits in select{}
   for ever, its deferred Close never runs.  After Stop the receive loop has ended, the socket is
   open, and remains so for good; nothing can listen on the address again.
   Example: C73_case. *)
Theorem C74_udp_refuted : forall ex size nw ad, ~ stopped_network nw ->
  exists s, vruns ex loops0 (listen_ops (KUdp size) nw ad ++ stop_ops ++ [VConn 0; VCheck 0]) s /\
    loop_pc s 0 = Some QDone /\
    forall os s', vruns ex s os s' -> ~ In (VSock 0) os -> loop_open s' 0 = true /\ (ex nw ad = true -> taken ex s' nw ad = true).
Proof. exact p_C74_udp_refuted. Qed.
Print Assumptions C74_udp_refuted.

Example C74_case : exists s, vruns (fun _ _ => true) loops0 (listen_ops KTcp "tcp" ":1" ++ stop_ops ++ [VFail 0 false]) s /\
  loop_pc s 0 = Some QDone /\ loop_open s 0 = false.
Proof.
  eexists. split; [apply vdos_sound; vm_compute; reflexivity|]. split; reflexivity.
Qed.

(* C75, the part that holds: as long as nobody stops the server, Accept does not fail and OnConnect
   does not panic, a loop stays in its for with its listener open, and its next step can be taken.
   Example: C75_case. *)
Theorem C75_keeps_accepting_partial : forall ex s os s' i l, vruns ex s os s' -> nth_error (lp_loops s) i = Some l ->
  lp_running s = true -> looping (ll_pc l) -> ll_open l = true ->
  (forall o, In o os -> match o with VStopState _ | VStopClose _ => False | VSock j | VFail j _ | VServe j true => j <> i | _ => True end) ->
  exists l', nth_error (lp_loops s') i = Some l' /\ looping (ll_pc l') /\ ll_open l' = true /\ lp_running s' = true /\
    exists o s2, own_step i o = true /\ vstep ex s' o s2.
Proof. exact p_C75_keeps_accepting_partial. Qed.
Print Assumptions C75_keeps_accepting_partial.

(* C75 fails when Accept fails once (too many open files, say) or when OnConnect panics: the
   listener is closed and the loop is over while the server still says it is running - so that
   Start refuses - and nothing is ever accepted there again.
   Example: C75_case. *)
Theorem C75_one_error_refuted : forall ex s i l o s1, nth_error (lp_loops s) i = Some l -> udp_kind (ll_kind l) = false ->
  lp_running s = true -> (exists eof, o = VFail i eof) \/ o = VServe i true -> vstep ex s o s1 ->
  lp_running s1 = true /\ loop_pc s1 i = Some QDone /\ loop_open s1 i = false /\
  (forall calls s2, ~ vstep ex s1 (VStart calls) s2) /\
  forall os s2, vruns ex s1 os s2 -> conns_on i os = 0%nat.
Proof. exact p_C75_one_error_refuted. Qed.
Print Assumptions C75_one_error_refuted.

Example C75_case : exists s1, vstep (fun _ _ => true) (LPS true [Prop_ "tcp" ":1" 0] [LL KTcp "tcp" ":1" true QRead] [] []) (VFail 0 false) s1 /\
  lp_running s1 = true /\ loop_open s1 0 = false.
Proof. eexists. split; [eapply v_fail; reflexivity|]. split; reflexivity. Qed.

(* C76 fails: what Start calls is ListenAndServe with the recorded network and address, so a server
   that ListenAndServeRaw was running comes back as a packet server, and one with a UDP buffer size
   of its own comes back with the default.
   Example: C76_raw_case. *)
Theorem C76_kind_lost_refuted : forall ex s calls s1, vstep ex s (VStart calls) s1 ->
  exists new, lp_calls s1 = lp_calls s ++ new /\
    forall k nw ad, In (k, nw, ad) new -> In (nw, ad) calls /\ k <> KRaw /\ (forall size, k <> KUdp (Some size)).
Proof. exact p_C76_kind_lost_refuted. Qed.
Print Assumptions C76_kind_lost_refuted.

(* a raw server is stopped and started again *)
Example C76_raw_case : exists s, vruns (fun _ _ => true) loops0 (listen_ops KRaw "tcp" ":1" ++ stop_ops ++ [VFail 0 false; VStart [("tcp", ":1")%string]; VListen 0; VFill 1; VOpen 1; VCheck 1]) s /\
  serves s KTcp "tcp" ":1" /\ ~ serves s KRaw "tcp" ":1".
Proof.
  eexists. split; [apply vdos_sound; vm_compute; reflexivity|]. split.
  - split; [reflexivity|]. exists (LL KTcp "tcp" ":1" true QRead). cbn. auto 9.
  - intros (_ & l & H & K & _ & _ & _ & P). cbn in H. destruct H as [<-|[<-|[]]]; [discriminate P|discriminate K].
Qed.

(* C76 fails on a network Stop does not close: the old loop is still inside Accept, so listening on
   the address again fails.  Until a client connects to the stopped server (or Accept fails), the
   restarted server never runs.
   Example: C76_case. *)
Theorem C76_not_resumed_refuted : forall ex nw ad, ~ stopped_network nw -> ex nw ad = true ->
  exists s, vruns ex loops0 (listen_ops KTcp nw ad ++ stop_ops ++ [VStart [(nw, ad)]]) s /\
    forall os s', vruns ex s os s' -> (forall o, In o os -> match o with VConn i | VFail i _ => i <> 0%nat | VCall _ _ _ => False | _ => True end) ->
      lp_running s' = false /\ List.length (lp_loops s') = 1%nat.
Proof. exact p_C76_not_resumed_refuted. Qed.
Print Assumptions C76_not_resumed_refuted.

Example C76_case : ~ stopped_network "tcp4" /\ exists s, vruns (fun _ _ => true) loops0 (listen_ops KTcp "tcp4" ":1" ++ stop_ops ++ [VStart [("tcp4", ":1")]]%string) s.
Proof.
  assert (N : ~ stopped_network "tcp4") by (intros [X|[X|X]]; discriminate). split; [exact N|].
  destruct (p_C76_not_resumed_refuted (fun _ _ => true) "tcp4" ":1" N eq_refl) as (s & V & _). eauto.
Qed.

(* C76: what Start brings back: on the stream networks a TCP server, on the packet networks a UDP server
   with no buffer size (so the default), on any other network, "kcp" among them, nothing.
   Example: C76_start_kind_case. *)
Theorem C76_start_kind : forall nw,
  (SpecListen.stream_network (str_bytes nw) -> start_kind nw = Some KTcp) /\
  (SpecListen.packet_network (str_bytes nw) -> start_kind nw = Some (KUdp None)) /\
  (~ SpecListen.stream_network (str_bytes nw) -> ~ SpecListen.packet_network (str_bytes nw) -> start_kind nw = None).
Proof. exact p_C76_start_kind. Qed.
Print Assumptions C76_start_kind.

Example C76_start_kind_case : map start_kind ["tcp6"; "udp"; "ip4:icmp"; "kcp"; "http"]%string = [Some KTcp; Some (KUdp None); Some (KUdp None); None; None] /\
  SpecListen.stream_network (str_bytes "tcp6") /\ SpecListen.packet_network (str_bytes "ip4:icmp").
Proof.
  split; [reflexivity|]. split; [right; right; left; reflexivity|]. right. exists (str_bytes "4:icmp"). reflexivity.
Qed.

(* C76, the part that holds: on "tcp", "udp" and "kcp", once Stop has closed the listeners the
   address is free again, and a Start that calls it can bring the service back.
   Example: C76_resumes_case. *)
Theorem C76_resumes_partial : forall ex s j s1 calls s2 nw ad k, vreach ex s -> vstep ex s (VStopClose j) s1 ->
  stopped_network nw -> ex nw ad = true -> (forall i l, nth_error (lp_loops s) i = Some l -> ll_net l = nw -> ll_addr l = ad -> ll_pc l <> QFill) ->
  vstep ex s1 (VStart calls) s2 -> In (nw, ad) calls -> start_kind nw = Some k ->
  exists os s3, vruns ex s2 os s3 /\ serves s3 k nw ad.
Proof. exact p_C76_resumes_partial. Qed.
Print Assumptions C76_resumes_partial.

(* the hypotheses are met by a plain tcp server *)
Example C76_resumes_case : exists s s1 s2, vruns (fun _ _ => true) loops0 (listen_ops KTcp "tcp" ":1" ++ [VStopTest; VStopState 0]) s /\
  vstep (fun _ _ => true) s (VStopClose 0) s1 /\ vstep (fun _ _ => true) s1 (VStart [("tcp", ":1")]%string) s2 /\ start_kind "tcp" = Some KTcp.
Proof.
  do 3 eexists. split; [|split; [|split]].
  - apply vdos_sound. vm_compute. reflexivity.
  - apply v_stop_close. reflexivity.
  - apply v_start; [reflexivity|]. split; [reflexivity|]. intros [|[|i]] nw ad H; inversion H; subst. exists 0%nat, 0%nat. eexists. eexists. cbn. repeat split; auto.
  - vm_compute. reflexivity.
Qed.

(* C77 fails for UDP: if the server is running again before the receive loop has looked at the
   state, the loop reads its closed socket, logs, and looks again - for ever, without waiting.
   Example: C77_spins_case. *)
Theorem C77_udp_spins_refuted : forall ex s i l, nth_error (lp_loops s) i = Some l -> udp_kind (ll_kind l) = true -> ll_open l = false ->
  ll_pc l = QRead -> lp_running s = true ->
  vruns ex s [VFail i false; VCheck i] s /\ (forall s', ~ vstep ex s (VConn i) s').
Proof. exact p_C77_udp_spins_refuted. Qed.
Print Assumptions C77_udp_spins_refuted.

(* that state is reached by stopping and starting a server on "udp" *)
Example C77_spins_case : exists s, vruns (fun _ _ => true) loops0 (listen_ops (KUdp None) "udp" ":1" ++ stop_ops ++ [VStart [("udp", ":1")%string]; VListen 0; VFill 1; VOpen 1]) s /\
  lp_running s = true /\ nth_error (lp_loops s) 0 = Some (LL (KUdp None) "udp" ":1" false QRead).
Proof.
  eexists. split; [apply vdos_sound; vm_compute; reflexivity|]. split; reflexivity.
Qed.

(* C77: it needs no Stop.  One handler of one datagram that closes its connection closes the socket of
   all of them, and the loop of a running server goes round like that for ever.
   Example: C77_closed_case. *)
Theorem C77_udp_closed_refuted : forall ex s i l, nth_error (lp_loops s) i = Some l -> udp_kind (ll_kind l) = true ->
  ll_pc l = QRead -> lp_running s = true ->
  exists s1, vstep ex s (VSock i) s1 /\ loop_open s1 i = false /\ (forall s', ~ vstep ex s1 (VConn i) s') /\
    forall n, vruns ex s1 (concat (repeat [VFail i false; VCheck i] n)) s1.
Proof. exact p_C77_udp_closed_refuted. Qed.
Print Assumptions C77_udp_closed_refuted.

Example C77_closed_case : exists s, vruns (fun _ _ => true) loops0 (listen_ops (KUdp None) "udp" ":1") s /\
  lp_running s = true /\ nth_error (lp_loops s) 0 = Some (LL (KUdp None) "udp" ":1" true QRead).
Proof. eexists. split; [apply vdos_sound; vm_compute; reflexivity|]. split; reflexivity. Qed.

(* C77, the part that holds: a TCP or raw loop whose listener is closed is over after at most four
   more steps of its own, restarted server or not; and it is never stuck before that.
   Example: C77_tcp_case. *)
Theorem C77_tcp_ends_partial : forall ex s os s' i l, vruns ex s os s' -> nth_error (lp_loops s) i = Some l -> udp_kind (ll_kind l) = false -> ll_open l = false ->
  (own_steps i os <= 4)%nat /\
  (loop_pc s' i = Some QDone \/ exists o s2, own_step i o = true /\ vstep ex s' o s2).
Proof. exact p_C77_tcp_ends_partial. Qed.
Print Assumptions C77_tcp_ends_partial.

(* a TCP loop that was stopped and then restarted: its listener is closed, its Accept fails, it is over *)
Example C77_tcp_case : exists s s', vruns (fun _ _ => true) loops0 (listen_ops KTcp "tcp" ":1" ++ stop_ops ++ [VStart [("tcp", ":1")%string]]) s /\
  (exists l, nth_error (lp_loops s) 0 = Some l /\ udp_kind (ll_kind l) = false /\ ll_open l = false) /\
  vruns (fun _ _ => true) s [VFail 0 false] s' /\ own_steps 0 [VFail 0 false] = 1%nat /\ loop_pc s' 0 = Some QDone.
Proof.
  eexists _, _. split; [apply vdos_sound; vm_compute; reflexivity|]. split; [eexists; split; [reflexivity|split; reflexivity]|].
  split; [apply vdos_sound; vm_compute; reflexivity|]. split; reflexivity.
Qed.
