(* Property theorems. Each is closed by the lemma of the same name in PanicProofs.v. *)
From Verif Require Export PanicProofs.

(* C107 is false of handlers and middleware: on TCP and UDP the goroutine that runs them has no
   recover, so the process ends exactly when one of them panics
   Example: C107_tcp_case, C107_raw_case. *)
Theorem C107_crash_iff_refuted : forall f k s, preach f k s -> complete f s -> (p_crash s = true <-> exists i n, called s i (AChain n) true).
Proof. exact p_C107_crash_iff_refuted. Qed.
Print Assumptions C107_crash_iff_refuted.

(* C107, what holds: a raw server goes on whatever panics, because its connections' goroutines recover
   Example: C107_raw_case. *)
Theorem C107_raw_partial : forall f cs s, preach f (GRaw cs) s -> p_crash s = false.
Proof. exact p_C107_raw_partial. Qed.
Print Assumptions C107_raw_partial.

(* ... and on TCP and raw servers the goroutine reading from a connection closes it and calls OnClose, whatever panics
   Example: C107_raw_case. *)
Theorem C107_closed_partial : forall f k s i n c, preach f k s -> reads s i n c -> over s i ->
  called s i (AClose n) false /\ (f_close f = true -> called s i (AOnClose n) (cl_close c)).
Proof. exact p_C107_closed_partial. Qed.
Print Assumptions C107_closed_partial.

Example C107_raw_case : let f := Conf true true false false false false in let c := Client false true true [] BLeft false false in exists s, preach f (GRaw [c]) s /\ complete f s /\
  called s 2 (ARaw 0) true /\ called s 2 (AOnClose 0) true /\ called s 2 (AClose 0) false /\ over s 2 /\ reads s 2 0 c.
Proof.
  intros f c. exists (prun f (repeat 0 9 ++ repeat 1 1 ++ repeat 2 8) (pinit f (GRaw [c])))%nat. split; [apply prun_reach, preach_init|].
  cbn. split; [intros [|[|[|[|i]]]]; reflexivity|]. unfold called, over, reads. cbn. repeat split; auto 10; eexists; split; try reflexivity. right. reflexivity.
Qed.

(* ... so one message on which a handler panics can end the process, whoever else is connected ... *)
Theorem C107_tcp_refuted : forall f cs1 c cs2 ms1 m ms2, (f_connect f = true -> forall c', In c' (cs1 ++ [c]) -> cl_connect c' = false) ->
  cl_msgs c = ms1 ++ m :: ms2 -> ~ In MBad ms1 -> (m = MOne true \/ exists l, m = MPipe l /\ In true l) ->
  exists s i, preach f (GTcp (cs1 ++ c :: cs2)) s /\ p_crash s = true /\ called s i (AChain (List.length cs1)) true.
Proof. exact p_C107_tcp_refuted. Qed.
Print Assumptions C107_tcp_refuted.

(* ... and so can one datagram
   Example: C107_tcp_case. *)
Theorem C107_udp_refuted : forall f cs1 c cs2 r, cl_msgs c = MOne true :: r ->
  exists s i, preach f (GUdp (cs1 ++ c :: cs2)) s /\ p_crash s = true /\ called s i (AChain (List.length cs1)) true.
Proof. exact p_C107_udp_refuted. Qed.
Print Assumptions C107_udp_refuted.

Example C107_tcp_case : exists s i, preach (Conf true true true true true true) (GTcp [Client false false false [] BLeft false false; Client false false false [MOne false; MPipe [false; true]] BLeft false false; Client true true true [MBad] BStop true true]) s /\ p_crash s = true /\ called s i (AChain 1) true.
Proof. apply (C107_tcp_refuted _ [_] (Client false false false [MOne false; MPipe [false; true]] BLeft false false) [_] [MOne false] (MPipe [false; true]) []); [|reflexivity| |right; exists [false; true]; cbn; auto]; cbn; intuition (subst; auto; discriminate). Qed.

(* C107 is false of OnConnect as well: the process lives, but if OnConnect panics on a connection the server stops
   listening, accepts nobody after it, and never closes that connection
   Example: C107_loss_case. *)
Theorem C107_connect_refuted : forall f cs k s n, k = GTcp cs \/ k = GRaw cs -> preach f k s -> called s 0 (AOnConnect n) true ->
  ~ made s (AClose n) /\ (forall m, (n < m)%nat -> ~ made s (AAccept m)) /\ (complete f s -> p_crash s = false -> called s 0 AUnlisten false).
Proof. exact p_C107_connect_refuted. Qed.
Print Assumptions C107_connect_refuted.

(* ... and if OnHeartbeatLoss panics on a silent connection, the watcher that called it is gone without closing the connection
   Example: C107_loss_case. *)
Theorem C107_loss_refuted : forall f k s i n, preach f k s -> called s i (AOnLoss n) true -> forall p, ~ called s i (AClose n) p.
Proof. exact p_C107_loss_refuted. Qed.
Print Assumptions C107_loss_refuted.

Example C107_loss_case : let f := Conf true true true false true false in exists s, preach f (GTcp [Client false false false [] (BLoss true) false false; Client true false false [] BLeft false false]) s /\ p_crash s = false /\
  called s 1 (AOnLoss 0) true /\ called s 0 (AOnConnect 1) true /\ called s 0 (AAccept 1) false.
Proof.
  intros f. exists (prun f (repeat 0 8 ++ repeat 1 2) (pinit f (GTcp [Client false false false [] (BLoss true) false false; Client true false false [] BLeft false false])))%nat. split; [apply prun_reach, preach_init|].
  unfold called. cbn. auto 10.
Qed.
