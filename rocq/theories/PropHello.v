(* Property theorems: C118: the say-hello server.
   Each is closed by the lemma of the same name in HelloProofs.v. *)
From Verif Require Export HelloProofs.
From Verif Require Import Demo.

(* C118, the part that holds: a message of the table whose body decodes is seen by the functions
   before its handler, in order, and answered with the reply of the table; only messages 1, 3, 5, 11 and
   20 are seen by anybody, and 20 is answered with nothing.
   Example: C118_case. *)
Theorem C118_answers_partial : forall V (E : env V) zero zero_pb c w rt tr st,
  fst (route (e_hdr E) c w) = Ok rt -> hello_handles E zero zero_pb c w = Some (tr, st) ->
  (forall id before reply, rt = ById id -> In (id, before, reply) hello_table ->
     (forall m, (if id =? 11 then BindWithMarshaller E c (Some zero_pb) (Some (ProtobufMarshaller E)) else Bind E (JsonMarshaller E) c (Some zero)) = Ok m ->
        seen tr = before ++ [id; eReply reply] /\ st = Returned) /\
     (exists more, seen tr = before ++ more)) /\
  (rt = ById 20 -> seen tr = [20] /\ st = Returned) /\
  ((forall id, rt = ById id -> ~ In id [1; 3; 5; 11; 20]) -> tr = [] /\ st = Returned).
Proof. exact p_C118_answers_partial. Qed.
Print Assumptions C118_answers_partial.

(* C118 fails: a message 1, 3 or 5 whose body is not a JSON string makes its handler panic, which
   ends the process (C107).
   Example: C118_case. *)
Theorem C118_malformed_refuted : forall V (E : env V) zero zero_pb c w id e,
  In id [1; 3; 5] -> fst (route (e_hdr E) c w) = Ok (ById id) -> Bind E (JsonMarshaller E) c (Some zero) = Err e ->
  exists tr, hello_handles E zero zero_pb c w = Some (tr, Panicked).
Proof. exact p_C118_malformed_refuted. Qed.
Print Assumptions C118_malformed_refuted.

(* C118 fails: the goroutine that listens on kcp ends the process whether or not the port is free;
   the other two end it only when theirs cannot be opened. *)
Theorem C118_kcp_refuted : forall ok left,
  hello_listens "kcp" ok left = true /\ hello_listens "tcp" ok left = negb ok /\ hello_listens "udp" ok left = negb ok.
Proof. exact p_C118_kcp_refuted. Qed.
Print Assumptions C118_kcp_refuted.

(* C118 fails: the watcher is switched on, and whatever messages a client sends, however often,
   heartbeats among them, none reaches it: three intervals of five seconds (and four of the machine's delays) after it came the
   connection is given up, unless it ended before.
   Example: C118_beats_case. *)
Theorem C118_heartbeat_refuted : forall D messages tr s, 0 <= D -> wruns hello_interval D tr s ->
  (beats_of tr <= list_sum (map (fun rt => beats_in (plan_of rt hello_server)) messages))%nat ->
  m_hb_on hello_server = true /\ (ws_loss s <> None \/ In LQuit tr \/ time_of tr <= 15 * 1000000000 + 4 * D).
Proof. exact p_C118_heartbeat_refuted. Qed.
Print Assumptions C118_heartbeat_refuted.

(* C118: one client's connection and its three silent intervals *)
Example C118_beats_case : exists tr s, wruns hello_interval 0 tr s /\ beats_of tr = 0%nat /\ ws_loss s = Some (3 * hello_interval) /\ ~ In LQuit tr.
Proof.
  set (I := 5000000000).
  exists [LExpire; LTick I; LEnter; LExpire; LTick I; LEnter; LExpire; LTick I; LEnter], (WS (3 * I) WatchModel.PDone 3 false (Some (3 * I))). split.
  - change hello_interval with I.
    eapply wr_step; [|apply (t_loss I 0 (3 * I) 2 false None); lia].
    eapply wr_step; [|apply (t_tick_wait I 0 (2 * I) (3 * I) 2 false None I); lia].
    eapply wr_step; [|apply (t_enter I 0 (2 * I) (2 * I) 2 None)].
    eapply wr_step; [|apply (t_expire I 0 (2 * I) 1 false None); lia].
    eapply wr_step; [|apply (t_tick_wait I 0 I (2 * I) 1 false None I); lia].
    eapply wr_step; [|apply (t_enter I 0 I I 1 None)].
    eapply wr_step; [|apply (t_expire I 0 I 0 false None); lia].
    eapply wr_step; [|apply (t_tick_wait I 0 0 I 0 false None I); lia].
    eapply wr_step; [|apply (t_enter I 0 0 0 0 None)]. apply wr_nil.
  - split; [reflexivity|]. split; [reflexivity|]. intros H. cbn in H. repeat (destruct H as [H|H]; [discriminate|]). exact H.
Qed.
(* C118: messages 5 with a right and a wrong body *)
Example C118_case :
  let h b := [CRead 0 (of_bytes (assemble 5 (list_ascii_of_string "null") (list_ascii_of_string b))); CAccept] in
  let run b := match nth_error (w_ctxs (crun json_hdr (h b))) 1 with Some c => hello_handles demo_env ""%string ""%string c (crun json_hdr (h b)) | None => None end in
  (exists tr, run "jhello"%string = Some (tr, Returned) /\ seen tr = [100; 101; 103; 5; eReply 6]) /\
  (exists tr, run "xhello"%string = Some (tr, Panicked) /\ seen tr = [100; 101; 103]).
Proof. vm_compute. split; eexists; split; reflexivity. Qed.
