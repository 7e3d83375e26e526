(* Property theorems. Each is closed by the lemma of the same name in ListenProofs.v. *)
From Verif Require Export ListenProofs.

(* C99, the part that holds: with a TLSConfig set the stream server never opens a listener in clear;
   it fails when the configuration has no certificate.
   Example: C99_case. *)
Theorem C99_tcp_encrypted_partial : forall m c network ok left, stream_network network ->
  (forall t, snd (ListenAndServe m (Some c) network ok left) = Some t -> t = Encrypted) /\
  (snd (ListenAndServe m (Some c) network ok left) = Some Encrypted <-> checkPrepare m = true /\ ok = true /\ has_certificate c = true).
Proof. exact p_C99_tcp_encrypted_partial. Qed.
Print Assumptions C99_tcp_encrypted_partial.

(* C99 is false for raw and packet servers: TLSConfig is not looked at.
   Example: C99_case. *)
Theorem C99_raw_udp_clear_refuted : forall m c network ok left sizes,
  (ok = true -> snd (ListenAndServeRaw (Some c) ok left) = Some InClear) /\
  (ok = true -> packet_network network -> checkPrepare m = true -> snd (ListenAndServe m (Some c) network ok left) = Some InClear) /\
  (ok = true -> (sizes <= 1)%nat -> snd (ListenAndServeUDP (Some c) sizes ok) = Some InClear).
Proof. exact p_C99_raw_udp_clear_refuted. Qed.
Print Assumptions C99_raw_udp_clear_refuted.

(* newListener: in clear exactly when there is no configuration, encrypted only with a certificate. *)
Theorem C99_new_listener : forall cfg ok t, newListener cfg ok = Some t <->
  ok = true /\ match cfg with None => t = InClear | Some c => t = Encrypted /\ has_certificate c = true end.
Proof. exact p_C99_new_listener. Qed.
Print Assumptions C99_new_listener.

(* LoadTLSFile sets a usable configuration, or leaves the old one and reports an error. *)
Theorem C99_load : forall cfg loads, LoadTLSFile cfg loads = (if loads then Some (Tls true) else cfg, negb loads).
Proof. exact p_C99_load. Qed.
Print Assumptions C99_load.

Example C99_case : let m := build [] in checkPrepare m = true /\ stream_network (str_bytes "tcp4") /\ packet_network (str_bytes "udp") /\
  snd (ListenAndServe m (fst (LoadTLSFile None true)) (str_bytes "tcp4") true None) = Some Encrypted /\
  snd (ListenAndServe m (fst (LoadTLSFile None true)) (str_bytes "udp") true None) = Some InClear.
Proof.
  cbv zeta. split; [reflexivity|]. split; [right; left; reflexivity|]. split; [left; left; reflexivity|]. split; reflexivity.
Qed.

(* C100, the part that holds: the stream servers return an error exactly when they could not listen.
   Example: C100_case. *)
Theorem C100_stream_error_partial : forall m cfg network ok left, checkPrepare m = true -> stream_network network ->
  (fst (ListenAndServe m cfg network ok left) = ReturnsErr <-> snd (ListenAndServe m cfg network ok left) = None) /\
  (fst (ListenAndServe m cfg network ok left) = ReturnsErr <-> ok = false \/ exists c, cfg = Some c /\ has_certificate c = false) /\
  fst (ListenAndServe m cfg network ok left) <> PanicsOut /\
  (fst (ListenAndServeRaw cfg ok left) = ReturnsErr <-> ok = false).
Proof. exact p_C100_stream_error_partial. Qed.
Print Assumptions C100_stream_error_partial.

(* a network that is not supported is always reported
   Example: C100_case. *)
Theorem C100_unsupported : forall m cfg network ok left, checkPrepare m = true -> ~ stream_network network -> ~ packet_network network ->
  ListenAndServe m cfg network ok left = (ReturnsErr, None).
Proof. exact p_C100_unsupported. Qed.
Print Assumptions C100_unsupported.

(* C100 is false for packets: when the address cannot be listened on the call panics, and otherwise
   it never returns, stopped or not.
   Example: C100_case. *)
Theorem C100_udp_refuted : forall m cfg network ok left, checkPrepare m = true -> packet_network network ->
  fst (ListenAndServe m cfg network ok left) = if ok then NeverReturns else PanicsOut.
Proof. exact p_C100_udp_refuted. Qed.
Print Assumptions C100_udp_refuted.

(* C100 is false the other way: nil is returned after a failed Accept and after a panic in OnConnect
   as it is after Stop.
   Example: C100_case. *)
Theorem C100_nil_refuted : forall m network, checkPrepare m = true -> stream_network network ->
  forall y, fst (ListenAndServe m None network true (Some y)) = ReturnsNil /\ fst (ListenAndServeRaw None true (Some y)) = ReturnsNil.
Proof. exact p_C100_nil_refuted. Qed.
Print Assumptions C100_nil_refuted.

(* C100: while the accept loop runs, a stream server that could listen does not return.
   Example: C100_waits_case. *)
Theorem C100_waits : forall m cfg network, checkPrepare m = true -> stream_network network ->
  (forall c, cfg = Some c -> has_certificate c = true) ->
  fst (ListenAndServe m cfg network true None) = NeverReturns /\ fst (ListenAndServeRaw cfg true None) = NeverReturns.
Proof. exact p_C100_waits. Qed.
Print Assumptions C100_waits.

Example C100_waits_case : checkPrepare (build []) = true /\ stream_network (str_bytes "tcp") /\ has_certificate (Tls true) = true /\
  ListenAndServe (build []) (Some (Tls true)) (str_bytes "tcp") true None = (NeverReturns, Some Encrypted).
Proof. split; [reflexivity|]. split; [cbn; auto|]. split; reflexivity. Qed.

Example C100_case : let m := build [] in checkPrepare m = true /\
  ListenAndServe m None (str_bytes "tcp") false None = (ReturnsErr, None) /\ ListenAndServe m None (str_bytes "udp") false None = (PanicsOut, None) /\
  ListenAndServe m None (str_bytes "tcp") true (Some AcceptFailed) = (ReturnsNil, Some InClear) /\ ListenAndServe m None (str_bytes "http") true None = (ReturnsErr, None) /\
  ~ stream_network (str_bytes "http") /\ ~ packet_network (str_bytes "http").
Proof.
  cbv zeta. split; [reflexivity|]. split; [reflexivity|]. split; [reflexivity|]. split; [reflexivity|]. split; [reflexivity|]. split.
  - intros H. cbn in H. intuition discriminate.
  - intros [H|(t & H)]; [cbn in H; intuition discriminate|discriminate H].
Qed.
