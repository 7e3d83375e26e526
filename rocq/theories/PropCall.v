(* Property theorems. Each is closed by the lemma of the same name in CallProofs.v. *)
From Verif Require Export CallProofs.

(* C101, the part that holds: a Stop nobody interrupts does what LifeModel.Stop says. *)
Theorem C101_alone_partial : forall s all, exists n w, callrun (calls0 s) (CStop all :: repeat (CGo 0) n) = Some w /\
  cw_life w = snd (Stop s all) /\ result w 0 = Some (fst (Stop s all)).
Proof. exact p_C101_alone_partial. Qed.
Print Assumptions C101_alone_partial.

(* C101, the part that holds for overlapping calls: once some call has set the state, every Stop or
   Restart that had not tested it yet is refused, until a server that was started opens it again.
   Example: C101_refused_case. *)
Theorem C101_later_refused_partial : forall l w w' i all again, lf_running (cw_life w) = false -> nth_error (cw_calls w) i = Some (CTest all again) ->
  ~ In COpen l -> callrun w l = Some w' -> lf_running (cw_life w') = false /\ (nth_error (cw_calls w') i = Some (CTest all again) \/ result w' i = Some RErr).
Proof. exact p_C101_later_refused_partial. Qed.
Print Assumptions C101_later_refused_partial.

(* ... and no call waits for another: every call is ready to take its next step until it has returned.
   Example: C101_refused_case. *)
Theorem C101_never_blocks : forall w i p, nth_error (cw_calls w) i = Some p -> (forall r, p <> CRet r) -> exists w', callstep w (CGo i) = Some w'.
Proof. exact p_C101_never_blocks. Qed.
Print Assumptions C101_never_blocks.

(* C101, the part that holds: calls that do not overlap - each is made after the one before has
   returned - return what they return one after another, start the listeners as often and leave the
   same server.
   Example: C101_serial_case. *)
Theorem C101_serial_partial : forall s ks w, serially (calls0 s) ks w ->
  exists rs n, in_sequence s ks rs n (cw_life w) /\ cw_launched w = n /\
    List.length (cw_calls w) = List.length rs /\ forall i, result w i = nth_error rs i.
Proof. exact p_C101_serial_partial. Qed.
Print Assumptions C101_serial_partial.

(* C101, for overlapping calls: who changes the state.  It is running after a server that was started
   has set it, stopped after a Stop or Restart that had seen it running has set it, and otherwise as
   before: neither Start nor a refused call changes it.
   Example: C101_state_case. *)
Theorem C101_state : forall w o w', callstep w o = Some w' ->
  (sets_running o -> lf_running (cw_life w') = true) /\
  (sets_stopped w o -> lf_running (cw_life w') = false) /\
  (~ sets_running o -> ~ sets_stopped w o -> lf_running (cw_life w') = lf_running (cw_life w)).
Proof. exact p_C101_state. Qed.
Print Assumptions C101_state.

(* C101 is false: two overlapping Stops both succeed, although after one Stop another one is refused.
   Example: C101_case. *)
Theorem C101_two_stops_refuted : forall s, lf_running s = true ->
  (exists w, callrun (calls0 s) [CStop false; CStop false; CGo 0; CGo 1; CGo 0; CGo 1; CGo 0; CGo 1] = Some w /\ result w 0 = Some ROk /\ result w 1 = Some ROk) /\
  fst (Stop s false) = ROk /\ fst (Stop (snd (Stop s false)) false) = RErr.
Proof. exact p_C101_two_stops_refuted. Qed.
Print Assumptions C101_two_stops_refuted.

(* C101 is false with broadcast signals: of two overlapping Stop(true) the second to close the
   channel panics.
   Example: C101_case. *)
Theorem C101_double_close_refuted : forall s, lf_running s = true -> signal_ready s ->
  exists w, callrun (calls0 s) [CStop true; CStop true; CGo 0; CGo 1; CGo 0; CGo 1; CGo 0; CGo 1; CGo 0; CGo 1] = Some w /\ result w 0 = Some ROk /\ result w 1 = Some RPanic.
Proof. exact p_C101_double_close_refuted. Qed.
Print Assumptions C101_double_close_refuted.

(* C101 is false for Start and Restart too: calls made while the server is stopped all succeed, and
   each of them starts all the listeners again. *)
Theorem C101_two_starts_refuted : forall s, lf_running s = true ->
  exists w, callrun (calls0 s) [CRestart false; CRestart false; CGo 0; CGo 1; CGo 0; CGo 1; CGo 0; CGo 1; CGo 0; CGo 1] = Some w /\ result w 0 = Some ROk /\ result w 1 = Some ROk /\ cw_launched w = 2%nat.
Proof. exact p_C101_two_starts_refuted. Qed.
Print Assumptions C101_two_starts_refuted.

Example C101_case : let s := liferun false [OOpen; OListen "tcp" ":1"; OSignals true] in lf_running s = true /\ signal_ready s.
Proof. cbv zeta. split; [reflexivity|]. split; [reflexivity|]. exists 0%nat. split; [reflexivity|]. split; [reflexivity|]. cbn. lia. Qed.

Example C101_refused_case : let s := liferun false [OOpen] in exists w, callrun (calls0 s) [CStop false; CStop true; CGo 0; CGo 0] = Some w /\
  lf_running (cw_life w) = false /\ nth_error (cw_calls w) 1 = Some (CTest true false).
Proof. cbv zeta. eexists. split; [reflexivity|]. split; reflexivity. Qed.

Example C101_serial_case : let s := liferun false [OOpen; OListen "tcp" ":1"; OSignals true] in
  exists w, serially (calls0 s) [DoStop false; DoStop true; DoStart; DoOpen; DoStart; DoRestart true] w /\
    map (result w) [0; 1; 2; 3; 4]%nat = [Some ROk; Some RErr; Some ROk; Some RErr; Some ROk] /\ cw_launched w = 2%nat.
Proof.
  cbv zeta. eexists. split.
  - eapply sr_call with (n := 3%nat) (r := ROk); [reflexivity|vm_compute; reflexivity|vm_compute; reflexivity|].
    eapply sr_call with (n := 1%nat) (r := RErr); [reflexivity|vm_compute; reflexivity|vm_compute; reflexivity|].
    eapply sr_call with (n := 1%nat) (r := ROk); [reflexivity|vm_compute; reflexivity|vm_compute; reflexivity|].
    eapply sr_open; [vm_compute; reflexivity|].
    eapply sr_call with (n := 1%nat) (r := RErr); [reflexivity|vm_compute; reflexivity|vm_compute; reflexivity|].
    eapply sr_call with (n := 5%nat) (r := ROk); [reflexivity|vm_compute; reflexivity|vm_compute; reflexivity|].
    apply sr_nil.
  - split; vm_compute; reflexivity.
Qed.

Example C101_state_case : let s := liferun false [OOpen] in exists w w1 w2, callrun (calls0 s) [CStop false; CGo 0] = Some w /\
  sets_stopped w (CGo 0) /\ callstep w (CGo 0) = Some w1 /\ callstep w1 COpen = Some w2 /\ lf_running (cw_life w1) = false /\ lf_running (cw_life w2) = true.
Proof. cbv zeta. eexists. eexists. eexists. split; [reflexivity|]. split; [exists 0%nat, false, false; split; reflexivity|]. repeat split; reflexivity. Qed.
