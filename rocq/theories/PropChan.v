(* Property theorems. Each is closed by the lemma of the same name in ChanProofs.v. *)
From Verif Require Export ChanProofs.

(* C82 is false: of all the calls of RecvAuthPass and RecvAuthDeny on one connection at most two
   ever return, at most one when nothing watches (no WithAuth, a raw connection, a datagram); and
   without HeartBeatOn at most one RecvHeartBeat does.  With more calls than that, in every
   execution some goroutine has not returned. *)
Theorem C82_at_most_refuted : forall k w calls os s, chruns k (ch_start w calls) os s -> (k = CBeat -> w = false) ->
  (List.length (sends os) <= (if w then 2 else 1))%nat /\
  ((if w then 2 else 1) < List.length (concat calls) -> exists i, calling s i)%nat.
Proof. exact p_C82_at_most_refuted. Qed.
Print Assumptions C82_at_most_refuted.

(* with WithAuth and three signals the third call is still waiting *)
Example C82_case : exists os s, chruns CAuth (ch_start true [[1]; [1]; [-1]]) os s /\ sends os = [1; 1] /\ calling s 2.
Proof.
  exists [KSend 0 1; KTake; KSend 1 1]. eexists. split.
  - eapply kr_cons; [eapply (k_send _ _ 0%nat); reflexivity|]. eapply kr_cons; [eapply (k_take_auth _ _ 1); reflexivity|].
    eapply kr_cons; [eapply (k_send _ _ 1%nat); reflexivity|]. apply kr_nil.
  - split; [reflexivity|]. exists (-1), []. reflexivity.
Qed.

(* ... and waits for ever: once the watcher is gone and the slot is full no call returns again *)
Theorem C82_blocked_refuted : forall k s os s', chruns k s os s' -> ch_watch s = false -> ch_slot s <> None -> sends os = [].
Proof. exact p_C82_blocked_refuted. Qed.
Print Assumptions C82_blocked_refuted.

(* a connection that lost its heartbeat: a late heartbeat still fits, the next blocks *)
Example C82_blocked_case : exists os s, chruns CBeat (ch_start true [[1; 1]; [1]]) os s /\ ch_watch s = false /\ ch_slot s <> None /\ calling s 0.
Proof.
  exists [KSend 0 1; KTake; KQuit true; KSend 1 1]. eexists. split.
  - eapply kr_cons; [eapply (k_send _ _ 0%nat); reflexivity|]. eapply kr_cons; [eapply (k_take_beat _ _ 1); reflexivity|].
    eapply kr_cons; [eapply k_quit; [reflexivity|discriminate]|]. eapply kr_cons; [eapply (k_send _ _ 1%nat); reflexivity|]. apply kr_nil.
  - split; [reflexivity|]. split; [discriminate|]. exists 1, []. reflexivity.
Qed.

(* C82, what holds: the first call on a connection always returns ...
   Example: C82_returns_case. *)
Theorem C82_first_returns_partial : forall k w calls os s i, chruns k (ch_start w calls) os s -> sends os = [] -> calling s i ->
  exists v s', chstep k s (KSend i v) s'.
Proof. exact p_C82_first_returns_partial. Qed.
Print Assumptions C82_first_returns_partial.

(* ... and so does every RecvHeartBeat while the watcher is at work, after at most one step of it
   Example: C82_returns_case. *)
Theorem C82_beat_returns_partial : forall s i, ch_watch s = true -> calling s i ->
  exists v s', (chruns CBeat s [KSend i v] s' \/ chruns CBeat s [KTake; KSend i v] s') /\ ch_watch s' = true.
Proof. exact p_C82_beat_returns_partial. Qed.
Print Assumptions C82_beat_returns_partial.

(* ... hence all of them can return, in any order the goroutines come, and the watcher goes on *)
Theorem C82_beats_all_partial : forall s, ch_watch s = true -> exists os s', chruns CBeat s os s' /\ pending s' = 0%nat /\
  List.length (sends os) = pending s /\ ch_watch s' = true /\ ch_open s' = ch_open s.
Proof. exact p_C82_beats_all_partial. Qed.
Print Assumptions C82_beats_all_partial.

Example C82_beats_case : ch_watch (ch_start true [[1; 1]; [1; 1; 1]]) = true /\ pending (ch_start true [[1; 1]; [1; 1; 1]]) = 5%nat.
Proof. split; reflexivity. Qed.

Example C82_returns_case : calling (CH (Some 1) true false true [[1]]) 0 /\ exists s, chruns CBeat (ch_start true [[1]; [1]]) [KSend 1 1] s /\ ch_watch s = true /\ calling s 0.
Proof.
  split; [exists 1, []; reflexivity|]. eexists. split; [eapply kr_cons; [eapply (k_send _ _ 1%nat); reflexivity|apply kr_nil]|]. split; [reflexivity|].
  exists 1, []. reflexivity.
Qed.

(* C82: the watcher of the heartbeats takes any number of them and goes on, and taking one does not close the
   connection; the watcher of the authentication takes one signal and ends.  Every value sent is taken,
   or waits in the one slot.
   Example: C82_taken_case. *)
Theorem C82_taken : forall k calls os s, chruns k (ch_start true calls) os s ->
  List.length (sends os) = (takes os + match ch_slot s with Some _ => 1 | None => 0 end)%nat /\
  match k with
  | CBeat => no_quit os -> ~ In KEnd os -> ch_watch s = true /\ (no_close os -> ch_open s = true)
  | CAuth => (takes os <= 1)%nat /\ (takes os = 1%nat -> ch_watch s = false)
  end.
Proof. exact p_C82_taken. Qed.
Print Assumptions C82_taken.

Example C82_taken_case : exists s, chruns CBeat (ch_start true [[1; 1]]) [KSend 0 1; KTake; KSend 0 1] s /\ ch_slot s = Some 1.
Proof.
  eexists. split; [|shelve]. eapply kr_cons; [eapply (k_send _ _ 0%nat); reflexivity|]. eapply kr_cons; [eapply (k_take_beat _ _ 1); reflexivity|].
  eapply kr_cons; [eapply (k_send _ _ 0%nat); reflexivity|]. apply kr_nil. Unshelve. reflexivity.
Qed.

(* C83, what holds: with WithAuth, when the first signal of the connection is a denial, then in
   every execution the connection is closed, or the watcher's next step can take the denial and
   closes it. *)
Theorem C83_deny_first_partial : forall calls os s v r, chruns CAuth (ch_start true calls) os s -> sends os = v :: r -> v < 0 ->
  (ch_open s = false \/ exists s', chstep CAuth s KTake s' /\ ch_open s' = false) /\ (ch_watch s = false -> ch_open s = false).
Proof. exact p_C83_deny_first_partial. Qed.
Print Assumptions C83_deny_first_partial.

Example C83_case : exists s, chruns CAuth (ch_start true [[-1; 1]]) [KSend 0 (-1); KTake; KSend 0 1] s /\ ch_open s = false.
Proof.
  eexists. split; [|shelve]. eapply kr_cons; [eapply (k_send _ _ 0%nat); reflexivity|]. eapply kr_cons; [eapply (k_take_auth _ _ (-1)); reflexivity|].
  eapply kr_cons; [eapply (k_send _ _ 0%nat); reflexivity|]. apply kr_nil. Unshelve. reflexivity.
Qed.

(* C83 is false otherwise: when nothing watches (no WithAuth, a raw connection, a datagram), or once
   the first signal was a pass, no number of denials closes the connection. *)
Theorem C83_ignored_refuted : forall w calls os s, chruns CAuth (ch_start w calls) os s -> no_close os -> no_quit os ->
  (w = false \/ exists v r, sends os = v :: r /\ v >= 0) -> ch_open s = true.
Proof. exact p_C83_ignored_refuted. Qed.
Print Assumptions C83_ignored_refuted.

Example C83_ignored_case : exists os s, chruns CAuth (ch_start true [[1]; [-1]]) os s /\ no_close os /\ no_quit os /\ sends os = [1; -1] /\ ch_open s = true.
Proof.
  exists [KSend 0 1; KTake; KSend 1 (-1)]. eexists. split.
  - eapply kr_cons; [eapply (k_send _ _ 0%nat); reflexivity|]. eapply kr_cons; [eapply (k_take_auth _ _ 1); reflexivity|].
    eapply kr_cons; [eapply (k_send _ _ 1%nat); reflexivity|]. apply kr_nil.
  - split; [intros [X|[X|[X|[]]]]; discriminate|]. split; [intros c [X|[X|[X|[]]]]; discriminate|]. split; reflexivity.
Qed.

(* C83, closing itself: the socket is closed exactly when recvEnd is, so a watcher of a closed
   connection that is still at work can end; whoever closes, the connection stays closed, and a
   watcher that has ended does not come back. *)
Theorem C83_closed : forall k w calls os s, chruns k (ch_start w calls) os s ->
  (ch_open s = false <-> ch_end s = true) /\
  (ch_open s = false -> ch_watch s = true -> exists s', chstep k s KEnd s' /\ ch_watch s' = false) /\
  (In KClose os \/ In (KQuit true) os -> ch_open s = false) /\
  (In KEnd os \/ (exists c, In (KQuit c) os) -> ch_watch s = false).
Proof. exact p_C83_closed. Qed.
Print Assumptions C83_closed.

Example C83_closed_case : exists s, chruns CAuth (ch_start true [[1]]) [KClose; KSend 0 1] s /\ ch_open s = false /\ ch_watch s = true.
Proof.
  eexists. split; [eapply kr_cons; [apply k_close|]; eapply kr_cons; [eapply (k_send _ _ 0%nat); reflexivity|apply kr_nil]|]. split; reflexivity.
Qed.
