(* Property theorems. Each is closed by the lemma of the same name in WatchProofs.v. *)
From Verif Require Export WatchProofs.

(* C44: the watcher closes the connection at an event exactly when it is still at work and either
   this event completes three consecutive intervals without a heartbeat, or the server is stopping,
   or everybody is told to close.  (OnHeartbeatLoss, if set, must not panic.)
   Example: C44_case. *)
Theorem C44_three_intervals : forall f evs n e,
  f <> Some true -> nth_error evs n = Some e ->
  (~ In AClose (snd (heartBeatWatch true f (firstn n evs))) /\ In AClose (snd (heartBeatWatch true f (firstn (S n) evs)))
   <-> still_watching evs n /\ (e = WStop \/ e = WAll \/ three_silent evs n)).
Proof. exact p_C44_three_intervals. Qed.
Print Assumptions C44_three_intervals.

(* C44: any heartbeat resets the count.
   Example: C44_case. *)
Theorem C44_beat_resets : forall f evs, still_watching evs (List.length evs) ->
  heartBeatWatch true f (evs ++ [WBeat]) = heartBeatWatch true f [] /\
  forall more, heartBeatWatch true f (evs ++ WBeat :: more) = heartBeatWatch true f more.
Proof. exact p_C44_beat_resets. Qed.
Print Assumptions C44_beat_resets.

(* ... and without HeartBeatOn there is no watcher at all. *)
Theorem C44_off : forall f evs, heartBeatWatch false f evs = (None, []).
Proof. exact p_C44_off. Qed.
Print Assumptions C44_off.

Example C44_case :
  let evs := [WExpire; WExpire; WBeat; WExpire; WExpire; WExpire; WBeat] in
  nth_error evs 5 = Some WExpire /\ still_watching evs 5 /\ three_silent evs 5 /\
  snd (heartBeatWatch true None (firstn 5 evs)) = [] /\ snd (heartBeatWatch true None (firstn 6 evs)) = [AClose].
Proof.
  split; [reflexivity|]. split; [|split; [exists 3%nat; auto|vm_compute; auto]].
  intros m e Hm He. assert (M : (m = 0 \/ m = 1 \/ m = 2 \/ m = 3 \/ m = 4)%nat) by lia.
  split.
  - intros [-> | [-> | ->]]; destruct M as [-> | [-> | [-> | [-> | ->]]]]; discriminate He.
  - intros (k & E & A & B & C). destruct M as [-> | [-> | [-> | [-> | ->]]]]; inversion E; subst k; simpl in *; discriminate.
Qed.

(* C46: a handler that returns is called once, just before the close, exactly on heartbeat loss.
   Example: C46_case. *)
Theorem C46_loss_handler : forall evs,
  let acts := snd (heartBeatWatch true (Some false) evs) in
  (count_loss acts <= 1)%nat /\
  (In ALoss acts <-> exists n, still_watching evs n /\ three_silent evs n) /\
  (In ALoss acts -> acts = [ALoss; AClose]) /\
  ~ In ALoss (snd (heartBeatWatch true None evs)).
Proof. exact p_C46_loss_handler. Qed.
Print Assumptions C46_loss_handler.

(* C46 as stated is false for a handler that panics: the goroutine's recover catches the panic
   before CloseConn, so after heartbeat loss the connection is never closed by the watcher.
   Example: C46_case. *)
Theorem C46_loss_handler_panic_refuted : forall evs n,
  still_watching evs n -> three_silent evs n ->
  heartBeatWatch true (Some true) evs = (None, [ALoss; APanic]).
Proof. exact p_C46_loss_handler_panic_refuted. Qed.
Print Assumptions C46_loss_handler_panic_refuted.

Example C46_case :
  snd (heartBeatWatch true (Some false) [WExpire; WBeat; WExpire; WExpire; WExpire]) = [ALoss; AClose] /\
  snd (heartBeatWatch true (Some false) [WExpire; WExpire; WAll]) = [AClose] /\
  snd (heartBeatWatch true (Some true) [WExpire; WExpire; WExpire]) = [ALoss; APanic].
Proof. vm_compute. auto. Qed.

(* C45: the watcher reports a loss no earlier than 3I after the last heartbeat (or the start), and,
   when its busy periods last at most D, no later than 3I + 4D after it.
   Example: C45_case. *)
Theorem C45_loss_time : forall I D tr s s', 0 < I -> 0 <= D ->
  wruns I D tr s -> wtrans I D LExpire s s' -> ws_loss s' <> ws_loss s ->
  ws_loss s' = Some (time_of tr) /\ last_beat tr + 3 * I <= time_of tr <= last_beat tr + 3 * I + 4 * D.
Proof. exact p_C45_loss_time. Qed.
Print Assumptions C45_loss_time.

(* C45: on the ideal machine (D = 0) it is exactly 3I.
   Example: C45_case. *)
Theorem C45_exact : forall I tr s s', 0 < I -> wruns I 0 tr s -> wtrans I 0 LExpire s s' -> ws_loss s' <> ws_loss s ->
  ws_loss s' = Some (last_beat tr + 3 * I).
Proof. exact p_C45_exact. Qed.
Print Assumptions C45_exact.

(* C45: a connection whose heartbeats are always less than 3I apart is never reported lost.
   Example: C45_case. *)
Theorem C45_alive : forall I D tr s, 0 < I -> 0 <= D -> wruns I D tr s ->
  (forall a b, tr = a ++ b -> time_of b < last_beat b + 3 * I) -> ws_loss s = None.
Proof. exact p_C45_alive. Qed.
Print Assumptions C45_alive.

(* C45: silence is noticed: unless the watcher left for another reason, it is never later than
   3I + 4D after the last heartbeat without the loss being reported.
   Example: C45_case. *)
Theorem C45_noticed : forall I D tr s, 0 < I -> 0 <= D -> wruns I D tr s -> ~ In LQuit tr -> ws_loss s = None ->
  time_of tr <= last_beat tr + 3 * I + 4 * D.
Proof. exact p_C45_noticed. Qed.
Print Assumptions C45_noticed.

(* ... and the watcher is never stuck: while it is at work, time can pass or it takes a step.
   Example: C45_case. *)
Theorem C45_progress : forall I D tr s, 0 < I -> 0 <= D -> wruns I D tr s -> ws_phase s <> PDone ->
  exists l s', wtrans I D l s s' /\ (l = LExpire \/ l = LEnter \/ exists d, 0 < d /\ l = LTick d).
Proof. exact p_C45_progress. Qed.
Print Assumptions C45_progress.

(* a run: a heartbeat at 4, the next interval expires at 14, 24 and 34 (I = 10, D = 0) *)
Example C45_case : exists tr s s', wruns 10 0 tr s /\ wtrans 10 0 LExpire s s' /\ ws_loss s = None /\ ws_loss s' = Some 34 /\ last_beat tr = 4.
Proof.
  exists [LTick 10; LEnter; LExpire; LTick 10; LEnter; LExpire; LTick 10; LEnter; LBeat; LTick 4; LEnter]. eexists. eexists. split.
  - eapply wr_step; [|apply (t_tick_wait 10 0 24 34 2 false None 10); lia].
    eapply wr_step; [|apply (t_enter 10 0 24 24 2 None)].
    eapply wr_step; [|apply (t_expire 10 0 24 1 false None); lia].
    eapply wr_step; [|apply (t_tick_wait 10 0 14 24 1 false None 10); lia].
    eapply wr_step; [|apply (t_enter 10 0 14 14 1 None)].
    eapply wr_step; [|apply (t_expire 10 0 14 0 false None); lia].
    eapply wr_step; [|apply (t_tick_wait 10 0 4 14 0 false None 10); lia].
    eapply wr_step; [|apply (t_enter 10 0 4 4 0 None)].
    eapply wr_step; [|apply (t_beat_wait 10 0 4 10 0 false None)].
    eapply wr_step; [|apply (t_tick_wait 10 0 0 10 0 false None 4); lia].
    eapply wr_step; [|apply (t_enter 10 0 0 0 0 None)]. apply wr_nil.
  - split; [apply (t_loss 10 0 34 2 false None); lia|]. auto.
Qed.

(* C47 as stated is false: a heartbeat that sits in a channel which is no longer the stored one,
   while the watcher is not waiting on it, is never received, whatever happens later. *)
Theorem C47_lost_forever_refuted : forall s s' c, hsteps s s' ->
  hw_store s <> Some c -> hw_watch s <> WSel c -> (c < List.length (hw_chans s))%nat ->
  received (hw_log s') c = received (hw_log s) c /\ hw_watch s' <> WSel c.
Proof. exact p_C47_lost_forever_refuted. Qed.
Print Assumptions C47_lost_forever_refuted.

(* That state is reached from the start: the handler looks and finds nothing, the watcher looks and
   finds nothing, the handler stores its channel and sends, the watcher stores its own. *)
Theorem C47_lost_refuted : exists s c, hsteps (HBW None [] WGet [BGet] []) s /\
  nth_error (hw_beats s) 0 = Some (BDone c) /\ sent (hw_log s) c = 1%nat /\ received (hw_log s) c = 0%nat /\
  hw_store s <> Some c /\ hw_watch s <> WSel c /\ (c < List.length (hw_chans s))%nat /\
  forall s', hsteps s s' -> received (hw_log s') c = 0%nat.
Proof. exact p_C47_lost_refuted. Qed.
Print Assumptions C47_lost_refuted.

(* C47: every call of RecvHeartBeat that returns has sent one heartbeat, and no other call has sent any.
   Example: C47_case. *)
Theorem C47_one_each : forall store chans w n s, hsteps (HBW store chans w (repeat BGet n) []) s ->
  (forall i c, In (CSent i c) (hw_log s) <-> nth_error (hw_beats s) i = Some (BDone c)) /\
  NoDup (flat_map (fun e => match e with CSent i _ => [i] | _ => [] end) (hw_log s)).
Proof. exact p_C47_one_each. Qed.
Print Assumptions C47_one_each.

(* C47, the part that holds: if the channel exists when the handlers start - the watcher has been
   through HeartBeatChan once - no heartbeat is lost: each one sent has been received by the watcher
   or is waiting in the slot, where the watcher takes it before its timer; so whenever an
   interval is counted, every heartbeat sent so far has reset the count.
   Example: C47_case. *)
Theorem C47_not_lost_partial : forall chans c w n s,
  nth_error chans c = Some false -> w = WGet \/ w = WSel c ->
  hsteps (HBW (Some c) chans w (repeat BGet n) []) s ->
  all_sent (hw_log s) = (all_received (hw_log s) + (if nth c (hw_chans s) false then 1 else 0))%nat /\
  (forall log, (exists l, hw_log s = l ++ CTimeout :: log) -> all_sent log = all_received log) /\
  (forall i d, nth_error (hw_beats s) i = Some (BDone d) -> d = c) /\
  (hw_watch s = WGet \/ hw_watch s = WSel c).
Proof. exact p_C47_not_lost_partial. Qed.
Print Assumptions C47_not_lost_partial.

Example C47_case : exists s, hsteps (HBW (Some 0%nat) [false] WGet (repeat BGet 2) []) s /\ hw_log s = [CRecv 0; CSent 1 0; CTimeout].
Proof.
  eexists. split.
  - eapply hs_more; [eapply hs_more; [eapply hs_more; [eapply hs_more; [eapply hs_more; [eapply hs_more; [apply hs_refl|]|]|]|]|]|].
    + apply (h_wget _ 0); reflexivity.
    + apply (h_wtime _ 0); reflexivity.
    + apply (h_bget _ 1 0); reflexivity.
    + apply (h_bsend _ 1 0); reflexivity.
    + apply (h_wget _ 0); reflexivity.
    + apply (h_wrecv _ 0); reflexivity.
  - reflexivity.
Qed.

(* C48: whatever happens and when, the outcome of the auth watcher is decided by the earliest event:
   a pass (or the end of the connection) leaves the connection alone; a deny, the deadline or a
   broadcast close it, once.
   Example: C48_case. *)
Theorem C48_auth : forall deadline evs out,
  authWatch true deadline evs out ->
  (out = [] \/ out = [AClose]) /\
  (In AClose out <-> exists t e, In (t, e) ((deadline, AvDeadline) :: evs) /\
     (forall t' e', In (t', e') ((deadline, AvDeadline) :: evs) -> t <= t') /\
     out = auth_out e /\ (e = AvDeadline \/ e = AvAll \/ exists v, e = AvSig v /\ v < 0)).
Proof. exact p_C48_auth. Qed.
Print Assumptions C48_auth.

(* C48 by cases: a pass before everything else keeps the connection; a deny before everything else
   closes it; silence until the deadline closes it.
   Example: C48_case. *)
Theorem C48_pass_deny_silence : forall deadline evs out, authWatch true deadline evs out ->
  (forall t, In (t, AvSig PASS) evs -> t < deadline -> (forall t' e', In (t', e') evs -> (t', e') = (t, AvSig PASS) \/ t < t') -> out = []) /\
  (forall t, In (t, AvSig DENY) evs -> t < deadline -> (forall t' e', In (t', e') evs -> (t', e') = (t, AvSig DENY) \/ t < t') -> out = [AClose]) /\
  ((forall t' e', In (t', e') evs -> deadline < t') -> out = [AClose]).
Proof. exact p_C48_pass_deny_silence. Qed.
Print Assumptions C48_pass_deny_silence.

Theorem C48_off : forall deadline evs out, authWatch false deadline evs out -> out = [].
Proof. exact p_C48_off. Qed.
Print Assumptions C48_off.

Example C48_case :
  authWatch true 100 [(7, AvSig PASS); (9, AvSig DENY)] [] /\ authWatch true 100 [(7, AvSig DENY)] [AClose] /\
  authWatch true 100 [(150, AvSig PASS)] [AClose].
Proof.
  split; [|split].
  - exists (AvSig PASS). split; [|reflexivity]. exists 7. split; [right; left; auto|]. intros t e [X|[X|[X|[]]]]; inversion X; lia.
  - exists (AvSig DENY). split; [|reflexivity]. exists 7. split; [right; left; auto|]. intros t e [X|[X|[]]]; inversion X; lia.
  - exists AvDeadline. split; [|reflexivity]. exists 100. split; [left; auto|]. intros t e [X|[X|[]]]; inversion X; lia.
Qed.

(* C50, the watcher of the broadcast on its own: it closes the connection exactly when the broadcast
   comes before the end of the connection, once, and does nothing else. *)
Theorem C50_watcher : forall on evs,
  (broadcastSignalWatch on evs = [AClose] \/ broadcastSignalWatch on evs = []) /\
  (broadcastSignalWatch on evs = [AClose] <-> on = true /\ exists before after, evs = before ++ WAll :: after /\ ~ In WAll before /\ ~ In WEnd before).
Proof. exact p_C50_watcher. Qed.
Print Assumptions C50_watcher.

Example C50_watcher_case : broadcastSignalWatch true [WBeat; WAll; WEnd] = [AClose] /\ broadcastSignalWatch true [WBeat; WEnd; WAll] = [] /\
  broadcastSignalWatch false [WAll] = [].
Proof. split; [|split]; reflexivity. Qed.
