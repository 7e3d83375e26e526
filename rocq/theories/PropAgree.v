(* Property theorems. Each is closed by the lemma of the same name in AgreeProofs.v. *)
From Verif Require Export AgreeProofs.

(* C44: every run of the watcher in real time is a run of its loop ...
   Example: C44_timed_case. *)
Theorem C44_timed_described : forall I D tr s, wruns I D tr s -> exists es, saw I D tr s es.
Proof. exact p_C44_timed_described. Qed.
Print Assumptions C44_timed_described.

(* ... with the same counter and the same end: while it runs its counter is that of the loop; it has
   ended when the loop has; it reports a loss exactly when the last of the iterations calls
   OnHeartbeatLoss.
   Example: C44_timed_case. *)
Theorem C44_timed_agrees : forall I D tr s es f, saw I D tr s es ->
  (ws_phase s <> PDone -> hb_loop f 0 es = (Some (ws_times s), [])) /\
  (ws_phase s = PDone -> fst (hb_loop f 0 es) = None) /\
  (ws_loss s <> None <-> snd (hb_loop (Some false) 0 es) = [ALoss; AClose]).
Proof. exact p_C44_timed_agrees. Qed.
Print Assumptions C44_timed_agrees.

(* C90: the heartbeat watcher's goroutine ends exactly when an iteration of its loop is the last, and
   calls CloseConn on the way out exactly when that iteration does.
   Example: C90_watch_case. *)
Theorem C90_beat_agrees : forall w c y b, may_end w GBeat c y = Some b <->
  exists f times e acts, hb_iter f times e = (None, acts) /\ beat_ready w c e /\ y = beat_leaves f e /\ b = closes acts.
Proof. exact p_C90_beat_agrees. Qed.
Print Assumptions C90_beat_agrees.

(* C90: likewise the auth watcher's goroutine and its one select.
   Example: C90_watch_case. *)
Theorem C90_auth_agrees : forall w c y b, may_end w GAuth c y = Some b <->
  exists e, auth_ready w c e /\ y = auth_leaves e /\ b = closes (auth_out e).
Proof. exact p_C90_auth_agrees. Qed.
Print Assumptions C90_auth_agrees.

(* C90: ... and the broadcast watcher's.
   Example: C90_watch_case. *)
Theorem C90_broadcast_agrees : forall w c y b, may_end w GBroadcast c y = Some b <->
  exists e, (e = WAll \/ e = WEnd) /\ beat_ready w c e /\ y = beat_leaves None e /\ b = closes (broadcastSignalWatch true [e]).
Proof. exact p_C90_broadcast_agrees. Qed.
Print Assumptions C90_broadcast_agrees.

(* C82: receiving a value, the auth watcher closes the connection when its select does, and ends; the
   heartbeat watcher goes round its loop without closing anything.
   Example: C82_agree_case. *)
Theorem C82_take_agrees : forall s s',
  (chstep CAuth s KTake s' -> exists v, ch_slot s = Some v /\ ch_watch s' = false /\
     ch_open s' = (if closes (auth_out (AvSig v)) then false else ch_open s) /\ ch_end s' = (if closes (auth_out (AvSig v)) then true else ch_end s)) /\
  (chstep CBeat s KTake s' -> (exists v, ch_slot s = Some v) /\ (forall f times, hb_iter f times WBeat = (Some 0, [])) /\ ch_watch s' = true /\ ch_open s' = ch_open s /\ ch_end s' = ch_end s).
Proof. exact p_C82_take_agrees. Qed.
Print Assumptions C82_take_agrees.

(* C82: ... and a watcher that leaves without receiving anything leaves by one of its other cases.
   Example: C82_agree_case. *)
Theorem C82_leave_agrees : forall s s' c,
  (chstep CAuth s (KQuit c) s' -> exists e, (e = AvDeadline \/ e = AvAll) /\ c = closes (auth_out e)) /\
  (chstep CBeat s (KQuit c) s' -> exists f times e acts, hb_iter f times e = (None, acts) /\ e <> WEnd /\ c = closes acts) /\
  (forall k, chstep k s (KQuit c) s' -> ch_watch s' = false /\ ch_open s' = (if c then false else ch_open s) /\ ch_end s' = (if c then true else ch_end s)) /\
  (forall k, chstep k s KEnd s' -> ch_end s = true /\ ch_watch s' = false /\ ch_open s' = ch_open s /\ closes (auth_out AvEnd) = false /\ forall f times, hb_iter f times WEnd = (None, [])).
Proof. exact p_C82_leave_agrees. Qed.
Print Assumptions C82_leave_agrees.

(* C47, C82: once the heartbeat channel is stored, the goroutines that look it up behave as the one
   channel of ChanModel: whatever they do is an execution of ChanModel with as many values received,
   the same callers done and the same slot.
   Example: C47_stored_case. *)
Theorem C47_stored_agrees : forall n s, hsteps (stored_start n) s ->
  exists os k, chruns CBeat (ch_start true (repeat [1] n)) os k /\ takes os = received s /\
    (ch_slot k <> None <-> nth_error (hw_chans s) 0 = Some true) /\
    forall i, nth_error (ch_calls k) i = Some [] <-> exists c, nth_error (hw_beats s) i = Some (BDone c).
Proof. exact p_C47_stored_agrees. Qed.
Print Assumptions C47_stored_agrees.

(* C50, C51: what LifeModel lets the watchers of a connection do is what an iteration of their loops
   does, for the event that is ready: the state seen stopped, the signal's channel closed, or the
   connection ended.
   Example: C50_agree_case. *)
Theorem C50_watch_agrees : forall s c k, nth_error (lf_conns s) c = Some k ->
  (lv_hb k = true -> exists e k', nth_error (lf_conns (snd (lopstep (OHb c) s))) c = Some k' /\
     (e = WStop <-> lf_running s = false) /\ (e = WAll -> sig_closed s (lv_hbsig k) = true) /\ (e = WEnd -> lv_open k = false) /\
     lv_hb k' = (match fst (hb_iter None 0 e) with Some _ => true | None => false end) /\
     lv_open k' = (if closes (snd (hb_iter None 0 e)) then false else lv_open k) /\ lv_bcast k' = lv_bcast k) /\
  (lv_bcast k = true -> exists k', nth_error (lf_conns (snd (lopstep (OBcast c) s))) c = Some k' /\
     ((exists e, (e = WAll /\ sig_closed s (lv_sig k) = true \/ e = WEnd /\ lv_open k = false) /\ lv_bcast k' = false /\
        lv_open k' = (if closes (broadcastSignalWatch true [e]) then false else lv_open k) /\ lv_hb k' = lv_hb k) \/
      sig_closed s (lv_sig k) = false /\ lv_open k = true /\ k' = k)).
Proof. exact p_C50_watch_agrees. Qed.
Print Assumptions C50_watch_agrees.

(* C52, C101: the steps of Stop and Start in the model of the listening goroutines are those of the
   model of overlapping calls, on the same state, records and listeners.
   Example: C52_agree_case. *)
Theorem C52_stop_agrees : forall ex s o s' n, vstep ex s o s' ->
  match o with
  | VStopTest => callrun (as_calls s n) [CStop false; CGo (List.length (lp_stops s))] = Some (as_calls s' n)
  | VStopState j | VStopClose j => callstep (as_calls s n) (CGo j) = Some (as_calls s' n)
  | VOpen _ => callstep (as_calls s n) COpen = Some (as_calls s' n)
  | VStart _ => callrun (as_calls s n) [CStart; CGo (List.length (lp_stops s))] = Some (CW (as_life s') (cw_calls (as_calls s' n) ++ [CRet ROk]) (S n))
  | _ => lp_running s' = lp_running s /\ lp_stops s' = lp_stops s
  end.
Proof. exact p_C52_stop_agrees. Qed.
Print Assumptions C52_stop_agrees.

Example C44_timed_case : let tr := [LExpire; LTick 10; LEnter; LExpire; LTick 10; LEnter; LExpire; LTick 10; LEnter; LBeat; LTick 4; LEnter] in
  let s := WS 34 PDone 3 false (Some 34) in wruns 10 1 tr s /\ saw 10 1 tr s [WBeat; WExpire; WExpire; WExpire].
Proof.
  cbv zeta. split.
  - apply wr_step with (s := WS 34 (PWait 34) 2 false None); [|apply (t_loss 10 1 34 2 false None); reflexivity].
    apply wr_step with (s := WS 24 (PWait 34) 2 false None); [|apply (t_tick_wait 10 1 24 34 2 false None 10); lia].
    apply wr_step with (s := WS 24 (PBusy 24) 2 false None); [|apply t_enter].
    apply wr_step with (s := WS 24 (PWait 24) 1 false None); [|apply (t_expire 10 1 24 1 false None); lia].
    apply wr_step with (s := WS 14 (PWait 24) 1 false None); [|apply (t_tick_wait 10 1 14 24 1 false None 10); lia].
    apply wr_step with (s := WS 14 (PBusy 14) 1 false None); [|apply t_enter].
    apply wr_step with (s := WS 14 (PWait 14) 0 false None); [|apply (t_expire 10 1 14 0 false None); lia].
    apply wr_step with (s := WS 4 (PWait 14) 0 false None); [|apply (t_tick_wait 10 1 4 14 0 false None 10); lia].
    apply wr_step with (s := WS 4 (PBusy 4) 0 false None); [|apply t_enter].
    apply wr_step with (s := WS 4 (PWait 10) 0 false None); [|apply t_beat_wait].
    apply wr_step with (s := WS 0 (PWait 10) 0 false None); [|apply (t_tick_wait 10 1 0 10 0 false None 4); lia].
    apply wr_step with (s := wst0); [|apply t_enter].
    apply wr_nil.
  - apply (saw_expire 10 1 _ (WS 34 (PWait 34) 2 false None) [WBeat; WExpire; WExpire]); [|apply (t_loss 10 1 34 2 false None); reflexivity].
    apply (saw_tick 10 1 _ (WS 24 (PWait 34) 2 false None)); [|apply (t_tick_wait 10 1 24 34 2 false None 10); lia].
    apply (saw_enter 10 1 _ (WS 24 (PBusy 24) 2 false None)); [|apply t_enter|reflexivity].
    apply (saw_expire 10 1 _ (WS 24 (PWait 24) 1 false None) [WBeat; WExpire]); [|apply (t_expire 10 1 24 1 false None); lia].
    apply (saw_tick 10 1 _ (WS 14 (PWait 24) 1 false None)); [|apply (t_tick_wait 10 1 14 24 1 false None 10); lia].
    apply (saw_enter 10 1 _ (WS 14 (PBusy 14) 1 false None)); [|apply t_enter|reflexivity].
    apply (saw_expire 10 1 _ (WS 14 (PWait 14) 0 false None) [WBeat]); [|apply (t_expire 10 1 14 0 false None); lia].
    apply (saw_tick 10 1 _ (WS 4 (PWait 14) 0 false None)); [|apply (t_tick_wait 10 1 4 14 0 false None 10); lia].
    apply (saw_enter 10 1 _ (WS 4 (PBusy 4) 0 false None)); [|apply t_enter|reflexivity].
    apply (saw_beat 10 1 _ (WS 4 (PWait 10) 0 false None) [] _ 10); [|apply t_beat_wait|reflexivity].
    apply (saw_tick 10 1 _ (WS 0 (PWait 10) 0 false None)); [|apply (t_tick_wait 10 1 0 10 0 false None 4); lia].
    apply (saw_enter 10 1 _ (wst0)); [|apply t_enter|reflexivity].
    apply saw_nil.
Qed.

Example C90_watch_case : let w := GW [GorModel.GC FromTcp true] [] true false in
  may_end w GBeat 0 GorModel.WAll = Some true /\ may_end w GBeat 0 WRecv = Some false /\ may_end w GBeat 0 GorModel.WStop = None /\
  may_end w GAuth 0 WPass = Some false /\ may_end w GAuth 0 WDeny = Some true /\ may_end w GBroadcast 0 GorModel.WAll = Some true.
Proof. repeat split. Qed.

Example C82_agree_case : exists s1 s2, chstep CAuth (CH (Some DENY) true false true []) KTake s1 /\ ch_open s1 = false /\
  chstep CBeat (CH (Some 1) true false true []) KTake s2 /\ ch_open s2 = true /\ ch_watch s2 = true /\
  exists s3, chstep CBeat s2 (KQuit true) s3 /\ ch_open s3 = false.
Proof.
  eexists. eexists. split; [eapply k_take_auth; reflexivity|]. split; [reflexivity|]. split; [eapply k_take_beat; reflexivity|]. split; [reflexivity|]. split; [reflexivity|].
  eexists. split; [apply k_quit; [reflexivity|discriminate]|reflexivity].
Qed.

Example C47_stored_case : let s := HBW (Some 0%nat) [true] WGet [BDone 0; BDone 0] [CSent 1 0; CRecv 0; CSent 0 0] in hsteps (stored_start 2) s /\ received s = 1%nat.
Proof.
  cbv zeta. split; [|reflexivity].
  apply hs_more with (s1 := HBW (Some 0%nat) [false] WGet [BDone 0; BSend 0] [CRecv 0; CSent 0 0]); [|apply (h_bsend (HBW (Some 0%nat) [false] WGet [BDone 0; BSend 0] [CRecv 0; CSent 0 0]) 1 0); reflexivity].
  apply hs_more with (s1 := HBW (Some 0%nat) [true] (WSel 0) [BDone 0; BSend 0] [CSent 0 0]); [|apply (h_wrecv (HBW (Some 0%nat) [true] (WSel 0) [BDone 0; BSend 0] [CSent 0 0]) 0); reflexivity].
  apply hs_more with (s1 := HBW (Some 0%nat) [true] WGet [BDone 0; BSend 0] [CSent 0 0]); [|apply (h_wget (HBW (Some 0%nat) [true] WGet [BDone 0; BSend 0] [CSent 0 0]) 0); reflexivity].
  apply hs_more with (s1 := HBW (Some 0%nat) [false] WGet [BSend 0; BSend 0] []); [|apply (h_bsend (HBW (Some 0%nat) [false] WGet [BSend 0; BSend 0] []) 0 0); reflexivity].
  apply hs_more with (s1 := HBW (Some 0%nat) [false] WGet [BSend 0; BGet] []); [|apply (h_bget (HBW (Some 0%nat) [false] WGet [BSend 0; BGet] []) 1 0); reflexivity].
  apply hs_more with (s1 := HBW (Some 0%nat) [false] WGet [BGet; BGet] []); [|apply (h_bget (HBW (Some 0%nat) [false] WGet [BGet; BGet] []) 0 0); reflexivity].
  apply hs_refl.
Qed.

Example C50_agree_case : let s := liferun true [OAccept; OOpen; OListen "tcp" ":1"; OSignals true] in
  exists k, nth_error (lf_conns s) 0 = Some k /\ lv_hb k = true /\ lv_bcast k = true /\
  lf_conns (snd (lopstep (OBcast 0) (snd (Stop s true)))) = [LCn false (Some 0%nat) false true (Some 0%nat)].
Proof. cbv zeta. eexists. split; [reflexivity|]. repeat split. Qed.

Example C52_agree_case : let ex := fun _ _ : string => true in exists s1 s2 s3 s4,
  vruns ex loops0 [VCall KTcp "tcp" ":1"; VListen 0; VFill 0; VOpen 0] s1 /\
  vstep ex s1 VStopTest s2 /\ vstep ex s2 (VStopState 0) s3 /\ vstep ex s3 (VStopClose 0) s4 /\ lf_listeners (as_life s1) = [true] /\ lf_listeners (as_life s4) = [false].
Proof.
  cbv zeta. eexists. eexists. eexists. eexists. split; [|split; [|split; [|split]]].
  - eapply vr_cons; [apply v_call|]. eapply vr_cons; [apply (v_listen _ _ [] []); reflexivity|]. eapply vr_cons; [eapply v_fill; reflexivity|]. eapply vr_cons; [eapply v_open; reflexivity|]. apply vr_nil.
  - apply v_stop_test. reflexivity.
  - apply v_stop_state. reflexivity.
  - apply v_stop_close. reflexivity.
  - split; reflexivity.
Qed.
