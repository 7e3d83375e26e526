(* Model of the goroutines that watch one connection: heartBeatWatch, broadcastSignalWatch,
   authWatch (tcpx.go:1027-1116) and of the channel behind RecvHeartBeat (context.go:621-641).
   No proofs in this file. *)
From Verif Require Export Base.

(* ------------------------------------------------------------------ *)
(* 1. The loops, one event per iteration.
   An iteration of heartBeatWatch's loop ends in exactly one of these ways. *)
Inductive wev :=
| WStop      (* tcpx.State() == STATE_STOP seen at the loop head, tcpx.go:1040-1043 *)
| WBeat      (* <-ctx.HeartBeatChan(), 1045 *)
| WExpire    (* <-time.After(interval), 1048 *)
| WAll       (* <-tcpx.closeAllSignal, 1062 *)
| WEnd.      (* <-ctx.recvEnd, 1065 *)

Inductive wact :=
| ALoss      (* tcpx.OnHeartbeatLoss is called *)
| AClose     (* ctx.CloseConn is called *)
| APanic.    (* a panic reaches the goroutine's own recover, tcpx.go:1030-1035 *)

(* tcpx.OnHeartbeatLoss: None = nil, Some b = set, b says whether it panics *)
Definition onloss := option bool.

(* tcpx.go:1039-1067: None = the goroutine ends *)
Definition hb_iter (f : onloss) (times : Z) (e : wev) : option Z * list wact :=
  match e with
  | WStop => (None, [AClose])
  | WBeat => (Some 0, [])
  | WExpire =>
      let times := times + 1 in
      if times =? 3 then
        (None, match f with
               | None => [AClose]
               | Some false => [ALoss; AClose]
               | Some true => [ALoss; APanic]
               end)
      else (Some times, [])
  | WAll => (None, [AClose])
  | WEnd => (None, [])
  end.

Fixpoint hb_loop (f : onloss) (times : Z) (evs : list wev) : option Z * list wact :=
  match evs with
  | [] => (Some times, [])
  | e :: r =>
      match hb_iter f times e with
      | (None, a) => (None, a)
      | (Some t, a) => let '(s, b) := hb_loop f t r in (s, a ++ b)
      end
  end.

(* tcpx.go:1027-1029, 1037: nothing is watched when HeartBeatOn is false *)
Definition heartBeatWatch (on : bool) (f : onloss) (evs : list wev) : option Z * list wact :=
  if on then hb_loop f 0 evs else (None, []).

(* tcpx.go:1075-1087: its select has only these two cases *)
Definition broadcastSignalWatch (withSignals : bool) (evs : list wev) : list wact :=
  if withSignals then
    (fix loop evs := match evs with
                     | [] => []
                     | WAll :: _ => [AClose]
                     | WEnd :: _ => []
                     | _ :: r => loop r
                     end) evs
  else [].

(* ------------------------------------------------------------------ *)
(* 2. authWatch, tcpx.go:1091-1116: one select.  [AvSig v] = the value v is first in the channel
   (RecvAuthPass sends 1, RecvAuthDeny sends -1, context.go:672-679). *)
Inductive aev := AvDeadline | AvSig (v : Z) | AvAll | AvEnd.
Definition PASS : Z := 1.
Definition DENY : Z := -1.
Definition auth_out (e : aev) : list wact :=
  match e with
  | AvDeadline => [AClose]
  | AvSig v => if v >=? 0 then [] else [AClose]
  | AvAll => [AClose]
  | AvEnd => []
  end.
(* The select takes the case that becomes ready first; between cases ready at the same instant it
   may take any.  Times are nanoseconds after the start of the goroutine. *)
Definition auth_takes (deadline : Z) (evs : list (Z * aev)) (e : aev) : Prop :=
  exists t, In (t, e) ((deadline, AvDeadline) :: evs) /\
    forall t' e', In (t', e') ((deadline, AvDeadline) :: evs) -> t <= t'.
Definition authWatch (auth : bool) (deadline : Z) (evs : list (Z * aev)) (out : list wact) : Prop :=
  if auth then exists e, auth_takes deadline evs e /\ out = auth_out e else out = [].

(* ------------------------------------------------------------------ *)
(* 3. heartBeatWatch in real time.  The goroutine is either blocked in its select with a timer that
   fires at [deadline], or busy (between waking up and the next select) since some instant; busy
   periods last at most [D] (scheduling and processing; D = 0 is the ideal machine).
   A send to the channel while the goroutine is blocked is taken at once; while it is busy the
   value waits in the channel's one slot, and a further sender waits outside (it sends later).
   time.After is called afresh in each iteration, so each select arms its own timer. *)
Inductive wphase := PWait (deadline : Z) | PBusy (since : Z) | PDone.
Record wst := WS {
  ws_now : Z;
  ws_phase : wphase;
  ws_times : Z;
  ws_chan : bool;             (* the slot of the channel is full *)
  ws_loss : option Z          (* when the third interval elapsed *)
}.
Definition wst0 : wst := WS 0 (PBusy 0) 0 false None.

Inductive wlab := LTick (d : Z) | LBeat | LExpire | LEnter | LQuit.

Inductive wtrans (I D : Z) : wlab -> wst -> wst -> Prop :=
(* time passes, but not beyond the timer nor beyond the end of a busy period *)
| t_tick_wait now dl n c l d : 0 <= d -> now + d <= dl ->
    wtrans I D (LTick d) (WS now (PWait dl) n c l) (WS (now + d) (PWait dl) n c l)
| t_tick_busy now s n c l d : 0 <= d -> now + d <= s + D ->
    wtrans I D (LTick d) (WS now (PBusy s) n c l) (WS (now + d) (PBusy s) n c l)
| t_tick_done now n c l d : 0 <= d ->
    wtrans I D (LTick d) (WS now PDone n c l) (WS (now + d) PDone n c l)
(* a heartbeat is sent *)
| t_beat_wait now dl n c l :
    wtrans I D LBeat (WS now (PWait dl) n c l) (WS now (PBusy now) 0 c l)
| t_beat_busy now s n l :
    wtrans I D LBeat (WS now (PBusy s) n false l) (WS now (PBusy s) n true l)
| t_beat_done now n l :
    wtrans I D LBeat (WS now PDone n false l) (WS now PDone n true l)
(* the timer fires *)
| t_expire now n c l : n + 1 <> 3 ->
    wtrans I D LExpire (WS now (PWait now) n c l) (WS now (PBusy now) (n + 1) c l)
| t_loss now n c l : n + 1 = 3 ->
    wtrans I D LExpire (WS now (PWait now) n c l) (WS now PDone (n + 1) c (Some now))
(* the next select: a waiting heartbeat is taken, otherwise the goroutine blocks *)
| t_enter_beat now s n l :
    wtrans I D LEnter (WS now (PBusy s) n true l) (WS now (PBusy now) 0 false l)
| t_enter now s n l :
    wtrans I D LEnter (WS now (PBusy s) n false l) (WS now (PWait (now + I)) n false l)
(* one of the other ways out: server stopped, signal, connection ended *)
| t_quit now p n c l : p <> PDone ->
    wtrans I D LQuit (WS now p n c l) (WS now PDone n c l).

(* newest step first *)
Inductive wruns (I D : Z) : list wlab -> wst -> Prop :=
| wr_nil : wruns I D [] wst0
| wr_step l tr s s' : wruns I D tr s -> wtrans I D l s s' -> wruns I D (l :: tr) s'.

(* ------------------------------------------------------------------ *)
(* 4. The channel of HeartBeatChan, context.go:621-636: get, and if nothing is stored make a
   channel and store it - two separate accesses to the sync.Map.  One watcher and any number of
   goroutines calling RecvHeartBeat (639-641).  Channels are numbered in order of creation; each
   has one slot.  (Nothing else is ever stored under the key; the branch for a value of another
   type is not modelled.) *)
Inductive wpc := WGet | WMake | WSel (c : nat).
Inductive bpc := BGet | BMake | BSend (c : nat) | BDone (c : nat).
Inductive cev := CSent (i c : nat) | CRecv (c : nat) | CTimeout.
Record hbw := HBW {
  hw_store : option nat;
  hw_chans : list bool;            (* slot full? *)
  hw_watch : wpc;
  hw_beats : list bpc;
  hw_log : list cev                (* newest first *)
}.
Fixpoint bset {A} (l : list A) (i : nat) (a : A) : list A :=
  match l, i with
  | [], _ => []
  | _ :: r, O => a :: r
  | x :: r, S j => x :: bset r j a
  end.

Inductive hstep : hbw -> hbw -> Prop :=
| h_wget s c : hw_watch s = WGet -> hw_store s = Some c ->
    hstep s (HBW (hw_store s) (hw_chans s) (WSel c) (hw_beats s) (hw_log s))
| h_wmiss s : hw_watch s = WGet -> hw_store s = None ->
    hstep s (HBW (hw_store s) (hw_chans s) WMake (hw_beats s) (hw_log s))
| h_wmake s : hw_watch s = WMake ->
    hstep s (HBW (Some (List.length (hw_chans s))) (hw_chans s ++ [false]) (WSel (List.length (hw_chans s))) (hw_beats s) (hw_log s))
| h_wrecv s c : hw_watch s = WSel c -> nth_error (hw_chans s) c = Some true ->
    hstep s (HBW (hw_store s) (bset (hw_chans s) c false) WGet (hw_beats s) (CRecv c :: hw_log s))
(* the timer is armed on entry, so a channel that is ready is taken before it *)
| h_wtime s c : hw_watch s = WSel c -> nth_error (hw_chans s) c = Some false ->
    hstep s (HBW (hw_store s) (hw_chans s) WGet (hw_beats s) (CTimeout :: hw_log s))
| h_bget s i c : nth_error (hw_beats s) i = Some BGet -> hw_store s = Some c ->
    hstep s (HBW (hw_store s) (hw_chans s) (hw_watch s) (bset (hw_beats s) i (BSend c)) (hw_log s))
| h_bmiss s i : nth_error (hw_beats s) i = Some BGet -> hw_store s = None ->
    hstep s (HBW (hw_store s) (hw_chans s) (hw_watch s) (bset (hw_beats s) i BMake) (hw_log s))
| h_bmake s i : nth_error (hw_beats s) i = Some BMake ->
    hstep s (HBW (Some (List.length (hw_chans s))) (hw_chans s ++ [false]) (hw_watch s) (bset (hw_beats s) i (BSend (List.length (hw_chans s)))) (hw_log s))
| h_bsend s i c : nth_error (hw_beats s) i = Some (BSend c) -> nth_error (hw_chans s) c = Some false ->
    hstep s (HBW (hw_store s) (bset (hw_chans s) c true) (hw_watch s) (bset (hw_beats s) i (BDone c)) (CSent i c :: hw_log s)).

Inductive hsteps : hbw -> hbw -> Prop :=
| hs_refl s : hsteps s s
| hs_more s s1 s2 : hsteps s s1 -> hstep s1 s2 -> hsteps s s2.
