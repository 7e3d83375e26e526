(* What it means that two models of the same goroutine agree.  The watchers of a connection appear in
   WatchModel (iterations, real time, the channel), ChanModel (who blocks), GorModel (which goroutines
   live) and LifeModel (Stop); Stop itself in LifeModel, CallModel and LoopModel. *)
From Verif Require Export GorModel ChanModel LifeModel CallModel LoopModel WatchModel.

(* The iterations of heartBeatWatch's loop that have ended during a run in real time, oldest first.
   A heartbeat sent while the goroutine waits ends its iteration; one sent while it is busy waits for
   the next select. *)
Inductive saw (I D : Z) : list wlab -> wst -> list wev -> Prop :=
| saw_nil : saw I D [] wst0 []
| saw_tick tr s es d s' : saw I D tr s es -> wtrans I D (LTick d) s s' -> saw I D (LTick d :: tr) s' es
| saw_beat tr s es s' dl : saw I D tr s es -> wtrans I D LBeat s s' -> ws_phase s = PWait dl -> saw I D (LBeat :: tr) s' (es ++ [WBeat])
| saw_beat_later tr s es s' : saw I D tr s es -> wtrans I D LBeat s s' -> (forall dl, ws_phase s <> PWait dl) -> saw I D (LBeat :: tr) s' es
| saw_expire tr s es s' : saw I D tr s es -> wtrans I D LExpire s s' -> saw I D (LExpire :: tr) s' (es ++ [WExpire])
| saw_enter tr s es s' : saw I D tr s es -> wtrans I D LEnter s s' -> ws_chan s = false -> saw I D (LEnter :: tr) s' es
| saw_enter_beat tr s es s' : saw I D tr s es -> wtrans I D LEnter s s' -> ws_chan s = true -> saw I D (LEnter :: tr) s' (es ++ [WBeat])
| saw_quit tr s es s' e : saw I D tr s es -> wtrans I D LQuit s s' -> e = WStop \/ e = WAll \/ e = WEnd -> saw I D (LQuit :: tr) s' (es ++ [e]).

Definition closes (l : list wact) : bool := existsb (fun a => match a with AClose => true | _ => false end) l.

(* why GorModel lets the goroutine end when an iteration is the last one *)
Definition beat_leaves (f : onloss) (e : wev) : why :=
  match e with
  | WStop => GorModel.WStop
  | WExpire => match f with Some true => WPanic | _ => WTime end
  | WAll => GorModel.WAll
  | WEnd => WRecv
  | WBeat => WDone                (* never the last *)
  end.
Definition auth_leaves (e : aev) : why :=
  match e with AvDeadline => WTime | AvSig v => if v >=? 0 then WPass else WDeny | AvAll => GorModel.WAll | AvEnd => WRecv end.
(* the event can happen in this world to a goroutine of context c *)
Definition beat_ready (w : gworld) (c : nat) (e : wev) : Prop :=
  match e with WStop => gw_stop w = true | WAll => gw_all w = true | WEnd => ended w c = true | _ => True end.
Definition auth_ready (w : gworld) (c : nat) (e : aev) : Prop :=
  match e with AvAll => gw_all w = true | AvEnd => ended w c = true | _ => True end.

(* the heartbeat channel with n callers when it is already stored *)
Definition stored_start (n : nat) : hbw := HBW (Some 0%nat) [false] WGet (repeat BGet n) [].
Definition received (s : hbw) : nat := List.length (filter (fun e => match e with CRecv _ => true | _ => false end) (hw_log s)).
Definition takes (os : list chop) : nat := List.length (filter (fun o => match o with KTake => true | _ => false end) os).

(* LoopModel's world as LifeModel and CallModel see it: listeners, records and the state only *)
Definition as_life (s : loops) : life := Life (lp_running s) (lp_props s) (map ll_open (lp_loops s)) false None [] false [].
Definition as_call (p : spc) : cpc := match p with SState => CState false false | SClose => CListeners false false | SRet => CRet ROk end.
Definition as_calls (s : loops) (n : nat) : callworld := CW (as_life s) (map as_call (lp_stops s)) n.
