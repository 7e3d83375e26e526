(* Model of the signal channels of one connection: recvAuth behind RecvAuthPass/RecvAuthDeny
   (context.go:56, 188, 668-679) with the goroutine of authWatch (tcpx.go:1091-1116), and the heartbeat
   channel behind RecvHeartBeat (context.go:621-641) with the goroutine of heartBeatWatch
   (tcpx.go:1027-1070).  Both channels have one slot.  No proofs in this file.
   The goroutines calling these functions are handlers or callbacks; what else they do is not
   modelled.  The heartbeat channel is the one that was stored first; that two can be made is the
   subject of part 4 of WatchModel.v, when intervals elapse that of part 3. *)
From Verif Require Export CtxModel.

Inductive ckind := CAuth | CBeat.

Record chn := CH {
  ch_slot : option Z;          (* the value in the channel *)
  ch_watch : bool;             (* the watching goroutine is in its select *)
  ch_end : bool;               (* recvEnd closed *)
  ch_open : bool;              (* the socket is not closed *)
  ch_calls : list (list Z)     (* goroutines: the values of the calls each has still to make *)
}.

(* the watcher is started for TCP connections when tcpx.auth is set (tcpx.go:549; never for raw
   connections nor for datagrams), resp. when HeartBeatOn is set *)
Definition ch_start (watched : bool) (calls : list (list Z)) : chn := CH None watched false true calls.

Inductive chop :=
| KSend (i : nat) (v : Z)   (* a call of goroutine i puts v into the channel and returns *)
| KTake                     (* the watcher receives, tcpx.go:1098, 1045 *)
| KQuit (closes : bool)     (* the watcher ends by itself: deadline (1094-1097), loss (1048-1058), closeAllSignal or
                               Stop; it closes the connection unless OnHeartbeatLoss panicked *)
| KEnd                      (* the watcher sees recvEnd closed, tcpx.go:1112, 1065 *)
| KClose.                   (* anybody else calls CloseConn, context.go:276-303 *)

Inductive chstep (k : ckind) : chn -> chop -> chn -> Prop :=
| k_send s i v r : ch_slot s = None -> nth_error (ch_calls s) i = Some (v :: r) ->
    chstep k s (KSend i v) (CH (Some v) (ch_watch s) (ch_end s) (ch_open s) (upd (ch_calls s) i r))
| k_take_auth s v : k = CAuth -> ch_watch s = true -> ch_slot s = Some v ->
    (* 1098-1107: one value is received, a negative one closes the connection *)
    chstep k s KTake (if v >=? 0 then CH None false (ch_end s) (ch_open s) (ch_calls s) else CH None false true false (ch_calls s))
| k_take_beat s v : k = CBeat -> ch_watch s = true -> ch_slot s = Some v ->
    (* 1045-1047: round the loop again *)
    chstep k s KTake (CH None true (ch_end s) (ch_open s) (ch_calls s))
| k_quit s (c : bool) : ch_watch s = true -> (c = false -> k = CBeat) ->
    chstep k s (KQuit c) (CH (ch_slot s) false (if c then true else ch_end s) (if c then false else ch_open s) (ch_calls s))
| k_end s : ch_watch s = true -> ch_end s = true ->
    chstep k s KEnd (CH (ch_slot s) false (ch_end s) (ch_open s) (ch_calls s))
| k_close s : chstep k s KClose (CH (ch_slot s) (ch_watch s) true false (ch_calls s)).

(* oldest step first *)
Inductive chruns (k : ckind) : chn -> list chop -> chn -> Prop :=
| kr_nil s : chruns k s [] s
| kr_cons s o s1 os s2 : chstep k s o s1 -> chruns k s1 os s2 -> chruns k s (o :: os) s2.
