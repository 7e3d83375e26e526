(* Model of the heartbeat example: examples/modules/heartbeat/server/server.go:9-22 and
   client/client.go:11-33, one client and the goroutine that watches its connection (WatchModel).
   No proofs in this file. *)
From Verif Require Export ServerModel WatchModel.

(* server.go:12 *)
Definition pulse_server : mux := build [OBeat true false 1392].
(* client.go:18-22; the client drops the error *)
Definition pulse_packs {V} (E : env V) : res bytes := PackWithMarshaller E (Msg 1392 None None) None.

(* Times: the watcher starts at 0.  [P] = the client's sleep (client.go:31) and [I] = the server's
   interval (server.go:12), both 10 s in the example; [J] bounds how late the client writes after its
   sleep (and its first heartbeat after 0); [L] bounds the time from Write to the value's being in the
   watcher's channel (network, reading, the handler's goroutine); [D] as in WatchModel.  The channel is
   taken to exist when the first handler asks for it (C47 is about the race).
   [pl_client]: the earliest and the latest time of the next Write; None = the client is gone.
   [pl_air]: when the heartbeats written and not yet in the channel were written. *)
Record pulse := Pulse { pl_watch : wst; pl_client : option (Z * Z); pl_air : list Z }.
Definition pulse0 (J : Z) : pulse := Pulse wst0 (Some (0, J)) [].

(* time passes; the client writes; the heartbeat written at t reaches the channel; the watcher's timer
   fires (LExpire), it comes to its select (LEnter) or leaves for another reason (LQuit); the client ends *)
Inductive plab := HTick (d : Z) | HWrite | HArrive (t : Z) | HWatch (l : wlab) | HKill.

Inductive ptrans (P I J L D : Z) : plab -> pulse -> pulse -> Prop :=
| p_tick d w w' cl air : wtrans I D (LTick d) w w' ->
    (forall lo hi, cl = Some (lo, hi) -> ws_now w + d <= hi) ->
    (ws_phase w <> WatchModel.PDone -> Forall (fun t => ws_now w + d <= t + L) air) ->
    ptrans P I J L D (HTick d) (Pulse w cl air) (Pulse w' cl air)
| p_write w lo hi air : lo <= ws_now w ->
    ptrans P I J L D HWrite (Pulse w (Some (lo, hi)) air) (Pulse w (Some (ws_now w + P, ws_now w + P + J)) (air ++ [ws_now w]))
(* the handlers run concurrently: in any order *)
| p_arrive w w' cl a t b : wtrans I D LBeat w w' ->
    ptrans P I J L D (HArrive t) (Pulse w cl (a ++ t :: b)) (Pulse w' cl (a ++ b))
| p_watch l w w' cl air : l = LExpire \/ l = LEnter \/ l = LQuit -> wtrans I D l w w' ->
    ptrans P I J L D (HWatch l) (Pulse w cl air) (Pulse w' cl air)
| p_kill w cl air : ptrans P I J L D HKill (Pulse w cl air) (Pulse w None air).

(* newest step first *)
Inductive pulses (P I J L D : Z) : list plab -> pulse -> Prop :=
| pl_nil : pulses P I J L D [] (pulse0 J)
| pl_step l tr s s' : pulses P I J L D tr s -> ptrans P I J L D l s s' -> pulses P I J L D (l :: tr) s'.
