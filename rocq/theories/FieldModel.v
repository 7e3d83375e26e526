(* Model of how a server's goroutines use the fields of the TcpX: tcpx.go:119-251 (the configuring
   calls), 367-417, 420-485, 488-609, 612-629, 633-712, 852-911, 943-958, 992-1014, 1027-1118,
   1140-1227.  Which fields are read and written, under pLock or not, in which order, and which
   goroutines are started; loops are any number of rounds and every branch may be taken.
   Left out: fields of contexts (CtxFieldModel), what lies behind Mux (RegModel) and behind the
   pool (SpecRace), the Network and Port of a record (never written once it is in the list), the
   pointers Mux and pLock (NewTcpX sets them; nothing else does).  The Listener fields of all
   records count as one variable.  No proofs in this file. *)
From Verif Require Export AccessModel.

Inductive field :=
| FOnConnect | FOnMessage | FOnClose | FPackx | FHandleRaw | FTLSConfig
| FDeadLine | FReadDeadLine | FWriteDeadLine | FMaxByte
| FHeartBeatOn | FHeatBeatInterval | FHeartBeatMessageID | FThroughMiddleware | FOnHeartbeatLoss
| FBuiltInPool | FPool
| FAuth | FAuthDeadline | FAuthMessageID | FAuthThroughMiddleware
| FWithSignals | FCloseAllSignal
| FState | FProperties | FListener
| FLoopVar (i : nat).            (* not a field: the variable v of the i-th Start call (tcpx.go:1196) *)

(* tcpx.go:119-251, 1266-1275: the configuring calls; [Assign f]: an exported field set directly *)
Inductive conf_call :=
| WithBuiltInPool | WithAuthDetail | SetDeadline | SetMaxBytePerMessage | SetReadDeadline | SetWriteDeadline
| WithBroadCastSignal | HeartBeatMode | HeartBeatModeDetail | SetEventOnHeartbeatLoss
| RewriteHeartBeatHandler | LoadTLSFile | AssignOnConnect | AssignOnMessage | AssignOnClose | AssignHandleRaw.

Definition conf_writes (c : conf_call) : list field :=
  match c with
  | WithBuiltInPool => [FBuiltInPool; FPool]
  | WithAuthDetail => [FAuth; FAuthDeadline; FAuthMessageID; FAuthThroughMiddleware]
  | SetDeadline => [FDeadLine]
  | SetMaxBytePerMessage => [FMaxByte]
  | SetReadDeadline => [FReadDeadLine]
  | SetWriteDeadline => [FWriteDeadLine]
  | WithBroadCastSignal => [FWithSignals; FCloseAllSignal]
  | HeartBeatMode | HeartBeatModeDetail => [FHeartBeatOn; FHeatBeatInterval; FThroughMiddleware; FHeartBeatMessageID]
  | SetEventOnHeartbeatLoss => [FOnHeartbeatLoss]
  | RewriteHeartBeatHandler => [FHeartBeatMessageID]
  | LoadTLSFile => [FTLSConfig]
  | AssignOnConnect => [FOnConnect]
  | AssignOnMessage => [FOnMessage]
  | AssignOnClose => [FOnClose]
  | AssignHandleRaw => [FHandleRaw]
  end.

(* tcpx.go:240 reads the old id first *)
Definition configure (c : conf_call) (k : acts field) : acts field :=
  let k := fold_right PWr k (conf_writes c) in
  match c with RewriteHeartBeatHandler => PRd FHeartBeatMessageID k | _ => k end.

(* tcpx.go:612-616, 620-624 *)
Definition set_state (k : acts field) : acts field := PLock (PWr FState (PUnlock k)).
(* tcpx.go:625-629 *)
Definition get_state (k : acts field) : acts field := PRLock (PRd FState (PRUnlock k)).
(* tcpx.go:396-418: n records are compared; then either one of them gets the new listener or a
   record is appended *)
Definition fillProperty (n : nat) (found : bool) (k : acts field) : acts field :=
  PLock (PRd FProperties (PRd FProperties
    (if found then times n (PRd FProperties) (PWr FListener (PUnlock k))
     else PRd FProperties (PWr FProperties (PUnlock k))))).

(* if b { f } *)
Definition opt (b : bool) (f : acts field -> acts field) (k : acts field) : acts field := if b then f k else k.

(* which goroutine or which part of one *)
Inductive part :=
| Program          (* code of the application: calls, handlers, callbacks *)
| Starting (i : nat)            (* the loop of the i-th Start call *)
| Accepting (raw : bool)        (* the loop of ListenAndServeTCP, ListenAndServeRaw *)
| Receiving        (* the loop of ListenAndServeUDP *)
| Broadcast | Heart | HeartLoop | AuthWatch
| Reader           (* the goroutine of a connection *)
| ReaderLoop | Piped | Handling
| RawConn.         (* the goroutine of a raw connection *)

(* what the program does not do: [al_conf] configuring calls, [al_start] Start (and Restart),
   [al_swap] Stop(true) on a server without WithBroadCastSignal *)
Record allowed := Allowed { al_conf : bool; al_start : bool; al_swap : bool }.

Inductive runs (a : allowed) : part -> acts field -> Prop :=
(* --- the application --- *)
| r_end : runs a Program PEnd
| r_conf c k : al_conf a = true -> runs a Program k -> runs a Program (configure c k)
| r_go p k : runs a Program p -> runs a Program k -> runs a Program (PGo p k)
| r_state k : runs a Program k -> runs a Program (get_state k)
(* tcpx.go:1140-1167 Stop: already stopped *)
| r_stop_refused k : runs a Program k -> runs a Program (get_state k)
(* Stop(false), with n records *)
| r_stop n k : runs a Program k ->
    runs a Program (get_state (set_state (PLock (PRd FProperties
      (times n (fun k => PRd FProperties (PRd FListener k)) (PUnlock k))))))
(* Stop(true), tcpx.go:1169-1188: the broadcast signal *)
| r_stop_signal n k : runs a Program k ->
    runs a Program (get_state (set_state (PLock (PRd FProperties
      (times n (fun k => PRd FProperties (PRd FListener k)) (PUnlock (PRd FWithSignals (PRd FCloseAllSignal k))))))))
(* Stop(true): no pool *)
| r_stop_nopool n k : runs a Program k ->
    runs a Program (get_state (set_state (PLock (PRd FProperties
      (times n (fun k => PRd FProperties (PRd FListener k)) (PUnlock (PRd FWithSignals (PRd FPool k))))))))
(* Stop(true): the pool is replaced; what the goroutine of tcpx.go:1175-1183 does concerns the old pool *)
| r_stop_pool n k : al_swap a = true -> runs a Program k ->
    runs a Program (get_state (set_state (PLock (PRd FProperties
      (times n (fun k => PRd FProperties (PRd FListener k))
        (PUnlock (PRd FWithSignals (PRd FPool (PRd FPool (PGo PEnd (PWr FPool k)))))))))))
(* tcpx.go:1191-1211 Start: already running; or the records, one after another *)
| r_start_refused k : runs a Program k -> runs a Program (get_state k)
| r_start i k : al_start a = true -> runs a (Starting i) k -> runs a Program (get_state (PRd FProperties k))
| r_started i k : runs a Program k -> runs a (Starting i) k
(* tcpx.go:1197-1208; [p]: ListenAndServe *)
| r_starting i p k : runs a Program p -> runs a (Starting i) k ->
    runs a (Starting i) (PWr (FLoopVar i) (PGo (PRd (FLoopVar i) (PRd (FLoopVar i)
      (PRd (FLoopVar i) (PRd (FLoopVar i) p)))) k))
(* --- tcpx.go:488-515 ListenAndServeTCP: no listener; or the loop --- *)
| r_tcp_fails (tls : bool) k : runs a Program k ->
    runs a Program (PRd FTLSConfig (opt tls (PRd FTLSConfig) k))
| r_tcp (tls : bool) n found k : runs a (Accepting false) k ->
    runs a Program (PRd FTLSConfig (opt tls (PRd FTLSConfig) (fillProperty n found (set_state k))))
(* tcpx.go:420-437 ListenAndServeRaw (without a listener nothing is touched) *)
| r_raw n found k : runs a (Accepting true) k -> runs a Program (fillProperty n found (set_state k))
(* tcpx.go:633-655, 709 ListenAndServeUDP does not return *)
| r_udp n found l : runs a Receiving l ->
    runs a Program (fillProperty n found (set_state (PRd FDeadLine (PRd FReadDeadLine (PRd FWriteDeadLine (PGo l PEnd))))))
(* --- tcpx.go:439-446, 517-524: stopped, or Accept failed: back to the caller --- *)
| r_left raw k : runs a Program k -> runs a (Accepting raw) (get_state k)
(* tcpx.go:526-606: one connection.  [oc]: what OnConnect does, if there is one; if it panics the
   call returns (the recover of 489-495) *)
| r_accept_panics raw (pool : bool) oc k : runs a Program oc -> runs a Program k ->
    runs a (Accepting raw) (get_state (PRd FDeadLine (PRd FReadDeadLine (PRd FWriteDeadLine (PRd FPackx (PRd FBuiltInPool
      (opt pool (PRd FPool) (PRd FOnConnect (PRd FOnConnect (pthen oc k))))))))))
| r_accept (pool told sig hb auth : bool) oc b h w c k :
    runs a Program oc ->
    runs a Broadcast b -> runs a Heart h -> runs a AuthWatch w -> runs a Reader c -> runs a (Accepting false) k ->
    runs a (Accepting false) (get_state (PRd FDeadLine (PRd FReadDeadLine (PRd FWriteDeadLine (PRd FPackx (PRd FBuiltInPool
      (opt pool (PRd FPool) (PRd FOnConnect
      (opt told (fun k => PRd FOnConnect (pthen oc k))
      (PRd FWithSignals (opt sig (PGo b)
      (PRd FHeartBeatOn (opt hb (PGo h)
      (PRd FAuth (opt auth (PGo w)
      (PGo c k))))))))))))))))
(* tcpx.go:448-483 *)
| r_accept_raw (pool told : bool) oc b h c k :
    runs a Program oc ->
    runs a Broadcast b -> runs a Heart h -> runs a RawConn c -> runs a (Accepting true) k ->
    runs a (Accepting true) (get_state (PRd FDeadLine (PRd FReadDeadLine (PRd FWriteDeadLine (PRd FPackx (PRd FBuiltInPool
      (opt pool (PRd FPool) (PRd FOnConnect
      (opt told (fun k => PRd FOnConnect (pthen oc k))
      (PGo b (PGo h (PGo c k))))))))))))
(* --- tcpx.go:1075-1087, 1091-1118 --- *)
| r_no_broadcast : runs a Broadcast (PRd FWithSignals PEnd)
| r_broadcast : runs a Broadcast (PRd FWithSignals (PRd FCloseAllSignal PEnd))
| r_no_auth : runs a AuthWatch (PRd FAuth PEnd)
| r_auth : runs a AuthWatch (PRd FAuth (PRd FAuthDeadline (PRd FCloseAllSignal PEnd)))
(* --- tcpx.go:1027-1073 --- *)
| r_no_heart : runs a Heart (PRd FHeartBeatOn PEnd)
| r_heart l : runs a HeartLoop l -> runs a Heart (PRd FHeartBeatOn (PGo l PEnd))
| r_heart_stopped : runs a HeartLoop (get_state PEnd)
| r_heart_ends : runs a HeartLoop (get_state (PRd FHeatBeatInterval (PRd FCloseAllSignal PEnd)))
| r_heart_again k : runs a HeartLoop k -> runs a HeartLoop (get_state (PRd FHeatBeatInterval (PRd FCloseAllSignal k)))
| r_heart_lost : runs a HeartLoop (get_state (PRd FHeatBeatInterval (PRd FCloseAllSignal (PRd FOnHeartbeatLoss PEnd))))
| r_heart_told p : runs a Program p ->
    runs a HeartLoop (get_state (PRd FHeatBeatInterval (PRd FCloseAllSignal (PRd FOnHeartbeatLoss (PRd FOnHeartbeatLoss p)))))
(* --- tcpx.go:552-606: OnClose, if there is one, runs when the loop has ended --- *)
| r_reader k : runs a ReaderLoop k -> runs a Reader (PRd FOnClose k)
| r_reader_tell k p : runs a ReaderLoop k -> runs a Program p -> runs a Reader (PRd FOnClose (PRd FOnClose (pthen k p)))
| r_read_ends : runs a ReaderLoop (PRd FMaxByte PEnd)
| r_read h k : runs a Handling h -> runs a ReaderLoop k -> runs a ReaderLoop (PRd FMaxByte (PGo h k))
| r_read_pipe n h k : runs a Piped h -> runs a ReaderLoop k ->
    runs a ReaderLoop (PRd FMaxByte (times n (PRd FMaxByte) (PGo h k)))
(* tcpx.go:994-999 *)
| r_piped_end : runs a Piped PEnd
| r_piped h k : runs a Handling h -> runs a Piped k -> runs a Piped (pthen h k)
(* --- tcpx.go:852-871, 874-887: OnMessage --- *)
| r_on_message p : runs a Program p -> runs a Handling (PRd FOnMessage (PRd FOnMessage p))
(* tcpx.go:859-861, 891-910: no handler; the heartbeat or the auth handler alone; the chain *)
| r_by_id_none : runs a Handling (PRd FOnMessage (PRd FPackx PEnd))
| r_by_id_beat p : runs a Program p ->
    runs a Handling (PRd FOnMessage (PRd FPackx (PRd FHeartBeatMessageID (PRd FThroughMiddleware p))))
| r_by_id_auth (m : bool) p : runs a Program p ->
    runs a Handling (PRd FOnMessage (PRd FPackx (PRd FHeartBeatMessageID
      (opt m (PRd FThroughMiddleware) (PRd FAuthMessageID (PRd FAuthThroughMiddleware p))))))
| r_by_id (m n : bool) p : runs a Program p ->
    runs a Handling (PRd FOnMessage (PRd FPackx (PRd FHeartBeatMessageID
      (opt m (PRd FThroughMiddleware) (PRd FAuthMessageID
      (opt n (PRd FAuthThroughMiddleware) p))))))
(* tcpx.go:864-870, 948-992 *)
| r_by_url p : runs a Program p -> runs a Handling (PRd FOnMessage p)
(* --- tcpx.go:466-483, 1001-1014 --- *)
| r_raw_conn p : runs a Program p -> runs a RawConn (PRd FOnClose (PRd FHandleRaw p))
| r_raw_conn_tell p q : runs a Program p -> runs a Program q ->
    runs a RawConn (PRd FOnClose (PRd FOnClose (PRd FHandleRaw (pthen p q))))
(* --- tcpx.go:662-706 --- *)
| r_udp_left : runs a Receiving (get_state PEnd)
| r_udp_error k : runs a Receiving k -> runs a Receiving (get_state k)
| r_udp_bad (pool : bool) b h k : runs a Broadcast b -> runs a Heart h -> runs a Receiving k ->
    runs a Receiving (get_state (PRd FPackx (PGo b (PGo h (PRd FBuiltInPool
      (opt pool (PRd FPool) (PRd FPackx k)))))))
| r_udp_datagram (pool : bool) b h d k : runs a Broadcast b -> runs a Heart h -> runs a Handling d -> runs a Receiving k ->
    runs a Receiving (get_state (PRd FPackx (PGo b (PGo h (PRd FBuiltInPool
      (opt pool (PRd FPool) (PRd FPackx (PGo d k)))))))).
