(* The statements of C104: which fields of a TcpX may be raced by which programs. *)
From Verif Require Export SpecAccess FieldModel.

(* which calls set a field, read off field by field (tcpx.go:118-249, 1266-1275) *)
Definition sets (c : conf_call) (x : field) : Prop :=
  match x with
  | FOnConnect => c = AssignOnConnect
  | FOnMessage => c = AssignOnMessage
  | FOnClose => c = AssignOnClose
  | FHandleRaw => c = AssignHandleRaw
  | FTLSConfig => c = LoadTLSFile
  | FDeadLine => c = SetDeadline
  | FReadDeadLine => c = SetReadDeadline
  | FWriteDeadLine => c = SetWriteDeadline
  | FMaxByte => c = SetMaxBytePerMessage
  | FHeartBeatOn | FHeatBeatInterval | FThroughMiddleware => c = HeartBeatMode \/ c = HeartBeatModeDetail
  | FHeartBeatMessageID => c = HeartBeatMode \/ c = HeartBeatModeDetail \/ c = RewriteHeartBeatHandler
  | FOnHeartbeatLoss => c = SetEventOnHeartbeatLoss
  | FBuiltInPool | FPool => c = WithBuiltInPool
  | FAuth | FAuthDeadline | FAuthMessageID | FAuthThroughMiddleware => c = WithAuthDetail
  | FWithSignals | FCloseAllSignal => c = WithBroadCastSignal
  | FPackx | FState | FProperties | FListener | FLoopVar _ => False
  end.

(* a field some configuring call sets *)
Definition configured (x : field) : Prop := exists c, sets c x.

(* the configuring calls cs, then p *)
Definition after_setup (cs : list conf_call) (p : acts field) : acts field := fold_right configure p cs.
