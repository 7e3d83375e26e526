(* Model of the goroutines the library starts for connections and datagrams, and of what ends them:
   tcpx.go:463-483 (raw), 537-606 (TCP), 682-703 (UDP), 1027-1116 (the watchers), context.go:276-303
   (CloseConn).  No proofs in this file.
   What a handler or HandleRaw does is left open: its goroutine may end at any time, or never.  Times are left out: a
   heartbeat watcher may report a loss, an auth watcher its deadline at any moment.  The goroutine
   of a datagram with a bad frame is never started (696-699); here it may end at once.  CloseConn
   closes the socket first and recvEnd after it (context.go:276-303): one step. *)
From Verif Require Export CtxModel.

(* GRaw: the goroutine of a raw connection, which runs the program's HandleRaw instead of reading *)
Inductive gkind := GReader | GRaw | GBroadcast | GBeat | GAuth | GHandler.
Inductive gsrc := FromTcp | FromRaw | FromUdp.
(* why a goroutine ends: the peer's doing (it closes, sends garbage), its own socket is closed,
   recvEnd is closed, closeAllSignal is closed, the server is seen stopped, a timer, a panic in
   OnHeartbeatLoss, RecvAuthPass, RecvAuthDeny, HandleRaw returned or panicked, a handler is done *)
Inductive why := WPeer | WSock | WRecv | WAll | WStop | WTime | WPanic | WPass | WDeny | WRet | WDone.
Record gor := G { g_kind : gkind; g_ctx : nat; g_live : bool }.
(* a context: where it comes from, whether recvEnd is closed *)
Record gctx := GC { gc_src : gsrc; gc_end : bool }.
(* [gw_all]: closeAllSignal is closed; [gw_stop]: State() = STATE_STOP *)
Record gworld := GW { gw_ctxs : list gctx; gw_gors : list gor; gw_all : bool; gw_stop : bool }.
Definition gworld0 : gworld := GW [] [] false false.

Section Gor.
  Context (signals beat auth : bool).     (* withSignals, HeartBeatOn, tcpx.auth *)

  (* the goroutines started for a new context.  The raw and UDP servers start the watchers
     unconditionally, but these return at once when their flag is off (1028, 1076); there is no
     auth watcher there.  heartBeatWatch starts a goroutine of its own (1029), the first one ends. *)
  Definition spawn (src : gsrc) (c : nat) : list gor :=
    (if signals then [G GBroadcast c true] else []) ++
    (if beat then [G GBeat c true] else []) ++
    (match src with FromTcp => if auth then [G GAuth c true] else [] | _ => [] end) ++
    (match src with FromUdp => [G GHandler c true] | FromRaw => [G GRaw c true] | FromTcp => [G GReader c true] end).

  Inductive gop :=
  | GNew (src : gsrc)              (* a connection is accepted / a datagram arrives *)
  | GMsg (c : nat)                 (* the reader of c starts a handling goroutine, 599-602 *)
  | GClose (c : nat)               (* somebody else calls CloseConn *)
  | GStop (all : bool)             (* Stop; all: closeAllSignal is closed *)
  | GStart                         (* the server runs again *)
  | GEnd (i : nat) (y : why).      (* goroutine i ends *)

  Definition close_ctx (w : gworld) (c : nat) : list gctx :=
    match nth_error (gw_ctxs w) c with Some k => upd (gw_ctxs w) c (GC (gc_src k) true) | None => gw_ctxs w end.
  Definition ended (w : gworld) (c : nat) : bool := match nth_error (gw_ctxs w) c with Some k => gc_end k | None => false end.

  (* may a live goroutine of this kind end for this reason now; the result says whether it calls
     CloseConn on the way out *)
  Definition may_end (w : gworld) (k : gkind) (c : nat) (y : why) : option bool :=
    match k, y with
    | GReader, WPeer => Some true                                  (* deferred, 559-560 *)
    | GReader, WSock => if ended w c then Some true else None
    | GRaw, WRet => Some true                                      (* deferred, 473 *)
    | GHandler, WDone => Some false
    | GBroadcast, WAll => if gw_all w then Some true else None     (* 1079-1081 *)
    | GBroadcast, WRecv => if ended w c then Some false else None  (* 1082-1083 *)
    | GBeat, WStop => if gw_stop w then Some true else None        (* 1040-1043 *)
    | GBeat, WTime => Some true                                    (* 1048-1059 *)
    | GBeat, WPanic => Some false                                  (* 1030-1035, 1053-1055 *)
    | GBeat, WAll => if gw_all w then Some true else None          (* 1061-1063 *)
    | GBeat, WRecv => if ended w c then Some false else None       (* 1064-1065 *)
    | GAuth, WTime => Some true                                    (* 1094-1097 *)
    | GAuth, WPass => Some false                                   (* 1099-1101 *)
    | GAuth, WDeny => Some true                                    (* 1102-1107 *)
    | GAuth, WAll => if gw_all w then Some true else None          (* 1108-1110 *)
    | GAuth, WRecv => if ended w c then Some false else None       (* 1111-1112 *)
    | _, _ => None
    end.

  Inductive gstep : gworld -> gop -> gworld -> Prop :=
  | gs_new w src :
      gstep w (GNew src) (GW (gw_ctxs w ++ [GC src false]) (gw_gors w ++ spawn src (List.length (gw_ctxs w))) (gw_all w) (gw_stop w))
  | gs_msg w c i : nth_error (gw_gors w) i = Some (G GReader c true) ->
      gstep w (GMsg c) (GW (gw_ctxs w) (gw_gors w ++ [G GHandler c true]) (gw_all w) (gw_stop w))
  | gs_close w c : gstep w (GClose c) (GW (close_ctx w c) (gw_gors w) (gw_all w) (gw_stop w))
  | gs_stop w all : gstep w (GStop all) (GW (gw_ctxs w) (gw_gors w) (gw_all w || (all && signals)) true)
  | gs_start w : gstep w GStart (GW (gw_ctxs w) (gw_gors w) (gw_all w) false)
  | gs_end w i k c y (b : bool) : nth_error (gw_gors w) i = Some (G k c true) -> may_end w k c y = Some b ->
      gstep w (GEnd i y) (GW (if b then close_ctx w c else gw_ctxs w) (upd (gw_gors w) i (G k c false)) (gw_all w) (gw_stop w)).

  (* oldest step first *)
  Inductive gsteps : gworld -> list gop -> gworld -> Prop :=
  | gr_nil w : gsteps w [] w
  | gr_cons w o w1 os w2 : gstep w o w1 -> gsteps w1 os w2 -> gsteps w (o :: os) w2.
End Gor.
