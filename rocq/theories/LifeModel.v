(* Model of the server's life cycle: fillProperty, openState, Stop, closeAllConnection, Start,
   Restart (tcpx.go:396-418, 612-629, 1140-1227), of the watchers that react to it, and of the UDP
   server's shared socket.  No proofs in this file.
   A history is any interleaving of the steps below, newest first.  A step that contains no channel
   operation, no lock release in the middle and no call-out is taken as atomic: each of them runs
   under pLock (tcpx.go:398, 613, 622, 627, 1150) or touches one variable. *)
From Verif Require Export CtxModel.

(* tcpx.go:98-105 *)
Record property := Prop_ { p_network : string; p_port : string; p_listener : nat }.

(* tcpx.go:396-418.  The first record with the same network and address gets the new listener. *)
Fixpoint replace_first (ps : list property) (network addr : string) (l : nat) : option (list property) :=
  match ps with
  | [] => None
  | p :: r =>
      if String.eqb (p_network p) network && String.eqb (p_port p) addr
      then Some (Prop_ (p_network p) (p_port p) l :: r)
      else match replace_first r network addr l with Some r' => Some (p :: r') | None => None end
  end.
Definition fillProperty (ps : list property) (network addr : string) (l : nat) : list property :=
  match replace_first ps network addr l with
  | Some ps' => ps'
  | None => ps ++ [Prop_ network addr l]
  end.

(* One connection, as far as the server's own goroutines can close it.  [lv_sig]: the signal channel
   broadcastSignalWatch waits on (tcpx.closeAllSignal read at its only select; None = nil, which never
   becomes ready); [lv_hbsig]: the one heartBeatWatch waits on, read afresh at every select.  Both
   goroutines are taken to reach their first select at once. *)
Record lifeconn := LCn {
  lv_open : bool;
  lv_sig : option nat;
  lv_bcast : bool;          (* broadcastSignalWatch still running *)
  lv_hb : bool;             (* heartBeatWatch still running *)
  lv_hbsig : option nat
}.

Record life := Life {
  lf_running : bool;                    (* tcpx.state == STATE_RUNNING *)
  lf_props : list property;
  lf_listeners : list bool;             (* by number: open? *)
  lf_signals : bool;                    (* tcpx.withSignals *)
  lf_chan : option nat;                 (* tcpx.closeAllSignal *)
  lf_chans : list bool;                 (* signal channels by number: closed? *)
  lf_hbon : bool;                       (* tcpx.HeartBeatOn *)
  lf_conns : list lifeconn
}.
(* NewTcpX, tcpx.go:108-116: state 2, no records, no signals *)
Definition life0 (hbon : bool) : life := Life false [] [] false None [] hbon [].

Definition set_listeners (s : life) ls := Life (lf_running s) (lf_props s) ls (lf_signals s) (lf_chan s) (lf_chans s) (lf_hbon s) (lf_conns s).
Definition set_running (s : life) b := Life b (lf_props s) (lf_listeners s) (lf_signals s) (lf_chan s) (lf_chans s) (lf_hbon s) (lf_conns s).
Definition set_chans (s : life) cs := Life (lf_running s) (lf_props s) (lf_listeners s) (lf_signals s) (lf_chan s) cs (lf_hbon s) (lf_conns s).
Definition set_lconns (s : life) cs := Life (lf_running s) (lf_props s) (lf_listeners s) (lf_signals s) (lf_chan s) (lf_chans s) (lf_hbon s) cs.

(* the listeners Stop closes: tcpx.go:1152-1159 *)
Definition stop_closes (network : string) : bool :=
  String.eqb network "kcp" || String.eqb network "tcp" || String.eqb network "udp".
Definition close_listeners (ps : list property) (ls : list bool) : list bool :=
  fold_left (fun ls p => if stop_closes (p_network p) then upd ls (p_listener p) false else ls) ps ls.

Inductive lret := ROk | RErr | RPanic.

(* tcpx.go:1169-1188, the branch with signals; without signals nothing here (see PoolModel.v) *)
Definition closeAllConnection (s : life) : lret * life :=
  if lf_signals s then
    match lf_chan s with
    | None => (RPanic, s)                                   (* close of nil channel *)
    | Some c => if nth c (lf_chans s) false then (RPanic, s) (* close of closed channel *)
                else (ROk, set_chans s (upd (lf_chans s) c true))
    end
  else (ROk, s).

(* tcpx.go:1140-1167 *)
Definition Stop (s : life) (closeAll : bool) : lret * life :=
  if negb (lf_running s) then (RErr, s) else
  let s1 := set_running s false in
  let s2 := set_listeners s1 (close_listeners (lf_props s1) (lf_listeners s1)) in
  if closeAll then closeAllConnection s2 else (ROk, s2).

(* tcpx.go:1191-1211.  Start only spawns goroutines; each calls ListenAndServe(v.Network, v.Port)
   with the loop variable v, which (go 1.12, go.mod) is one variable for the whole loop.  The
   goroutine of iteration i reads v once for each argument, at any time after iteration i began:
   [starts ps calls] says that calls is a possible list of the calls made, by iteration. *)
Definition Start (s : life) : lret := if lf_running s then RErr else ROk.
Definition starts (ps : list property) (calls : list (string * string)) : Prop :=
  List.length calls = List.length ps /\
  forall i nw ad, nth_error calls i = Some (nw, ad) ->
    exists a b pa pb, (i <= a)%nat /\ (a <= b)%nat /\ nth_error ps a = Some pa /\ nth_error ps b = Some pb /\
      nw = p_network pa /\ ad = p_port pb.

(* tcpx.go:1214-1227; a hook may do anything to the server *)
Definition Restart (s : life) (closeAll : bool) (hooks : list (life -> life)) : lret * life :=
  match Stop s closeAll with
  | (ROk, s1) => let s2 := fold_left (fun s h => h s) hooks s1 in (Start s2, s2)
  | (r, s1) => (r, s1)
  end.

(* what the server's goroutines and its user do *)
Inductive lop :=
| OSignals (yes : bool)                  (* WithBroadCastSignal, tcpx.go:173-177 *)
| OListen (network addr : string)        (* net.Listen succeeded, fillProperty: 500-506 *)
| OOpen                                  (* openState, 509, 612-616 *)
| OAccept                                (* a connection and its watchers, 521-552 *)
| OGone (c : nat)                        (* the connection ends by itself: CloseConn by its own goroutine or a handler *)
| OBcast (c : nat)                       (* broadcastSignalWatch of connection c gets to run *)
| OHb (c : nat)                          (* heartBeatWatch of connection c goes round its loop once, no loss *)
| OStop (closeAll : bool).

Definition sig_closed (s : life) (c : option nat) : bool := match c with Some k => nth k (lf_chans s) false | None => false end.

Definition on_conn (s : life) (c : nat) (f : lifeconn -> lifeconn) : life :=
  match nth_error (lf_conns s) c with Some k => set_lconns s (upd (lf_conns s) c (f k)) | None => s end.

Definition lopstep (o : lop) (s : life) : lret * life :=
  match o with
  | OSignals yes =>
      (ROk, Life (lf_running s) (lf_props s) (lf_listeners s) yes (Some (List.length (lf_chans s))) (lf_chans s ++ [false]) (lf_hbon s) (lf_conns s))
  | OListen nw ad =>
      (ROk, Life (lf_running s) (fillProperty (lf_props s) nw ad (List.length (lf_listeners s))) (lf_listeners s ++ [true])
              (lf_signals s) (lf_chan s) (lf_chans s) (lf_hbon s) (lf_conns s))
  | OOpen => (ROk, set_running s true)
  | OAccept => (ROk, set_lconns s (lf_conns s ++ [LCn true (lf_chan s) (lf_signals s) (lf_hbon s) (lf_chan s)]))
  | OGone c => (ROk, on_conn s c (fun k => LCn false (lv_sig k) (lv_bcast k) (lv_hb k) (lv_hbsig k)))
  | OBcast c =>
      (* tcpx.go:1077-1085 *)
      (ROk, on_conn s c (fun k =>
        if lv_bcast k then
          if sig_closed s (lv_sig k) then LCn false (lv_sig k) false (lv_hb k) (lv_hbsig k)
          else if negb (lv_open k) then LCn (lv_open k) (lv_sig k) false (lv_hb k) (lv_hbsig k) else k
        else k))
  | OHb c =>
      (* tcpx.go:1040-1043, 1061-1066 *)
      (ROk, on_conn s c (fun k =>
        if lv_hb k then
          if negb (lf_running s) then LCn false (lv_sig k) (lv_bcast k) false (lv_hbsig k)
          else if sig_closed s (lv_hbsig k) then LCn false (lv_sig k) (lv_bcast k) false (lv_hbsig k)
          else if negb (lv_open k) then LCn (lv_open k) (lv_sig k) (lv_bcast k) false (lv_hbsig k)
          else LCn (lv_open k) (lv_sig k) (lv_bcast k) true (lf_chan s)     (* beat or interval: the next select *)
        else k))
  | OStop b => Stop s b
  end.

Fixpoint liferun (hbon : bool) (h : list lop) : life :=
  match h with [] => life0 hbon | o :: p => snd (lopstep o (liferun hbon p)) end.

(* ------------------------------------------------------------------ *)
(* The UDP server, tcpx.go:633-712: every datagram gets a context of its own (NewUDPContext,
   context.go:203-220) with its own heartbeat channel (PerRequestContext) and, when HeartBeatOn, its
   own heartBeatWatch; CloseConn of such a context closes the one PacketConn (context.go:296-298). *)
Record udpctx := UC { uc_times : Z; uc_watch : bool }.
Record udp := UDP { ud_open : bool; ud_hb : bool; ud_running : bool; ud_ctxs : list udpctx; ud_errs : nat }.
Definition udp0 (hb : bool) : udp := UDP true hb true [] 0.
Inductive uop :=
| UDatagram          (* ReadFrom returns a datagram, from whichever peer *)
| UReadFails         (* ReadFrom on the closed socket returns an error that is not io.EOF: logged, continue (670-677) *)
| UBeat (k : nat)    (* the handler of datagram k calls RecvHeartBeat, its watcher receives *)
| UExpire (k : nat). (* an interval of the watcher of datagram k elapses *)

Inductive ustep : udp -> uop -> udp -> Prop :=
| u_datagram u : ud_open u = true -> ud_running u = true ->
    ustep u UDatagram (UDP true (ud_hb u) (ud_running u) (ud_ctxs u ++ [UC 0 (ud_hb u)]) (ud_errs u))
| u_fail u : ud_open u = false -> ud_running u = true ->
    ustep u UReadFails (UDP (ud_open u) (ud_hb u) (ud_running u) (ud_ctxs u) (S (ud_errs u)))
| u_beat u k c : nth_error (ud_ctxs u) k = Some c -> uc_watch c = true ->
    ustep u (UBeat k) (UDP (ud_open u) (ud_hb u) (ud_running u) (upd (ud_ctxs u) k (UC 0 true)) (ud_errs u))
| u_expire u k c : nth_error (ud_ctxs u) k = Some c -> uc_watch c = true -> uc_times c + 1 <> 3 ->
    ustep u (UExpire k) (UDP (ud_open u) (ud_hb u) (ud_running u) (upd (ud_ctxs u) k (UC (uc_times c + 1) true)) (ud_errs u))
| u_loss u k c : nth_error (ud_ctxs u) k = Some c -> uc_watch c = true -> uc_times c + 1 = 3 ->
    ustep u (UExpire k) (UDP false (ud_hb u) (ud_running u) (upd (ud_ctxs u) k (UC (uc_times c + 1) false)) (ud_errs u)).

(* oldest step first *)
Inductive uruns : udp -> list uop -> udp -> Prop :=
| ur_nil u : uruns u [] u
| ur_cons u o u1 os u2 : ustep u o u1 -> uruns u1 os u2 -> uruns u (o :: os) u2.
