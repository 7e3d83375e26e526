(* Model of the listening functions as goroutines: ListenAndServeRaw, ListenAndServeTCP and
   ListenAndServeUDP (tcpx.go:421-732) against Stop and Start (tcpx.go:1140-1211), and of one
   connection of the raw server (tcpx.go:463-483, 1001-1014).  No proofs in this file. *)
From Verif Require Export LifeModel StrModel ServerModel.

(* which function listens; for UDP the optional maxBufferSize *)
Inductive lkind := KTcp | KRaw | KUdp (size : option nat).

(* where a listening goroutine stands.  Each constructor names what it does next. *)
Inductive lpc :=
| QFill      (* net.Listen/ListenPacket returned; fillProperty: 434, 506, 644 *)
| QOpen      (* openState: 437, 509, 646 *)
| QTop       (* the test of State(): 440, 517, 665 *)
| QRead      (* blocked in Accept (443, 520) or ReadFrom (724) *)
| QGot       (* Accept returned a connection; OnConnect and the start of its goroutines: 449-484, 526-606 *)
| QDone.     (* the loop was left *)
Record lloop := LL { ll_kind : lkind; ll_net : string; ll_addr : string; ll_open : bool; ll_pc : lpc }.
Definition udp_kind (k : lkind) : bool := match k with KUdp _ => true | _ => false end.

(* a Stop under way, tcpx.go:1140-1162: after the test of State(), after stopState *)
Inductive spc := SState | SClose | SRet.

(* [lp_loops]: by number; the number is also the listener's *)
Record loops := LPS {
  lp_running : bool;
  lp_props : list property;
  lp_loops : list lloop;
  lp_stops : list spc;
  lp_calls : list (lkind * string * string)     (* goroutines about to call net.Listen *)
}.
Definition loops0 : loops := LPS false [] [] [] [].

Definition set_pc (l : lloop) (p : lpc) : lloop := LL (ll_kind l) (ll_net l) (ll_addr l) (ll_open l) p.
(* leaving ListenAndServeRaw/TCP runs the deferred listener.Close (436, 508).  The UDP receive loop
   is a goroutine of its own: ListenAndServeUDP itself waits in select{} (704) and never runs its
   deferred conn.Close. *)
Definition leave (l : lloop) : lloop :=
  LL (ll_kind l) (ll_net l) (ll_addr l) (if udp_kind (ll_kind l) then ll_open l else false) QDone.
Definition shut (l : lloop) : lloop := LL (ll_kind l) (ll_net l) (ll_addr l) false (ll_pc l).

Definition set_loop (s : loops) (i : nat) (l : lloop) : loops :=
  LPS (lp_running s) (lp_props s) (upd (lp_loops s) i l) (lp_stops s) (lp_calls s).

(* Stop's closing of listeners, 1149-1162: every recorded listener on "kcp", "tcp" or "udp" *)
Definition shut_recorded (ps : list property) (ls : list lloop) : list lloop :=
  fold_left (fun ls p =>
    if stop_closes (p_network p) then
      match nth_error ls (p_listener p) with Some l => upd ls (p_listener p) (shut l) | None => ls end
    else ls) ps ls.

(* what Start's goroutine calls for a record, 1205 through ListenAndServe 367-386: the network name
   alone decides, and UDP gets no maxBufferSize.  None: nothing listens. *)
Definition start_kind (network : string) : option lkind :=
  match ListenAndServe_choice (str_bytes network) with
  | Ok ServeTCP => Some KTcp
  | Ok ServeUDP => Some (KUdp None)
  | _ => None
  end.
Definition start_calls (calls : list (string * string)) : list (lkind * string * string) :=
  flat_map (fun a => match start_kind (fst a) with Some k => [(k, fst a, snd a)] | None => [] end) calls.

Inductive loop_op :=
| VCall (k : lkind) (nw ad : string)     (* the program calls a listening function *)
| VListen (j : nat)                      (* net.Listen of call j succeeds *)
| VNoListen (j : nat)                    (* it fails: error returned, or (UDP) panic *)
| VFill (i : nat)
| VOpen (i : nat)
| VCheck (i : nat)
| VConn (i : nat)                        (* Accept gives a connection; ReadFrom a datagram *)
| VFail (i : nat) (eof : bool)           (* Accept or ReadFrom gives an error *)
| VServe (i : nat) (panics : bool)       (* OnConnect runs; the goroutines start unless it panics *)
| VSock (i : nat)                        (* CloseConn of a datagram's context closes the socket, context.go:296-298 *)
| VStopTest                              (* Stop is called and finds the server running *)
| VStopState (j : nat)
| VStopClose (j : nat)
| VStart (calls : list (string * string)). (* Start finds the server stopped; [calls] = what its goroutines call *)

Section Loops.
  (* the addresses only one open listener can have at a time (":0" is not one) *)
  Context (exclusive : string -> string -> bool).

  Definition taken (s : loops) (nw ad : string) : bool :=
    exclusive nw ad && existsb (fun l => ll_open l && String.eqb (ll_net l) nw && String.eqb (ll_addr l) ad) (lp_loops s).

  Inductive vstep : loops -> loop_op -> loops -> Prop :=
  | v_call s k nw ad :
      vstep s (VCall k nw ad) (LPS (lp_running s) (lp_props s) (lp_loops s) (lp_stops s) (lp_calls s ++ [(k, nw, ad)]))
  | v_listen s c1 c2 k nw ad : lp_calls s = c1 ++ (k, nw, ad) :: c2 -> taken s nw ad = false ->
      vstep s (VListen (List.length c1)) (LPS (lp_running s) (lp_props s) (lp_loops s ++ [LL k nw ad true QFill]) (lp_stops s) (c1 ++ c2))
  | v_nolisten s c1 c2 k nw ad : lp_calls s = c1 ++ (k, nw, ad) :: c2 ->
      vstep s (VNoListen (List.length c1)) (LPS (lp_running s) (lp_props s) (lp_loops s) (lp_stops s) (c1 ++ c2))
  | v_fill s i l : nth_error (lp_loops s) i = Some l -> ll_pc l = QFill ->
      vstep s (VFill i) (LPS (lp_running s) (fillProperty (lp_props s) (ll_net l) (ll_addr l) i)
                           (upd (lp_loops s) i (set_pc l QOpen)) (lp_stops s) (lp_calls s))
  | v_open s i l : nth_error (lp_loops s) i = Some l -> ll_pc l = QOpen ->
      vstep s (VOpen i) (LPS true (lp_props s) (upd (lp_loops s) i (set_pc l QTop)) (lp_stops s) (lp_calls s))
  | v_check s i l : nth_error (lp_loops s) i = Some l -> ll_pc l = QTop ->
      vstep s (VCheck i) (set_loop s i (if lp_running s then set_pc l QRead else leave l))
  | v_conn s i l : nth_error (lp_loops s) i = Some l -> ll_pc l = QRead -> ll_open l = true ->
      vstep s (VConn i) (set_loop s i (set_pc l (if udp_kind (ll_kind l) then QTop else QGot)))
  | v_fail s i l eof : nth_error (lp_loops s) i = Some l -> ll_pc l = QRead ->
      (* 444-447, 521-524: any error ends an accept loop; 669-673: only io.EOF ends the UDP loop *)
      vstep s (VFail i eof) (set_loop s i (if udp_kind (ll_kind l) && negb eof then set_pc l QTop else leave l))
  | v_serve s i l p : nth_error (lp_loops s) i = Some l -> ll_pc l = QGot ->
      (* a panic of OnConnect unwinds the listening function itself: recovered at 422-428, 490-496 *)
      vstep s (VServe i p) (set_loop s i (if p then leave l else set_pc l QTop))
  | v_sock s i l : nth_error (lp_loops s) i = Some l -> udp_kind (ll_kind l) = true -> ll_pc l <> QFill -> ll_pc l <> QOpen ->
      vstep s (VSock i) (set_loop s i (shut l))
  | v_stop_test s : lp_running s = true ->
      vstep s VStopTest (LPS (lp_running s) (lp_props s) (lp_loops s) (lp_stops s ++ [SState]) (lp_calls s))
  | v_stop_state s j : nth_error (lp_stops s) j = Some SState ->
      vstep s (VStopState j) (LPS false (lp_props s) (lp_loops s) (upd (lp_stops s) j SClose) (lp_calls s))
  | v_stop_close s j : nth_error (lp_stops s) j = Some SClose ->
      vstep s (VStopClose j) (LPS (lp_running s) (lp_props s) (shut_recorded (lp_props s) (lp_loops s)) (upd (lp_stops s) j SRet) (lp_calls s))
  | v_start s calls : lp_running s = false -> starts (lp_props s) calls ->
      vstep s (VStart calls) (LPS (lp_running s) (lp_props s) (lp_loops s) (lp_stops s) (lp_calls s ++ start_calls calls)).

  (* oldest step first *)
  Inductive vruns : loops -> list loop_op -> loops -> Prop :=
  | vr_nil s : vruns s [] s
  | vr_cons s o s1 os s2 : vstep s o s1 -> vruns s1 os s2 -> vruns s (o :: os) s2.
  Definition vreach (s : loops) : Prop := exists os, vruns loops0 os s.
End Loops.

(* ------------------------------------------------------------------ *)
(* The raw server's connections *)
Section Raw.
  Context (m : mux) (behave : hdl -> list act).

  (* tcpx.go:1001-1014 handleRaw: every anchor's function, whatever its windows; HandleRaw last.
     A nil HandleRaw is appended all the same, and panics when the chain reaches it. *)
  Definition raw_funcs (h : option hdl) : list (option hdl) :=
    map Some (m_globals m) ++ map (fun a => Some (a_fn a)) (m_anchors m) ++ [h].
  Definition raw_act (f : option hdl) : list act := match f with Some f => behave f | None => [APanic] end.
  Definition raw_chain (h : option hdl) : chain :=
    let l := raw_funcs h in Chain (seq 0 (List.length l)) (fun i => raw_act (nth i l None)).

  Inductive rev_ := RChain (e : ev) | ROnClose | RCloseConn.
  (* tcpx.go:466-483: the goroutine of one connection.  [off] = ctx.offset as OnConnect left it
     (-1 unless it called Next, Abort on the connection's context).  The deferred calls run on a
     return and on a panic; the recover comes last.  The deadlines, InitReaderAndWriter
     (context.go:256-273, never an error on a TCP context) and Reset (1013) have no effect here. *)
  Definition raw_conn (off : Z) (h : option hdl) (onClose : callback) : option (list rev_) :=
    match run_from off (raw_chain h) with
    | Some (t, _, _) => Some (map RChain t ++ (match onClose with Unset => [] | Set_ _ => [ROnClose] end) ++ [RCloseConn])
    | None => None
    end.
End Raw.
