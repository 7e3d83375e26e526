(* Model of the graceful-stop and graceful-restart examples with their client
   (examples/modules/graceful/graceful-stop/main.go, graceful-restart/main.go, client/client.go in
   both, which are the same file).  The server's listening goroutines are those of LoopModel.v.  No
   proofs in this file. *)
From Verif Require Export LoopModel.

(* Where the goroutine of main.go:21-32 (stop) or 23-46 (restart) stands.  The sleeps only say that
   it may be slow: they are left out, so that every order of the goroutines is allowed. *)
Inductive gpc :=
| GAsleep    (* before srv.Stop(false): 22-23, 24-25 *)
| GStopping  (* inside Stop, which found the server running *)
| GStopped   (* Stop returned nil; the restart example prints and sleeps: 31-34 *)
| GStarted   (* Start returned nil: 35-38 *)
| GGaveUp.   (* Stop or Start returned an error, which is printed: 24-25; 26-27, 36-37 *)

(* One run of client.go.  It sends nothing and the server has no handlers, so nothing is ever read
   but the end of the connection. *)
Inductive gseat :=
| CWait (i : nat)   (* net.Dial succeeded (12): in the queue of listener i, which the kernel keeps *)
| CTaken (i : nat)  (* Accept of loop i returned the connection: tcpx.go:520 *)
| CServed           (* its goroutine runs, blocked in its first read: tcpx.go:552-565 *)
| CEnded            (* it has read io.EOF and closed the connection: tcpx.go:560, 566-570 *)
| CRefused          (* net.Dial returned an error, panic: client.go:13-15 *)
| CCut.             (* the connection was reset: Read returns an error, os.Exit: client.go:24-26 *)
(* [gc_gone]: somebody ended the client's process *)
Record gclient := GC { gc_seat : gseat; gc_gone : bool }.

Record grace := GR { g_loops : loops; g_pc : gpc; g_clients : list gclient }.
(* main.go:15-18, 17-20: ListenAndServe("tcp", ":8080") has been called *)
Definition example_call : lkind * string * string := (KTcp, "tcp"%string, ":8080"%string).
Definition grace0 : grace := GR (LPS false [] [] [] [example_call]) GAsleep [].

(* closing a listener resets the connections nobody has accepted (Linux) *)
Definition hears (s : loops) (i : nat) : bool := match nth_error (lp_loops s) i with Some l => ll_open l | None => false end.
Definition settle (s : loops) (cs : list gclient) : list gclient :=
  map (fun c => match gc_seat c with CWait i => if hears s i then c else GC CCut (gc_gone c) | _ => c end) cs.

Inductive glab :=
| GLoop (o : loop_op)    (* a step of a listening goroutine, or of Stop and Start *)
| GStopNo | GStartNo     (* Stop, Start return their error *)
| GDial                  (* a client is started *)
| GGone (c : nat)        (* it is ended by its user *)
| GEof (c : nat).        (* the server notices *)

(* the listening goroutines' steps that concern no client; there is no OnConnect to panic *)
Definition loop_alone (o : loop_op) : bool :=
  match o with VListen _ | VNoListen _ | VFill _ | VOpen _ | VCheck _ | VFail _ _ => true | _ => false end.
Definition all_exclusive (nw ad : string) : bool := true.

Section Grace.
  (* the restart example calls Start, the stop example does not *)
  Context (restart : bool).
  Inductive gtrans : grace -> glab -> grace -> Prop :=
  | g_plain s p cs o s' : loop_alone o = true -> vstep all_exclusive s o s' ->
      gtrans (GR s p cs) (GLoop o) (GR s' p (settle s' cs))
  | g_conn s p cs i c k s' : vstep all_exclusive s (VConn i) s' -> nth_error cs c = Some k -> gc_seat k = CWait i ->
      (* the kernel hands out the oldest; here any *)
      gtrans (GR s p cs) (GLoop (VConn i)) (GR s' p (upd cs c (GC (CTaken i) (gc_gone k))))
  | g_serve s p cs i c k s' : vstep all_exclusive s (VServe i false) s' -> nth_error cs c = Some k -> gc_seat k = CTaken i ->
      gtrans (GR s p cs) (GLoop (VServe i false)) (GR s' p (upd cs c (GC CServed (gc_gone k))))
  | g_stop_test s cs s' : vstep all_exclusive s VStopTest s' ->
      gtrans (GR s GAsleep cs) (GLoop VStopTest) (GR s' GStopping cs)
  | g_stop_no s cs : lp_running s = false ->
      gtrans (GR s GAsleep cs) GStopNo (GR s GGaveUp cs)
  | g_stop_state s cs j s' : vstep all_exclusive s (VStopState j) s' ->
      gtrans (GR s GStopping cs) (GLoop (VStopState j)) (GR s' GStopping cs)
  | g_stop_close s cs j s' : vstep all_exclusive s (VStopClose j) s' ->
      gtrans (GR s GStopping cs) (GLoop (VStopClose j)) (GR s' GStopped (settle s' cs))
  | g_start s cs calls s' : restart = true -> vstep all_exclusive s (VStart calls) s' ->
      gtrans (GR s GStopped cs) (GLoop (VStart calls)) (GR s' GStarted cs)
  | g_start_no s cs : restart = true -> lp_running s = true ->
      gtrans (GR s GStopped cs) GStartNo (GR s GGaveUp cs)
  | g_dial s p cs i : hears s i = true ->
      gtrans (GR s p cs) GDial (GR s p (cs ++ [GC (CWait i) false]))
  | g_dial_no s p cs : (forall i, hears s i = false) ->
      gtrans (GR s p cs) GDial (GR s p (cs ++ [GC CRefused false]))
  | g_gone s p cs c k : nth_error cs c = Some k ->
      gtrans (GR s p cs) (GGone c) (GR s p (upd cs c (GC (gc_seat k) true)))
  | g_eof s p cs c : nth_error cs c = Some (GC CServed true) ->
      gtrans (GR s p cs) (GEof c) (GR s p (upd cs c (GC CEnded true))).

  (* oldest step first *)
  Inductive graces : grace -> list glab -> grace -> Prop :=
  | gr_nil s : graces s [] s
  | gr_cons s l s1 ls s2 : gtrans s l s1 -> graces s1 ls s2 -> graces s (l :: ls) s2.
End Grace.
