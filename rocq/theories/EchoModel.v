(* examples/modules/raw: the server (server.go) and the client (client.go).  No proofs in this file. *)
From Verif Require Export LoopModel ReaderModel.

(* what the server shows: lines printed, replies written, the close *)
Inductive echo_out :=
| EcPrint (s : string)          (* the middlewares' lines *)
| EcGot (bs : bytes)            (* fmt.Println("receive:", string(buf[:n])), server.go:27 *)
| EcWrote (bs : bytes)          (* c.ConnWriter.Write, 28; its results are not looked at *)
| EcFailed (e : gerr)           (* fmt.Println(e.Error()), 24 *)
| EcClosed.                     (* the deferred CloseConn, tcpx.go:474 *)

Definition echo_reply : bytes := str_bytes "hello,I am server.".

(* server.go:17-30 the loop of HandleRaw: outputs, and whether it returned (false: it waits in
   Read).  Fuelled; EchoProofs.v shows [echo_fuel] suffices. *)
Fixpoint echo_loop (fuel : nat) (r : reader) : list echo_out * bool :=
  match fuel with
  | O => ([], false)
  | S f =>
      match read_one 500 r with
      | None => ([], false)
      | Some (_, Some e, _) => ([EcFailed e], true)
      | Some (bs, None, r') => let '(o, b) := echo_loop f r' in (EcGot bs :: EcWrote echo_reply :: o, b)
      end
  end.
Fixpoint read_budget (r : reader) : nat :=
  match r with
  | [] => O
  | RData bs :: r' | RDataFail bs _ :: r' => S (List.length bs + read_budget r')
  | RFail _ :: r' => S (read_budget r')
  end.
Definition echo_fuel (r : reader) : nat := S (read_budget r).

(* server.go:11-16: newest call first *)
Definition echo_ops : list op := [OUse "middle-1" (User 2); OGlobal [User 1]].
(* the three functions as numbered effects *)
Definition echo_behave (f : hdl) : list act := match f with User n => [AEff (Z.of_nat n)] | Beat => [] end.

(* the outputs of one connection's goroutine (tcpx.go:466-483); nothing follows a Read that waits *)
Fixpoint echo_expand (r : reader) (es : list rev_) : list echo_out :=
  match es with
  | [] => []
  | RChain (EEff 1) :: es' => EcPrint "before raw message in" :: echo_expand r es'
  | RChain (EEff 2) :: es' => EcPrint "use middleware 1" :: echo_expand r es'
  | RChain (EEff 3) :: es' =>
      let '(o, returned) := echo_loop (echo_fuel r) r in if returned then o ++ echo_expand r es' else o
  | RChain _ :: es' => echo_expand r es'
  | ROnClose :: es' => echo_expand r es'
  | RCloseConn :: es' => EcClosed :: echo_expand r es'
  end.
(* OnConnect and OnClose are not set (server.go) *)
Definition echo_conn (r : reader) : option (list echo_out) :=
  option_map (echo_expand r) (raw_conn (build echo_ops) echo_behave (-1) (Some (User 3)) Unset).

(* client.go:17 what it sends; 22-31 Recv: lines printed, then exit status 1 *)
Definition echo_hello : bytes := str_bytes "hello,I am client.".
Inductive echo_shown := EsLine (bs : bytes) | EsError (e : gerr) | EsExit (code : Z).
Fixpoint echo_recv (fuel : nat) (r : reader) : list echo_shown :=
  match fuel with
  | O => []
  | S f =>
      match read_one 500 r with
      | None => []
      | Some (_, Some e, _) => [EsError e; EsExit 1]
      | Some (bs, None, r') => EsLine bs :: echo_recv f r'
      end
  end.
Definition echo_client (r : reader) : list echo_shown := echo_recv (echo_fuel r) r.
