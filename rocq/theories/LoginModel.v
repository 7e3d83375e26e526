(* Model of the url-pattern example: examples/modules/url-pattern/server/server.go:10-34 and
   client.go:11-60.  No proofs in this file.  Every message has a goroutine of its own (tcpx.go:602),
   which handles it at some later time, in one step. *)
From Verif Require Export BindModel MuxModel.

(* server.go:11-13; function 1 = login *)
Definition login_server : mux := build [OAny "/login/" [User 1]].

Section Login.
  (* [zero]: the empty User (25); [token]: the map of the reply (30-32) *)
  Context {V : Type} (E : env V) (zero token : V).

  (* server.go:20-33 for the message of context c: buffers written; an error of Bind is printed *)
  Definition login_handler (c : ctx) (w : world) : list bytes * world :=
    match Bind E (JsonMarshaller E) c (Some zero) with
    | Ok _ => let (o, w') := JSONURLPattern E c (Some token) None w in (snd o, w')   (* 30: its error is not looked at *)
    | _ => ([], w)
    end.
  (* tcpx.go:853-871 routing, then the chain *)
  Definition login_handle (c : ctx) (w : world) : list bytes * world :=
    match route (e_hdr E) c w with
    | (Ok rt, w1) => match plan_of rt login_server with RunChain [User 1] => login_handler c w1 | _ => ([], w1) end
    | (_, w1) => ([], w1)
    end.

  (* the contexts and what they store; the contexts of the connections; the goroutines: the context of the message each is to
     handle, None when it has; the buffers written, newest first, with the context of the message answered *)
  Record lsrv := Lsrv { lv_w : world; lv_conns : list nat; lv_jobs : list (option nat); lv_sent : list (nat * bytes) }.
  Definition lsrv0 : lsrv := Lsrv world0 [] [] [].

  (* a connection is made; message s is read on connection k; goroutine i handles its message *)
  Inductive lev_ := GAccept | GRead (k : nat) (s : gslice) | GRun (i : nat).
  (* None = not possible: no such connection or goroutine *)
  Definition lstep_ (e : lev_) (s : lsrv) : option lsrv :=
    match e with
    | GAccept => Some (Lsrv (cstep (e_hdr E) CAccept (lv_w s)) (lv_conns s ++ [List.length (w_ctxs (lv_w s))]) (lv_jobs s) (lv_sent s))
    | GRead k m =>
        match nth_error (lv_conns s) k with
        | Some x => Some (Lsrv (cstep (e_hdr E) (CRead x m) (lv_w s)) (lv_conns s) (lv_jobs s ++ [Some (List.length (w_ctxs (lv_w s)))]) (lv_sent s))
        | None => None
        end
    | GRun i =>
        match nth_error (lv_jobs s) i with
        | Some (Some y) =>
            match nth_error (w_ctxs (lv_w s)) y with
            | Some c => let (bs, w) := login_handle c (lv_w s) in
                        Some (Lsrv w (lv_conns s) (upd (lv_jobs s) i None) (map (pair y) bs ++ lv_sent s))
            | None => None
            end
        | _ => None
        end
    end.
  (* newest event first *)
  Fixpoint lrun_ (h : list lev_) : option lsrv :=
    match h with
    | [] => Some lsrv0
    | e :: p => match lrun_ p with Some s => lstep_ e s | None => None end
    end.

  (* client.go:34-60 Recv, n turns of its loop: what it prints.  [zr]: the empty LoginResponse (52) *)
  Context (zr : V).
  Inductive lshow := SToken (v : V) | SOther | SError (e : gerr).
  Fixpoint login_client (n : nat) (r : reader) : list lshow :=
    match n with
    | O => []
    | S n' =>
        match FirstBlockOf r with
        | (RdOk b, r') =>
            match PackTypeURLPattern E (of_bytes b) with
            | Ok u =>
                if String.eqb u "/login/" then
                  SToken (match PackTypeBind (e_unjson E) (of_bytes b) (Some zr) with Ok v => v | _ => zr end) :: login_client n' r'
                else SOther :: login_client n' r'
            | Err e => [SError (EWrap e)]
            | Panic => []
            end
        | (RdErr e, _) => [SError (EWrap e)]
        | (RdPanic, _) | (RdBlocked, _) => []
        end
    end.
End Login.
