(* Model of examples/modules/online-offline/server/server.go:10-36 over the client pool (PoolModel).
   No proofs in this file.  Every message has a goroutine of its own (tcpx.go:602), which runs its
   handler at some later time; the handler's pool call is one step (finer steps: LinModel). *)
From Verif Require Export PoolModel MuxModel.

(* server.go:13-18; functions 1 = online, 3 = offline.  The calls newest first. *)
Definition pres_server : mux := build [OAdd 3 [] (User 3); OAdd 1 [] (User 1)].

(* a message waiting for its goroutine: connection, id, its body decoded into Login (22-25), None
   when that is an error *)
Definition pres_job : Type := nat * Z * option string.
(* what the handlers print: the connection whose message is handled, and the line *)
Inductive pres_line := LError | LOnline | LOffline.
Record pres := Pres { pr_pool : pworld; pr_jobs : list (option pres_job); pr_lines : list (nat * pres_line) }.
(* NewTcpX and WithBuiltInPool(true), 11-13 *)
Definition pres0 : pres := Pres (snd (pstep (PWithPool true) pworld0)) [] [].

(* A connection is made; a message arrives on connection c; the goroutine of message i runs its
   handler; connection c ends, so its reader calls CloseConn. *)
Inductive pres_ev := NConnect | NMsg (c : nat) (id : Z) (login : option string) | NRun (i : nat) | NGone (c : nat).

(* the handler of a message: lines printed (newest first), pool afterwards *)
Definition pres_handle (j : pres_job) (w : pworld) : list (nat * pres_line) * pworld :=
  let '(c, id, login) := j in
  match plan_of (ById id) pres_server with
  | RunChain [User 1] =>                     (* server.go:21-31 *)
      match login with
      | None => ([(c, LError)], w)
      | Some u => ([(c, LOnline)], snd (pstep (POnline c u) w))   (* 29: the error of Online is not looked at *)
      end
  | RunChain [User 3] => ([(c, LOffline)], snd (pstep (POffline c) w))   (* 33-36 *)
  | _ => ([], w)
  end.

(* None = not possible: no such connection or goroutine *)
Definition pres_step (e : pres_ev) (s : pres) : option pres :=
  match e with
  | NConnect => Some (Pres (snd (pstep PAccept (pr_pool s))) (pr_jobs s) (pr_lines s))
  | NMsg c id login =>
      if Nat.ltb c (List.length (pw_conns (pr_pool s))) then Some (Pres (pr_pool s) (pr_jobs s ++ [Some (c, id, login)]) (pr_lines s)) else None
  | NRun i =>
      match nth_error (pr_jobs s) i with
      | Some (Some j) => let (ls, w) := pres_handle j (pr_pool s) in Some (Pres w (upd (pr_jobs s) i None) (ls ++ pr_lines s))
      | _ => None
      end
  | NGone c =>
      if Nat.ltb c (List.length (pw_conns (pr_pool s))) then Some (Pres (snd (pstep (PClose c) (pr_pool s))) (pr_jobs s) (pr_lines s)) else None
  end.

(* newest event first *)
Fixpoint pres_run (h : list pres_ev) : option pres :=
  match h with
  | [] => Some pres0
  | e :: p => match pres_run p with Some s => pres_step e s | None => None end
  end.
