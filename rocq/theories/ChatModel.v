(* Model of the chat server, examples/modules/chat/server/main.go:10-62, over the client pool
   (PoolModel).  No proofs in this file. *)
From Verif Require Export PoolModel MuxModel.

(* main.go:11-17; functions 1 = online, 3 = offline, 5 = send.  The calls newest first. *)
Definition chat_server : mux := build [OAdd 5 [] (User 5); OAdd 3 [] (User 3); OAdd 1 [] (User 1)].

(* what can be seen of a message the server writes: the connection written to (whether or not it
   is still open), message id, and the two strings of ResponseTo (40-43); encoding it as JSON
   cannot fail *)
Record cmsg := CM { cm_to : nat; cm_id : Z; cm_message : string; cm_from : string }.
Definition offline_text (u : string) : string := ("'" ++ u ++ "' is offline")%string.

(* a goroutine inside [send] after line 49: sender, message, ToUser, what IsOnline returned;
   None = it has returned *)
Definition sending : Type := nat * string * string * bool.
Record chat := Chat { ch_pool : pworld; ch_sends : list (option sending); ch_out : list cmsg; ch_dead : bool }.
(* NewTcpX and WithBuiltInPool(true), 10-12 *)
Definition chat0 : chat := Chat (snd (pstep (PWithPool true) pworld0)) [] [] false.

(* A connection is made; a message with this id arrives on connection c, where [login] and [req]
   are its body decoded into Login (21-24) and into RequestFrom (36-39), None when that is an
   error; goroutine i of [send] goes on after line 49; connection c ends, so its reader calls
   CloseConn. *)
Inductive cev :=
| HConnect
| HMsg (c : nat) (id : Z) (login : option string) (req : option (string * string))
| HFinish (i : nat)
| HGone (c : nat).

(* context.go:596-605 IsOnline on the result of GetClientPool (client-pool.go:29-33); nil is not online *)
Definition looked_up (w : pworld) (k : pconn) (u : string) : bool :=
  match pc_ref k with
  | None => false                       (* GetPoolRef() is nil: not with this server *)
  | Some p =>
      match GetClientPool w p u with
      | None => false
      | Some d => match nth_error (pw_conns w) d with Some kd => negb (IsOffline kd) | None => false end
      end
  end.

Definition with_pool (s : chat) (w : pworld) : chat := Chat w (ch_sends s) (ch_out s) (ch_dead s).
Definition call (o : pop) (s : chat) : chat := with_pool s (snd (pstep o (ch_pool s))).

(* None = not possible: the process has ended, no such connection or goroutine *)
Definition cstep1 (e : cev) (s : chat) : option chat :=
  if ch_dead s then None else
  match e with
  | HConnect => Some (call PAccept s)
  | HGone c => if Nat.ltb c (List.length (pw_conns (ch_pool s))) then Some (call (PClose c) s) else None
  | HMsg c id login req =>
      match nth_error (pw_conns (ch_pool s)) c with
      | None => None
      | Some k =>
          Some match plan_of (ById id) chat_server with
          | RunChain [User 1] =>                       (* main.go:20-30 *)
              match login with Some u => call (POnline c u) s | None => s end
          | RunChain [User 3] => call (POffline c) s   (* main.go:32-35 *)
          | RunChain [User 5] =>                       (* main.go:37-56 *)
              match req with
              | None => Chat (ch_pool s) (ch_sends s) (ch_out s) true   (* panic(e), recovered by nobody *)
              | Some (m, u) => Chat (ch_pool s) (ch_sends s ++ [Some (c, m, u, looked_up (ch_pool s) k u)]) (ch_out s) false
              end
          | _ => s
          end
      end
  | HFinish i =>
      match nth_error (ch_sends s) i with
      | Some (Some (c, m, u, yes)) =>
          match nth_error (pw_conns (ch_pool s)) c with
          | None => None
          | Some k =>
              let news := if yes then map (fun d => CM d 6 m u) (snd (SendToUsername (ch_pool s) k u))   (* 57-61, its error is ignored *)
                          else [CM c 200 (offline_text u) ""] in                                          (* 62-66 *)
              Some (Chat (ch_pool s) (upd (ch_sends s) i None) (news ++ ch_out s) false)
          end
      | _ => None
      end
  end.

(* newest event first *)
Fixpoint chat_run (h : list cev) : option chat :=
  match h with
  | [] => Some chat0
  | e :: p => match chat_run p with Some s => cstep1 e s | None => None end
  end.
