(* Model of users on a UDP server with the built-in pool: Online, Offline, SendToUsername, Reply and
   CloseConn on the contexts of datagrams (context.go:106-173, 203-220, 276-303, 381-410, 505-521,
   643-660; client-pool.go; tcpx.go:682-703).  No proofs in this file.
   One UDP socket, builtInPool set; every call is one step (the pool's lock is the subject of C80).
   Names are strings (for other values under the reserved key see PoolModel). *)
From Verif Require Export CtxModel.

(* a datagram's context: its sender, the user name in its PerRequestContext (a UDP context has no
   per-connection values: setCtxPerConn and GetCtxPerConn go to the request's, context.go:395-410),
   userState *)
Record uctx := UC { u_addr : string; u_name : option string; u_off : bool }.
Record uworld := UW { uw_ctxs : list uctx; uw_pool : list (string * nat); uw_open : bool }.
Definition uworld0 : uworld := UW [] [] true.

Inductive uop :=
| UArrive (a : string)               (* a datagram from address a; its context *)
| UOnline (c : nat) (u : string)     (* ctx.Online(u) *)
| UOffline (c : nat)                 (* ctx.Offline() *)
| UEnd (c : nat)                     (* its chain is through: ctx.Reset(), which replaces PerRequestContext (565-573) *)
| UClose (c : nat).                  (* ctx.CloseConn() *)

Definition uset (w : uworld) (c : nat) (k : uctx) : uworld := UW (upd (uw_ctxs w) c k) (uw_pool w) (uw_open w).
(* client-pool.go:44-49 *)
Definition pool_offline (u : string) (p : list (string * nat)) : list (string * nat) :=
  match aget u p with Some _ => adel u p | None => p end.
(* context.go:163-173 Offline *)
Definition uoffline (w : uworld) (k : uctx) : uworld :=
  match u_name k with
  | Some n => UW (uw_ctxs w) (pool_offline n (uw_pool w)) (uw_open w)
  | None => w
  end.

Definition ustep (w : uworld) (o : uop) : uworld :=
  match o with
  | UArrive a => if uw_open w then UW (uw_ctxs w ++ [UC a None false]) (uw_pool w) (uw_open w) else w
  | UOnline c u =>
      match nth_error (uw_ctxs w) c with
      | Some k => if String.eqb u "" then w
                  else let w := uset w c (UC (u_addr k) (Some u) (u_off k)) in UW (uw_ctxs w) (aset u c (uw_pool w)) (uw_open w)
      | None => w
      end
  | UOffline c => match nth_error (uw_ctxs w) c with Some k => uoffline w k | None => w end
  | UEnd c => match nth_error (uw_ctxs w) c with Some k => uset w c (UC (u_addr k) None (u_off k)) | None => w end
  | UClose c =>
      (* PacketConn.Close(), then the deferred Offline and userState *)
      match nth_error (uw_ctxs w) c with
      | Some k => let w := uoffline (UW (uw_ctxs w) (uw_pool w) false) k in uset w c (UC (u_addr k) (u_name k) true)
      | None => w
      end
  end.
(* newest call first *)
Fixpoint urun (h : list uop) : uworld := match h with [] => uworld0 | o :: p => ustep (urun p) o end.

(* context.go:505-521 replyBuf on a UDP context: WriteTo(buf, ctx.Addr); the result and the addresses
   written to.  A closed socket gives an error. *)
Definition ureply (w : uworld) (c : nat) : bool * list string :=
  match nth_error (uw_ctxs w) c with
  | Some k => if uw_open w then (true, [u_addr k]) else (false, [])
  | None => (false, [])
  end.
(* context.go:645-660 SendToUsername, SendToConn *)
Definition usend (w : uworld) (u : string) : bool * list string :=
  match aget u (uw_pool w) with
  | None => (false, [])
  | Some d => match nth_error (uw_ctxs w) d with
              | Some k => if u_off k then (false, []) else ureply w d
              | None => (false, [])
              end
  end.
