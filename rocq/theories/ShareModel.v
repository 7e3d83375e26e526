(* Model of presence with the contexts as they are: every context of a TCP connection is a struct of its
   own, with pointers it shares with the others (context.go:25-104, 131-141, 163-193, 276-303, 354-418,
   590-605, 645-654; client-pool.go; tcpx.go:531-535, 574, 596).  PoolModel has one record per connection
   instead.  No proofs in this file.
   Left out: UDP (UdpModel), the lock ctx.L (StateModel), replies themselves (CtxModel), the fields that
   matter for handling only (Stream, offset, handlers).  Each call is one step (finer: LinModel). *)
From Verif Require Export PoolModel.

(* context.go:25-75; every field but s_pool is a reference to a cell *)
Record sctx := SCtx {
  s_conn : nat;              (* Conn *)
  s_percon : nat;            (* PerConnectionContext *)
  s_perreq : nat;            (* PerRequestContext *)
  s_pool : option nat;       (* poolRef; None = nil *)
  s_end : nat;               (* recvEnd *)
  s_state : nat              (* userState *)
}.

Record sworld := SW {
  sw_ctxs : list sctx;                    (* all contexts ever made, in order *)
  sw_socks : list bool;                   (* closed? *)
  sw_maps : list smap;
  sw_ends : list bool;                    (* closed? *)
  sw_states : list bool;                  (* CONTEXT_ONLINE? *)
  sw_pools : list (list (string * nat));  (* client-pool.go:9-12: names to contexts *)
  sw_cur : option nat                     (* tcpx.pool if tcpx.builtInPool *)
}.
Definition sworld0 : sworld := SW [] [] [] [] [] [] None.

Definition s_map (w : sworld) (r : nat) : smap := nth r (sw_maps w) [].
Definition s_pool_at (w : sworld) (p : nat) : list (string * nat) := nth p (sw_pools w) [].
Definition set_map (w : sworld) (r : nat) (k : ckey) (v : cval) : sworld :=
  SW (sw_ctxs w) (sw_socks w) (upd (sw_maps w) r (aset k v (s_map w r))) (sw_ends w) (sw_states w) (sw_pools w) (sw_cur w).
Definition set_spool (w : sworld) (p : nat) (m : list (string * nat)) : sworld :=
  SW (sw_ctxs w) (sw_socks w) (sw_maps w) (sw_ends w) (sw_states w) (upd (sw_pools w) p m) (sw_cur w).
Definition add_spool (w : sworld) : sworld :=
  SW (sw_ctxs w) (sw_socks w) (sw_maps w) (sw_ends w) (sw_states w) (sw_pools w ++ [[]]) (Some (List.length (sw_pools w))).

(* context.go:177-193 NewContext, tcpx.go:533-535 *)
Definition s_accept (w : sworld) : sworld :=
  let n := List.length (sw_maps w) in
  SW (sw_ctxs w ++ [SCtx (List.length (sw_socks w)) n (S n) (sw_cur w) (List.length (sw_ends w)) (List.length (sw_states w))])
     (sw_socks w ++ [false]) (sw_maps w ++ [[]; []]) (sw_ends w ++ [false]) (sw_states w ++ [true]) (sw_pools w) (sw_cur w).

(* context.go:79-104 copyContext: PerRequestContext of the copy is PerConnectionContext *)
Definition s_copy (x : sctx) : sctx := SCtx (s_conn x) (s_percon x) (s_percon x) (s_pool x) (s_end x) (s_state x).

(* context.go:370-376 Username: None = nothing stored; a value that is not a string panics *)
Definition s_username (w : sworld) (x : sctx) : option cval := aget k_username (s_map w (s_percon x)).

(* context.go:131-141 *)
Definition s_online (w : sworld) (i : nat) (x : sctx) (u : string) : pret * sworld :=
  if String.eqb u EmptyString then (PErr, w) else
  let w1 := set_map w (s_percon x) k_username (VStr u) in
  match s_pool x with
  | None => (PErr, w1)
  | Some p => (POk, set_spool w1 p (aset u i (s_pool_at w1 p)))
  end.

(* context.go:163-173, client-pool.go:44-49 *)
Definition s_offline (w : sworld) (x : sctx) : pret * sworld :=
  match s_pool x with
  | None => (PErr, w)
  | Some p =>
      match s_username w x with
      | None => (PErr, w)
      | Some (VStr u) =>
          (POk, match aget u (s_pool_at w p) with Some _ => set_spool w p (adel u (s_pool_at w p)) | None => w end)
      | Some _ => (PPanic, w)
      end
  end.

(* context.go:276-303 *)
Definition s_close (w : sworld) (x : sctx) : pret * sworld :=
  let w1 := SW (sw_ctxs w) (upd (sw_socks w) (s_conn x) true) (sw_maps w) (upd (sw_ends w) (s_end x) true)
               (sw_states w) (sw_pools w) (sw_cur w) in
  match (match s_pool x with None => (POk, w1) | Some _ => s_offline w1 x end) with
  | (PPanic, w2) => (PPanic, w2)
  | (_, w2) => (POk, SW (sw_ctxs w2) (sw_socks w2) (sw_maps w2) (sw_ends w2) (upd (sw_states w2) (s_state x) false)
                        (sw_pools w2) (sw_cur w2))
  end.

(* context.go:354-366 SetCtxPerConn, 412-414 SetCtxPerRequest *)
Definition s_set_conn (w : sworld) (x : sctx) (k : ckey) (v : cval) : pret * sworld :=
  if reserved k then (PPanic, w) else (POk, set_map w (s_percon x) k v).
Definition s_set_req (w : sworld) (x : sctx) (k : ckey) (v : cval) : pret * sworld :=
  (POk, set_map w (s_perreq x) k v).

(* context.go:596-605 IsOnline *)
Definition s_is_online (w : sworld) (x : sctx) : bool := nth (s_state x) (sw_states w) false.

(* context.go:645-660 SendToUsername: the result and the connections written to *)
Definition s_send (w : sworld) (x : sctx) (u : string) : pret * list nat :=
  match s_pool x with
  | None => (PErr, [])
  | Some p =>
      match aget u (s_pool_at w p) with
      | None => (PErr, [])
      | Some j =>
          match nth_error (sw_ctxs w) j with
          | None => (PErr, [])                   (* cannot happen: pools hold existing contexts *)
          | Some y => if s_is_online w y then (POk, [s_conn y]) else (PErr, [])
          end
      end
  end.

(* calls by context; [SMessage i]: a message has arrived and i is copied for it (tcpx.go:574, 596 copy
   the connection's first context) *)
Inductive sop :=
| SWithPool (yes : bool)
| SNewPool
| SAccept
| SMessage (i : nat)
| SOnline (i : nat) (u : string)
| SOffline (i : nat)
| SClose (i : nat)
| SSetConn (i : nat) (k : ckey) (v : cval)
| SSetReq (i : nat) (k : ckey) (v : cval).

Definition son (i : nat) (w : sworld) (f : sctx -> pret * sworld) : pret * sworld :=
  match nth_error (sw_ctxs w) i with Some x => f x | None => (PErr, w) end.

Definition sstep (o : sop) (w : sworld) : pret * sworld :=
  match o with
  | SWithPool true => (POk, add_spool w)
  | SWithPool false => (POk, SW (sw_ctxs w) (sw_socks w) (sw_maps w) (sw_ends w) (sw_states w) (sw_pools w) None)
  | SNewPool => (POk, match sw_cur w with Some _ => add_spool w | None => w end)
  | SAccept => (POk, s_accept w)
  | SMessage i => son i w (fun x => (POk, SW (sw_ctxs w ++ [s_copy x]) (sw_socks w) (sw_maps w) (sw_ends w) (sw_states w) (sw_pools w) (sw_cur w)))
  | SOnline i u => son i w (fun x => s_online w i x u)
  | SOffline i => son i w (fun x => s_offline w x)
  | SClose i => son i w (fun x => s_close w x)
  | SSetConn i k v => son i w (fun x => s_set_conn w x k v)
  | SSetReq i k v => son i w (fun x => s_set_req w x k v)
  end.

(* newest call first *)
Fixpoint shrun (h : list sop) : sworld :=
  match h with [] => sworld0 | o :: p => snd (sstep o (shrun p)) end.
