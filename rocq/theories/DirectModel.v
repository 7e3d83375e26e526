(* Model of the pool used through its exported methods (client-pool.go) beside the calls of contexts:
   an application reaches a connection's pool with GetPoolRef (context.go:662-666), has GlobalClientPool
   (client-pool.go:7, 20-22) and can make pools of its own (NewClientPool, 14-19).  No proofs in this file.
   As PoolModel, but an entry of a pool can be nil: SetClientPool and Online take any *Context.  Each call
   is one step.  The map cp.Clients is exported as well: writing or deleting an entry directly is as
   SetClientPool and DeleteFromClientPool here, the lock aside. *)
From Verif Require Export PoolModel.

(* client-pool.go:9-12; None = a nil context *)
Definition dpool := list (string * option nat).
Record dworld := DW {
  dw_conns : list pconn;
  dw_pools : list dpool;
  dw_cur : option nat
}.
(* GlobalClientPool (client-pool.go:20-22) is a pool the first call [DMake] of a history makes *)
Definition dworld0 : dworld := DW [] [] None.

Definition dpool_at (w : dworld) (p : nat) : dpool := nth p (dw_pools w) [].
Definition d_set_conn (w : dworld) (c : nat) (k : pconn) : dworld := DW (upd (dw_conns w) c k) (dw_pools w) (dw_cur w).
Definition d_set_pool (w : dworld) (p : nat) (m : dpool) : dworld := DW (dw_conns w) (upd (dw_pools w) p m) (dw_cur w).
Definition d_add_pool (w : dworld) (cur : option nat) : dworld := DW (dw_conns w) (dw_pools w ++ [[]]) cur.

(* client-pool.go:23-27, 41-43 *)
Definition dSet (w : dworld) (p : nat) (u : string) (x : option nat) : dworld := d_set_pool w p (aset u x (dpool_at w p)).
(* client-pool.go:29-33: a missing entry gives nil as well *)
Definition dGet (w : dworld) (p : nat) (u : string) : option nat :=
  match aget u (dpool_at w p) with Some x => x | None => None end.
(* client-pool.go:53-59 isOnline *)
Definition dIsOnline (w : dworld) (p : nat) (u : string) : bool := ahas u (dpool_at w p).
(* client-pool.go:35-39 *)
Definition dDelete (w : dworld) (p : nat) (u : string) : dworld := d_set_pool w p (adel u (dpool_at w p)).
(* client-pool.go:44-49 *)
Definition dPoolOffline (w : dworld) (p : nat) (u : string) : dworld :=
  match dGet w p u with Some _ => dDelete w p u | None => w end.

(* context.go:131-141 *)
Definition dOnline (w : dworld) (c : nat) (k : pconn) (u : string) : pret * dworld :=
  if String.eqb u EmptyString then (PErr, w) else
  let w1 := d_set_conn w c (store_name k (VStr u)) in
  match pc_ref k with
  | None => (PErr, w1)
  | Some p => (POk, dSet w1 p u (Some c))
  end.

(* context.go:163-173 *)
Definition dOffline (w : dworld) (k : pconn) : pret * dworld :=
  match pc_ref k with
  | None => (PErr, w)
  | Some p =>
      match pc_user k with
      | None => (PErr, w)
      | Some (VStr u) => (POk, dPoolOffline w p u)
      | Some _ => (PPanic, w)
      end
  end.

(* context.go:276-303 *)
Definition dCloseConn (w : dworld) (c : nat) (k : pconn) : pret * dworld :=
  let k1 := PConn (pc_ref k) (pc_user k) (pc_online k) true true in
  let w1 := d_set_conn w c k1 in
  match (match pc_ref k with None => (POk, w1) | Some _ => dOffline w1 k1 end) with
  | (PPanic, w2) => (PPanic, w2)
  | (_, w2) => (POk, d_set_conn w2 c (PConn (pc_ref k) (pc_user k) false true true))
  end.

(* context.go:645-660 *)
Definition dSendToUsername (w : dworld) (k : pconn) (u : string) : pret * list nat :=
  match pc_ref k with
  | None => (PErr, [])
  | Some p =>
      match dGet w p u with
      | None => (PErr, [])
      | Some d =>
          match nth_error (dw_conns w) d with
          | None => (PErr, [])                   (* cannot happen *)
          | Some kd => if pc_online kd then (POk, [d]) else (PErr, [])
          end
      end
  end.

(* [DIndirect o]: the calls PoolModel has.  [DSet q u x]: SetClientPool or Online on pool q, with a
   context of connection x or nil. *)
Inductive dop :=
| DIndirect (o : pop)
| DMake
| DSet (q : nat) (u : string) (x : option nat)
| DDelete (q : nat) (u : string)
| DOffline (q : nat) (u : string).

Definition don (c : nat) (w : dworld) (f : pconn -> pret * dworld) : pret * dworld :=
  match nth_error (dw_conns w) c with Some k => f k | None => (PErr, w) end.

Definition d_pop (o : pop) (w : dworld) : pret * dworld :=
  match o with
  | PWithPool true => (POk, d_add_pool w (Some (List.length (dw_pools w))))
  | PWithPool false => (POk, DW (dw_conns w) (dw_pools w) None)
  | PNewPool => (POk, match dw_cur w with Some _ => d_add_pool w (Some (List.length (dw_pools w))) | None => w end)
  | PAccept => (POk, DW (dw_conns w ++ [PConn (dw_cur w) None true false false]) (dw_pools w) (dw_cur w))
  | POnline c u => don c w (fun k => dOnline w c k u)
  | POffline c => don c w (fun k => dOffline w k)
  | PClose c => don c w (fun k => dCloseConn w c k)
  | PStoreName c v => don c w (fun k => (POk, d_set_conn w c (store_name k v)))
  end.

(* the context given must exist *)
Definition dstep (o : dop) (w : dworld) : pret * dworld :=
  match o with
  | DIndirect o => d_pop o w
  | DMake => (POk, d_add_pool w (dw_cur w))
  | DSet q u None => (POk, dSet w q u None)
  | DSet q u (Some c) => don c w (fun _ => (POk, dSet w q u (Some c)))
  | DDelete q u => (POk, dDelete w q u)
  | DOffline q u => (POk, dPoolOffline w q u)
  end.

(* newest call first *)
Fixpoint drun (h : list dop) : dworld :=
  match h with [] => dworld0 | o :: p => snd (dstep o (drun p)) end.
