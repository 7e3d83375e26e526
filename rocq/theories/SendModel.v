(* Model of SendToUsername while other goroutines use the pool: context.go:645-654, with its two looks
   at shared memory at two different times.  No proofs in this file. *)
From Verif Require Export LinModel.

(* [p]: the sender's poolRef (a field that never changes, 646-648); [w1]: the memory when the pool is
   looked up (649, GetClientPool under the pool's lock), [w2]: the memory when the state of the context
   found is read (650, IsOffline under its lock).  The result so far: an error, or the connection that
   SendToConn (653) is going to write to. *)
Definition decide (p : option nat) (w1 w2 : pworld) (u : string) : option nat :=
  match p with
  | None => None
  | Some q =>
      match GetClientPool w1 q u with
      | None => None
      | Some d =>
          match nth_error (pw_conns w2) d with
          | None => None                         (* cannot happen: pools hold existing contexts *)
          | Some kd => if IsOffline kd then None else Some d
          end
      end
  end.
(* context.go:653, 656-660: Reply to that connection, in memory w3; a closed socket gives an error
   and nothing is sent *)
Definition deliver (w3 : pworld) (d : nat) : pret * list nat :=
  match nth_error (pw_conns w3) d with
  | Some kd => if pc_sock kd then (PErr, []) else (POk, [d])
  | None => (PErr, [])
  end.
Definition send_split (p : option nat) (w1 w2 w3 : pworld) (u : string) : pret * list nat :=
  match decide p w1 w2 u with Some d => deliver w3 d | None => (PErr, []) end.
