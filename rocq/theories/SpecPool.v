(* What a history of pool calls means, computed from the history alone (newest call first). *)
From Verif Require Export PoolModel.

(* how many pools have been made, and which one new connections get *)
Fixpoint pools_made (h : list pop) : nat :=
  match h with
  | [] => 0
  | PWithPool true :: p => S (pools_made p)
  | PNewPool :: p => match cur_pool p with Some _ => S (pools_made p) | None => pools_made p end
  | _ :: p => pools_made p
  end
with cur_pool (h : list pop) : option nat :=
  match h with
  | [] => None
  | PWithPool true :: p => Some (pools_made p)
  | PWithPool false :: p => None
  | PNewPool :: p => match cur_pool p with Some _ => Some (pools_made p) | None => None end
  | _ :: p => cur_pool p
  end.

(* the connections accepted so far, each with the pool it got *)
Fixpoint accepted (h : list pop) : list (option nat) :=
  match h with
  | [] => []
  | PAccept :: p => accepted p ++ [cur_pool p]
  | _ :: p => accepted p
  end.
Definition is_conn (h : list pop) (c : nat) : bool := Nat.ltb c (List.length (accepted h)).
Definition pool_of (h : list pop) (c : nat) : option nat := nth c (accepted h) None.

(* the name connection c currently has *)
Fixpoint name_of (h : list pop) (c : nat) : option cval :=
  match h with
  | [] => None
  | POnline d u :: p =>
      if Nat.eqb c d && is_conn p c && negb (String.eqb u "") then Some (VStr u) else name_of p c
  | PStoreName d v :: p => if Nat.eqb c d && is_conn p c then Some v else name_of p c
  | _ :: p => name_of p c
  end.

(* connection c was closed at some point *)
Fixpoint was_closed (h : list pop) (c : nat) : bool :=
  match h with
  | [] => false
  | PClose d :: p => (Nat.eqb c d && is_conn p c) || was_closed p c
  | _ :: p => was_closed p c
  end.

Definition opt_is (o : option nat) (p : nat) : bool := match o with Some q => Nat.eqb q p | None => false end.

(* the connection that most recently went Online(u) in pool q *)
Fixpoint last_online (h : list pop) (q : nat) (u : string) : option nat :=
  match h with
  | [] => None
  | POnline d u' :: p =>
      if opt_is (pool_of p d) q && String.eqb u u' && negb (String.eqb u "") then Some d else last_online p q u
  | _ :: p => last_online p q u
  end.

Definition named (o : option cval) (u : string) : bool :=
  match o with Some (VStr n) => String.eqb n u | _ => false end.

(* the call is an Offline or a CloseConn of a connection of pool q whose name is u at that moment *)
Definition drops (p : list pop) (q : nat) (u : string) (o : pop) : bool :=
  match o with
  | POffline d | PClose d => opt_is (pool_of p d) q && named (name_of p d) u
  | _ => false
  end.

(* some call after the last Online(u) in pool q was such a call *)
Fixpoint dropped_since (h : list pop) (q : nat) (u : string) : bool :=
  match h with
  | [] => false
  | o :: p =>
      match o with
      | POnline d u' => if opt_is (pool_of p d) q && String.eqb u u' && negb (String.eqb u "") then false else dropped_since p q u
      | _ => drops p q u o || dropped_since p q u
      end
  end.

(* nothing but strings is stored as a name *)
Definition string_names (h : list pop) : Prop :=
  forall c v, In (PStoreName c v) h -> exists s, v = VStr s.

(* the calls goroutines make on the pool, as programs; a connection goes Online only if it has the pool *)
Inductive call_prog (cs : list lconn) : list instr -> Prop :=
| cp_end : call_prog cs []
| cp_get u p : call_prog cs p -> call_prog cs (prog_get u ++ p)
| cp_del u p : call_prog cs p -> call_prog cs (prog_del u ++ p)
| cp_online c u n f p : nth_error cs c = Some (LConn true n f) -> call_prog cs p -> call_prog cs (prog_online c u ++ p)
| cp_close c k p : nth_error cs c = Some k -> call_prog cs p -> call_prog cs (prog_closeconn c ++ p)
| cp_closer p : call_prog cs p -> call_prog cs (prog_closer ++ p).

(* initial states: an empty free pool, any connections, any number of goroutines *)
Definition lock_start (s : lstate) : Prop :=
  ls_pool s = [] /\ ls_lock s = MFree /\ ls_log s = [] /\ forall p, In p (ls_threads s) -> call_prog (ls_conns s) p.

(* connections closed by goroutine t *)
Definition closed_by (t : nat) (log : list (nat * nat)) : nat := List.length (filter (fun e => Nat.eqb (fst e) t) log).
