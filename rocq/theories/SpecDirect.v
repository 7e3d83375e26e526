(* What a history of direct and indirect pool calls means, computed from the history alone (newest call
   first). *)
From Verif Require Export DirectModel SpecPool.

(* how many pools there are, and which one new connections get *)
Fixpoint d_made (h : list dop) : nat :=
  match h with
  | [] => 0
  | DMake :: p | DIndirect (PWithPool true) :: p => S (d_made p)
  | DIndirect PNewPool :: p => match d_current p with Some _ => S (d_made p) | None => d_made p end
  | _ :: p => d_made p
  end
with d_current (h : list dop) : option nat :=
  match h with
  | [] => None
  | DIndirect (PWithPool true) :: p => Some (d_made p)
  | DIndirect (PWithPool false) :: p => None
  | DIndirect PNewPool :: p => match d_current p with Some _ => Some (d_made p) | None => None end
  | _ :: p => d_current p
  end.

(* the connections, each with its pool *)
Fixpoint d_accepted (h : list dop) : list (option nat) :=
  match h with
  | [] => []
  | DIndirect PAccept :: p => d_accepted p ++ [d_current p]
  | _ :: p => d_accepted p
  end.
Definition d_conn (h : list dop) (c : nat) : bool := Nat.ltb c (List.length (d_accepted h)).
Definition d_pool (h : list dop) (c : nat) : option nat := nth c (d_accepted h) None.

(* the name connection c has *)
Fixpoint d_name (h : list dop) (c : nat) : option cval :=
  match h with
  | [] => None
  | DIndirect (POnline d u) :: p => if Nat.eqb c d && d_conn p c && negb (String.eqb u "") then Some (VStr u) else d_name p c
  | DIndirect (PStoreName d v) :: p => if Nat.eqb c d && d_conn p c then Some v else d_name p c
  | _ :: p => d_name p c
  end.

(* call o puts x under u in pool q *)
Definition puts (p : list dop) (q : nat) (u : string) (x : option nat) (o : dop) : Prop :=
  (o = DSet q u x /\ forall c, x = Some c -> d_conn p c = true) \/
  exists c, x = Some c /\ o = DIndirect (POnline c u) /\ u <> ""%string /\ d_pool p c = Some q.
(* call o is an Offline of name u in pool q: of the pool itself, or of a connection of that pool which
   has the name, also as part of closing it *)
Definition takes (p : list dop) (q : nat) (u : string) (o : dop) : Prop :=
  o = DOffline q u \/
  exists c, (o = DIndirect (POffline c) \/ o = DIndirect (PClose c)) /\ d_pool p c = Some q /\ d_name p c = Some (VStr u).

(* after history h pool q holds e under u: nothing, nil, or a context.  Offline does not remove nil. *)
Inductive holds : list dop -> nat -> string -> option (option nat) -> Prop :=
| ho_start q u : holds [] q u None
| ho_put p q u x o : puts p q u x o -> holds (o :: p) q u (Some x)
| ho_delete p q u : holds (DDelete q u :: p) q u None
| ho_take p q u o c : takes p q u o -> holds p q u (Some (Some c)) -> holds (o :: p) q u None
| ho_take_nil p q u o e : takes p q u o -> holds p q u e -> (forall c, e <> Some (Some c)) -> holds (o :: p) q u e
| ho_same p q u o e : holds p q u e -> (forall x, ~ puts p q u x o) -> ~ takes p q u o -> o <> DDelete q u -> holds (o :: p) q u e.

(* every direct call is made on a pool that exists *)
Definition d_sane (h : list dop) : Prop :=
  forall l p o, h = l ++ o :: p -> match o with DSet q _ _ | DDelete q _ | DOffline q _ => (q < d_made p)%nat | _ => True end.

(* connection c was closed *)
Definition d_closed (h : list dop) (c : nat) : Prop := exists l p, h = l ++ DIndirect (PClose c) :: p /\ d_conn p c = true.
(* nothing but strings is stored as a name *)
Definition d_string_names (h : list dop) : Prop := forall c v, In (DIndirect (PStoreName c v)) h -> exists s, v = VStr s.

(* a pool of PoolModel seen as one whose entries may be nil *)
Definition embed (m : cpool) : dpool := map (fun e => (fst e, Some (snd e))) m.
