(* What the watchers are supposed to do, in terms of the events alone. *)
From Verif Require Export WatchModel.

(* the n-th event ends the third of three intervals in a row without a heartbeat *)
Definition three_silent (evs : list wev) (n : nat) : Prop :=
  exists m, n = S (S m) /\ nth_error evs m = Some WExpire /\ nth_error evs (S m) = Some WExpire /\ nth_error evs (S (S m)) = Some WExpire.
(* the server was stopped, everybody was told to close, or the connection is over *)
Definition quits (e : wev) : Prop := e = WStop \/ e = WAll \/ e = WEnd.
(* the watcher is still at work when event n comes *)
Definition still_watching (evs : list wev) (n : nat) : Prop :=
  forall m e, (m < n)%nat -> nth_error evs m = Some e -> ~ quits e /\ ~ three_silent evs m.

Definition count_loss (l : list wact) : nat := List.length (filter (fun a => match a with ALoss => true | _ => false end) l).

(* real time: when the trace is, and when the last heartbeat was (the start counts as one) *)
Fixpoint time_of (tr : list wlab) : Z :=
  match tr with
  | [] => 0
  | LTick d :: p => time_of p + d
  | _ :: p => time_of p
  end.
Fixpoint last_beat (tr : list wlab) : Z :=
  match tr with
  | [] => 0
  | LBeat :: p => time_of p
  | _ :: p => last_beat p
  end.

(* heartbeats put into / taken from channel c *)
Definition sent (log : list cev) (c : nat) : nat :=
  List.length (filter (fun e => match e with CSent _ d => Nat.eqb d c | _ => false end) log).
Definition received (log : list cev) (c : nat) : nat :=
  List.length (filter (fun e => match e with CRecv d => Nat.eqb d c | _ => false end) log).
Definition all_sent (log : list cev) : nat :=
  List.length (filter (fun e => match e with CSent _ _ => true | _ => false end) log).
Definition all_received (log : list cev) : nat :=
  List.length (filter (fun e => match e with CRecv _ => true | _ => false end) log).
