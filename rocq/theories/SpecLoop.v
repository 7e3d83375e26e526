(* What a run of the listening goroutines shows, from its steps alone. *)
From Verif Require Export LoopModel.

(* connections accepted, or datagrams read, by loop i *)
Definition conns_on (i : nat) (os : list loop_op) : nat :=
  List.length (filter (fun o => match o with VConn j => Nat.eqb j i | _ => false end) os).
(* the steps loop i takes itself *)
Definition own_step (i : nat) (o : loop_op) : bool :=
  match o with
  | VFill j | VOpen j | VCheck j | VConn j | VFail j _ | VServe j _ => Nat.eqb j i
  | _ => false
  end.
Definition own_steps (i : nat) (os : list loop_op) : nat := List.length (filter (own_step i) os).
(* nobody opens the server again *)
Definition not_opened (os : list loop_op) : Prop := forall i, ~ In (VOpen i) os.

(* what a run has last said about the server: opened or stopped *)
Definition said_running (os : list loop_op) : bool :=
  fold_left (fun b o => match o with VOpen _ => true | VStopState _ => false | _ => b end) os false.

Definition loop_open (s : loops) (i : nat) : bool := match nth_error (lp_loops s) i with Some l => ll_open l | None => false end.
Definition loop_pc (s : loops) (i : nat) : option lpc := option_map ll_pc (nth_error (lp_loops s) i).
(* loop i's listener is the one recorded for an address whose network Stop closes *)
Definition recorded (s : loops) (i : nat) : Prop :=
  exists p, In p (lp_props s) /\ p_listener p = i /\
    (p_network p = "tcp"%string \/ p_network p = "udp"%string \/ p_network p = "kcp"%string).
(* the loop is inside its for *)
Definition looping (p : lpc) : Prop := p = QTop \/ p = QRead \/ p = QGot.

(* a server serves an address: some loop of the kind reads there, and the server is running *)
Definition serves (s : loops) (k : lkind) (nw ad : string) : Prop :=
  lp_running s = true /\ exists l, In l (lp_loops s) /\ ll_kind l = k /\ ll_net l = nw /\ ll_addr l = ad /\
    ll_open l = true /\ ll_pc l = QRead.

(* a server on one address, and its Stop, as they usually go *)
Definition listen_ops (k : lkind) (nw ad : string) : list loop_op := [VCall k nw ad; VListen 0; VFill 0; VOpen 0; VCheck 0].
Definition stop_ops : list loop_op := [VStopTest; VStopState 0; VStopClose 0].
