(* What a history of the server's life means, from the history alone (newest first). *)
From Verif Require Export LifeModel.

(* the server is running: it was opened after the last Stop *)
Fixpoint is_running (h : list lop) : bool :=
  match h with
  | [] => false
  | OOpen :: _ => true
  | OStop _ :: _ => false
  | _ :: p => is_running p
  end.

(* listens, newest first; a listener's number is its position from the start *)
Fixpoint listens (h : list lop) : list (string * string) :=
  match h with
  | [] => []
  | OListen nw ad :: p => (nw, ad) :: listens p
  | _ :: p => listens p
  end.
Definition same_addr (a b : string * string) : bool := String.eqb (fst a) (fst b) && String.eqb (snd a) (snd b).
(* the number of the latest listener on an address *)
Fixpoint latest (ls : list (string * string)) (a : string * string) : option nat :=
  match ls with
  | [] => None
  | b :: r => if same_addr a b then Some (List.length r) else latest r a
  end.
Definition key (p : property) : string * string := (p_network p, p_port p).

(* the network names ListenAndServe accepts, tcpx.go:370-376 (ip: any name starting with it) *)
Definition stopped_network (nw : string) : Prop := nw = "tcp"%string \/ nw = "udp"%string \/ nw = "kcp"%string.

(* a Stop(true) that got past its state check has happened *)
Fixpoint fired (h : list lop) : bool :=
  match h with
  | [] => false
  | OStop true :: p => is_running p || fired p
  | _ :: p => fired p
  end.
Definition no_signal_call (h : list lop) : Prop := forall yes, ~ In (OSignals yes) h.

Definition conn_open (s : life) (c : nat) : bool := match nth_error (lf_conns s) c with Some k => lv_open k | None => false end.
Definition listener_open (s : life) (l : nat) : bool := nth l (lf_listeners s) false.

(* three intervals of datagram k's watcher elapse and nobody beats for it meanwhile *)
Definition expiries (os : list uop) (k : nat) : nat := List.length (filter (fun o => match o with UExpire j => Nat.eqb j k | _ => false end) os).
Definition beats (os : list uop) (k : nat) : nat := List.length (filter (fun o => match o with UBeat j => Nat.eqb j k | _ => false end) os).

(* newest step first: the datagrams that came; the intervals of datagram k's watcher since the last heartbeat for it *)
Fixpoint datagrams (h : list uop) : nat :=
  match h with [] => O | UDatagram :: p => S (datagrams p) | _ :: p => datagrams p end.
Fixpoint silence (h : list uop) (k : nat) : nat :=
  match h with
  | [] => O
  | UBeat j :: p => if Nat.eqb j k then O else silence p k
  | UExpire j :: p => if Nat.eqb j k then S (silence p k) else silence p k
  | _ :: p => silence p k
  end.
