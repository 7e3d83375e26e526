(* Model of what a panic does: the goroutines of a server with their deferred calls and recovers,
   tcpx.go:421-712 (listening loops and reading goroutines), 852-1025 (handling), 1027-1116
   (watchers).  No proofs in this file.
   What clients send and which calls panic is data (`client`, `msg`), so a goroutine's body is a list
   of items.  Simplifications: heartBeatWatch, which is started with `go` and itself starts the
   goroutine that watches (463/546/686, 1029), counts as one goroutine; a chain of handlers is one
   item (how a panic leaves the chain is in ChainModel); CloseConn does not panic (C41); reading,
   decoding and logging are left out except where they panic.  BeforeExit is in ExitModel; the
   goroutine of closeAllConnection and the goroutines of Start, which recover, are left out. *)
From Coq Require Export List Bool Arith Lia.
Export ListNotations.

Inductive msg :=
| MOne (p : bool)             (* a message; p: a handler, middleware or OnMessage panics on it *)
| MPipe (l : list bool)       (* messages sent as a pipe *)
| MBad.                       (* the reading goroutine panics: make with a negative length, 588 *)

Inductive beat := BLeft | BStop | BLoss (p : bool).      (* recvEnd; Stop; three silent intervals, OnHeartbeatLoss panics or not *)

Record client := Client {
  cl_connect : bool;          (* OnConnect panics on it *)
  cl_close : bool;            (* OnClose panics on it *)
  cl_raw : bool;              (* the chain of a raw connection panics on it *)
  cl_msgs : list msg;
  cl_beat : beat;
  cl_signal : bool;           (* the signal watcher is told to close *)
  cl_auth : bool }.           (* the auth watcher closes *)

Record conf := Conf { f_connect : bool; f_close : bool; f_loss : bool; f_signals : bool; f_beat : bool; f_auth : bool }.

Inductive act :=
| AAccept (n : nat) | AUnlisten | AOnConnect (n : nat) | AOnClose (n : nat) | AClose (n : nat)
| AChain (n : nat)            (* handleMiddleware on a message of connection or datagram n *)
| ARaw (n : nat)              (* handleRaw *)
| AOnLoss (n : nat) | ALib (n : nat).

Inductive kind :=
| GTcp (cs : list client) | GRaw (cs : list client) | GUdp (cs : list client)
| GRead (n : nat) (c : client) | GReadRaw (n : nat) (c : client)
| GHandle (n : nat) (p : bool) | GPipe (n : nat) (l : list bool)
| GSignal (n : nat) (close : bool) | GBeat (n : nat) (b : beat) | GAuth (n : nat) (close : bool).

Inductive item :=
| IDo (a : act) (p : bool)        (* a call; p: it panics *)
| IDefer (a : act) (p : bool)
| IRecover                        (* defer func() { recover() }() *)
| IGo (k : kind).

Section Bodies.
  Context (f : conf).
  Definition wh (b : bool) (l : list item) : list item := if b then l else [].

  (* 515-607 *)
  Fixpoint accept_tcp (n : nat) (cs : list client) : list item :=
    match cs with
    | [] => []
    | c :: r => IDo (AAccept n) false ::
        wh (f_connect f) [IDo (AOnConnect n) (cl_connect c)] ++                  (* 537-539 *)
        wh (f_signals f) [IGo (GSignal n (cl_signal c))] ++                      (* 541-543 *)
        wh (f_beat f) [IGo (GBeat n (cl_beat c))] ++                             (* 545-547 *)
        wh (f_auth f) [IGo (GAuth n (cl_auth c))] ++                             (* 548-550 *)
        IGo (GRead n c) :: accept_tcp (S n) r
    end.

  (* 436-484 *)
  Fixpoint accept_raw (n : nat) (cs : list client) : list item :=
    match cs with
    | [] => []
    | c :: r => IDo (AAccept n) false ::
        wh (f_connect f) [IDo (AOnConnect n) (cl_connect c)] ++                  (* 459-461 *)
        [IGo (GSignal n (f_signals f && cl_signal c))] ++                        (* 463, 1080 *)
        wh (f_beat f) [IGo (GBeat n (cl_beat c))] ++                             (* 464, 1028 *)
        IGo (GReadRaw n c) :: accept_raw (S n) r
    end.

  (* 663-707 *)
  Fixpoint receive_udp (n : nat) (cs : list client) : list item :=
    match cs with
    | [] => []
    | c :: r => IDo (AAccept n) false :: IGo (GSignal n (f_signals f && cl_signal c)) ::        (* 684 *)
        wh (f_beat f) [IGo (GBeat n (cl_beat c))] ++                             (* 686 *)
        match cl_msgs c with MOne p :: _ => [IGo (GHandle n p)] | _ => [] end ++ (* 691-703: a datagram holds one message or none *)
        receive_udp (S n) r
    end.

  (* 567-605; the loop ends with a read error or a panic *)
  Fixpoint reading (n : nat) (l : list msg) : list item :=
    match l with
    | [] => []
    | MOne p :: r => IGo (GHandle n p) :: reading n r                            (* 602 *)
    | MPipe ps :: r => IGo (GPipe n ps) :: reading n r                           (* 600 *)
    | MBad :: r => IDo (ALib n) true :: reading n r
    end.

  Definition body (k : kind) : list item :=
    match k with
    | GTcp cs => IRecover :: IDefer AUnlisten false :: accept_tcp 0 cs           (* 490-497, 512 *)
    | GRaw cs => IRecover :: IDefer AUnlisten false :: accept_raw 0 cs           (* 422-428, 435 *)
    | GUdp cs => IRecover :: receive_udp 0 cs                                    (* 653-658 *)
    | GRead n c => [IRecover; IDefer (AClose n) false] ++ wh (f_close f) [IDefer (AOnClose n) (cl_close c)] ++ reading n (cl_msgs c)        (* 552-564 *)
    | GReadRaw n c => [IRecover; IDefer (AClose n) false] ++ wh (f_close f) [IDefer (AOnClose n) (cl_close c)] ++ [IDo (ARaw n) (cl_raw c)]  (* 466-483 *)
    | GHandle n p => [IDo (AChain n) p]                                          (* 852-871: no recover *)
    | GPipe n l => map (IDo (AChain n)) l                                        (* 994-999: no recover *)
    | GSignal n close => wh close [IDo (AClose n) false]                         (* 1079-1091 *)
    | GBeat n b => IRecover ::                                                   (* 1030-1035 *)
        match b with
        | BLeft => []                                                            (* 1066 *)
        | BStop => [IDo (AClose n) false]                                        (* 1040-1043, 1063-1065 *)
        | BLoss p => wh (f_loss f) [IDo (AOnLoss n) p] ++ [IDo (AClose n) false] (* 1051-1060 *)
        end
    | GAuth n close => wh close [IDo (AClose n) false]                           (* 1095-1116 *)
    end.
End Bodies.

Inductive def := DRec | DDo (a : act) (p : bool).

Record gst := G { g_kind : kind; g_todo : list item; g_def : list def; g_pan : bool; g_over : bool }.

(* what has happened: goroutine, call, whether it panicked *)
Definition event := (nat * act * bool)%type.

Record pst := P { p_gs : list gst; p_tr : list event; p_crash : bool }.

Definition start (f : conf) (k : kind) : gst := G k (body f k) [] false false.

Fixpoint set_at {A} (l : list A) (i : nat) (x : A) : list A :=
  match l, i with
  | [], _ => []
  | _ :: r, O => x :: r
  | y :: r, S j => y :: set_at r j x
  end.

(* one step of goroutine i: deferred calls run, last first, when the body is over or has panicked;
   a panic that is not recovered by then ends the process *)
Definition pstep (f : conf) (i : nat) (s : pst) : option pst :=
  if p_crash s then None else
  match nth_error (p_gs s) i with
  | None => None
  | Some (G k todo ds pan over) =>
      if over then None else
      let put g := set_at (p_gs s) i g in
      match todo with
      | IDo a p :: r => Some (P (put (G k (if p then [] else r) ds p false)) (p_tr s ++ [(i, a, p)]) false)
      | IDefer a p :: r => Some (P (put (G k r (DDo a p :: ds) pan false)) (p_tr s) false)
      | IRecover :: r => Some (P (put (G k r (DRec :: ds) pan false)) (p_tr s) false)
      | IGo k' :: r => Some (P (put (G k r ds pan false) ++ [start f k']) (p_tr s) false)
      | [] =>
          match ds with
          | DRec :: d => Some (P (put (G k [] d false false)) (p_tr s) false)
          | DDo a p :: d => Some (P (put (G k [] d (pan || p) false)) (p_tr s ++ [(i, a, p)]) false)
          | [] => Some (P (put (G k [] [] pan true)) (p_tr s) pan)
          end
      end
  end.

(* a server whose listening loop is goroutine 0 *)
Definition pinit (f : conf) (k : kind) : pst := P [start f k] [] false.
