(* Model of the answers on TCP connections: the goroutines of OrderModel with what their handlers write
   to connections - context.go:421-521 (every reply is one Conn.Write of one block), tcpx.go:853-871,
   994-999 (who runs the handlers).  No proofs in this file.
   [ans k n]: what the handlers of message n of connection k write, in turn, before they return.  It is of
   a type B: blocks ([bytes]) when handlers write on their own connection only; a connection and a block
   ([nat * bytes], SpecRelay) when they also write to others, which is a Reply on the other's context
   (context.go:645-660, SendToUsername and SendToConn), one Write to its connection.
   Simplifications: writes succeed and are whole (net.Conn's Write is atomic, C19 and C20 have the
   rest); handlers write from their own goroutine only, and to whom is given with what (who is behind a
   name is in PoolModel and SendModel). *)
From Verif Require Export OrderModel.

(* connection, message, what is written *)
Definition sent (B : Type) : Type := nat * nat * B.
(* [a_out]: everything written so far, in the order it was written *)
Record asys (B : Type) := ASys { a_sys : sys; a_out : list (sent B) }.
Arguments ASys {B} _ _.
Arguments a_sys {B} _.
Arguments a_out {B} _.
Definition asys0 {B} (streams : list (list sev)) : asys B := ASys (sys0 streams) [].

Definition of_msg {B} (k n : nat) (x : sent B) : bool := match x with (k', n', _) => Nat.eqb k' k && Nat.eqb n' n end.
Definition written {B} (k n : nat) (out : list (sent B)) : nat := List.length (filter (of_msg k n) out).

(* ADo: a step of OrderModel; AWrite j: goroutine j, inside the handlers of a message, writes its next
   block *)
Inductive aact := ADo (a : actor) | AWrite (j : nat).

(* may actor a go on?  Handlers return when they have written everything *)
Definition may {B} (ans : nat -> nat -> list B) (y : asys B) (a : actor) : bool :=
  match a with
  | ATask j =>
      match nth_error (y_tasks (a_sys y)) j with
      | Some (Task k (n :: _) true _) => Nat.eqb (written k n (a_out y)) (List.length (ans k n))
      | _ => true
      end
  | _ => true
  end.

Definition astep {B} (ans : nat -> nat -> list B) (y : asys B) (x : aact) : option (asys B) :=
  match x with
  | ADo a => if may ans y a then match ostep (a_sys y) a with Some s' => Some (ASys s' (a_out y)) | None => None end else None
  | AWrite j =>
      if y_dead (a_sys y) then None
      else match nth_error (y_tasks (a_sys y)) j with
           | Some (Task k (n :: _) true _) =>
               match nth_error (ans k n) (written k n (a_out y)) with
               | Some b => Some (ASys (a_sys y) (a_out y ++ [(k, n, b)]))             (* context.go:508 *)
               | None => None
               end
           | _ => None
           end
  end.

Fixpoint arun {B} (ans : nat -> nat -> list B) (y : asys B) (l : list aact) : option (asys B) :=
  match l with [] => Some y | x :: r => match astep ans y x with Some y' => arun ans y' r | None => None end end.
