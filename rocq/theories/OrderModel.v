(* Model of when messages are handled: the accept loop, one reading goroutine per connection and one
   handling goroutine per message or batch, as separate actors - tcpx.go:515-607, 853-871, 994-999.
   No proofs in this file.
   What a connection's reader does is the list of events ServerModel.connection computes from its
   bytes; here only their order matters, so messages are numbered per connection in the order they
   are read.  OnConnect and the handlers return or never do; ones that panic are not in this model. *)
From Verif Require Export ServerModel.

(* the handling of message n of connection k begins, ends *)
Inductive lev := LBegin (k n : nat) | LEnd (k n : nat).

(* a goroutine of handleMiddleware or handlePipe: the messages it has still to handle, whether it
   is inside the handlers of the first of them, whether nil contexts follow *)
Record task := Task { t_conn : nat; t_left : list nat; t_busy : bool; t_nil : bool }.
(* a connection being read: what its reader has still to do, how many messages it has read *)
Record conn := Conn { k_left : list sev; k_read : nat }.
(* [y_queue]: connections not accepted yet; [y_connecting]: the accept loop is inside OnConnect of
   the first of them; [y_dead]: the process is gone *)
Record sys := Sys { y_queue : list (list sev); y_connecting : bool; y_conns : list conn; y_tasks : list task;
  y_log : list lev; y_dead : bool }.
Definition sys0 (streams : list (list sev)) : sys := Sys streams false [] [] [] false.

Inductive actor := AAccept | AReader (k : nat) | ATask (j : nat).

(* the goroutine an event starts, tcpx.go:583-603 *)
Definition spawned (k n : nat) (e : sev) : list task :=
  match e with
  | SDispatch _ => [Task k [n] false false]
  | SPipe l missing => [Task k (seq n (List.length l)) false (0 <? missing)]
  | _ => []
  end.
Definition count (e : sev) : nat := match e with SDispatch _ => 1 | SPipe l _ => List.length l | _ => 0 end.

(* one step of one actor; None: it cannot take one *)
Definition ostep (s : sys) (a : actor) : option sys :=
  match s with
  | Sys q oc ks ts lg true => None
  | Sys q oc ks ts lg false =>
      match a with
      | AAccept =>
          match q with
          | [] => None
          | e :: q' =>
              if oc then Some (Sys q' false (ks ++ [Conn e 0]) ts lg false)      (* OnConnect returns, 549-554 *)
              else Some (Sys q true ks ts lg false)                              (* Accept returns, 520-548 *)
          end
      | AReader k =>
          match nth_error ks k with
          | Some (Conn (e :: l) n) => Some (Sys q oc (upd ks k (Conn l (n + count e))) (ts ++ spawned k n e) lg false)
          | _ => None
          end
      | ATask j =>
          match nth_error ts j with
          | Some (Task k (n :: l) false x) => Some (Sys q oc ks (upd ts j (Task k (n :: l) true x)) (lg ++ [LBegin k n]) false)
          | Some (Task k (n :: l) true x) => Some (Sys q oc ks (upd ts j (Task k l false x)) (lg ++ [LEnd k n]) false)
          | Some (Task k [] _ true) => Some (Sys q oc ks ts lg true)             (* a nil context is dereferenced *)
          | _ => None
          end
      end
  end.

(* an execution: who takes a step, in turn *)
Fixpoint orun (s : sys) (l : list actor) : option sys :=
  match l with [] => Some s | a :: r => match ostep s a with Some s' => orun s' r | None => None end end.
