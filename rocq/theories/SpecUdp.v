(* Users of a UDP server, read off the history of calls alone (newest first). *)
From Verif Require Export UdpModel.

Definition is_close (o : uop) : bool := match o with UClose _ => true | _ => false end.

(* the senders of the datagrams so far, in order; datagrams stop arriving once
   some context was closed (the socket is shared) *)
Fixpoint arrived (h : list uop) : list string :=
  match h with
  | [] => []
  | UArrive a :: p => if shut_down p then arrived p else arrived p ++ [a]
  | _ :: p => arrived p
  end
with shut_down (h : list uop) : bool :=
  match h with
  | [] => false
  | UClose c :: p => Nat.ltb c (List.length (arrived p)) || shut_down p
  | _ :: p => shut_down p
  end.
Definition there (h : list uop) (c : nat) : bool := Nat.ltb c (List.length (arrived h)).
Definition from (h : list uop) (c : nat) : option string := nth_error (arrived h) c.

(* the name datagram c's context has while its handlers run *)
Fixpoint uname (h : list uop) (c : nat) : option string :=
  match h with
  | [] => None
  | UOnline d u :: p => if Nat.eqb c d && there p c && negb (String.eqb u "") then Some u else uname p c
  | UEnd d :: p => if Nat.eqb c d then None else uname p c
  | _ :: p => uname p c
  end.

(* the datagram that went online as u last *)
Fixpoint last_login (h : list uop) (u : string) : option nat :=
  match h with
  | [] => None
  | UOnline d u' :: p => if there p d && String.eqb u u' && negb (String.eqb u "") then Some d else last_login p u
  | _ :: p => last_login p u
  end.
Definition uname_is (h : list uop) (c : nat) (u : string) : bool :=
  match uname h c with Some n => String.eqb n u | None => false end.
(* since then a context carrying the name went offline or was closed *)
Fixpoint logged_out (h : list uop) (u : string) : bool :=
  match h with
  | [] => false
  | UOnline d u' :: p => if there p d && String.eqb u u' && negb (String.eqb u "") then false else logged_out p u
  | UOffline d :: p | UClose d :: p => (there p d && uname_is p d u) || logged_out p u
  | _ :: p => logged_out p u
  end.
