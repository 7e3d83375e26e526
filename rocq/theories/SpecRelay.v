(* What is written to connections by the handlers of any: said on the blocks and where they go only. *)
From Verif Require Export SpecAns.
From Coq Require Export Permutation.

(* a block and the connection it is written to *)
Definition post : Type := nat * bytes.
Definition goes_to (t : nat) (p : post) : bool := Nat.eqb (fst p) t.
(* the blocks for connection t, in order *)
Definition for_conn (t : nat) (l : list post) : list bytes := map snd (filter (goes_to t) l).
(* what connection t has been written, in order: what its peer reads *)
Definition arrived (t : nat) (out : list (sent post)) : list bytes := for_conn t (map block out).
(* everything the handlers of all messages have for t *)
Definition all_for (t : nat) (say : nat -> nat -> list post) (streams : list (list sev)) : list bytes :=
  flat_map (fun k => flat_map (fun n => for_conn t (say k n)) (seq 0 (messages (nth k streams [])))) (seq 0 (List.length streams)).
