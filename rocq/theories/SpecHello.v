(* What the say-hello server is expected to do. *)
From Verif Require Export SpecWatch.
From Verif Require Export SpecEnd HelloModel.

(* what is seen of handling a message *)
Definition seen (t : list ev) : list Z := flat_map (fun e => match e with EEff n => [n] | _ => [] end) t.
(* the heartbeats in a run of the watcher *)
Definition beats_of (tr : list wlab) : nat := List.length (filter (fun l => match l with LBeat => true | _ => false end) tr).
(* message id, the functions before its handler, the reply's id *)
Definition hello_table : list (Z * list Z * Z) :=
  [(1, [100; 101; 102], 2); (3, [100; 101], 4); (5, [100; 101; 103], 6); (11, [100; 101], 12)].
