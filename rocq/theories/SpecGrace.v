(* What the graceful examples show, from the outside. *)
From Verif Require Export GraceModel SpecLoop.

Definition seat (s : grace) (c : nat) : option gseat := option_map gc_seat (nth_error (g_clients s) c).
(* the server has the client: it was accepted and its connection was not ended *)
Definition accepted (x : option gseat) : Prop := x = Some CServed \/ exists i, x = Some (CTaken i).
(* what the next client to be started gets *)
Definition dials (s : grace) (connected : bool) : Prop :=
  if connected then exists i, loop_open (g_loops s) i = true else forall i, loop_open (g_loops s) i = false.
(* the network does what it should: listening succeeds, and Accept fails only on a closed listener *)
Definition failing (o : glab) : bool := match o with GLoop (VNoListen _) => true | _ => false end.
Fixpoint network_fine (restart : bool) (s : grace) (ls : list glab) (s' : grace) : Prop :=
  match ls with
  | [] => s = s'
  | l :: r => failing l = false /\
      (match l with GLoop (VFail i _) => loop_open (g_loops s) i = false | _ => True end) /\
      exists s1, gtrans restart s l s1 /\ network_fine restart s1 r s'
  end.
(* Stop returned nil before the end of this run; Start's listening succeeded after it *)
Definition stopped_in (ls : list glab) : Prop := exists j, In (GLoop (VStopClose j)) ls.
Definition listens_in (ls : list glab) : nat :=
  List.length (filter (fun l => match l with GLoop (VListen _) => true | _ => false end) ls).
