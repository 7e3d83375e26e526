(* What the signalling calls are supposed to do, in terms of the steps alone. *)
From Verif Require Export ChanModel.

(* the values whose calls have returned, in order *)
Definition sends (os : list chop) : list Z := flat_map (fun o => match o with KSend _ v => [v] | _ => [] end) os.
Definition takes (os : list chop) : nat := List.length (filter (fun o => match o with KTake => true | _ => false end) os).

(* goroutine i waits inside a call *)
Definition calling (s : chn) (i : nat) : Prop := exists v r, nth_error (ch_calls s) i = Some (v :: r).
(* calls that have not returned yet *)
Definition pending (s : chn) : nat := List.length (concat (ch_calls s)).

(* nobody but the watcher closes the connection *)
Definition no_close (os : list chop) : Prop := ~ In KClose os.
Definition no_quit (os : list chop) : Prop := forall c, ~ In (KQuit c) os.
