(* Results of overlapping calls. *)
From Verif Require Export CallModel.

Definition result (w : callworld) (i : nat) : option lret := match nth_error (cw_calls w) i with Some (CRet r) => Some r | _ => None end.
Definition calls0 (s : life) : callworld := CW s [] 0.
(* a broadcast channel that is set and not closed *)
Definition signal_ready (s : life) : Prop := lf_signals s = true /\ exists c, lf_chan s = Some c /\ nth c (lf_chans s) false = false /\ (c < List.length (lf_chans s))%nat.

(* Calls that do not overlap.  A call made in world w is stepped until it has returned before anything
   else happens; between two calls a server that was started may set the state. *)
Inductive lcall := DoStop (all : bool) | DoStart | DoRestart (all : bool) | DoOpen.
Definition made (k : lcall) : option callop :=
  match k with DoStop all => Some (CStop all) | DoStart => Some CStart | DoRestart all => Some (CRestart all) | DoOpen => None end.
Inductive serially : callworld -> list lcall -> callworld -> Prop :=
| sr_nil w : serially w [] w
| sr_call w k o n w1 r ks w' : made k = Some o ->
    callrun w (o :: repeat (CGo (List.length (cw_calls w))) n) = Some w1 -> result w1 (List.length (cw_calls w)) = Some r ->
    serially w1 ks w' -> serially w (k :: ks) w'
| sr_open w w1 ks w' : callrun w [COpen] = Some w1 -> serially w1 ks w' -> serially w (DoOpen :: ks) w'.
(* the same calls made one after another: what they return, how often listeners were started, and the
   server they leave *)
Inductive in_sequence : life -> list lcall -> list lret -> nat -> life -> Prop :=
| is_nil s : in_sequence s [] [] 0 s
| is_stop s all ks rs n s' : in_sequence (snd (Stop s all)) ks rs n s' -> in_sequence s (DoStop all :: ks) (fst (Stop s all) :: rs) n s'
| is_start s ks rs n s' : lf_running s = false -> in_sequence s ks rs n s' -> in_sequence s (DoStart :: ks) (ROk :: rs) (S n) s'
| is_start_no s ks rs n s' : lf_running s = true -> in_sequence s ks rs n s' -> in_sequence s (DoStart :: ks) (RErr :: rs) n s'
| is_restart s all s1 ks rs n s' : Stop s all = (ROk, s1) -> in_sequence s1 ks rs n s' -> in_sequence s (DoRestart all :: ks) (ROk :: rs) (S n) s'
| is_restart_no s all r s1 ks rs n s' : Stop s all = (r, s1) -> r <> ROk -> in_sequence s1 ks rs n s' -> in_sequence s (DoRestart all :: ks) (r :: rs) n s'
| is_open s s1 ks rs n s' : lf_running s1 = true -> set_running s1 (lf_running s) = s -> in_sequence s1 ks rs n s' -> in_sequence s (DoOpen :: ks) rs n s'.

(* what step o of world w does to the state: a server that was started sets it to running; the step of
   a Stop or Restart that has seen it running sets it to stopped *)
Definition sets_running (o : callop) : Prop := o = COpen.
Definition sets_stopped (w : callworld) (o : callop) : Prop := exists i all again, o = CGo i /\ nth_error (cw_calls w) i = Some (CState all again).
