(* Property theorems. Each is closed by the lemma of the same name in GraceProofs.v. *)
From Verif Require Export GraceProofs.

(* C126: a client the server has accepted stays connected through Stop(false) and Start, in every order
   of the goroutines, until somebody ends the client.
   Example: C126_case. *)
Theorem C126_kept : forall restart ls s ls' s' c, graces restart grace0 ls s -> graces restart s ls' s' ->
  accepted (seat s c) -> ~ In (GGone c) (ls ++ ls') -> accepted (seat s' c).
Proof. exact p_C126_kept. Qed.
Print Assumptions C126_kept.

(* C126: the server ends a client's connection only when somebody has ended the client, and then it can,
   if it had accepted it; and the stop example never starts again.
   Example: C126_ended_case. *)
Theorem C126_ended : forall restart ls s c, graces restart grace0 ls s ->
  (seat s c = Some CEnded <-> In (GEof c) ls) /\ (In (GEof c) ls -> In (GGone c) ls) /\
  (seat s c = Some CServed -> In (GGone c) ls -> exists s1, gtrans restart s (GEof c) s1) /\
  (restart = false -> ~ In GStartNo ls /\ forall calls, ~ In (GLoop (VStart calls)) ls).
Proof. exact p_C126_ended. Qed.
Print Assumptions C126_ended.

(* C126: once the server has said that it is running, Stop, when its time comes, does not fail, and
   it can do all its work: the server is then stopped.
   Example: C126_case. *)
Theorem C126_stop_works : forall restart ls s i, graces restart grace0 ls s -> In (GLoop (VOpen i)) ls -> g_pc s = GAsleep ->
  (forall s1, ~ gtrans restart s GStopNo s1) /\
  exists j s1, graces restart s [GLoop VStopTest; GLoop (VStopState j); GLoop (VStopClose j)] s1 /\ g_pc s1 = GStopped /\ dials s1 false.
Proof. exact p_C126_stop_works. Qed.
Print Assumptions C126_stop_works.

(* C126: from the return of Stop until the server listens again - in the stop example for ever - the
   listener is closed: every dial is refused, nobody is left waiting; and Start, when it is called, does not
   report that the server is running already.
   Example: C126_case. *)
Theorem C126_stopped : forall restart ls s, graces restart grace0 ls s -> stopped_in ls ->
  ((listens_in ls <= 1)%nat -> dials s false /\ (forall c i, seat s c <> Some (CWait i)) /\ (forall s1, ~ gtrans restart s GStartNo s1)) /\
  (restart = false -> (listens_in ls <= 1)%nat).
Proof. exact p_C126_stopped. Qed.
Print Assumptions C126_stopped.

(* C126: when the network does its part, the restarted server listens on the same address: the
   listening Start asks for finds the address free, and once it is done every dial succeeds.
   Example: C126_case. *)
Theorem C126_restarted : forall ls s, network_fine true grace0 ls s -> stopped_in ls ->
  (g_pc s = GStarted -> listens_in ls = 1%nat -> exists s1, gtrans true s (GLoop (VListen 0)) s1) /\
  ((listens_in ls <= 2)%nat /\ (listens_in ls = 2%nat -> dials s true)).
Proof. exact p_C126_restarted. Qed.
Print Assumptions C126_restarted.

(* C126: a client that waits to be accepted while Stop is not under way can be: the server is never
   stuck.
   Example: C126_case. *)
Theorem C126_waiting_served_partial : forall restart ls s c i, network_fine restart grace0 ls s -> g_pc s <> GStopping -> seat s c = Some (CWait i) ->
  exists ls' s', graces restart s ls' s' /\ seat s' c = Some CServed.
Proof. exact p_C126_waiting_served_partial. Qed.
Print Assumptions C126_waiting_served_partial.

(* C126 as documented ("no effect to existed connection") fails for a client that is connected but not
   yet accepted: closing the listener cuts it off.
   Example: C126_case. *)
Theorem C126_cut_refuted : forall restart ls s j s1 c i, graces restart grace0 ls s -> gtrans restart s (GLoop (VStopClose j)) s1 ->
  seat s c = Some (CWait i) -> seat s1 c = Some CCut.
Proof. exact p_C126_cut_refuted. Qed.
Print Assumptions C126_cut_refuted.

(* C126 fails when Stop is called before the server has said that it is running: the error is
   printed, and the server is never stopped.
   Example: C126_case. *)
Theorem C126_too_early_refuted : forall restart ls s, network_fine restart grace0 ls s -> In GStopNo ls ->
  ~ stopped_in ls /\ (listens_in ls = 1%nat -> dials s true) /\ (listens_in ls <= 1)%nat.
Proof. exact p_C126_too_early_refuted. Qed.
Print Assumptions C126_too_early_refuted.

(* the restart example with four clients: one accepted before Stop, one still waiting then, one that
   dials while the server is stopped, one afterwards; and Stop called too early *)
Example C126_case : (exists s, network_fine true grace0
    [GLoop (VListen 0); GDial; GLoop (VFill 0); GLoop (VOpen 0); GLoop (VCheck 0); GLoop (VConn 0); GLoop (VServe 0 false); GLoop (VCheck 0);
     GDial; GLoop VStopTest; GLoop (VStopState 0); GLoop (VStopClose 0); GLoop (VFail 0 false); GDial;
     GLoop (VStart [("tcp", ":8080")]%string); GLoop (VListen 0); GLoop (VFill 1); GLoop (VOpen 1); GDial; GLoop (VCheck 1); GLoop (VConn 1); GLoop (VServe 1 false)] s /\
  map gc_seat (g_clients s) = [CServed; CCut; CRefused; CServed] /\ g_pc s = GStarted) /\
  exists s2, network_fine true grace0 [GStopNo; GLoop (VListen 0); GDial] s2 /\ seat s2 0 = Some (CWait 0).
Proof.
  split; eexists; (split; [apply gdos_sound; vm_compute; reflexivity|]); split || idtac; reflexivity.
Qed.

(* the stop example: its client is served, is ended, and the server notices *)
Example C126_ended_case : exists s, graces false grace0
    [GLoop (VListen 0); GDial; GLoop (VFill 0); GLoop (VOpen 0); GLoop (VCheck 0); GLoop (VConn 0); GLoop (VServe 0 false); GGone 0; GEof 0] s /\
  seat s 0 = Some CEnded.
Proof.
  eexists. split.
  - eapply (graces_app false grace0 [GLoop (VListen 0); GDial; GLoop (VFill 0); GLoop (VOpen 0); GLoop (VCheck 0); GLoop (VConn 0); GLoop (VServe 0 false)]) with (b := [GGone 0; GEof 0]%nat);
      [apply network_fine_graces, gdos_sound; vm_compute; reflexivity|].
    eapply gr_cons; [eapply g_gone; reflexivity|]. eapply gr_cons; [apply g_eof; reflexivity|]. apply gr_nil.
  - reflexivity.
Qed.
