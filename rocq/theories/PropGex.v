(* Property theorems. Each is closed by the lemma of the same name in GexProofs.v. *)
From Verif Require Export GexProofs.

(* C138, the part that holds: without SIGKILL the lines come in order, each once; the process leaves
   through os.Exit only after both; and a signal ends it otherwise only before the goroutine of
   BeforeExit has begun.  Missing: the ways in which main returns.
   Example: C138_case. *)
Theorem C138_jobs_partial : forall l g, gxrun gex0 l = Some g -> ~ In (GSig SigKill) l ->
  (exists rest, both = said g ++ rest) /\ (pr_end (gx_proc g) = Some ByExit -> said g = both) /\
  (pr_end (gx_proc g) = Some BySignal -> said g = [] /\ ~ In GBack l).
Proof. exact p_C138_jobs_partial. Qed.
Print Assumptions C138_jobs_partial.

(* ... and as long as main listens, any of the catchable signals can still bring both lines and the
   end through os.Exit, main taking no part.
   Example: C138_case. *)
Theorem C138_exits : forall l g sg, gxrun gex0 l = Some g -> ~ over g -> gx_main g = GListens -> sg <> SigKill ->
  exists l' g', (forall o, In o l' -> o = GBack \/ o = GSig sg) /\ gxrun g l' = Some g' /\ pr_end (gx_proc g') = Some ByExit /\ said g' = both.
Proof. exact p_C138_exits. Qed.
Print Assumptions C138_exits.

(* C138 is false when the address cannot be listened on: main drops the error and returns; the
   process is over, nothing is said.
   Example: C138_case. *)
Theorem C138_port_refuted : exists g, gxrun gex0 [GMain true; GMain false] = Some g /\ over g /\ said g = [].
Proof. exact p_C138_port_refuted. Qed.
Print Assumptions C138_port_refuted.

(* C138 is false when Accept fails once (too many open files, say), whenever that is: main returns and
   the jobs that have not run never do.
   Example: C138_case. *)
Theorem C138_accept_refuted : forall l g, gxrun gex0 l = Some g -> ~ over g -> gx_main g = GListens ->
  exists g', gxstep g (GLeft AcceptFailed) = Some g' /\ over g' /\ said g' = said g /\ pr_end (gx_proc g') = None /\ forall o, gxstep g' o = None.
Proof. exact p_C138_accept_refuted. Qed.
Print Assumptions C138_accept_refuted.

Example C138_case : exists g1 g2, gxrun gex0 [GMain true; GMain true; GBack; GBack] = Some g1 /\ gx_main g1 = GListens /\ ~ over g1 /\ said g1 = [] /\
  gxrun g1 [GSig SigInt; GBack; GBack; GBack] = Some g2 /\ over g2 /\ said g2 = both.
Proof.
  do 2 eexists. split; [vm_compute; reflexivity|]. split; [reflexivity|]. split; [intros [X|X]; [discriminate X|apply X; reflexivity]|]. split; [reflexivity|]. split; [vm_compute; reflexivity|]. split; [right; discriminate|reflexivity].
Qed.
