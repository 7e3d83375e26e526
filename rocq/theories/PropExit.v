(* Property theorems: Leaving the process: BeforeExit (C97); Defer and CloseChanel (C98)..
   Each is closed by the lemma of the same name in ExitProofs.v. *)
From Verif Require Export ExitProofs.
From Verif Require Import Demo.

(* C97, the part that holds: with one BeforeExit call whose functions do not panic, and no SIGKILL,
   the functions run one after another in order; the process leaves through os.Exit only when all
   have run, and a signal ends it otherwise only if the goroutine had not begun.
   Example: C97_case. *)
Theorem C97_one_call_partial : forall hs l p, no_panic hs -> (forall hs', ~ In (PCall hs') l) -> catchable l ->
  prun proc0 (PCall hs :: l) = Some p ->
  begins (pr_ran p) (names hs) /\ (pr_end p = Some ByExit -> pr_ran p = names hs) /\ (pr_end p = Some BySignal -> ~ In (PStep 0) l).
Proof. exact p_C97_one_call_partial. Qed.
Print Assumptions C97_one_call_partial.

(* ... and once the goroutine waits, any of the catchable signals makes all of them run and the process end.
   Example: C97_case. *)
Theorem C97_signal_exits : forall hs sg, no_panic hs -> sg <> SigKill ->
  exists p, prun proc0 ([PCall hs; PStep 0; PStep 0; PSignal sg] ++ repeat (PStep 0) (S (List.length hs))) = Some p /\ pr_end p = Some ByExit /\ pr_ran p = names hs.
Proof. exact p_C97_signal_exits. Qed.
Print Assumptions C97_signal_exits.

(* C97 is false when a function panics: the panic is recovered around the loop, so the later
   functions never run and the process does not exit; as the signals stay caught, no SIGINT,
   SIGTERM or SIGQUIT ends it any more. *)
Theorem C97_panic_refuted : forall hs1 h hs2 l p, no_panic hs1 -> h_panics h = true -> (forall hs', ~ In (PCall hs') l) -> catchable l ->
  prun proc0 (PCall (hs1 ++ h :: hs2) :: l) = Some p ->
  pr_end p <> Some ByExit /\ begins (pr_ran p) (names (hs1 ++ [h])) /\ (pr_ran p = names (hs1 ++ [h]) -> pr_end p = None).
Proof. exact p_C97_panic_refuted. Qed.
Print Assumptions C97_panic_refuted.

Example C97_panic_case : exists p, prun proc0 ([PCall [Hook 1 false; Hook 2 true; Hook 3 false]; PStep 0; PStep 0; PSignal SigInt; PStep 0; PStep 0; PSignal SigTerm; PSignal SigQuit]) = Some p /\
  pr_ran p = [1; 2]%nat /\ pr_end p = None.
Proof. eexists. repeat split. Qed.

(* C97 is false for a signal that arrives before the goroutine has called Notify, however many
   BeforeExit calls have returned: it ends the process and no function runs. *)
Theorem C97_too_early_refuted : forall hss sg, exists p, prun proc0 (map PCall hss ++ [PSignal sg]) = Some p /\ pr_ran p = [] /\ pr_end p = Some BySignal.
Proof. exact p_C97_too_early_refuted. Qed.
Print Assumptions C97_too_early_refuted.

(* C97 is false for a signal that arrives between Notify and the receive: the channel has no buffer,
   so the signal is dropped; nothing happens until another one comes.
   Example: C97_case. *)
Theorem C97_dropped_refuted : forall hs sg, sg <> SigKill ->
  exists p, prun proc0 [PCall hs; PStep 0; PSignal sg; PStep 0] = Some p /\ pr_ran p = [] /\ pr_end p = None /\ forall i, pstep p (PStep i) = None.
Proof. exact p_C97_dropped_refuted. Qed.
Print Assumptions C97_dropped_refuted.

(* C97 is false with two calls: both goroutines get the signal, and whichever is through first ends
   the process.
   Example: C97_case. *)
Theorem C97_two_calls_refuted : forall hs1 hs2 sg, no_panic hs1 -> sg <> SigKill ->
  exists p, prun proc0 ([PCall hs1; PCall hs2; PStep 0; PStep 0; PStep 1; PStep 1; PSignal sg] ++ repeat (PStep 0) (S (List.length hs1))) = Some p /\
    pr_end p = Some ByExit /\ pr_ran p = names hs1.
Proof. exact p_C97_two_calls_refuted. Qed.
Print Assumptions C97_two_calls_refuted.

(* SIGKILL is on the list given to Notify, but runs nothing.
   Example: C97_case. *)
Theorem C97_sigkill_refuted : forall p, pr_end p = None -> exists p', pstep p (PSignal SigKill) = Some p' /\ pr_ran p' = pr_ran p /\ pr_end p' = Some BySignal.
Proof. exact p_C97_sigkill_refuted. Qed.
Print Assumptions C97_sigkill_refuted.

Example C97_case : let hs := [Hook 1 false; Hook 2 false] in no_panic hs /\
  exists p, prun proc0 [PCall hs; PStep 0; PStep 0; PSignal SigTerm; PStep 0; PStep 0; PStep 0] = Some p /\ pr_ran p = [1; 2]%nat /\ pr_end p = Some ByExit.
Proof. cbv zeta. split; [intros h [<-|[<-|[]]]; reflexivity|]. eexists. repeat split. Qed.

(* C98, the part that holds: when no handler panics nothing leaves Defer, and a panic's value is
   handed to every handler once, in order.
   Example: C98_case. *)
Theorem C98_defer_partial : forall {V} (f : outcome V) hs, (forall h v, In h hs -> h v = Returns) ->
  snd (Defer f hs) = Returns /\ (forall v, f = Panics (Some v) -> fst (Defer f hs) = map (fun j => (j, v)) (seq 0 (List.length hs))) /\
  (f = Returns -> fst (Defer f hs) = []).
Proof. exact @p_C98_defer_partial. Qed.
Print Assumptions C98_defer_partial.

(* C98 is false when a handler panics: the later ones are not called and the panic reaches the caller.
   Example: C98_case. *)
Theorem C98_handler_panics_refuted : forall {V} v hs1 (h : V -> outcome V) hs2 e, (forall x, In x hs1 -> x v = Returns) -> h v = Panics e ->
  Defer (Panics (Some v)) (hs1 ++ h :: hs2) = (map (fun j => (j, v)) (seq 0 (S (List.length hs1))), Panics e).
Proof. exact @p_C98_handler_panics_refuted. Qed.
Print Assumptions C98_handler_panics_refuted.

(* C98 is false for panic(nil): nothing leaves Defer, but no handler hears of it. *)
Theorem C98_nil_panic_refuted : forall {V} (hs : list (V -> outcome V)), Defer (Panics None) hs = ([], Returns).
Proof. exact @p_C98_nil_panic_refuted. Qed.
Print Assumptions C98_nil_panic_refuted.

(* CloseChanel lets nothing out. *)
Theorem C98_closechanel : forall {V} (f : outcome V), CloseChanel f = Returns.
Proof. exact @p_C98_closechanel. Qed.
Print Assumptions C98_closechanel.

Example C98_case : let ok := fun _ : nat => @Returns nat in let bad := fun v : nat => Panics (Some (S v)) in
  Defer (Panics (Some 7%nat)) [ok; ok] = ([(0, 7); (1, 7)]%nat, Returns) /\ Defer (Panics (Some 7%nat)) [ok; bad; ok] = ([(0, 7); (1, 7)]%nat, Panics (Some 8%nat)).
Proof. split; reflexivity. Qed.
