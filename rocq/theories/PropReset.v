(* Property theorems. Each is closed by the lemma of the same name in ResetProofs.v. *)
From Verif Require Export ResetProofs.

(* C106 is false: whatever the chain, once a handler has called Reset the running chain panics when
   the handler returns - the list is emptied while Next still counts on its old length ...
   Example: C106_reset_case. *)
Theorem C106_reset_refuted : forall beh hs1 h hs2 e1 e2, (forall i g, nth_error hs1 i = Some g -> plain (beh i g)) ->
  Z.of_nat (List.length hs1) < 2019 -> plain e1 -> plain e2 -> beh (List.length hs1) h = e1 ++ RReset :: e2 ->
  ends_as beh (rstart (hs1 ++ h :: hs2)) Panicked (hs1 ++ [h]).
Proof. exact p_C106_reset_refuted. Qed.
Print Assumptions C106_reset_refuted.

(* ... also when a middleware calls it after Next has returned and every handler has run
   Example: C106_next_case. *)
Theorem C106_after_next_refuted : forall beh hs1 h hs2 e1 e2 e3, (forall i g, nth_error hs1 i = Some g -> plain (beh i g)) ->
  (forall i g, nth_error hs2 i = Some g -> plain (beh (S (List.length hs1) + i)%nat g)) -> Z.of_nat (List.length (hs1 ++ h :: hs2)) <= 2019 ->
  plain e1 -> plain e2 -> plain e3 -> beh (List.length hs1) h = e1 ++ RNext :: e2 ++ RReset :: e3 ->
  ends_as beh (rstart (hs1 ++ h :: hs2)) Panicked (hs1 ++ h :: hs2).
Proof. exact p_C106_after_next_refuted. Qed.
Print Assumptions C106_after_next_refuted.

Example C106_reset_case : ends_as (always (fun h => match h with 2%nat => [REff 5; RReset; REff 6] | _ => [] end)) (rstart [1; 2]%nat) Panicked [1; 2]%nat.
Proof. apply (C106_reset_refuted _ [1%nat] 2%nat [] [REff 5] [REff 6]); [intros [|[|i]] g [=<-] a []|cbn; lia| | |].
  all: try (intros a [<-|[]]; eexists; reflexivity). reflexivity.
Qed.

Example C106_next_case : ends_as (always (fun h => match h with 1%nat => [RNext; RReset] | _ => [] end)) (rstart [1; 2; 3]%nat) Panicked [1; 2; 3]%nat.
Proof. apply (C106_after_next_refuted _ [] 1%nat [2; 3]%nat [] [] []); try (intros ? []; fail); [intros [|i] g [=]|intros [|[|[|i]]] g [=<-] a []|cbn; lia|reflexivity]. Qed.

(* C106 is false for ResetOffset too: a handler that calls it each time keeps the chain running from
   its beginning for ever ...
   Example: C106_offset_case. *)
Theorem C106_offset_forever_refuted : forall b hs1 h hs2 e1 e2, (forall g, In g hs1 -> plain (b g)) ->
  Z.of_nat (List.length hs1) < 2019 -> plain e1 -> plain e2 -> b h = e1 ++ RResetOffset :: e2 -> runs_forever (always b) (rstart (hs1 ++ h :: hs2)).
Proof. exact p_C106_offset_forever_refuted. Qed.
Print Assumptions C106_offset_forever_refuted.

(* ... and if it calls it once, the handlers that had run run again.
   Example: C106_offset_case. *)
Theorem C106_offset_twice_refuted : forall beh hs1 h hs2 e1 e2, (forall i g, i <> List.length hs1 -> plain (beh i g)) ->
  Z.of_nat (List.length (hs1 ++ h :: hs2)) <= 2019 -> plain e1 -> plain e2 -> beh (List.length hs1) h = e1 ++ RResetOffset :: e2 ->
  ends_as beh (rstart (hs1 ++ h :: hs2)) Returned (hs1 ++ h :: hs1 ++ h :: hs2).
Proof. exact p_C106_offset_twice_refuted. Qed.
Print Assumptions C106_offset_twice_refuted.

Example C106_offset_case : runs_forever (always (fun h => match h with 2%nat => [RResetOffset] | _ => [REff 1] end)) (rstart [1; 2; 3]%nat) /\
  ends_as (fun c _ => match c with 1%nat => [RResetOffset] | _ => [] end) (rstart [1; 2; 3]%nat) Returned [1; 2; 1; 2; 3]%nat.
Proof.
  split.
  - apply (C106_offset_forever_refuted _ [1%nat] 2%nat [3%nat] [] []); [|cbn; lia|intros a []|intros a []|reflexivity]. intros g [<-|[]] a [<-|[]]. eexists. reflexivity.
  - apply (C106_offset_twice_refuted _ [1%nat] 2%nat [3%nat] [] []); [|cbn; lia|intros a []|intros a []|reflexivity]. intros [|[|i]] g N a; cbn in *; tauto.
Qed.

(* C106, what holds: a handler that calls Abort afterwards ends the chain in good order ... *)
Theorem C106_then_abort_partial : forall beh hs1 h hs2 e1 e2 e3 a, (forall i g, nth_error hs1 i = Some g -> plain (beh i g)) ->
  Z.of_nat (List.length hs1) < 2019 -> plain e1 -> plain e2 -> plain e3 -> a = RReset \/ a = RResetOffset ->
  beh (List.length hs1) h = e1 ++ a :: e2 ++ RAbort :: e3 -> ends_as beh (rstart (hs1 ++ h :: hs2)) Returned (hs1 ++ [h]).
Proof. exact p_C106_then_abort_partial. Qed.
Print Assumptions C106_then_abort_partial.

Example C106_abort_case : ends_as (always (fun h => match h with 2%nat => [RReset; RAbort] | _ => [] end)) (rstart [1; 2; 3]%nat) Returned [1; 2]%nat.
Proof. apply (C106_then_abort_partial _ [1%nat] 2%nat [3%nat] [] [] [] RReset); try (intros ? []; fail); [intros [|[|i]] g [=<-] a []|cbn; lia|auto|reflexivity]. Qed.

(* ... and the heartbeat and auth handlers, which are called without a chain, may do as they like *)
Theorem C106_direct_partial : forall beh l, ~ In RPanic l -> ends_as beh (rdirect l) Returned [].
Proof. exact p_C106_direct_partial. Qed.
Print Assumptions C106_direct_partial.

Example C106_direct_case : ends_as (fun _ _ => []) (rdirect [REff 1; RReset; RNext; RResetOffset; RAbort]) Returned [].
Proof. apply C106_direct_partial. cbn. intuition discriminate. Qed.

(* C106 rests on the same chain as C21 to C23: where nobody calls Reset or ResetOffset the machine
   does what ChainModel says *)
Theorem C106_same_chain : forall c t s o, run_chain c = Some (t, s, o) -> exists n y,
  rsteps (always (fun h => map as_ract (ch_beh c h))) n (rstart (ch_handlers c)) = Some y /\ x_end y = Some s /\ x_trace y = t /\ x_off y = o.
Proof. exact p_C106_same_chain. Qed.
Print Assumptions C106_same_chain.

Example C106_same_case : exists t s o, run_chain (Chain [0; 1]%nat (fun h => match h with O => [ANext; AEff 1] | _ => [AEff 2] end)) = Some (t, s, o) /\ t <> [].
Proof. do 3 eexists. split; [vm_compute; reflexivity|discriminate]. Qed.
