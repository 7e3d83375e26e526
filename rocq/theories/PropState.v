(* Property theorems. Each is closed by the lemma of the same name in StateProofs.v. *)
From Verif Require Export StateProofs.

(* C81: any number of goroutines, each closing the connection and asking for its state in any
   order: no reachable state has two of them at the state with one of them writing.
   Example: C81_case. *)
Theorem C81_no_race : forall calls s, ssteps (sstart calls) s -> ~ state_race s.
Proof. exact p_C81_no_race. Qed.
Print Assumptions C81_no_race.

(* ... every read sees exactly whether a close came before it: once closed, offline for ever ...
   Example: C81_case. *)
Theorem C81_reads : forall calls s, ssteps (sstart calls) s ->
  forall l1 t off l2, ss_log s = l1 ++ EvGet t off :: l2 -> off = set_before l2.
Proof. exact p_C81_reads. Qed.
Print Assumptions C81_reads.

(* ... and nobody is locked out: unless all calls have returned, some goroutine can go on.
   Example: C81_case. *)
Theorem C81_no_deadlock : forall calls s, ssteps (sstart calls) s -> all_done s \/ exists t s', sact t s s'.
Proof. exact p_C81_no_deadlock. Qed.
Print Assumptions C81_no_deadlock.

(* a closer holding the lock keeps the other closer and a reader waiting *)
Example C81_case : let s0 := sstart [[CClose]; [CIsOffline]; [CClose; CIsOnline]] in
  exists s, ssteps s0 s /\ nth_error (ss_threads s) 0 = Some [SSet; SUnlock] /\
    (forall s', ~ sact 1 s s') /\ (forall s', ~ sact 2 s s') /\ ~ all_done s.
Proof.
  intros s0. eexists. split; [|split; [|split; [|split]]].
  - eapply ss_more; [apply ss_refl|]. eapply (s_lock _ 0%nat); reflexivity.
  - reflexivity.
  - intros s' H. inversion H; subst; cbn in *; discriminate.
  - intros s' H. inversion H; subst; cbn in *; discriminate.
  - intros H. specialize (H [SSet; SUnlock] (or_introl eq_refl)). discriminate.
Qed.

(* C81: and every call makes the accesses it is there for, once each and in the order of the calls:
   CloseConn sets the state, IsOffline and IsOnline read it.
   Example: C81_accounts_case. *)
Theorem C81_accounts : forall calls s, ssteps (sstart calls) s -> forall t l, nth_error calls t = Some l ->
  exists p rest, nth_error (ss_threads s) t = Some p /\ flat_map owed l = did t (ss_log s) ++ rest /\ (p = [] -> rest = []).
Proof. exact p_C81_accounts. Qed.
Print Assumptions C81_accounts.

(* one goroutine closes and asks, to the end; the other has not begun *)
Example C81_accounts_case : exists s, ssteps (sstart [[CClose; CIsOnline]; [CIsOffline]]) s /\
  nth_error (ss_threads s) 0 = Some [] /\ did 0 (ss_log s) = [true; false] /\ did 1 (ss_log s) = [] /\ ss_log s = [EvGet 0 true; EvSet 0].
Proof.
  pose proof (ss_refl (sstart [[CClose; CIsOnline]; [CIsOffline]])) as H.
  eapply ss_more in H; [|eapply (s_lock _ 0%nat); reflexivity]. eapply ss_more in H; [|eapply (s_set _ 0%nat); reflexivity].
  eapply ss_more in H; [|eapply (s_unlock _ 0%nat); reflexivity]. eapply ss_more in H; [|eapply (s_rlock_free _ 0%nat); reflexivity].
  eapply ss_more in H; [|eapply (s_get _ 0%nat); reflexivity]. eapply ss_more in H; [|eapply (s_runlock _ 0%nat); reflexivity].
  eexists. split; [exact H|]. repeat split; reflexivity.
Qed.
