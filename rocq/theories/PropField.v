(* Property theorems. Each is closed by the lemma of the same name in FieldProofs.v. *)
From Verif Require Export FieldProofs.

(* the state and the listeners are never raced, whatever the program does and however often
   Example: C104_case. *)
Theorem C104_locked_partial : forall a ts x, Forall (runs a Program) ts -> x = FState \/ x = FListener -> race_free x ts.
Proof. exact p_C104_locked_partial. Qed.
Print Assumptions C104_locked_partial.

(* nor is the list of records, in a program that never calls Start or Restart
   Example: C104_case. *)
Theorem C104_properties_partial : forall a ts, Forall (runs a Program) ts -> al_start a = false -> race_free FProperties ts.
Proof. exact p_C104_properties_partial. Qed.
Print Assumptions C104_properties_partial.

(* the configuring calls write what the table says, and nothing else *)
Theorem C104_conf : forall c x, In x (conf_writes c) <-> sets c x.
Proof. exact p_C104_conf. Qed.
Print Assumptions C104_conf.

(* what is configured before anything is started and not afterwards is not raced - but for the pool,
   if Stop(true) replaces it
   Example: C104_case. *)
Theorem C104_setup_partial : forall a cs p x, al_conf a = false -> runs a Program p -> configured x ->
  (x = FPool -> al_swap a = false) -> race_free x [after_setup cs p].
Proof. exact p_C104_setup_partial. Qed.
Print Assumptions C104_setup_partial.

(* WithBuiltInPool(true); go ListenAndServe; Stop(true) while a client connects: the pool is replaced
   while the accept loop reads it *)
Theorem C104_pool_refuted : exists p m, runs (Allowed false false true) Program p /\
  asteps (launch [after_setup [WithBuiltInPool] p]) m /\ race FPool m.
Proof. exact p_C104_pool_refuted. Qed.
Print Assumptions C104_pool_refuted.

(* go ListenAndServe; Start(): Start reads the list that fillProperty appends to *)
Theorem C104_properties_refuted : exists p m, runs (Allowed false true false) Program p /\
  asteps (launch [p]) m /\ race FProperties m.
Proof. exact p_C104_properties_refuted. Qed.
Print Assumptions C104_properties_refuted.

(* Start alone, with two records: its second round sets the variable the goroutine of the first reads *)
Theorem C104_start_refuted : forall i, exists p m, runs (Allowed false true false) Program p /\
  asteps (launch [p]) m /\ race (FLoopVar i) m.
Proof. exact p_C104_start_refuted. Qed.
Print Assumptions C104_start_refuted.

(* every configuring call on a running server can race: for each field it sets there is a server that
   itself configures nothing and a schedule in which the call is about to write the field while a
   goroutine of the server is about to read it
   Example: C104_late_case. *)
Theorem C104_late_setup_refuted : forall c x, sets c x -> exists p m t k k',
  runs (Allowed false false false) Program p /\ asteps (launch [PGo p (configure c PEnd)]) m /\
  nth_error (mc_threads m) 0 = Some (PWr x k) /\ nth_error (mc_threads m) (S t) = Some (PRd x k').
Proof. exact p_C104_late_setup_refuted. Qed.
Print Assumptions C104_late_setup_refuted.

Example C104_late_case : sets FieldModel.HeartBeatModeDetail FHeatBeatInterval /\ sets FieldModel.WithAuthDetail FAuthDeadline /\ sets FieldModel.RewriteHeartBeatHandler FHeartBeatMessageID.
Proof. repeat split; cbn; auto. Qed.

(* a program that configures, serves in a goroutine and stops: all its fields but the pool are safe *)
Example C104_case : let p := PGo serve_one (get_state (set_state (PLock (PRd FProperties (PUnlock (PRd FWithSignals (PRd FPool (PRd FPool (PGo PEnd (PWr FPool PEnd)))))))))) in
  runs (Allowed false false true) Program p /\ configured FDeadLine /\ configured FPool /\
  (exists m, asteps (launch [after_setup [SetDeadline; WithBuiltInPool] p]) m /\ List.length (mc_threads m) = 3%nat).
Proof.
  cbv zeta. split; [constructor; [apply serve_one_runs|]; apply (r_stop_pool _ 0); [reflexivity|constructor]|].
  split; [exists SetDeadline; reflexivity|]. split; [exists WithBuiltInPool; reflexivity|].
  match goal with |- exists m, asteps (launch [?q]) m /\ _ => destruct (schedule (launch [q]) (repeat 0 4 ++ repeat 1 24)%nat) as [m|] eqn:E; [|vm_compute in E; discriminate] end.
  exists m. split; [exact (schedule_ok _ _ _ E)|]. vm_compute in E. injection E as <-. reflexivity.
Qed.
