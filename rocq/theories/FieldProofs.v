(* Races on the fields of a TcpX (C104). NODEMO *)
From Verif Require Export SpecField AccessFacts.

Lemma guarded_times x h (f : acts field -> acts field) : (forall k, guarded x h k -> guarded x h (f k)) -> forall n k, guarded x h k -> guarded x h (times n f k).
Proof. intros F. induction n; cbn; auto. Qed.

Lemma guarded_configure x c k : (forall y, In y (conf_writes c) -> y <> x) -> x <> FHeartBeatMessageID -> guarded x HNone k -> guarded x HNone (configure c k).
Proof.
  intros H N G. unfold configure.
  assert (A : guarded x HNone (fold_right PWr k (conf_writes c))).
  { revert H. generalize (conf_writes c) as l. induction l as [|y l IH]; cbn; intros H; auto. split; [intros E; elim (H y); auto|apply IH; auto]. }
  destruct c; auto. cbn [guarded]. split; [congruence|exact A].
Qed.

Lemma guarded_opt x h b (f : acts field -> acts field) k : (guarded x h k -> guarded x h (f k)) -> guarded x h k -> guarded x h (opt b f k).
Proof. destruct b; cbn; auto. Qed.

Definition kept_locked (a : allowed) (x : field) : Prop := x = FState \/ x = FListener \/ (x = FProperties /\ al_start a = false).

Lemma locked_free a x : kept_locked a x -> forall c y, In y (conf_writes c) -> y <> x.
Proof. intros [->|[->|(-> & _)]] c y H ->; destruct c; cbn in H; intuition discriminate. Qed.

Ltac gopen := repeat (match goal with
  | |- guarded _ _ (pthen _ _) => apply guarded_then
  | |- guarded _ _ (opt _ _ _) => apply guarded_opt; [intros|]
  | |- guarded _ _ (times _ _ _) => apply guarded_times; [intros|]
  | |- guarded _ _ (if _ then _ else _) => match goal with |- guarded _ _ (if ?b then _ else _) => destruct b end
  | |- guarded _ _ (get_state _) => unfold get_state
  | |- guarded _ _ (set_state _) => unfold set_state
  | |- guarded _ _ (fillProperty _ _ _) => unfold fillProperty
  | |- guarded _ _ (_ _) => cbn [guarded]
  | |- guarded _ _ PEnd => reflexivity
  | |- _ /\ _ => split
  | |- _ = _ -> _ => let E := fresh in intros E; congruence
  end; auto; try congruence).

Lemma runs_guarded a x : kept_locked a x -> forall pt p, runs a pt p -> guarded x HNone p.
Proof.
  intros K pt p R. pose proof (locked_free a x K) as C.
  assert (N : x <> FHeartBeatMessageID) by (destruct K as [->|[->|(-> & _)]]; discriminate).
  induction R; try (apply guarded_configure; [apply C|exact N|exact IHR]).
  all: destruct K as [K|[K|(K & S)]]; subst x; gopen; auto.
Qed.

Lemma p_C104_locked_partial : forall a ts x, Forall (runs a Program) ts -> x = FState \/ x = FListener -> race_free x ts.
Proof.
  intros a ts x F H. apply guarded_free. intros p I. rewrite Forall_forall in F. apply runs_guarded with (a := a) (pt := Program); [|apply F, I].
  unfold kept_locked. destruct H; auto.
Qed.

Lemma p_C104_properties_partial : forall a ts, Forall (runs a Program) ts -> al_start a = false -> race_free FProperties ts.
Proof.
  intros a ts F H. apply guarded_free. intros p I. rewrite Forall_forall in F. apply runs_guarded with (a := a) (pt := Program); [|apply F, I].
  unfold kept_locked. auto.
Qed.

Lemma wr_then {X} (x : X) p q : wr x (pthen p q) -> wr x p \/ wr x q.
Proof. induction p; cbn; tauto. Qed.

Lemma wr_times {X} (x : X) (f : acts X -> acts X) n k : (forall k, wr x (f k) -> wr x k) -> wr x (times n f k) -> wr x k.
Proof. intros F. induction n; cbn; auto. Qed.

Lemma wr_opt x b f k : (wr x (f k) -> wr x k \/ False) -> wr x (opt b f k) -> wr x k.
Proof. destruct b; cbn; tauto. Qed.

Lemma p_C104_conf : forall c x, In x (conf_writes c) <-> sets c x.
Proof.
  intros c x. split.
  - intros H. destruct c; cbn in H; repeat (destruct H as [<-|H]); try destruct H; cbn; auto.
  - destruct x; cbn; intros H; repeat (destruct H as [H|H]); subst; cbn; auto; contradiction.
Qed.

Lemma runs_nowrite a x : configured x -> al_conf a = false -> (x = FPool -> al_swap a = false) -> forall pt p, runs a pt p -> ~ wr x p.
Proof.
  intros (c0 & C) A W pt p R. apply p_C104_conf in C.
  assert (N : x <> FState /\ x <> FListener /\ x <> FProperties /\ forall i, x <> FLoopVar i).
  { split; [intros ->|split; [intros ->|split; [intros ->|intros i ->]]]; destruct c0; cbn in C; intuition discriminate. }
  destruct N as (N1 & N2 & N3 & N4). clear C c0.
  induction R; try congruence; unfold get_state, set_state, fillProperty, opt in *; intros Hw;
    repeat match goal with
    | H : context [if ?b then _ else _] |- _ => destruct b
    | H : False |- _ => destruct H
    | H : _ \/ _ |- _ => destruct H
    | H : wr _ (pthen _ _) |- _ => apply wr_then in H
    | H : wr _ (times _ _ _) |- _ => apply wr_times in H; [|cbn; tauto]
    | H : wr _ _ |- _ => progress cbn [wr] in H
    | H : FLoopVar ?i = x |- _ => elim (N4 i); auto
    end; auto; try congruence.
  match goal with H : FPool = _ |- _ => specialize (W (eq_sym H)); congruence end.
Qed.

Lemma apart_setup x cs p : ~ wr x p -> apart x (after_setup cs p).
Proof.
  intros H. unfold after_setup. induction cs as [|c cs IH]; cbn [fold_right]; [apply apart_nowrite, H|]. unfold configure.
  assert (A : apart x (fold_right PWr (fold_right configure p cs) (conf_writes c))).
  { generalize (conf_writes c) as l. induction l as [|y l IHl]; cbn; auto. }
  destruct c; exact A.
Qed.

Lemma p_C104_setup_partial : forall a cs p x, al_conf a = false -> runs a Program p -> configured x ->
  (x = FPool -> al_swap a = false) -> race_free x [after_setup cs p].
Proof. intros a cs p x A R C W. apply apart_free, apart_setup. eapply runs_nowrite; eauto. Qed.

(* one server, a connection being accepted *)
Definition accept_one : acts field :=
  get_state (PRd FDeadLine (PRd FReadDeadLine (PRd FWriteDeadLine (PRd FPackx (PRd FBuiltInPool (PRd FPool (PRd FOnConnect
    (PRd FWithSignals (PRd FHeartBeatOn (PRd FAuth (PGo (PRd FOnClose (PRd FMaxByte PEnd)) (get_state PEnd)))))))))))).
Definition serve_one : acts field := PRd FTLSConfig (fillProperty 0 false (set_state accept_one)).

Lemma serve_one_runs a : runs a Program serve_one.
Proof.
  unfold serve_one. change (PRd FTLSConfig (fillProperty 0 false (set_state accept_one)))
    with (PRd FTLSConfig (opt false (PRd FTLSConfig) (fillProperty 0 false (set_state accept_one)))).
  apply r_tcp. unfold accept_one.
  apply (r_accept a true false false false false PEnd (PRd FWithSignals PEnd) (PRd FHeartBeatOn PEnd) (PRd FAuth PEnd) (PRd FOnClose (PRd FMaxByte PEnd)) (get_state PEnd));
    repeat constructor.
Qed.

Lemma p_C104_pool_refuted : exists p m, runs (Allowed false false true) Program p /\
  asteps (launch [after_setup [WithBuiltInPool] p]) m /\ race FPool m.
Proof.
  exists (PGo serve_one (get_state (set_state (PLock (PRd FProperties (times 1 (fun k => PRd FProperties (PRd FListener k))
    (PUnlock (PRd FWithSignals (PRd FPool (PRd FPool (PGo PEnd (PWr FPool PEnd)))))))))))).
  destruct (schedule (launch [after_setup [WithBuiltInPool] (PGo serve_one (get_state (set_state (PLock (PRd FProperties (times 1 (fun k => PRd FProperties (PRd FListener k))
    (PUnlock (PRd FWithSignals (PRd FPool (PRd FPool (PGo PEnd (PWr FPool PEnd))))))))))))])
    (repeat 0 3 ++ repeat 1 18 ++ repeat 0 15)%nat) as [m|] eqn:E; [|vm_compute in E; discriminate].
  exists m. split; [|split; [exact (schedule_ok _ _ _ E)|]].
  - constructor; [apply serve_one_runs|]. apply r_stop_pool; [reflexivity|constructor].
  - vm_compute in E. injection E as <-. exists 0%nat, 1%nat. eexists _, _. split; [discriminate|]. split; [reflexivity|]. split; [reflexivity|].
    split; eexists; [reflexivity|right; reflexivity].
Qed.

Lemma p_C104_properties_refuted : exists p m, runs (Allowed false true false) Program p /\
  asteps (launch [p]) m /\ race FProperties m.
Proof.
  exists (PGo serve_one (get_state (PRd FProperties PEnd))).
  destruct (schedule (launch [PGo serve_one (get_state (PRd FProperties PEnd))]) (repeat 0 4 ++ repeat 1 5)%nat) as [m|] eqn:E; [|vm_compute in E; discriminate].
  exists m. split; [|split; [exact (schedule_ok _ _ _ E)|]].
  - constructor; [apply serve_one_runs|]. apply (r_start _ 0); [reflexivity|]. repeat constructor.
  - vm_compute in E. injection E as <-. exists 1%nat, 0%nat. eexists _, _. split; [discriminate|]. split; [reflexivity|]. split; [reflexivity|].
    split; eexists; [reflexivity|right; reflexivity].
Qed.

Lemma p_C104_start_refuted : forall i, exists p m, runs (Allowed false true false) Program p /\
  asteps (launch [p]) m /\ race (FLoopVar i) m.
Proof.
  intros i. set (g := PGo (PRd (FLoopVar i) (PRd (FLoopVar i) (PRd (FLoopVar i) (PRd (FLoopVar i) serve_one))))).
  exists (get_state (PRd FProperties (PWr (FLoopVar i) (g (PWr (FLoopVar i) (g PEnd)))))).
  destruct (schedule (launch [get_state (PRd FProperties (PWr (FLoopVar i) (g (PWr (FLoopVar i) (g PEnd)))))]) (repeat 0 6)%nat) as [m|] eqn:E; [|vm_compute in E; discriminate].
  exists m. split; [|split; [exact (schedule_ok _ _ _ E)|]].
  - apply (r_start _ i); [reflexivity|]. apply r_starting; [apply serve_one_runs|]. apply r_starting; [apply serve_one_runs|]. repeat constructor.
  - vm_compute in E. injection E as <-. exists 0%nat, 1%nat. eexists _, _. split; [discriminate|]. split; [reflexivity|]. split; [reflexivity|].
    split; eexists; [reflexivity|right; reflexivity].
Qed.

(* --- a server that takes every branch --- *)
Definition field_eq : forall x y : field, {x = y} + {x <> y}.
Proof. decide equality; apply Nat.eq_dec. Defined.

Definition reads_first (x : field) (p : option (acts field)) : bool :=
  match p with Some (PRd y _) => if field_eq x y then true else false | _ => false end.
Definition writes_first (x : field) (p : option (acts field)) : bool :=
  match p with Some (PWr y _) => if field_eq x y then true else false | _ => false end.

(* the first goroutine goes on until it is about to write x *)
Fixpoint to_write (x : field) (n : nat) (m : mach field) : option (mach field) :=
  if writes_first x (nth_error (mc_threads m) 0) then Some m
  else match n with O => None | S n => match step_of m 0 with Some m => to_write x n m | None => None end end.

(* the others run to their end, one after another, until one is about to read x *)
Fixpoint to_read (x : field) (n : nat) (t : nat) (m : mach field) : option (mach field * nat) :=
  if reads_first x (nth_error (mc_threads m) t) then Some (m, t)
  else match n with
       | O => None
       | S n => match step_of m t with Some m => to_read x n t m | None => to_read x n (S t) m end
       end.

Lemma to_write_ok x n : forall m m', to_write x n m = Some m' -> asteps m m'.
Proof.
  induction n as [|n IH]; intros m m' H; cbn [to_write] in H; destruct (writes_first x _); try (injection H as <-; constructor); [discriminate|].
  destruct (step_of m 0) as [m1|] eqn:E; [|discriminate]. apply (asteps_trans m m1); [eapply as_step; [constructor|apply (step_of_ok m 0), E]|apply IH, H].
Qed.

Lemma to_read_ok x n : forall t m m' t', to_read x n t m = Some (m', t') -> asteps m m'.
Proof.
  induction n as [|n IH]; intros t m m' t' H; cbn [to_read] in H; destruct (reads_first x _); try (injection H as <- <-; constructor); [discriminate|].
  destruct (step_of m t) as [m1|] eqn:E; [|eapply IH, H]. apply (asteps_trans m m1); [eapply as_step; [constructor|apply (step_of_ok m t), E]|eapply IH, H].
Qed.

Definition all_branches : acts field :=
  get_state (PRd FDeadLine (PRd FReadDeadLine (PRd FWriteDeadLine (PRd FPackx (PRd FBuiltInPool (PRd FPool (PRd FOnConnect (PRd FOnConnect
    (PRd FWithSignals (PGo (PRd FWithSignals (PRd FCloseAllSignal PEnd))
    (PRd FHeartBeatOn (PGo (PRd FHeartBeatOn (PGo (get_state (PRd FHeatBeatInterval (PRd FCloseAllSignal (PRd FOnHeartbeatLoss (PRd FOnHeartbeatLoss PEnd))))) PEnd))
    (PRd FAuth (PGo (PRd FAuth (PRd FAuthDeadline (PRd FCloseAllSignal PEnd)))
    (PGo (PRd FOnClose (PRd FMaxByte (PGo (PRd FOnMessage (PRd FPackx (PRd FHeartBeatMessageID (PRd FThroughMiddleware (PRd FAuthMessageID (PRd FAuthThroughMiddleware PEnd))))))
            (PRd FMaxByte PEnd)))) (get_state PEnd)))))))))))))))).
Definition serve_all : acts field := PRd FTLSConfig (PRd FTLSConfig (fillProperty 0 false (set_state all_branches))).
Definition raw_all : acts field := fillProperty 0 false (set_state
  (get_state (PRd FDeadLine (PRd FReadDeadLine (PRd FWriteDeadLine (PRd FPackx (PRd FBuiltInPool (PRd FOnConnect
    (PGo (PRd FWithSignals PEnd) (PGo (PRd FHeartBeatOn PEnd) (PGo (PRd FOnClose (PRd FHandleRaw PEnd)) (get_state PEnd)))))))))))).
Definition servers : acts field := PGo raw_all serve_all.

Lemma servers_run a : runs a Program servers.
Proof.
  constructor.
  - apply r_raw. apply (r_accept_raw a false false PEnd (PRd FWithSignals PEnd) (PRd FHeartBeatOn PEnd) (PRd FOnClose (PRd FHandleRaw PEnd)) (get_state PEnd)); repeat constructor.
  - apply (r_tcp a true 0 false all_branches). unfold all_branches.
    apply (r_accept a true true true true true PEnd (PRd FWithSignals (PRd FCloseAllSignal PEnd))
      (PRd FHeartBeatOn (PGo (get_state (PRd FHeatBeatInterval (PRd FCloseAllSignal (PRd FOnHeartbeatLoss (PRd FOnHeartbeatLoss PEnd))))) PEnd))
      (PRd FAuth (PRd FAuthDeadline (PRd FCloseAllSignal PEnd)))
      (PRd FOnClose (PRd FMaxByte (PGo (PRd FOnMessage (PRd FPackx (PRd FHeartBeatMessageID (PRd FThroughMiddleware (PRd FAuthMessageID (PRd FAuthThroughMiddleware PEnd)))))) (PRd FMaxByte PEnd))))
      (get_state PEnd)); try (repeat constructor; fail).
    apply r_reader, r_read; [apply (r_by_id a true true PEnd)|]; constructor.
Qed.

Lemma p_C104_late_setup_refuted : forall c x, sets c x -> exists p m t k k',
  runs (Allowed false false false) Program p /\ asteps (launch [PGo p (configure c PEnd)]) m /\
  nth_error (mc_threads m) 0 = Some (PWr x k) /\ nth_error (mc_threads m) (S t) = Some (PRd x k').
Proof.
  assert (F : forall c x m m' t, to_write x 9 (launch [PGo servers (configure c PEnd)]) = Some m -> to_read x 200 1 m = Some (m', S t) ->
    writes_first x (nth_error (mc_threads m') 0) = true -> reads_first x (nth_error (mc_threads m') (S t)) = true ->
    exists p m t k k', runs (Allowed false false false) Program p /\ asteps (launch [PGo p (configure c PEnd)]) m /\
      nth_error (mc_threads m) 0 = Some (PWr x k) /\ nth_error (mc_threads m) (S t) = Some (PRd x k')).
  { intros c x m m' t H1 H2 H3 H4. unfold writes_first in H3. unfold reads_first in H4.
    destruct (nth_error (mc_threads m') 0) as [[| | | | | |y k|]|] eqn:E1; try discriminate. destruct (field_eq x y) as [<-|]; [|discriminate].
    destruct (nth_error (mc_threads m') (S t)) as [[| | | | |y k'| |]|] eqn:E2; try discriminate. destruct (field_eq x y) as [<-|]; [|discriminate].
    exists servers, m', t, k, k'. split; [apply servers_run|]. split; [eapply asteps_trans; [eapply to_write_ok, H1|eapply to_read_ok, H2]|]. split; assumption. }
  intros c x C. destruct x; cbn in C; repeat (destruct C as [C|C]); try contradiction; subst c;
    (eapply F; [vm_compute; reflexivity|vm_compute; reflexivity|vm_compute; reflexivity|vm_compute; reflexivity]).
Qed.
