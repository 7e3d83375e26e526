(* Property theorems: When messages are handled: order (C95) and independence (C96)..
   Each is closed by the lemma of the same name in OrderProofs.v. *)
From Verif Require Export OrderProofs.
From Verif Require Import Demo.

(* Whatever the interleaving: nothing is handled twice, nothing but what was read is, and when all
   is quiet everything has been handled.
   Example: C95_case, C95_lockstep_case. *)
Theorem C95_each_once : forall streams l s, orun (sys0 streams) l = Some s ->
  NoDup (y_log s) /\
  (forall k n, In (LBegin k n) (y_log s) \/ In (LEnd k n) (y_log s) -> exists E, nth_error streams k = Some E /\ (n < messages E)%nat) /\
  (all_quiet s -> y_dead s = false -> forall k E n, nth_error streams k = Some E -> (n < messages E)%nat -> In (LEnd k n) (y_log s)).
Proof. exact p_C95_each_once. Qed.
Print Assumptions C95_each_once.

(* C95, the part that holds for batches: in every interleaving the messages of a batch are handled
   one after another in the order they were sent.
   Example: C95_lockstep_case. *)
Theorem C95_batch_partial : forall streams l s k pre body missing post, orun (sys0 streams) l = Some s ->
  nth_error streams k = Some (pre ++ SPipe body missing :: post) ->
  one_by_one k (messages pre) (filter (of_range k (messages pre) (List.length body)) (y_log s)).
Proof. exact p_C95_batch_partial. Qed.
Print Assumptions C95_batch_partial.

(* C95, the part that holds for any traffic: a client that sends a message only after the previous
   one was handled has them handled one after another in order.
   Example: C95_lockstep_case. *)
Theorem C95_lockstep_partial : forall streams l s k, lockstep k (sys0 streams) l s -> one_by_one k 0 (filter (of_conn k) (y_log s)).
Proof. exact p_C95_lockstep_partial. Qed.
Print Assumptions C95_lockstep_partial.

(* C95 is false: whatever ordinary messages a client sends without waiting, and however the bytes
   arrive, they may be handled in any order whatsoever, and all at the same time. *)
Theorem C95_any_order_refuted : forall hc lim onClose msgs en r p, Forall (plain_message hc lim) msgs -> segmentation (concat msgs) en r ->
  Permutation p (seq 0 (List.length msgs)) ->
  (exists l s, orun (sys0 [connection hc lim onClose r]) l = Some s /\ y_log s = flat_map (fun n => [LBegin 0 n; LEnd 0 n]) p) /\
  (exists l s, orun (sys0 [connection hc lim onClose r]) l = Some s /\ y_log s = map (LBegin 0) p).
Proof. exact p_C95_any_order_refuted. Qed.
Print Assumptions C95_any_order_refuted.

Example C95_case : let msgs := [id_block; url_block] in
  Forall (plain_message json_hdr 100) msgs /\ segmentation (concat msgs) StaysOpen [RData (concat msgs)] /\ Permutation [1; 0]%nat (seq 0 (List.length msgs)) /\
  option_map y_log (orun (sys0 [connection json_hdr 100 Unset [RData (concat msgs)]])
    [AAccept; AAccept; AReader 0; AReader 0; ATask 1; ATask 1; ATask 0; ATask 0]) = Some [LBegin 0 1; LEnd 0 1; LBegin 0 0; LEnd 0 0].
Proof.
  cbv zeta. assert (M1 : plain_message json_hdr 100 id_block).
  { split; [split; [repeat split; vm_compute; congruence|intros _; vm_compute; congruence]|]. eexists. eexists. split; [split; [vm_compute; congruence|split; [vm_compute; reflexivity|split; [vm_compute; congruence|reflexivity]]]|].
    split; [vm_compute; reflexivity|]. apply asks_nothing. reflexivity. }
  assert (M2 : plain_message json_hdr 100 url_block).
  { split; [split; [repeat split; vm_compute; congruence|intros _; vm_compute; congruence]|]. eexists. eexists. split; [split; [vm_compute; congruence|split; [vm_compute; reflexivity|split; [vm_compute; congruence|reflexivity]]]|].
    split; [vm_compute; reflexivity|]. apply asks_nothing. reflexivity. }
  split; [auto|]. split; [repeat constructor; vm_compute; reflexivity|]. split; [apply perm_swap|vm_compute; reflexivity].
Qed.

(* an ordinary message and a batch of two; the peer waits before each *)
Example C95_lockstep_case : forall b b' : bytes, let streams := [[SDispatch b; SPipe [b; b'] 0]] in
  exists s, lockstep 0 (sys0 streams) [AAccept; AAccept; AReader 0; ATask 0; ATask 0; AReader 0; ATask 1; ATask 1; ATask 1; ATask 1] s /\
    y_log s = turns 0 0 3 /\ all_quiet s.
Proof.
  intros b b'. cbv zeta. eexists. split; [|split].
  - repeat (eapply lock_step; [intros X; try discriminate X; cbn; intros i Hi; destruct i as [|[|[|i]]]; try lia; auto 9|cbn; reflexivity|]). apply lock_nil.
  - reflexivity.
  - intros [|[|[|k]]|[|[|[|j]]]]; reflexivity.
Qed.

(* C96, the part that holds: whichever handling goroutines are stuck for ever, every message of every
   connection can still be read and handled, but for those a stuck goroutine has in hand: the
   message itself and the rest of its batch.
   Example: C96_case. *)
Theorem C96_others_proceed_partial : forall streams l s stuck, (forall E b m, In E streams -> In (SPipe b m) E -> m <= 0) ->
  orun (sys0 streams) l = Some s -> (forall j, In j stuck -> (j < List.length (y_tasks s))%nat) ->
  exists l' s', (forall j, In j stuck -> ~ In (ATask j) l') /\ orun s l' = Some s' /\
    forall k E n, nth_error streams k = Some E -> (n < messages E)%nat ->
      In (LEnd k n) (y_log s') \/ exists j t, In j stuck /\ nth_error (y_tasks s) j = Some t /\ t_conn t = k /\ In n (t_left t).
Proof. exact p_C96_others_proceed_partial. Qed.
Print Assumptions C96_others_proceed_partial.

(* C96 is false inside a batch: while the handler of one message does not return, none of the later
   messages of its batch is handled, whatever else happens.
   Example: C96_case. *)
Theorem C96_batch_refuted : forall streams l s j k n rest x l' s', orun (sys0 streams) l = Some s ->
  nth_error (y_tasks s) j = Some (Task k (n :: rest) true x) -> ~ In (ATask j) l' -> orun s l' = Some s' ->
  forall m, In m rest -> ~ In (LBegin k m) (y_log s').
Proof. exact p_C96_batch_refuted. Qed.
Print Assumptions C96_batch_refuted.

(* C96 is false for OnConnect: it runs in the accept loop, so while one call of it does not return no
   message of any connection that was not accepted before is handled, whatever else happens.
   Example: C96_onconnect_case. *)
Theorem C96_onconnect_refuted : forall streams l s l' s' k n, orun (sys0 streams) l = Some s -> y_connecting s = true ->
  ~ In AAccept l' -> orun s l' = Some s' -> (List.length (y_conns s) <= k)%nat ->
  ~ In (LBegin k n) (y_log s') /\ List.length (y_conns s') = List.length (y_conns s).
Proof. exact p_C96_onconnect_refuted. Qed.
Print Assumptions C96_onconnect_refuted.

(* the first message of connection 0 is stuck, everything else is handled; in the batch of connection
   1 a stuck first message holds up the second *)
Example C96_case : forall b b' : bytes, let streams := [[SDispatch b; SDispatch b']; [SPipe [b; b'] 0]] in
  exists s, orun (sys0 streams) [AAccept; AAccept; AAccept; AAccept; AReader 0; ATask 0; AReader 0; AReader 1; ATask 2] = Some s /\
    nth_error (y_tasks s) 0 = Some (Task 0 [0%nat] true false) /\ nth_error (y_tasks s) 2 = Some (Task 1 [0; 1]%nat true false) /\
    option_map y_log (orun s [ATask 1; ATask 1]) = Some [LBegin 0 0; LBegin 1 0; LBegin 0 1; LEnd 0 1].
Proof. intros b b'. cbv zeta. eexists. repeat split. Qed.

(* connection 1 waits while OnConnect of connection 0 runs *)
Example C96_onconnect_case : forall b b' : bytes, exists s, orun (sys0 [[SDispatch b]; [SDispatch b']]) [AAccept] = Some s /\ y_connecting s = true /\
  List.length (y_conns s) = 0%nat /\ ostep s (AReader 1) = None.
Proof. intros b b'. eexists. repeat split. Qed.

(* C96 is false for batches that announce more messages than follow: whatever the other connections
   and handlers are at, the goroutine of such a batch alone can take the process with it, after which
   nothing is handled any more; without such a batch the process lives.
   Example: C96_short_case. *)
Theorem C96_short_batch_refuted :
  (forall s k body missing post n, y_dead s = false -> nth_error (y_conns s) k = Some (Conn (SPipe body missing :: post) n) -> 0 < missing ->
     exists l s', (forall a, In a l -> a = AReader k \/ a = ATask (List.length (y_tasks s))) /\ orun s l = Some s' /\ y_dead s' = true /\ all_quiet s') /\
  (forall streams l s, (forall E b m, In E streams -> In (SPipe b m) E -> m <= 0) -> orun (sys0 streams) l = Some s -> y_dead s = false).
Proof. exact p_C96_short_batch_refuted. Qed.
Print Assumptions C96_short_batch_refuted.

(* a batch of two announced as three, beside a message that is never handled *)
Example C96_short_case : forall b b' : bytes, exists s, orun (sys0 [[SPipe [b; b'] 1]; [SDispatch b]]) [AAccept; AAccept; AAccept; AAccept; AReader 0; ATask 0; ATask 0; ATask 0; ATask 0; ATask 0] = Some s /\
  y_dead s = true /\ ostep s (AReader 1) = None.
Proof. intros b b'. eexists. repeat split. Qed.
