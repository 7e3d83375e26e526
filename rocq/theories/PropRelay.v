(* Property theorems: What handlers send to other connections (C140)..
   Each is closed by the lemma of the same name in RelayProofs.v. *)
From Verif Require Export RelayProofs.
From Verif Require Import Demo.

(* C140: whatever the schedule, what the handlers of a message have for a connection is written to it in their order, each block
   once, none before the handling begins; when it has ended, all of it.  Nothing else is written to the connection.
   Example: C140_case. *)
Theorem C140_each : forall say streams l y t, arun say (asys0 streams) l = Some y ->
  (forall k n, begins_with (for_conn t (say k n)) (for_conn t (to_msg k n (a_out y)))) /\
  (forall b, In b (arrived t (a_out y)) -> exists k n, In (LBegin k n) (y_log (a_sys y)) /\ In b (for_conn t (say k n))) /\
  (forall k n, In (LEnd k n) (y_log (a_sys y)) -> for_conn t (to_msg k n (a_out y)) = for_conn t (say k n)).
Proof. exact p_C140_each. Qed.
Print Assumptions C140_each.

(* C140: when nobody has anything left to do, every connection has been written exactly what the handlers of all messages had for it,
   each block once.
   Example: C140_case. *)
Theorem C140_all : forall say streams l y t, arun say (asys0 streams) l = Some y -> a_quiet say y -> y_dead (a_sys y) = false ->
  Permutation (arrived t (a_out y)) (all_for t say streams).
Proof. exact p_C140_all. Qed.
Print Assumptions C140_all.

(* C140: no schedule goes on for ever, and every one can be carried on to there.  (Without batches that announce more than
   follows, which can end the process.)
   Example: C140_case. *)
Theorem C140_ends : forall say streams, (forall E b m, In E streams -> In (SPipe b m) E -> m <= 0) -> exists N, forall l y, arun say (asys0 streams) l = Some y ->
  (List.length l <= N)%nat /\ exists l' y', arun say y l' = Some y' /\ a_quiet say y' /\ forall t, Permutation (arrived t (a_out y')) (all_for t say streams).
Proof. exact p_C140_ends. Qed.
Print Assumptions C140_ends.

(* C140, order: what the messages of one batch have for a connection is written to it in the order of the messages; so is what all messages
   of a client have for it, if the client waits till a message is done with before its next one.
   Example: C140_case. *)
Theorem C140_order : forall say streams l y t k,
  (forall pre body missing post, arun say (asys0 streams) l = Some y -> nth_error streams k = Some (pre ++ SPipe body missing :: post) ->
    begins_with (flat_map (fun n => for_conn t (say k n)) (seq (messages pre) (List.length body))) (for_conn t (to_range k (messages pre) (List.length body) (a_out y)))) /\
  (forall E, nth_error streams k = Some E -> polite say k (asys0 streams) l y ->
    begins_with (flat_map (fun n => for_conn t (say k n)) (seq 0 (messages E))) (for_conn t (to_conn k (a_out y)))).
Proof. exact p_C140_order. Qed.
Print Assumptions C140_order.

(* C140: the peer of a connection, reading block by block, is given exactly the blocks written to it, by whichever handlers, in the order
   they were written, however the bytes are cut on the way.
   Example: C140_read_case. *)
Theorem C140_read : forall say streams l y t lim rest en r, arun say (asys0 streams) l = Some y ->
  (forall k n b, In (t, b) (say k n) -> frame lim b) -> segmentation (concat (arrived t (a_out y)) ++ rest) en r ->
  exists r', recv (FirstBlockOfLimitMaxByte lim) (List.length (arrived t (a_out y))) r = (arrived t (a_out y), RdOk tt, r') /\ segmentation rest en r'.
Proof. exact p_C140_read. Qed.
Print Assumptions C140_read.

(* C140, order, is false of a client that does not wait: what its second message has for another client may reach that one before what its
   first has.
   Example: C140_case. *)
Theorem C140_order_refuted : forall m1 m2 b1 b2, let say := fun k n => match k, n with 0%nat, 0%nat => [(1%nat, b1)] | 0%nat, 1%nat => [(1%nat, b2)] | _, _ => [] end in
  exists l y, arun say (asys0 [[SDispatch m1; SDispatch m2]; []]) l = Some y /\ a_quiet say y /\ y_dead (a_sys y) = false /\ arrived 1 (a_out y) = [b2; b1].
Proof. exact p_C140_order_refuted. Qed.
Print Assumptions C140_order_refuted.

(* connection 0 sends a batch of two to connection 1 and answers itself, connection 1 a message to both *)
Example C140_case : let say := fun k n => match k, n with
    | 0%nat, 0%nat => [(1%nat, ["a"%char]); (0%nat, ["x"%char])] | 0%nat, 1%nat => [(1%nat, ["b"%char])]
    | 1%nat, 0%nat => [(0%nat, ["c"%char]); (1%nat, ["c"%char])] | _, _ => [] end in
  let streams := [[SPipe [[]; []] 0]; [SDispatch []]] in
  (forall E b m, In E streams -> In (SPipe b m) E -> m <= 0) /\
  exists l y, arun say (asys0 streams) l = Some y /\ a_quiet say y /\ y_dead (a_sys y) = false /\ polite say 1 (asys0 streams) l y /\
    arrived 0 (a_out y) = [["c"%char]; ["x"%char]] /\ arrived 1 (a_out y) = [["a"%char]; ["c"%char]; ["b"%char]] /\
    all_for 0 say streams = [["x"%char]; ["c"%char]] /\ all_for 1 say streams = [["a"%char]; ["b"%char]; ["c"%char]].
Proof.
  cbv zeta. split.
  { intros E b m [<-|[<-|[]]] [H|[]]; inversion H; lia. }
  exists [ADo AAccept; ADo AAccept; ADo AAccept; ADo AAccept; ADo (AReader 0); ADo (AReader 1); ADo (ATask 0); AWrite 0; ADo (ATask 1); AWrite 1; AWrite 0; AWrite 1; ADo (ATask 1); ADo (ATask 0); ADo (ATask 0); AWrite 0; ADo (ATask 0)].
  eexists. split; [vm_compute; reflexivity|]. split; [|split; [reflexivity|split; [|repeat split; vm_compute; reflexivity]]].
  - intros [[|[|[|k]]|[|[|j]]]|[|[|j]]]; try reflexivity; try (destruct k; reflexivity); destruct j; reflexivity.
  - repeat (eapply polite_step; [intros X; try discriminate X; cbn; intros; lia|vm_compute; reflexivity|]). apply polite_nil.
Qed.

Example C140_read_case : let say := fun k n => match k, n with 0%nat, 0%nat => [(1%nat, id_block)] | 1%nat, 0%nat => [(1%nat, url_block)] | _, _ => [] end in
  (forall k n b, In (1%nat, b) (say k n) -> frame 100 b) /\ segmentation (concat [url_block; id_block] ++ []) StaysOpen [RData (concat [url_block; id_block])] /\
  fst (recv (FirstBlockOfLimitMaxByte 100) 2 [RData (concat [url_block; id_block])]) = ([url_block; id_block], RdOk tt).
Proof.
  cbv zeta. split; [|split; [repeat constructor; vm_compute; reflexivity|vm_compute; reflexivity]].
  intros [|[|k]] [|n] b H; cbn in H; try contradiction; destruct H as [H|[]]; inversion H; split; [repeat split; vm_compute; congruence|intros _; vm_compute; congruence| |]; try (repeat split; vm_compute; congruence); intros _; vm_compute; congruence.
Qed.
