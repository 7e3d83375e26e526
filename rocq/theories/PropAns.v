(* Property theorems: In which order answers reach a client (C139)..
   Each is closed by the lemma of the same name in AnsProofs.v. *)
From Verif Require Export AnsProofs.
From Verif Require Import Demo.

(* C139: whatever the schedule, every message is answered by its own handlers' blocks, in their order, each
   once and none before its handling begins; when its handling has ended, and so when nothing is left to do, by all of
   them.  A process that has ended writes nothing.
   Example: C139_any_case. *)
Theorem C139_each_answer : forall {Bk} (ans : nat -> nat -> list Bk) streams l y, arun ans (asys0 streams) l = Some y ->
  (forall k n, begins_with (ans k n) (to_msg k n (a_out y))) /\
  (forall k n b, In (k, n, b) (a_out y) -> In (LBegin k n) (y_log (a_sys y))) /\
  (forall k n, In (LEnd k n) (y_log (a_sys y)) -> to_msg k n (a_out y) = ans k n) /\
  (a_quiet ans y -> y_dead (a_sys y) = false -> forall k E n, nth_error streams k = Some E -> (n < messages E)%nat -> to_msg k n (a_out y) = ans k n) /\
  (y_dead (a_sys y) = true -> a_quiet ans y).
Proof. exact @p_C139_each_answer. Qed.
Print Assumptions C139_each_answer.

(* message 0 is answered twice, messages 1 and 2 come as a batch; the first answer to reach the client is that to
   message 1, in the end everything is answered *)
Example C139_any_case : let ans := fun _ n => match n with 0%nat => [["x"%char]; ["y"%char]] | _ => [["z"%char; ascii_of_nat n]] end in
  let streams := [[SDispatch []; SPipe [[]; []] 0]] in
  exists l y, arun ans (asys0 streams) l = Some y /\ a_quiet ans y /\ y_dead (a_sys y) = false /\ nth_error streams 0 = Some ([SDispatch []] ++ SPipe [[]; []] 0 :: []) /\
    to_conn 0 (a_out y) = [["z"%char; "001"%char]; ["x"%char]; ["z"%char; "002"%char]; ["y"%char]] /\
    to_range 0 1 2 (a_out y) = [["z"%char; "001"%char]; ["z"%char; "002"%char]].
Proof.
  cbv zeta. exists [ADo AAccept; ADo AAccept; ADo (AReader 0); ADo (AReader 0); ADo (ATask 1); AWrite 1; ADo (ATask 0); AWrite 0; ADo (ATask 1); ADo (ATask 1); AWrite 1; ADo (ATask 1); AWrite 0; ADo (ATask 0)].
  eexists. split; [vm_compute; reflexivity|]. split; [|split; [reflexivity|split; [reflexivity|split; vm_compute; reflexivity]]].
  intros [[|[|k]|[|[|j]]]|[|[|j]]]; try reflexivity; try (destruct k; reflexivity); destruct j; reflexivity.
Qed.

(* C139, batches: the answers to the messages of one batch reach the client in the order of the messages,
   whatever else goes on.
   Example: C139_any_case. *)
Theorem C139_batch : forall {Bk} (ans : nat -> nat -> list Bk) streams l y k pre body missing post, arun ans (asys0 streams) l = Some y ->
  nth_error streams k = Some (pre ++ SPipe body missing :: post) ->
  begins_with (flat_map (ans k) (seq (messages pre) (List.length body))) (to_range k (messages pre) (List.length body) (a_out y)).
Proof. exact @p_C139_batch. Qed.
Print Assumptions C139_batch.

(* C139, a client that waits for the answers to a message before its next one: it gets the answers in the order
   of its messages, and in the end all of them; its answers are those of its handlers and nothing else.
   Example: C139_polite_case. *)
Theorem C139_waiting : forall {Bk} (ans : nat -> nat -> list Bk) streams k E l y, nth_error streams k = Some E -> polite ans k (asys0 streams) l y ->
  begins_with (flat_map (ans k) (seq 0 (messages E))) (to_conn k (a_out y)) /\
  (a_quiet ans y -> y_dead (a_sys y) = false -> to_conn k (a_out y) = flat_map (ans k) (seq 0 (messages E))).
Proof. exact @p_C139_waiting. Qed.
Print Assumptions C139_waiting.

(* a client that waits: its second message is read while the handlers of the first are still busy, all their
   answers written *)
Example C139_polite_case : let ans := fun _ n => match n with 0%nat => [["x"%char]; ["y"%char]] | _ => [["z"%char]] end in
  let streams := [[SDispatch []; SDispatch []]] in
  exists l y, polite ans 0 (asys0 streams) l y /\ y_log (a_sys y) = [LBegin 0 0; LBegin 0 1; LEnd 0 1; LEnd 0 0] /\ messages [SDispatch []; SDispatch []] = 2%nat /\
    a_quiet ans y /\ y_dead (a_sys y) = false /\ to_conn 0 (a_out y) = [["x"%char]; ["y"%char]; ["z"%char]].
Proof.
  cbv zeta. eexists [ADo AAccept; ADo AAccept; ADo (AReader 0); ADo (ATask 0); AWrite 0; AWrite 0; ADo (AReader 0); ADo (ATask 1); AWrite 1; ADo (ATask 1); ADo (ATask 0)], _. split.
  - repeat (eapply polite_step; [|vm_compute; reflexivity|]); [..|apply polite_nil]; try (intros X; discriminate X).
    + intros _. cbn. intros i H. lia.
    + intros _. cbn. intros i H. destruct i; [reflexivity|lia].
  - split; [reflexivity|]. split; [reflexivity|]. split; [|split; vm_compute; reflexivity].
    intros [[|[|k]|[|[|j]]]|[|[|j]]]; try reflexivity; try (destruct k; reflexivity); destruct j; reflexivity.
Qed.

(* C139: such a client, reading block by block, is given exactly the answers to its messages in their order, however
   the bytes are cut on the way.
   Example: C139_read_case. *)
Theorem C139_read : forall (ans : nat -> nat -> list bytes) streams k E l y lim rest en r, nth_error streams k = Some E -> polite ans k (asys0 streams) l y -> a_quiet ans y -> y_dead (a_sys y) = false ->
  (forall n, (n < messages E)%nat -> Forall (frame lim) (ans k n)) -> segmentation (concat (to_conn k (a_out y)) ++ rest) en r ->
  exists r', recv (FirstBlockOfLimitMaxByte lim) (List.length (flat_map (ans k) (seq 0 (messages E)))) r = (flat_map (ans k) (seq 0 (messages E)), RdOk tt, r') /\ segmentation rest en r'.
Proof. exact p_C139_read. Qed.
Print Assumptions C139_read.

Example C139_read_case : let ans := fun _ _ : nat => [id_block; url_block] in
  (forall n, (n < 2)%nat -> Forall (frame 100) (ans 0%nat n)) /\ segmentation (concat [id_block; url_block; id_block; url_block] ++ []) StaysOpen [RData (concat [id_block; url_block]); RData (concat [id_block; url_block])] /\
  fst (recv (FirstBlockOfLimitMaxByte 100) 4 [RData (concat [id_block; url_block]); RData (concat [id_block; url_block])]) = ([id_block; url_block; id_block; url_block], RdOk tt).
Proof.
  cbv zeta. split; [|split; [repeat constructor; vm_compute; reflexivity|vm_compute; reflexivity]].
  intros n _. constructor; [|constructor; [|constructor]]; (split; [repeat split; vm_compute; congruence|intros _; vm_compute; congruence]).
Qed.

(* C139: no schedule goes on for ever, and every one can be carried on to where nobody has anything left to do; then
   every message has had all its answers.  (Without batches that announce more than follows, which can end the process.)
   Example: C139_any_case. *)
Theorem C139_ends : forall {Bk} (ans : nat -> nat -> list Bk) streams, (forall E b m, In E streams -> In (SPipe b m) E -> m <= 0) -> exists N, forall l y, arun ans (asys0 streams) l = Some y ->
  (List.length l <= N)%nat /\ exists l' y', arun ans y l' = Some y' /\ a_quiet ans y' /\
    forall k E n, nth_error streams k = Some E -> (n < messages E)%nat -> to_msg k n (a_out y') = ans k n.
Proof. exact @p_C139_ends. Qed.
Print Assumptions C139_ends.

(* C139 is false of a client that does not wait: the answers to its messages may reach it in any order and mixed
   in any way, the blocks of each message in their order.
   Example: C139_order_case. *)
Theorem C139_any_order_refuted : forall {Bk} hc lim onClose msgs en r (ans : nat -> nat -> list Bk) w, Forall (plain_message hc lim) msgs -> segmentation (concat msgs) en r ->
  merge (map (ans 0%nat) (seq 0 (List.length msgs))) w -> exists l y, arun ans (asys0 [connection hc lim onClose r]) l = Some y /\ to_conn 0 (a_out y) = w.
Proof. exact @p_C139_any_order_refuted. Qed.
Print Assumptions C139_any_order_refuted.

(* two messages with two answers each *)
Example C139_order_case : let msgs := [id_block; url_block] in let ans := fun (_ n : nat) => [[ascii_of_nat n]; ["e"%char; ascii_of_nat n]] in
  Forall (plain_message json_hdr 100) msgs /\ segmentation (concat msgs) StaysOpen [RData (concat msgs)] /\
  merge (map (ans 0%nat) (seq 0 (List.length msgs))) [["001"%char]; ["000"%char]; ["e"%char; "001"%char]; ["e"%char; "000"%char]].
Proof.
  cbv zeta. assert (M1 : plain_message json_hdr 100 id_block).
  { split; [split; [repeat split; vm_compute; congruence|intros _; vm_compute; congruence]|]. eexists. eexists. split; [split; [vm_compute; congruence|split; [vm_compute; reflexivity|split; [vm_compute; congruence|reflexivity]]]|].
    split; [vm_compute; reflexivity|]. apply asks_nothing. reflexivity. }
  assert (M2 : plain_message json_hdr 100 url_block).
  { split; [split; [repeat split; vm_compute; congruence|intros _; vm_compute; congruence]|]. eexists. eexists. split; [split; [vm_compute; congruence|split; [vm_compute; reflexivity|split; [vm_compute; congruence|reflexivity]]]|].
    split; [vm_compute; reflexivity|]. apply asks_nothing. reflexivity. }
  split; [auto|]. split; [repeat constructor; vm_compute; reflexivity|]. cbn.
  apply (merge_pick [_] _ _ []). apply (merge_pick [] _ _ [_]). apply (merge_pick [_] _ _ []). apply (merge_pick [] _ _ [_]). apply merge_nil. repeat constructor.
Qed.
