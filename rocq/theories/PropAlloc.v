(* Property theorems: Memory asked for while receiving (C94)..
   Each is closed by the lemma of the same name in AllocProofs.v. *)
From Verif Require Export AllocProofs.
From Verif Require Import Demo.

(* C94, the part that holds: whatever a peer sends, with a limit set no byte buffer asked for on its
   account is larger than the limit and the four length bytes.  Missing: the pointers of a batch. *)
Theorem C94_buffers_bounded_partial : forall hc lim r m, 0 < lim < 2 ^ 31 -> In m (makes hc lim r) ->
  is_buffer m -> size m <= lim + 4.
Proof. exact p_C94_buffers_bounded_partial. Qed.
Print Assumptions C94_buffers_bounded_partial.

Example C94_bounded_case : let r := [RData (be4 42 ++ skipn 4 id_block)] in In (MBytes 46) (makes json_hdr 42 r) /\ is_buffer (MBytes 46) /\ size (MBytes 46) = 42 + 4 /\
  makes json_hdr 41 r = [MBytes 4].
Proof. cbv zeta. split; [vm_compute; auto|]. split; [exact Logic.I|]. split; [reflexivity|vm_compute; reflexivity]. Qed.

(* C94, ordinary traffic: on a stream of ordinary messages nothing else is asked for.
   Example: C94_plain_case. *)
Theorem C94_plain_messages_partial : forall hc lim msgs rest en r m, 0 < lim < 2 ^ 31 -> Forall (plain_message hc lim) msgs ->
  blen rest < 4 -> segmentation (concat msgs ++ rest) en r -> In m (makes hc lim r) -> size m <= lim + 4.
Proof. exact p_C94_plain_messages_partial. Qed.
Print Assumptions C94_plain_messages_partial.

(* C94 is false: the number of messages a batch announces is taken from the header text as it is
   and a slice of that many pointers is made at once, whatever the limit and before anything else
   of the batch has arrived. *)
Theorem C94_batch_refuted : forall hc lim b n rest en r, batch_head hc lim b n -> 1 <= n <= 2 ^ 45 ->
  segmentation (b ++ rest) en r -> In (MCtxs n) (makes hc lim r).
Proof. exact p_C94_batch_refuted. Qed.
Print Assumptions C94_batch_refuted.

(* 68 bytes with a limit of 100 bytes make the server ask for 8 TiB *)
Example C94_batch_case : let b := pipe_block "enable;1099511627776" "x" in
  blen b = 68 /\ batch_head json_hdr 100 b (2 ^ 40) /\ In (MCtxs (2 ^ 40)) (makes json_hdr 100 [RData b]) /\ size (MCtxs (2 ^ 40)) = 2 ^ 43.
Proof.
  cbv zeta. assert (B : batch_head json_hdr 100 (pipe_block "enable;1099511627776" "x") (2 ^ 40)).
  { split; [split; [vm_compute; repeat split; congruence|intros _; vm_compute; congruence]|].
    eexists _, _. split; [vm_compute; repeat split; congruence|]. split; [vm_compute; reflexivity|].
    eapply (asks_batch _ _ (str_bytes "1099511627776")); [reflexivity|reflexivity|apply reads_Atoi; vm_compute; reflexivity]. }
  split; [reflexivity|]. split; [exact B|]. split; [|reflexivity].
  eapply (C94_batch_refuted json_hdr 100 _ _ [] StaysOpen); [exact B|lia|].
  rewrite app_nil_r. split; [unfold plain; repeat constructor|split; [apply app_nil_r|reflexivity]].
Qed.

(* Without a limit four bytes are enough to make the server ask for up to 2^31 - 1 bytes, before
   anything else arrives. *)
Theorem C94_without_limit : forall hc lim n l rest en r, lim <= 0 -> 0 <= n < 2 ^ 31 -> List.length l = 4%nat -> be_val l = n ->
  segmentation (l ++ rest) en r -> In (MBytes n) (makes hc lim r).
Proof. exact p_C94_without_limit. Qed.
Print Assumptions C94_without_limit.

Example C94_without_limit_case : In (MBytes (2 ^ 31 - 1)) (makes json_hdr 0 [RData (be4 (2 ^ 31 - 1))]) /\
  ~ In (MBytes (2 ^ 31 - 1)) (makes json_hdr 1000 [RData (be4 (2 ^ 31 - 1))]).
Proof.
  split.
  - eapply (C94_without_limit json_hdr 0 _ (be4 (2 ^ 31 - 1)) [] StaysOpen); [lia|lia|reflexivity|reflexivity|].
    split; [unfold plain; repeat constructor|split; reflexivity].
  - intros H. apply (C94_buffers_bounded_partial json_hdr 1000) in H; [cbn in H; lia|lia|exact Logic.I].
Qed.

Example C94_plain_case : plain_message json_hdr 100 id_block /\ makes json_hdr 100 [RData id_block] = [MBytes 4; MBytes 42; MBytes 46; MBytes 4].
Proof.
  split; [|vm_compute; reflexivity]. split; [split; [vm_compute; repeat split; congruence|intros _; vm_compute; congruence]|].
  eexists _, _. split; [vm_compute; repeat split; congruence|]. split; [vm_compute; reflexivity|]. constructor. reflexivity.
Qed.

(* C94, what is asked for exactly: on a stream of messages and batches, three buffers for each
   frame and one slice of pointers for each batch, in the order they are read; the goroutine then
   has the four bytes for the next length. *)
Theorem C94_exact : forall hc lim ps evs rest en r, Forall2 (part hc lim) ps evs -> blen rest < 4 ->
  segmentation (concat ps ++ rest) en r -> makes hc lim r = flat_map asked_for evs ++ [MBytes 4].
Proof. exact p_C94_exact. Qed.
Print Assumptions C94_exact.

(* a message, then a batch of two *)
Example C94_exact_case : let b := pipe_block "enable;2" "x" in
  Forall2 (part json_hdr 100) [id_block; b ++ id_block] [SDispatch id_block; SPipe [b; id_block] 0] /\
  makes json_hdr 100 [RData (id_block ++ b ++ id_block)] =
    [MBytes 4; MBytes 42; MBytes 46; MBytes 4; MBytes 52; MBytes 56; MCtxs 2; MBytes 4; MBytes 42; MBytes 46; MBytes 4].
Proof.
  cbv zeta. split; [|vm_compute; reflexivity].
  assert (F : frame 100 id_block) by (split; [vm_compute; repeat split; congruence|intros _; vm_compute; congruence]).
  constructor; [|constructor; [|constructor]].
  - apply part_message. split; [exact F|]. eexists _, _. split; [vm_compute; repeat split; congruence|]. split; [vm_compute; reflexivity|]. constructor. reflexivity.
  - replace (pipe_block "enable;2" "x" ++ id_block) with (pipe_block "enable;2" "x" ++ concat [id_block]) by (cbn [concat]; rewrite app_nil_r; reflexivity).
    apply part_batch; [|constructor; [exact F|constructor]|vm_compute; congruence].
    split; [split; [vm_compute; repeat split; congruence|intros _; vm_compute; congruence]|].
    eexists _, _. split; [vm_compute; repeat split; congruence|]. split; [vm_compute; reflexivity|].
    eapply (asks_batch _ _ (str_bytes "2")); [reflexivity|reflexivity|apply reads_Atoi; vm_compute; reflexivity].
Qed.
