(* Property theorems: C12-C16: reading blocks from a connection.
   Each is closed by the lemma of the same name in ReaderProofs.v. *)
From Verif Require Export ReaderProofs.
From Verif Require Import Demo.

(* C12.  Two connections delivering the same bytes and ending the same way, whatever the
   segments, give the same blocks and the same final outcome, for any number of reads, with or
   without a size limit. *)
Theorem C12_segmentation_independent : forall m n r1 r2 bs en,
  segmentation bs en r1 -> segmentation bs en r2 ->
  fst (recv FirstBlockOf n r1) = fst (recv FirstBlockOf n r2) /\
  fst (recv (FirstBlockOfLimitMaxByte m) n r1) = fst (recv (FirstBlockOfLimitMaxByte m) n r2).
Proof. exact p_C12_segmentation_independent. Qed.
Print Assumptions C12_segmentation_independent.

Example C12_case : let b := demo_block 3 "hello" in let bs := b ++ b in
  segmentation bs StaysOpen [RData bs] /\
  segmentation bs StaysOpen (map (fun c => RData [c]) bs) /\
  fst (recv FirstBlockOf 3 (map (fun c => RData [c]) bs)) = ([b; b], RdBlocked).
Proof.
  cbv zeta. split; [|split].
  - split; [unfold plain; repeat constructor|split; vm_compute; reflexivity].
  - split; [unfold plain; vm_compute; repeat constructor|split; vm_compute; reflexivity].
  - vm_compute. reflexivity.
Qed.

(* C13.  n packed messages back to back, then anything.
   Example: C13_case. *)
Theorem C13_sequence_received : forall V (E : env V) (sent : list (message V * option (marshaller V))) blocks rest en r,
  Forall2 (fun s b => PackWithMarshaller E (fst s) (snd s) = Ok b /\ blen b - 4 < 2 ^ 31) sent blocks ->
  segmentation (concat blocks ++ rest) en r ->
  exists r', recv FirstBlockOf (List.length sent) r = (blocks, RdOk tt, r') /\ segmentation rest en r'.
Proof. exact p_C13_sequence_received. Qed.
Print Assumptions C13_sequence_received.

(* C13 for any byte-level sender (other languages): only the length field matters.
   Example: C13_case. *)
Theorem C13_blocks_received : forall blocks rest en r,
  Forall is_block blocks -> segmentation (concat blocks ++ rest) en r ->
  exists r', recv FirstBlockOf (List.length blocks) r = (blocks, RdOk tt, r') /\ segmentation rest en r'.
Proof. exact p_C13_blocks_received. Qed.
Print Assumptions C13_blocks_received.

Example C13_case : let sent := [(demo_msg 1 "a", None); (demo_msg (-2) "bb", Some (YamlMarshaller demo_env))] in
  exists blocks, Forall2 (fun s b => PackWithMarshaller demo_env (fst s) (snd s) = Ok b /\ blen b - 4 < 2 ^ 31) sent blocks /\
  Forall is_block blocks /\ List.length blocks = 2%nat.
Proof.
  cbv zeta. eexists. split.
  - constructor; [split; [vm_compute; reflexivity|vm_compute; reflexivity]|].
    constructor; [split; [vm_compute; reflexivity|vm_compute; reflexivity]|constructor].
  - split; [|reflexivity]. repeat constructor; vm_compute; congruence.
Qed.

(* C14.  The peer closes (or the transport fails with e) after any k bytes of a stream of messages:
   exactly the messages contained in those k bytes are returned, then the failure. *)
Theorem C14_truncation : forall blocks k e r n,
  Forall is_block blocks -> segmentation (firstn k (concat blocks)) (Fails e) r ->
  (List.length blocks < n)%nat ->
  exists seen, fst (recv FirstBlockOf n r) = (whole k blocks, RdErr seen) /\ same_failure e seen.
Proof. exact p_C14_truncation. Qed.
Print Assumptions C14_truncation.

(* C14 for a peer that falls silent instead: the complete messages, and then the receiver waits.
   Example: C14_case. *)
Theorem C14_silence : forall blocks k r n,
  Forall is_block blocks -> segmentation (firstn k (concat blocks)) StaysOpen r ->
  (List.length blocks < n)%nat -> fst (recv FirstBlockOf n r) = (whole k blocks, RdBlocked).
Proof. exact p_C14_silence. Qed.
Print Assumptions C14_silence.

(* C14 for UnPackFromReader: of a message that is cut off it delivers nothing; it reports the failure
   of the transport, or waits if the transport does not fail.
   Example: C14_unpack_case. *)
Theorem C14_unpack_truncated : forall hc b k r, is_block b -> (k < List.length b)%nat ->
  (forall e, segmentation (firstn k b) (Fails e) r -> exists seen, fst (UnPackFromReader hc r) = RdErr seen /\ same_failure e seen) /\
  (segmentation (firstn k b) StaysOpen r -> fst (UnPackFromReader hc r) = RdBlocked).
Proof. exact p_C14_unpack_truncated. Qed.
Print Assumptions C14_unpack_truncated.

Example C14_case : let b := demo_block 3 "hello" in
  Forall is_block [b; b] /\ whole (70) [b; b] = [b] /\ blen (concat [b; b]) = 100 /\
  segmentation (firstn 70 (concat [b; b])) (Fails EEOF) [RData (firstn 70 (concat [b; b])); RFail EEOF].
Proof.
  cbv zeta. split; [repeat constructor; vm_compute; congruence|]. split; [vm_compute; reflexivity|].
  split; [vm_compute; reflexivity|]. split; [unfold plain; repeat constructor|split; vm_compute; reflexivity].
Qed.

Example C14_unpack_case : let b := demo_block 3 "hello" in is_block b /\ (20 < List.length b)%nat /\
  segmentation (firstn 20 b) (Fails EEOF) [RData (firstn 5 b); RData (skipn 5 (firstn 20 b)); RFail EEOF].
Proof.
  cbv zeta. split; [repeat split; vm_compute; congruence|]. split; [vm_compute; repeat constructor|].
  split; [unfold plain; repeat constructor|split; vm_compute; reflexivity].
Qed.

(* C15, the part that holds: limits 0 < m < 2^31 and length fields below 2^31.  Within the limit the
   result is that of the unlimited reader; above it an error, with exactly the 4 length bytes consumed.
   Missing for the full claim: see C15_limit_refuted.
   Example: C15_case. *)
Theorem C15_limit_partial : forall m bs en r,
  0 < m < 2 ^ 31 -> segmentation bs en r -> 4 <= blen bs -> field bs 0 < 2 ^ 31 ->
  (field bs 0 <= m -> FirstBlockOfLimitMaxByte m r = FirstBlockOf r) /\
  (m < field bs 0 -> exists e r', FirstBlockOfLimitMaxByte m r = (RdErr e, r') /\ segmentation (skipn 4 bs) en r').
Proof. exact p_C15_limit_partial. Qed.
Print Assumptions C15_limit_partial.

(* C15 is false as stated: a length field of 2^31 or more is not refused but panics the reader,
   whatever the limit; and a limit of 2^31 (an int) refuses every message. *)
Theorem C15_limit_refuted :
  (forall m bs en r, 0 < m < 2 ^ 31 -> segmentation bs en r -> 4 <= blen bs -> 2 ^ 31 <= field bs 0 ->
     fst (FirstBlockOfLimitMaxByte m r) = RdPanic) /\
  (exists bs, is_block bs /\ FirstBlockOf [RData bs] = (RdOk bs, []) /\
     exists e r', FirstBlockOfLimitMaxByte (2 ^ 31) [RData bs] = (RdErr e, r')).
Proof. exact p_C15_limit_refuted. Qed.
Print Assumptions C15_limit_refuted.

Example C15_case : let b := demo_block 3 "hello" in
  0 < 46 < 2 ^ 31 /\ field b 0 = 46 /\
  FirstBlockOfLimitMaxByte 46 [RData b] = (RdOk b, []) /\
  (exists e, FirstBlockOfLimitMaxByte 45 [RData b] = (RdErr e, [RData (skipn 4 b)])) /\
  fst (FirstBlockOfLimitMaxByte 45 [RData (be4 (2 ^ 31))]) = RdPanic.
Proof. vm_compute. repeat split. eexists. reflexivity. Qed.

(* C16 is false: when the Read that completes a message also returns io.EOF the message is dropped.
   This holds for every message, however long.
   Example: C16_case. *)
Theorem C16_data_with_eof_refuted : forall b e, is_block b -> 4 < blen b ->
  exists seen, fst (FirstBlockOf [RDataFail b e]) = RdErr seen /\ same_failure e seen.
Proof. exact p_C16_data_with_eof_refuted. Qed.
Print Assumptions C16_data_with_eof_refuted.

(* C16, the part that holds: readers that return data and error separately (net.Conn does) deliver
   every complete message.
   Example: C16_case. *)
Theorem C16_data_then_eof_partial : forall blocks e r, Forall is_block blocks ->
  segmentation (concat blocks) (Fails e) r ->
  exists seen, fst (recv FirstBlockOf (S (List.length blocks)) r) = (blocks, RdErr seen) /\ same_failure e seen.
Proof. exact p_C16_data_then_eof_partial. Qed.
Print Assumptions C16_data_then_eof_partial.

Example C16_case : let b := demo_block 3 "hello" in is_block b /\ 4 < blen b /\
  fst (FirstBlockOf [RDataFail b EEOF]) = RdErr EEOF /\ fst (FirstBlockOf [RData b; RFail EEOF]) = RdOk b.
Proof. split; [repeat split; vm_compute; congruence|]. vm_compute. repeat split. Qed.
