(* Property theorems: Memory asked for in all (C94)..
   Each is closed by the lemma of the same name in AmpProofs.v. *)
From Verif Require Export AmpProofs.
From Verif Require Import Demo.

(* C94, all together: whatever a peer sends and however it is cut, with a limit set the byte buffers
   asked for on its account amount to at most twice what it sent, the limit and eight bytes.
   Missing: the pointers of a batch.
   Example: C94_total_case. *)
Theorem C94_total_partial : forall hc lim r, 0 < lim < 2 ^ 31 -> buffers (makes hc lim r) <= 2 * received r + lim + 8.
Proof. exact p_C94_total_partial. Qed.
Print Assumptions C94_total_partial.

(* ... and the slices of pointers, whose sizes are unbounded, are at most one for every four bytes.
   Example: C94_total_case. *)
Theorem C94_few_batches : forall hc lim r, 4 * batches (makes hc lim r) <= received r.
Proof. exact p_C94_few_batches. Qed.
Print Assumptions C94_few_batches.

(* four bytes announcing 100, then the end of the stream inside a batch: 220 of at most 228 bytes *)
Example C94_total_case : let r := [RData (pipe_block "enable;3" "x" ++ be4 100); RFail EEOF] in
  received r = 60 /\ buffers (makes json_hdr 100 r) = 112 + 4 + 100 + 4 /\ batches (makes json_hdr 100 r) = 1 /\ 112 + 4 + 100 + 4 <= 2 * 60 + 100 + 8.
Proof. cbv zeta. split; [vm_compute; reflexivity|]. split; [vm_compute; reflexivity|]. split; [vm_compute; reflexivity|lia]. Qed.
