(* Property theorems. Each is closed by the lemma of the same name in SendProofs.v. *)
From Verif Require Export SendProofs.

(* C120, what holds whatever the others do: a message that is sent goes to the connection it would
   have gone to had the call been made at the instant it looked into the pool, and to no other; that
   connection's socket was not closed when it was written to.
   Example: C120_case. *)
Theorem C120_sent : forall s1 s2 s3 q u r l, qsteps s1 s2 -> send_split (Some q) (qs_world s1) (qs_world s2) (qs_world s3) u = (r, l) ->
  (r = POk /\ exists d, l = [d] /\ target (qs_world s1) q u = Some d /\ exists k, nth_error (pw_conns (qs_world s3)) d = Some k /\ pc_sock k = false) \/
  (r = PErr /\ l = []).
Proof. exact p_C120_sent. Qed.
Print Assumptions C120_sent.

(* C120, a refusal: if no connection is given a name while another call on it is going on, and the
   connection found uses only this name, then at some instant of the call the name did not lead to an
   online connection - or it led to the one found, whose socket was closed before it was written to.
   Missing: both conditions are needed, and so is the alternative (the refutations below).
   Example: C120_case. *)
Theorem C120_refused_partial : forall h calls s1 lp s2 s3 q u, qsteps (qstart (prun h) calls) s1 -> path s1 lp s2 -> apart (qs_log s2) ->
  (forall d, GetClientPool (qs_world s1) q u = Some d -> only_name calls d u /\
     exists k, nth_error (pw_conns (qs_world s1)) d = Some k /\ pc_ref k = Some q /\ pc_user k = Some (VStr u)) ->
  qsteps s2 s3 -> fst (send_split (Some q) (qs_world s1) (qs_world s2) (qs_world s3) u) = PErr ->
  (exists s, In s lp /\ target (qs_world s) q u = None) \/
  (exists d k, target (qs_world s1) q u = Some d /\ nth_error (pw_conns (qs_world s3)) d = Some k /\ pc_sock k = true).
Proof. exact p_C120_refused_partial. Qed.
Print Assumptions C120_refused_partial.

(* C120 fails when the connection found has used two names: though every connection is used by one
   goroutine only and the name leads to an online connection at every instant of the call, the call
   is refused. *)
Theorem C120_two_names_refuted : exists h calls s1 lp s2 u, own_conns calls /\ qsteps (qstart (prun h) calls) s1 /\ path s1 lp s2 /\
  (forall s, In s lp -> target (qs_world s) 0 u <> None) /\ decide (Some 0%nat) (qs_world s1) (qs_world s2) u = None.
Proof. exact p_C120_two_names_refuted. Qed.
Print Assumptions C120_two_names_refuted.

(* C120 fails when the connection is given its name while it is being closed, though all use one
   name only. *)
Theorem C120_overlap_refuted : exists h calls s1 lp s2 u, (forall d, only_name calls d u) /\ qsteps (qstart (prun h) calls) s1 /\ path s1 lp s2 /\
  (exists k, nth_error (pw_conns (qs_world s1)) 0 = Some k /\ pc_user k = Some (VStr u)) /\
  (forall s, In s lp -> target (qs_world s) 0 u <> None) /\ decide (Some 0%nat) (qs_world s1) (qs_world s2) u = None.
Proof. exact p_C120_overlap_refuted. Qed.
Print Assumptions C120_overlap_refuted.

(* C120 fails while the connection found is being closed: its socket is closed before it is taken out
   of the pool, so the message is not sent though the name leads to an online connection throughout. *)
Theorem C120_closing_refuted : exists h calls s1 lp s2 u, own_conns calls /\ (forall d, only_name calls d u) /\ qsteps (qstart (prun h) calls) s1 /\ path s1 lp s2 /\
  (forall s, In s lp -> target (qs_world s) 0 u <> None) /\
  send_split (Some 0%nat) (qs_world s1) (qs_world s2) (qs_world s2) u = (PErr, []).
Proof. exact p_C120_closing_refuted. Qed.
Print Assumptions C120_closing_refuted.

(* one connection, closed while a message is sent to its name: found, then refused *)
Example C120_case : exists h calls s1 lp s2, own_conns calls /\ qsteps (qstart (prun h) calls) s1 /\ path s1 lp s2 /\ apart (qs_log s2) /\
  only_name calls 0 "u" /\ GetClientPool (qs_world s1) 0 "u" = Some 0%nat /\
  (exists k, nth_error (pw_conns (qs_world s1)) 0 = Some k /\ pc_ref k = Some 0%nat /\ pc_user k = Some (VStr "u")) /\
  decide (Some 0%nat) (qs_world s1) (qs_world s1) "u" = Some 0%nat /\
  decide (Some 0%nat) (qs_world s1) (qs_world s2) "u" = None /\
  send_split (Some 0%nat) (qs_world s1) (qs_world s1) (qs_world s1) "u" = (POk, [0%nat]).
Proof.
  set (h := [POnline 0 "u"; PAccept; PWithPool true]). set (calls := [[QClose 0]]).
  set (s1 := qstart (prun h) calls). set (x := passed [0;0;0;0;0;0;0]%nat [s1] s1).
  assert (O : own_conns calls) by (intros t t' c u k N I1 I2; unfold calls in *; destruct t as [|t]; cbn in I1; [destruct I1 as [I1|[]]; inversion I1|destruct t; destruct I1]).
  assert (P : path s1 (fst x) (snd x)) by (apply passed_path; [constructor|vm_compute; reflexivity]).
  exists h, calls, s1, (fst x), (snd x). split; [exact O|]. split; [constructor|]. split; [exact P|]. split; [eapply own_apart; [exact O|eapply path_steps; exact P]|].
  split; [|split; [vm_compute; reflexivity|split; [eexists; split; [|split]; vm_compute; reflexivity|repeat split; vm_compute; reflexivity]]].
  intros t v I1. unfold calls in I1. destruct t as [|t]; cbn in I1; [destruct I1 as [I1|[]]; inversion I1|destruct t; destruct I1].
Qed.
