(* Property theorems: C113: the chat example.
   Each is closed by the lemma of the same name in ChatProofs.v. *)
From Verif Require Export ChatProofs.
From Verif Require Import Demo.

(* C113, the part that holds: whatever happened before, as long as the process lives, a request to
   send handled without anything happening in between makes exactly one write: the message to
   where the user is to be found, or else the sender is told so.
   Example: C113_case. *)
Theorem C113_send_partial : forall h s c m u lg,
  chat_run h = Some s -> ch_dead s = false -> is_conn (calls h) c = true ->
  exists s', chat_run (HFinish (List.length (sends_of h)) :: HMsg c 5 lg (Some (m, u)) :: h) = Some s' /\ ch_dead s' = false /\
    (forall d, found_at h u d -> ch_out s' = CM d 6 m u :: ch_out s) /\
    ((forall d, ~ found_at h u d) -> ch_out s' = CM c 200 ("'" ++ u ++ "' is offline") "" :: ch_out s).
Proof. exact p_C113_send_partial. Qed.
Print Assumptions C113_send_partial.

(* Under any interleaving: every message the server writes is the one write of a finished request
   to send - the message of that request, to where the user is found at that moment, or the notice
   to its sender, when the user was nowhere to be found as the request was looked at.
   Example: C113_case. *)
Theorem C113_writes_partial : forall h s, chat_run h = Some s ->
  (List.length (ch_out s) <= List.length (filter (fun e => match e with HFinish _ => true | _ => false end) h))%nat /\
  forall x, In x (ch_out s) -> exists h2 i h1 c m u, h = h2 ++ HFinish i :: h1 /\ nth_error (sends_of h1) i = Some (c, m, u) /\
    ((exists d, found_at h1 u d /\ x = CM d 6 m u) \/
     (x = CM c 200 ("'" ++ u ++ "' is offline") "" /\ exists h3 h4 lg, h1 = h3 ++ HMsg c 5 lg (Some (m, u)) :: h4 /\
        List.length (sends_of h4) = i /\ forall d, ~ found_at h4 u d)).
Proof. exact p_C113_writes_partial. Qed.
Print Assumptions C113_writes_partial.

(* Every delivered message names as its sender the user it was sent to: the receiving connection
   is the last that logged in under the name given as the sender's.
   Example: C113_case. *)
Theorem C113_sender_refuted : forall h s d m f, chat_run h = Some s -> In (CM d 6 m f) (ch_out s) ->
  exists h2 h1 c, h = h2 ++ h1 /\ last_online (calls h1) 0 f = Some d /\ In (c, m, f) (sends_of h1).
Proof. exact p_C113_sender_refuted. Qed.
Print Assumptions C113_sender_refuted.

(* A request to send whose body cannot be decoded ends the process, and nothing else does. *)
Theorem C113_malformed_refuted : forall h s, chat_run h = Some s ->
  (ch_dead s = true <-> exists c lg, In (HMsg c 5 lg None) h) /\
  (ch_dead s = false -> forall c lg, is_conn (calls h) c = true ->
     exists s', chat_run (HMsg c 5 lg None :: h) = Some s' /\ ch_dead s' = true /\ forall e, chat_run (e :: HMsg c 5 lg None :: h) = None).
Proof. exact p_C113_malformed_refuted. Qed.
Print Assumptions C113_malformed_refuted.

Example C113_malformed_case : exists s, chat_run (HMsg 0 5 None None :: chat_demo) = Some s /\ ch_dead s = true /\
  chat_run (HConnect :: HMsg 0 5 None None :: chat_demo) = None.
Proof. eexists. split; [vm_compute; reflexivity|]. split; reflexivity. Qed.

(* A request to send may come to nothing: if the user leaves after being looked up, the message is
   delivered to nobody and the sender is told nothing.
   Example: C113_case. *)
Theorem C113_lost_refuted : forall h s c d m u lg,
  chat_run h = Some s -> ch_dead s = false -> is_conn (calls h) c = true -> found_at h u d ->
  exists s', chat_run (HFinish (List.length (sends_of h)) :: HGone d :: HMsg c 5 lg (Some (m, u)) :: h) = Some s' /\ ch_out s' = ch_out s.
Proof. exact p_C113_lost_refuted. Qed.
Print Assumptions C113_lost_refuted.

(* A user who logged in and never left is no longer found once another connection that logged in
   under the same name before leaves. *)
Theorem C113_online_refuted : forall h s c0 d u lg0,
  chat_run h = Some s -> ch_dead s = false -> is_conn (calls h) c0 = true -> is_conn (calls h) d = true -> c0 <> d ->
  was_closed (calls h) d = false -> u <> ""%string ->
  let h' := HMsg d 1 (Some u) lg0 :: HMsg c0 1 (Some u) lg0 :: h in
  found_at h' u d /\ (exists s', chat_run (HGone c0 :: h') = Some s') /\ forall e, ~ found_at (HGone c0 :: h') u e.
Proof. exact p_C113_online_refuted. Qed.
Print Assumptions C113_online_refuted.

Example C113_case : exists s, chat_run chat_demo = Some s /\ ch_dead s = false /\
  rev (ch_out s) = [CM 1 6 "hello" "bob"; CM 0 200 "'carol' is offline" ""] /\ found_at chat_demo "bob" 1 /\ found_at chat_demo "alice" 0 /\
  is_conn (calls chat_demo) 0 = true.
Proof. eexists. split; [vm_compute; reflexivity|]. vm_compute. auto 20. Qed.

Example C113_two_logins_case : exists s, chat_run [HConnect; HConnect; HConnect] = Some s /\ ch_dead s = false /\
  is_conn (calls [HConnect; HConnect; HConnect]) 0 = true /\ is_conn (calls [HConnect; HConnect; HConnect]) 1 = true /\
  was_closed (calls [HConnect; HConnect; HConnect]) 1 = false.
Proof. eexists. split; [vm_compute; reflexivity|]. vm_compute. auto 20. Qed.
