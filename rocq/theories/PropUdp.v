(* Property theorems. Each is closed by the lemma of the same name in UdpProofs.v. *)
From Verif Require Export UdpProofs.

(* C88: for every history of calls, a reply on a datagram's context goes to that datagram's sender
   and a push to a name goes to the sender of the datagram that went online under it last - unless
   the name was logged out since or some context was closed (which closes the shared socket): then
   an error is returned and nothing is written. *)
Theorem C88_reply : forall h c,
  ureply (urun h) c = match from h c with
    | Some a => if shut_down h then (false, []) else (true, [a])
    | None => (false, [])
    end.
Proof. exact p_C88_reply. Qed.
Print Assumptions C88_reply.

Theorem C88_push : forall h u,
  usend (urun h) u = match last_login h u with
    | Some d => if logged_out h u || shut_down h then (false, []) else match from h d with Some a => (true, [a]) | None => (false, []) end
    | None => (false, [])
    end.
Proof. exact p_C88_push. Qed.
Print Assumptions C88_push.

Example C88_case : let h := [UArrive "b:2"; UEnd 0; UOnline 0 "bob"; UArrive "a:1"] in
  usend (urun h) "bob" = (true, ["a:1"%string]) /\ ureply (urun h) 1 = (true, ["b:2"%string]) /\
  usend (urun (UOnline 1 "bob" :: h)) "bob" = (true, ["b:2"%string]) /\ usend (urun (UClose 1 :: h)) "bob" = (false, []).
Proof. repeat split. Qed.

(* C89, the part that holds: within the handling of the datagram that called Online (before its
   context is reset), Offline removes the user.
   Example: C89_case. *)
Theorem C89_same_datagram_partial : forall h c u, there h c = true -> u <> ""%string ->
  usend (urun (UOffline c :: UOnline c u :: h)) u = (false, []).
Proof. exact p_C89_same_datagram_partial. Qed.
Print Assumptions C89_same_datagram_partial.

(* C89 is false: once the datagram that went online has been handled, no call of Offline, by
   whatever datagram - also of the same client - removes the user any more.  For every history
   after which no running handler's context carries the name, and every continuation without a
   new Online under it, the pool still points to the same context.
   Example: C89_case. *)
Theorem C89_never_offline_refuted : forall h u c os, last_login h u = Some c -> logged_out h u = false ->
  (forall d, uname h d <> Some u) -> (forall d, ~ In (UOnline d u) os) ->
  last_login (os ++ h) u = Some c /\ logged_out (os ++ h) u = false /\
  (shut_down (os ++ h) = false -> exists a, from (os ++ h) c = Some a /\ usend (urun (os ++ h)) u = (true, [a])).
Proof. exact p_C89_never_offline_refuted. Qed.
Print Assumptions C89_never_offline_refuted.

(* a:1 logs in with one datagram and tries to log out with the next *)
Example C89_case : let h := [UEnd 0; UOnline 0 "bob"; UArrive "a:1"] in
  last_login h "bob" = Some 0%nat /\ logged_out h "bob" = false /\ (forall d, uname h d <> Some "bob"%string) /\
  usend (urun ([UEnd 1; UOffline 1; UArrive "a:1"] ++ h)) "bob" = (true, ["a:1"%string]).
Proof.
  split; [reflexivity|]. split; [reflexivity|]. split; [|reflexivity]. intros d. cbn. destruct (Nat.eqb d 0); discriminate.
Qed.
