(* Property theorems. Each is closed by the lemma of the same name in DeadProofs.v. *)
From Verif Require Export DeadProofs.

(* C84, exactly: a new socket - accepted TCP connection or UDP socket - has the newest
   SetReadDeadline and SetWriteDeadline of the server.  SetDeadline never matters.
   Example: C84_case. *)
Theorem C84_new_socket_partial : forall h o, o = DAccept \/ o = DListen ->
  has_dl (drun (o :: h)) (List.length (dw_socks (drun h))) (SDL (only_read h) (only_write h)).
Proof. exact p_C84_new_socket_partial. Qed.
Print Assumptions C84_new_socket_partial.

(* hence where the program never calls SetDeadline the sockets get what was asked for *)
Theorem C84_without_both_partial : forall h o, o = DAccept \/ o = DListen ->
  (forall t, ~ In (DServer (DBoth t)) h) ->
  has_dl (drun (o :: h)) (List.length (dw_socks (drun h))) (SDL (asked_read h) (asked_write h)).
Proof. exact p_C84_without_both_partial. Qed.
Print Assumptions C84_without_both_partial.

Example C84_case : let h := [DServer (DRead (Some 9)); DServer (DWrite (Some 5)); DServer (DRead (Some 7))] in
  has_dl (drun (DAccept :: h)) 0 (SDL (Some 9) (Some 5)).
Proof. eexists. split; reflexivity. Qed.

(* C84 is false: whatever the history before, once SetDeadline t was called and neither of the two
   others ever, connections have no deadline at all. *)
Theorem C84_ignored_refuted : forall h t o, o = DAccept \/ o = DListen ->
  (forall e, In (DServer e) h -> exists t', e = DBoth t') ->
  asked_read (DServer (DBoth (Some t)) :: h) = Some t /\ asked_write (DServer (DBoth (Some t)) :: h) = Some t /\
  has_dl (drun (o :: DServer (DBoth (Some t)) :: h)) (List.length (dw_socks (drun h))) (SDL None None).
Proof. exact p_C84_ignored_refuted. Qed.
Print Assumptions C84_ignored_refuted.

Example C84_ignored_case : let h := [DServer (DBoth (Some 3)); DAccept] in
  (forall e, In (DServer e) h -> exists t', e = DBoth t') /\ asked_read (DServer (DBoth (Some 9)) :: h) = Some 9 /\
  has_dl (drun (DAccept :: DServer (DBoth (Some 9)) :: h)) 1 (SDL None None).
Proof. cbv zeta. split; [intros e [H|[H|[]]]; inversion H; eauto|]. split; [reflexivity|eexists; split; reflexivity]. Qed.

(* C85, TCP: a deadline call of one context never changes another connection's deadlines.
   Example: C85_tcp_case. *)
Theorem C85_tcp_own_partial : forall h c e k d, has_dl (drun h) k d -> sock_of (drun h) c <> Some k ->
  has_dl (drun (DCtx c e :: h)) k d.
Proof. exact p_C85_tcp_own_partial. Qed.
Print Assumptions C85_tcp_own_partial.

(* Example: C85_tcp_case. *)
Theorem C85_tcp_distinct_partial : forall h c1 c2 k1 k2 s1, sock_of (drun h) c1 = Some k1 -> sock_of (drun h) c2 = Some k2 ->
  nth_error (dw_socks (drun h)) k1 = Some s1 -> sk_udp s1 = false -> c1 <> c2 -> k1 <> k2.
Proof. exact p_C85_tcp_distinct_partial. Qed.
Print Assumptions C85_tcp_distinct_partial.

(* ... and what it changes on its own socket is what it names: SetReadDeadline the read deadline,
   SetWriteDeadline the write deadline, SetDeadline both *)
Theorem C85_sets_partial : forall h c e k d, has_dl (drun h) k d -> sock_of (drun h) c = Some k ->
  has_dl (drun (DCtx c e :: h)) k (SDL (match read_arg e with Some t => t | None => sd_read d end) (match write_arg e with Some t => t | None => sd_write d end)).
Proof. exact p_C85_sets_partial. Qed.
Print Assumptions C85_sets_partial.

Example C85_tcp_case : let h := [DCtx 0 (DRead (Some 5)); DAccept; DAccept; DServer (DWrite (Some 8))] in
  has_dl (drun h) 0 (SDL (Some 5) (Some 8)) /\ has_dl (drun h) 1 (SDL None (Some 8)) /\ sock_of (drun h) 0 = Some 0%nat /\ sock_of (drun h) 1 = Some 1%nat.
Proof. repeat split; eexists; split; reflexivity. Qed.

(* C85 is false for UDP: all datagrams of a socket share its deadlines ...
   Example: C85_udp_case. *)
Theorem C85_udp_shared_refuted : forall h c k s e, sock_of (drun h) c = Some k ->
  nth_error (dw_socks (drun h)) k = Some s -> forall c', sock_of (drun h) c' = Some k ->
  exists k', sock_of (drun (DCtx c e :: h)) c' = Some k' /\ has_dl (drun (DCtx c e :: h)) k' (sock_set e (sk_dl s)).
Proof. exact p_C85_udp_shared_refuted. Qed.
Print Assumptions C85_udp_shared_refuted.

(* ... and once a handler has set a read deadline on its datagram's context, that socket serves
   no datagram any more from then on: until a handler that is still running moves the deadline,
   no read after it succeeds, whatever arrives (the loop only logs the error and reads again). *)
Theorem C85_udp_deaf_refuted : forall h c k s t e os, sock_of (drun h) c = Some k ->
  nth_error (dw_socks (drun h)) k = Some s -> sk_udp s = true -> read_arg e = Some (Some t) ->
  (forall o p q, os = p ++ o :: q -> quiet (drun (q ++ DCtx c e :: h)) k o) -> (forall o, In o os -> late k t o) ->
  forall now, t <= now -> let w := drun (os ++ DCtx c e :: h) in
  dstep w (DRecv k now) = w /\ count_occ Nat.eq_dec (dw_ctxs w) k = count_occ Nat.eq_dec (dw_ctxs (drun h)) k.
Proof. exact p_C85_udp_deaf_refuted. Qed.
Print Assumptions C85_udp_deaf_refuted.

Example C85_udp_case : let h := [DRecv 0 3; DListen] in let os := [DRecv 0 11; DRecv 0 10] in
  sock_of (drun h) 0 = Some 0%nat /\ List.length (dw_ctxs (drun (DRecv 0 4 :: h))) = 2%nat /\
  (forall o p q, os = p ++ o :: q -> quiet (drun (q ++ DCtx 0 (DRead (Some 10)) :: h)) 0 o) /\ (forall o, In o os -> late 0 10 o) /\
  List.length (dw_ctxs (drun (os ++ DCtx 0 (DRead (Some 10)) :: h))) = 1%nat.
Proof.
  cbv zeta. split; [reflexivity|]. split; [reflexivity|]. split; [|split; [|reflexivity]].
  - intros o p q E c e X. subst o. destruct p as [|x p]; [discriminate|]. cbn in E. inversion E as [[E1 E2]].
    destruct p as [|y p]; [discriminate|]. cbn in E2. inversion E2 as [[E3 E4]]. destruct p; discriminate.
  - intros o [H|[H|[]]] now E; subst o; inversion E; lia.
Qed.

(* TCP: a connection whose read deadline has passed is closed by its reader at its next read *)
Theorem C84_passed_closes : forall h k s now t, nth_error (dw_socks (drun h)) k = Some s -> sk_udp s = false -> sk_open s = true ->
  sd_read (sk_dl s) = Some t -> t <= now ->
  exists s', nth_error (dw_socks (drun (DRecv k now :: h))) k = Some s' /\ sk_open s' = false.
Proof. exact p_C84_passed_closes. Qed.
Print Assumptions C84_passed_closes.

Example C84_passed_case : let h := [DAccept; DServer (DRead (Some 5))] in
  exists s, nth_error (dw_socks (drun h)) 0 = Some s /\ sk_udp s = false /\ sk_open s = true /\ sd_read (sk_dl s) = Some 5.
Proof. eexists. repeat split. Qed.

(* before its deadline, and without one, a socket reads on: a datagram gets its context, nothing is closed *)
Theorem C84_not_before : forall h k s now, nth_error (dw_socks (drun h)) k = Some s -> sk_open s = true ->
  (forall t, sd_read (sk_dl s) = Some t -> now < t) ->
  dw_socks (drun (DRecv k now :: h)) = dw_socks (drun h) /\
  dw_ctxs (drun (DRecv k now :: h)) = dw_ctxs (drun h) ++ (if sk_udp s then [k] else []).
Proof. exact p_C84_not_before. Qed.
Print Assumptions C84_not_before.

Example C84_not_before_case : let h := [DAccept; DListen; DServer (DRead (Some 5))] in
  exists s, nth_error (dw_socks (drun h)) 0 = Some s /\ sk_open s = true /\ sk_udp s = true /\ sd_read (sk_dl s) = Some 5 /\
  dw_ctxs (drun (DRecv 0 4 :: h)) = dw_ctxs (drun h) ++ [0%nat] /\ dw_ctxs (drun (DRecv 0 5 :: h)) = dw_ctxs (drun h).
Proof. eexists. repeat split. Qed.

(* deadlines close a connection only by a read at or after the connection's read deadline *)
Theorem C84_closed_by_late_read : forall h k s, nth_error (dw_socks (drun h)) k = Some s -> sk_open s = false ->
  exists p q now s0 t, h = p ++ DRecv k now :: q /\ nth_error (dw_socks (drun q)) k = Some s0 /\ sk_udp s0 = false /\
    sd_read (sk_dl s0) = Some t /\ t <= now.
Proof. exact p_C84_closed_by_late_read. Qed.
Print Assumptions C84_closed_by_late_read.

Example C84_closed_case : let h := [DRecv 0 9; DRecv 0 4; DAccept; DServer (DRead (Some 5))] in
  exists s, nth_error (dw_socks (drun h)) 0 = Some s /\ sk_open s = false /\
    exists s1, nth_error (dw_socks (drun (tl h))) 0 = Some s1 /\ sk_open s1 = true.
Proof. eexists. split; [reflexivity|]. split; [reflexivity|]. eexists. split; reflexivity. Qed.
