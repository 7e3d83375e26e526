(* Property theorems. Each is closed by the lemma of the same name in PresProofs.v. *)
From Verif Require Export PresProofs.

(* C122, what holds whatever the order of the goroutines: when the name u is c's alone, the pool has
   c under u exactly when the last of c's messages to have been handled was a login (and the
   connection has not ended since).
   Example: C122_case. *)
Theorem C122_last_handled_partial : forall h s c u, pres_run h = Some s -> u <> EmptyString -> own_name (deeds h) c u ->
  GetClientPool (pr_pool s) 0 u = if logged_in (deeds h) c then Some c else None.
Proof. exact p_C122_last_handled_partial. Qed.
Print Assumptions C122_last_handled_partial.

(* C122, the part that holds: when all of c's messages have been handled in the order they arrived,
   the name is c's alone and the connection has not ended, the pool has c under u exactly when
   the last of its logins and logouts to arrive was a login.  Missing: the cases of the four
   refutations below.
   Example: C122_case. *)
Theorem C122_presence_partial : forall h s c u, pres_run h = Some s -> u <> EmptyString -> own_name (deeds h) c u ->
  in_order h c -> ~ In (DGone c) (deeds h) ->
  GetClientPool (pr_pool s) 0 u = if logged_in (map DDid (rev (of_conn c (msgs_of h)))) c then Some c else None.
Proof. exact p_C122_presence_partial. Qed.
Print Assumptions C122_presence_partial.

(* C122: "online success" is printed once for every login that can be decoded and is handled.
   Example: C122_case. *)
Theorem C122_lines : forall h s, pres_run h = Some s ->
  map fst (filter (fun l => match snd l with LOnline => true | _ => false end) (pr_lines s)) = map deed_conn (filter login_msg (deeds h)).
Proof. exact p_C122_lines. Qed.
Print Assumptions C122_lines.

(* C122 fails, order: from every state, a client that logs in and then logs out can end up online,
   both messages handled.
   Example: C122_case. *)
Theorem C122_order_refuted : forall h s c u, pres_run h = Some s -> (c < List.length (pw_conns (pr_pool s)))%nat -> u <> EmptyString ->
  let n := List.length (msgs_of h) in
  exists s', pres_run (NRun n :: NRun (S n) :: NMsg c 3 None :: NMsg c 1 (Some u) :: h) = Some s' /\
    GetClientPool (pr_pool s') 0 u = Some c /\ List.length (filter (fun j => match j with None => true | _ => false end) (pr_jobs s')) =
      (2 + List.length (filter (fun j => match j with None => true | _ => false end) (pr_jobs s)))%nat.
Proof. exact p_C122_order_refuted. Qed.
Print Assumptions C122_order_refuted.

(* C122 fails, empty name: "online success" is printed though nothing happened.
   Example: C122_case. *)
Theorem C122_empty_name_refuted : forall h s c, pres_run h = Some s -> (c < List.length (pw_conns (pr_pool s)))%nat ->
  exists s', pres_run (NRun (List.length (msgs_of h)) :: NMsg c 1 (Some EmptyString) :: h) = Some s' /\
    pr_lines s' = (c, LOnline) :: pr_lines s /\ pr_pool s' = pr_pool s.
Proof. exact p_C122_empty_name_refuted. Qed.
Print Assumptions C122_empty_name_refuted.

(* C122 fails, one name for two clients: 0 logs in, 1 logs in under the same name, 0 logs out; all
   handled in order - and 1, whose last message was a login, is not in the pool. *)
Theorem C122_shared_name_refuted : forall u, u <> EmptyString ->
  exists s, pres_run (shared_name u) = Some s /\ all_handled s /\ in_order (shared_name u) 0 /\ in_order (shared_name u) 1 /\
    logged_in (deeds (shared_name u)) 1 = true /\ GetClientPool (pr_pool s) 0 u = None.
Proof. exact p_C122_shared_name_refuted. Qed.
Print Assumptions C122_shared_name_refuted.

(* C122 fails, two names for one client: it logs in as u, then as v, then out - and stays in the pool
   as u. *)
Theorem C122_new_name_refuted : forall u v, u <> EmptyString -> v <> EmptyString -> u <> v ->
  exists s, pres_run (new_name u v) = Some s /\ all_handled s /\ in_order (new_name u v) 0 /\
    logged_in (deeds (new_name u v)) 0 = false /\ GetClientPool (pr_pool s) 0 u = Some 0%nat.
Proof. exact p_C122_new_name_refuted. Qed.
Print Assumptions C122_new_name_refuted.

(* the example's own client: online, later offline; here with a second client *)
Example C122_case :
  let h1 := [NRun 0; NMsg 0 1 (Some "ft"%string); NConnect; NConnect] in
  let h2 := NRun 1 :: NMsg 0 3 None :: h1 in
  exists s1 s2, pres_run h1 = Some s1 /\ pres_run h2 = Some s2 /\ own_name (deeds h2) 0 "ft" /\ in_order h2 0 /\ ~ In (DGone 0) (deeds h2) /\
    GetClientPool (pr_pool s1) 0 "ft" = Some 0%nat /\ GetClientPool (pr_pool s2) 0 "ft" = None /\ pr_lines s2 = [(0%nat, LOffline); (0%nat, LOnline)].
Proof.
  eexists. eexists. split; [vm_compute; reflexivity|]. split; [vm_compute; reflexivity|]. split.
  - intros d v I _. cbn in I. destruct I as [I|[I|[]]]; inversion I; subst. split; reflexivity.
  - split; [reflexivity|]. split; [cbn; intros [X|[X|[]]]; discriminate|]. vm_compute. auto.
Qed.
