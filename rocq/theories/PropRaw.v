(* Property theorems. Each is closed by the lemma of the same name in RawProofs.v. *)
From Verif Require Export RawProofs.

(* C78: whatever the handlers and callbacks do, the goroutine of a raw connection runs the chain,
   then OnClose, then CloseConn, and that is all.
   Example: C78_case. *)
Theorem C78_closed_always : forall m behave off raw onClose, -1 <= off ->
  exists t, raw_conn m behave off raw onClose =
    Some (map RChain t ++ (match onClose with Unset => [] | Set_ _ => [ROnClose] end) ++ [RCloseConn]).
Proof. exact p_C78_closed_always. Qed.
Print Assumptions C78_closed_always.

(* C78: the chain is gin's over the global middlewares, the middlewares ever Use'd in order of first
   Use, and HandleRaw; a nil HandleRaw panics when reached.
   Example: C78_case. *)
Theorem C78_chain : forall h behave raw onClose, (List.length (raw_expected h raw) <= 2019)%nat ->
  let beh i := match nth i (raw_expected h raw) None with Some f => behave f | None => [APanic] end in
  exists t st rest, gin_chain beh (seq 0 (List.length (raw_expected h raw))) t st rest /\
    raw_conn (build h) behave (-1) raw onClose =
      Some (map RChain t ++ (match onClose with Unset => [] | Set_ _ => [ROnClose] end) ++ [RCloseConn]).
Proof. exact p_C78_chain. Qed.
Print Assumptions C78_chain.

(* two middlewares, one of them closed by UnUse; the handler panics; OnClose panics too *)
Example C78_case : let h := [OUnUse "a"; OUse "a" (User 2); OGlobal [User 1]]%nat in
  raw_conn (build h) (fun f => match f with User 3 => [AEff 7; APanic] | _ => [ANext; AEff 5] end) (-1) (Some (User 3)) (Set_ true) =
    Some [RChain (EEnter 0); RChain (EEnter 1); RChain (EEnter 2); RChain (EEff 7); ROnClose; RCloseConn] /\
  raw_conn (build h) (fun f => [AAbort]) (-1) None Unset = Some [RChain (EEnter 0); RChain EAbort; RCloseConn] /\
  (List.length (raw_expected h (Some (User 3))) <= 2019)%nat.
Proof. vm_compute. repeat split. lia. Qed.

(* C79 fails: middleware closed by UnUse still runs on every raw connection - here for every
   configuration, key and function: once Use'd, for good.
   Example: C79_case. *)
Theorem C79_unused_runs_refuted : forall h k f raw, In (k, f) (first_uses h) ->
  In (Some f) (raw_funcs (build (OUnUse k :: h)) raw).
Proof. exact p_C79_unused_runs_refuted. Qed.
Print Assumptions C79_unused_runs_refuted.

(* C79, the part that holds: if no key is UnUse'd, what runs is the globals and the middlewares in
   use, each once, in order.
   Example: C79_case. *)
Theorem C79_in_use_partial : forall h raw, (forall k, unuse_called k h = false) ->
  raw_funcs (build h) raw = map Some (globals h ++ map snd (first_uses h)) ++ [raw] /\
  NoDup (map fst (first_uses h)) /\ (forall k, ahas k (first_uses h) = true <-> in_use k h = true).
Proof. exact p_C79_in_use_partial. Qed.
Print Assumptions C79_in_use_partial.

Example C79_case : In ("a"%string, User 2) (first_uses [OUse "a" (User 2)]) /\ in_use "a" [OUnUse "a"; OUse "a" (User 2)] = false /\
  raw_funcs (build [OUnUse "a"; OUse "a" (User 2)]) (Some (User 3)) = [Some (User 2); Some (User 3)].
Proof. vm_compute. auto. Qed.
