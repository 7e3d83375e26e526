(* The raw server's connections (C78, C79). NODEMO *)
From Verif Require Export SpecLoop SpecMux SpecChain ChainFacts ChainProofs MuxFacts MuxPlan MuxProofs ServerProofs.

(* what is expected to run, from the API calls: every global middleware, every middleware ever
   Use'd (as first given), the raw handler *)
Definition raw_expected (h : list op) (raw : option hdl) : list (option hdl) :=
  map Some (globals h ++ map snd (first_uses h)) ++ [raw].

Lemma raw_funcs_expected h raw : raw_funcs (build h) raw = raw_expected h raw.
Proof.
  unfold raw_funcs, raw_expected. rewrite (i_glob _ (inv_all h)), (i_anchors _ (inv_all h)), map_app, <- app_assoc, !map_map. reflexivity.
Qed.

Lemma p_C78_closed_always : forall m behave off raw onClose, -1 <= off ->
  exists t, raw_conn m behave off raw onClose =
    Some (map RChain t ++ (match onClose with Unset => [] | Set_ _ => [ROnClose] end) ++ [RCloseConn]).
Proof.
  intros m behave off raw onClose H. unfold raw_conn, run_from.
  destruct (loop_all_ok (raw_chain m behave raw) (List.length (ch_handlers (raw_chain m behave raw)) + 2) (off + 1)) as (t & s & o & -> & _); eauto; lia.
Qed.

Lemma p_C78_chain : forall h behave raw onClose, (List.length (raw_expected h raw) <= 2019)%nat ->
  let beh i := match nth i (raw_expected h raw) None with Some f => behave f | None => [APanic] end in
  exists t st rest, gin_chain beh (seq 0 (List.length (raw_expected h raw))) t st rest /\
    raw_conn (build h) behave (-1) raw onClose =
      Some (map RChain t ++ (match onClose with Unset => [] | Set_ _ => [ROnClose] end) ++ [RCloseConn]).
Proof.
  intros h behave raw onClose L beh. destruct (p_C21_chain_is_gin_partial (raw_chain (build h) behave raw)) as (t & s & o & rest & A & B & _).
  { unfold raw_chain. cbn [ch_handlers]. rewrite seq_length, raw_funcs_expected. lia. }
  exists t, s, rest. split.
  - unfold raw_chain in B. cbn [ch_handlers ch_beh] in B. rewrite raw_funcs_expected in B. exact B.
  - unfold raw_conn, run_from. unfold run_chain in A. rewrite A. reflexivity.
Qed.

Lemma p_C79_unused_runs_refuted : forall h k f raw, In (k, f) (first_uses h) ->
  In (Some f) (raw_funcs (build (OUnUse k :: h)) raw).
Proof.
  intros h k f raw I. rewrite raw_funcs_expected. unfold raw_expected. apply in_app_iff. left. apply in_map, in_app_iff. right.
  apply in_map_iff. exists (k, f). auto.
Qed.

Lemma p_C79_in_use_partial : forall h raw, (forall k, unuse_called k h = false) ->
  raw_funcs (build h) raw = map Some (globals h ++ map snd (first_uses h)) ++ [raw] /\
  NoDup (map fst (first_uses h)) /\ (forall k, ahas k (first_uses h) = true <-> in_use k h = true).
Proof.
  intros h raw N. split; [apply raw_funcs_expected|]. split; [apply first_uses_nodup|]. intros k. split; [|apply in_use_first].
  specialize (N k). induction h as [|o p IH]; cbn [first_uses in_use unuse_called existsb] in *; [discriminate|].
  destruct o; auto.
  - cbn in N. specialize (IH N). destruct (ahas k0 (first_uses p)) eqn:E; destruct (String.eqb k k0) eqn:X; auto. unfold ahas.
    assert (Y : forall l, aget k (l ++ [(k0, f)]) = match aget k l with Some v => Some v | None => None end).
    { induction l as [|[a b] l IHl]; cbn; [rewrite X; reflexivity|]. destruct (String.eqb k a); auto. }
    rewrite Y. unfold ahas in IH. destruct (aget k (first_uses p)); auto.
  - cbn in N. apply orb_false_iff in N as (N1 & N2). rewrite N1. auto.
Qed.
