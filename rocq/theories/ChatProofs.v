(* C113: the chat example *)
From Verif Require Export SpecChat PoolProofs.

Definition found (h : list cev) (u : string) : option nat :=
  if dropped_since (calls h) 0 u then None else
  match last_online (calls h) 0 u with Some d => if was_closed (calls h) d then None else Some d | None => None end.

Lemma found_iff h u d : found_at h u d <-> found h u = Some d.
Proof.
  unfold found_at, found. destruct (dropped_since (calls h) 0 u); [split; [intros (_ & A & _); discriminate|discriminate]|].
  destruct (last_online (calls h) 0 u) as [e|]; [|split; [intros (A & _); discriminate|discriminate]].
  split.
  - intros (A & _ & B). inversion A; subst e. rewrite B. reflexivity.
  - destruct (was_closed (calls h) e) eqn:W; [discriminate|]. intros A. inversion A; subst e. auto.
Qed.

Lemma chat_plan id : plan_of (ById id) chat_server =
  if id =? 1 then RunChain [User 1] else if id =? 3 then RunChain [User 3] else if id =? 5 then RunChain [User 5] else Unrouted.
Proof.
  let v := eval vm_compute in chat_server in change chat_server with v. unfold plan_of. cbn -[Z.eqb]. unfold plan_id. cbn -[Z.eqb].
  destruct (Z.eqb_spec id 1) as [->|A]; [reflexivity|]. destruct (Z.eqb_spec id 3) as [->|B]; [reflexivity|].
  destruct (Z.eqb_spec id 5) as [->|C]; reflexivity.
Qed.

Lemma calls_cons e h : calls (e :: h) = call_of e ++ calls h.
Proof. unfold calls. cbn [flat_map]. rewrite <- app_assoc. reflexivity. Qed.

Lemma call_of_shape e : call_of e = [] \/ exists o, call_of e = [o] /\ (forall b, o <> PWithPool b) /\ o <> PNewPool /\ forall c v, o <> PStoreName c v.
Proof.
  destruct e as [|c id lg rq|i|c]; cbn; auto; try (right; eexists; split; [reflexivity|]; repeat split; discriminate).
  destruct (id =? 1); [destruct lg; auto|destruct (id =? 3); auto]; (right; eexists; split; [reflexivity|]; repeat split; discriminate).
Qed.

Lemma calls_facts h : string_names (calls h) /\ pools_made (calls h) = 1%nat /\ cur_pool (calls h) = Some 0%nat /\
  forall c, is_conn (calls h) c = true -> pool_of (calls h) c = Some 0%nat.
Proof.
  induction h as [|e h (A & B & C & D)].
  - repeat split; try reflexivity. intros c v [X|[]]. discriminate. intros [|c] X; discriminate.
  - rewrite calls_cons. destruct (call_of_shape e) as [->|(o & -> & N1 & N2 & N3)]; [cbn [app]; auto|]. cbn [app]. repeat split.
    + intros c v [X|X]; [destruct (N3 _ _ X)|eauto].
    + destruct o; cbn; auto; congruence.
    + destruct o; cbn; auto; congruence.
    + intros c. unfold is_conn, pool_of in *. destruct o; try exact (D c); cbn [accepted]; rewrite ?C.
      intros X. destruct (Nat.lt_ge_cases c (List.length (accepted (calls h)))) as [Y|Y].
      * rewrite app_nth1 by auto. apply D. apply Nat.ltb_lt. auto.
      * apply Nat.ltb_lt in X. rewrite app_length in X. cbn in X. rewrite app_nth2 by auto.
        replace (c - _)%nat with 0%nat by lia. reflexivity.
Qed.

Lemma chat_lookup h c k u : nth_error (pw_conns (prun (calls h))) c = Some k ->
  looked_up (prun (calls h)) k u = match found h u with Some _ => true | None => false end /\
  snd (SendToUsername (prun (calls h)) k u) = match found h u with Some d => [d] | None => [] end.
Proof.
  intros Hk. destruct (calls_facts h) as (S & M & C & P). pose proof (exists_conn _ _ _ Hk) as I.
  pose proof (pinv_all (calls h)) as [L PM CU K E]. destruct (K c k Hk) as (A & _). rewrite (P c I) in A.
  unfold looked_up, SendToUsername, found. rewrite A. unfold GetClientPool. rewrite E by lia.
  destruct (dropped_since (calls h) 0 u); [split; reflexivity|].
  destruct (last_online (calls h) 0 u) as [d|] eqn:LO; [|split; reflexivity].
  destruct (last_online_conn _ _ _ _ LO) as (I1 & I2). destruct (conn_exists _ d I1) as (kd & D). rewrite D.
  destruct (K d kd D) as (_ & _ & _ & _ & G). unfold IsOffline. rewrite (G S). destruct (was_closed (calls h) d); split; reflexivity.
Qed.

Record CInv (h : list cev) (s : chat) : Prop := {
  ci_pool : ch_pool s = prun (calls h);
  ci_len : List.length (ch_sends s) = List.length (sends_of h);
  ci_send : forall i c m u yes, nth_error (ch_sends s) i = Some (Some (c, m, u, yes)) ->
    nth_error (sends_of h) i = Some (c, m, u) /\ is_conn (calls h) c = true /\
    exists h3 h4 lg, h = h3 ++ HMsg c 5 lg (Some (m, u)) :: h4 /\ List.length (sends_of h4) = i /\
      yes = match found h4 u with Some _ => true | None => false end;
  ci_out : forall x, In x (ch_out s) -> exists h2 i h1 c m u, h = h2 ++ HFinish i :: h1 /\ nth_error (sends_of h1) i = Some (c, m, u) /\
    ((exists d, found h1 u = Some d /\ x = CM d 6 m u) \/
     (x = CM c 200 (offline_text u) "" /\ exists h3 h4 lg, h1 = h3 ++ HMsg c 5 lg (Some (m, u)) :: h4 /\ List.length (sends_of h4) = i /\ found h4 u = None));
  ci_count : (List.length (ch_out s) <= List.length (filter (fun e => match e with HFinish _ => true | _ => false end) h))%nat;
  ci_dead : ch_dead s = existsb malformed h }.

Lemma calls_conn e h c : is_conn (calls h) c = true -> is_conn (calls (e :: h)) c = true.
Proof.
  rewrite calls_cons. destruct (call_of_shape e) as [->|(o & -> & _)]; auto. cbn [app]. unfold is_conn. destruct o; auto.
  cbn [accepted]. intros X. apply Nat.ltb_lt in X. apply Nat.ltb_lt. rewrite app_length. lia.
Qed.

Lemma sends_cons e h : exists t, sends_of (e :: h) = sends_of h ++ t /\
  (t = [] \/ exists c lg m u, e = HMsg c 5 lg (Some (m, u)) /\ t = [(c, m, u)]).
Proof.
  destruct e as [|c id lg [(m, u)|]|i|c]; cbn [sends_of]; try (exists []; rewrite app_nil_r; auto; fail).
  destruct (Z.eqb_spec id 5) as [->|]; [exists [(c, m, u)]; split; auto; right; exists c, lg, m, u; auto|exists []; rewrite app_nil_r; auto].
Qed.

(* an event that starts no send and writes nothing *)
Lemma cinv_quiet e h s s' : CInv h s -> ch_sends s' = ch_sends s -> ch_out s' = ch_out s -> sends_of (e :: h) = sends_of h ->
  ch_pool s' = prun (calls (e :: h)) -> ch_dead s' = (malformed e || ch_dead s) -> CInv (e :: h) s'.
Proof.
  intros [P L S O N D] Hs Ho Hn Hp Hd. constructor; auto.
  - rewrite Hs, Hn. exact L.
  - intros i c m u yes. rewrite Hs, Hn. intros X. destruct (S _ _ _ _ _ X) as (A & B & h3 & h4 & lg & -> & C). split; auto. split; [apply calls_conn; auto|].
    exists (e :: h3), h4, lg. auto.
  - intros x. rewrite Ho. intros X. destruct (O x X) as (h2 & i & h1 & c & m & u & -> & R). exists (e :: h2), i, h1, c, m, u. auto.
  - rewrite Ho. cbn [filter]. destruct e; cbn [List.length]; lia.
  - rewrite Hd, D. reflexivity.
Qed.

Lemma len_conns h : List.length (pw_conns (prun (calls h))) = List.length (accepted (calls h)).
Proof. apply (p_len _ _ (pinv_all _)). Qed.

Lemma upd_none_nth {A} (l : list (option A)) i j v : nth_error (upd l i None) j = Some (Some v) -> nth_error l j = Some (Some v).
Proof. rewrite nth_upd. destruct (Nat.eqb_spec j i) as [->|]; auto. destruct (nth_error l i); discriminate. Qed.

Lemma upd_len {A} (l : list A) i v : List.length (upd l i v) = List.length l.
Proof. revert i. induction l; destruct i; cbn; auto. Qed.

Lemma chat_inv h : forall s, chat_run h = Some s -> CInv h s.
Proof.
  induction h as [|e h IH]; intros s R.
  - inversion R; subst s. constructor; cbn; auto. intros i c m u yes X. destruct i; discriminate. intros x [].
  - cbn [chat_run] in R. destruct (chat_run h) as [s0|]; [|discriminate]. specialize (IH _ eq_refl). unfold cstep1 in R.
    destruct (ch_dead s0) eqn:Dd; [discriminate|]. pose proof (ci_pool _ _ IH) as P.
    assert (PC : forall o, call_of e = [o] -> ch_pool (call o s0) = prun (calls (e :: h))).
    { intros o Eo. rewrite calls_cons, Eo. cbn [app prun]. rewrite <- P. reflexivity. }
    destruct e as [|c id lg rq|i|c].
    + inversion R; subst s. apply (cinv_quiet _ _ _ _ IH); auto.
    + destruct (nth_error (pw_conns (ch_pool s0)) c) as [k|] eqn:K; [|discriminate]. inversion R; subst s. clear R. rewrite chat_plan.
      assert (P0 : call_of (HMsg c id lg rq) = [] -> ch_pool s0 = prun (calls (HMsg c id lg rq :: h))).
      { intros E. rewrite calls_cons, E. exact P. }
      destruct (Z.eqb_spec id 1) as [->|N1]; [destruct lg; (apply (cinv_quiet _ _ _ _ IH); [reflexivity|reflexivity|destruct rq as [(?, ?)|]; reflexivity|first [apply (PC _ eq_refl)|apply (P0 eq_refl)]|destruct rq as [(?, ?)|]; reflexivity])|].
      destruct (Z.eqb_spec id 3) as [->|N3]; [apply (cinv_quiet _ _ _ _ IH); [reflexivity|reflexivity|destruct rq as [(?, ?)|]; reflexivity|first [apply (PC _ eq_refl)|apply (P0 eq_refl)]|destruct rq as [(?, ?)|]; reflexivity]|].
      assert (Ce : call_of (HMsg c id lg rq) = []).
      { cbn. apply Z.eqb_neq in N1, N3. rewrite N1, N3. reflexivity. }
      destruct (Z.eqb_spec id 5) as [->|N5].
      2:{ apply Z.eqb_neq in N5. apply (cinv_quiet _ _ _ _ IH); auto; cbn; rewrite ?N5; destruct rq as [(?, ?)|]; auto. }
      destruct rq as [(m, u)|]; [|apply (cinv_quiet _ _ _ _ IH); auto].
      destruct IH as [_ L S O N D]. rewrite P in K. constructor; cbn [ch_pool ch_sends ch_out ch_dead sends_of].
      * apply P0, Ce.
      * change (5 =? 5) with true. cbv iota. rewrite !app_length, L. reflexivity.
      * change (5 =? 5) with true. cbv iota. intros i c' m' u' yes X. destruct (Nat.lt_ge_cases i (List.length (ch_sends s0))) as [Y|Y].
        -- rewrite nth_error_app1 in X by auto. destruct (S _ _ _ _ _ X) as (A & B & h3 & h4 & lg' & -> & C).
           rewrite nth_error_app1 by lia. split; auto. split; [apply calls_conn; auto|]. eexists (_ :: h3), h4, lg'. split; [reflexivity|auto].
        -- rewrite nth_error_app2 in X by auto. assert (i - List.length (ch_sends s0) = 0)%nat as Z.
           { destruct (i - _)%nat as [|[|?]]; [auto|discriminate|discriminate]. }
           rewrite Z in X. cbn in X. inversion X; subst c' m' u' yes. clear X. rewrite nth_error_app2 by lia.
           replace (i - List.length (sends_of h))%nat with 0%nat by lia. split; [reflexivity|].
           split; [apply calls_conn; eapply exists_conn; eauto|]. exists [], h, lg. split; [reflexivity|]. split; [lia|].
           rewrite P. apply (chat_lookup h c k u K).
      * intros x X. destruct (O x X) as (h2 & i & h1 & c' & m' & u' & -> & Q). eexists (_ :: h2), i, h1, c', m', u'. split; [reflexivity|auto].
      * cbn. exact N.
      * cbn. rewrite <- D. auto.
    + destruct (nth_error (ch_sends s0) i) as [[[[[c m] u] yes]|]|] eqn:Q; try discriminate.
      destruct (nth_error (pw_conns (ch_pool s0)) c) as [k|] eqn:K; [|discriminate]. inversion R; subst s. clear R.
      destruct IH as [_ L S O N D]. rewrite P in K. constructor; cbn [ch_pool ch_sends ch_out ch_dead].
      * rewrite calls_cons. exact P.
      * rewrite upd_len. exact L.
      * intros j c' m' u' yes' X. apply upd_none_nth in X. destruct (S _ _ _ _ _ X) as (A & B & h3 & h4 & lg & -> & C). split; auto. split; [apply calls_conn; auto|].
        eexists (_ :: h3), h4, lg. split; [reflexivity|auto].
      * intros x X. apply in_app_or in X as [X|X].
        -- destruct (S _ _ _ _ _ Q) as (A & B & h3 & h4 & lg & Eh & Ln & Hy). exists [], i, h, c, m, u. split; [reflexivity|]. split; [auto|].
           destruct yes.
           ++ left. rewrite P, (proj2 (chat_lookup h c k u K)) in X. destruct (found h u) as [d|]; [|destruct X]. destruct X as [X|[]]. eauto.
           ++ right. destruct X as [X|[]]. split; auto. exists h3, h4, lg. split; auto. split; auto. destruct (found h4 u); [discriminate|auto].
        -- destruct (O x X) as (h2 & i' & h1 & c' & m' & u' & -> & Z). eexists (_ :: h2), i', h1, c', m', u'. split; [reflexivity|auto].
      * rewrite app_length. cbn [filter List.length]. enough (List.length (if yes then map (fun d => CM d 6 m u) (snd (SendToUsername (ch_pool s0) k u)) else [CM c 200 (offline_text u) ""]) <= 1)%nat by lia.
        destruct yes; [|auto]. rewrite P, (proj2 (chat_lookup h c k u K)), map_length. destruct (found h u); cbn; auto.
      * cbn. rewrite <- D. auto.
    + destruct (Nat.ltb c _); [|discriminate]. inversion R; subst s. apply (cinv_quiet _ _ _ _ IH); auto.
Qed.

Lemma msg5_step h s c lg rq : chat_run h = Some s -> ch_dead s = false -> is_conn (calls h) c = true ->
  chat_run (HMsg c 5 lg rq :: h) = Some match rq with
    | None => Chat (ch_pool s) (ch_sends s) (ch_out s) true
    | Some (m, u) => Chat (ch_pool s) (ch_sends s ++ [Some (c, m, u, match found h u with Some _ => true | None => false end)]) (ch_out s) false
    end.
Proof.
  intros R Dd I. cbn [chat_run]. rewrite R. unfold cstep1. rewrite Dd. pose proof (ci_pool _ _ (chat_inv _ _ R)) as P. rewrite P.
  destruct (conn_exists _ _ I) as (k & K). rewrite K, chat_plan. change (5 =? 1) with false. change (5 =? 3) with false. change (5 =? 5) with true. cbv iota.
  destruct rq as [(m, u)|]; [|reflexivity]. rewrite (proj1 (chat_lookup h c k u K)). reflexivity.
Qed.

Lemma finish_step h s i c m u yes : chat_run h = Some s -> ch_dead s = false -> nth_error (ch_sends s) i = Some (Some (c, m, u, yes)) ->
  chat_run (HFinish i :: h) = Some (Chat (ch_pool s) (upd (ch_sends s) i None)
    ((if yes then match found h u with Some d => [CM d 6 m u] | None => [] end else [CM c 200 (offline_text u) ""]) ++ ch_out s) false).
Proof.
  intros R Dd Q. cbn [chat_run]. rewrite R. unfold cstep1. rewrite Dd, Q. pose proof (chat_inv _ _ R) as I.
  destruct (ci_send _ _ I _ _ _ _ _ Q) as (_ & B & _). destruct (conn_exists _ _ B) as (k & K). rewrite (ci_pool _ _ I), K.
  rewrite (proj2 (chat_lookup h c k u K)). destruct yes, (found h u); reflexivity.
Qed.

Lemma p_C113_send_partial : forall h s c m u lg,
  chat_run h = Some s -> ch_dead s = false -> is_conn (calls h) c = true ->
  exists s', chat_run (HFinish (List.length (sends_of h)) :: HMsg c 5 lg (Some (m, u)) :: h) = Some s' /\ ch_dead s' = false /\
    (forall d, found_at h u d -> ch_out s' = CM d 6 m u :: ch_out s) /\
    ((forall d, ~ found_at h u d) -> ch_out s' = CM c 200 ("'" ++ u ++ "' is offline") "" :: ch_out s).
Proof.
  intros h s c m u lg R Dd I. pose proof (msg5_step h s c lg (Some (m, u)) R Dd I) as M. cbv iota beta in M.
  pose proof (ci_len _ _ (chat_inv _ _ R)) as L.
  eexists. split; [eapply finish_step; [exact M|reflexivity|cbn [ch_sends]; rewrite nth_error_app2 by lia; rewrite <- L, Nat.sub_diag; reflexivity]|].
  split; [reflexivity|]. cbn [ch_out].
  assert (F : found (HMsg c 5 lg (Some (m, u)) :: h) u = found h u) by (unfold found; rewrite calls_cons; reflexivity). rewrite F.
  split.
  - intros d X. apply found_iff in X. rewrite X. reflexivity.
  - intros X. destruct (found h u) as [d|] eqn:Y; [|reflexivity]. apply found_iff in Y. destruct (X d Y).
Qed.

Lemma p_C113_writes_partial : forall h s, chat_run h = Some s ->
  (List.length (ch_out s) <= List.length (filter (fun e => match e with HFinish _ => true | _ => false end) h))%nat /\
  forall x, In x (ch_out s) -> exists h2 i h1 c m u, h = h2 ++ HFinish i :: h1 /\ nth_error (sends_of h1) i = Some (c, m, u) /\
    ((exists d, found_at h1 u d /\ x = CM d 6 m u) \/
     (x = CM c 200 ("'" ++ u ++ "' is offline") "" /\ exists h3 h4 lg, h1 = h3 ++ HMsg c 5 lg (Some (m, u)) :: h4 /\
        List.length (sends_of h4) = i /\ forall d, ~ found_at h4 u d)).
Proof.
  intros h s R. pose proof (chat_inv _ _ R) as I. split; [apply (ci_count _ _ I)|]. intros x X.
  destruct (ci_out _ _ I x X) as (h2 & i & h1 & c & m & u & E & Q & Z). exists h2, i, h1, c, m, u. split; auto. split; auto.
  destruct Z as [(d & A & B)|(A & h3 & h4 & lg & B & C & D)].
  - left. exists d. split; auto. apply found_iff. auto.
  - right. split; auto. exists h3, h4, lg. repeat split; auto. intros d Y. apply found_iff in Y. congruence.
Qed.

Lemma p_C113_sender_refuted : forall h s d m f, chat_run h = Some s -> In (CM d 6 m f) (ch_out s) ->
  exists h2 h1 c, h = h2 ++ h1 /\ last_online (calls h1) 0 f = Some d /\ In (c, m, f) (sends_of h1).
Proof.
  intros h s d m f R X. destruct (ci_out _ _ (chat_inv _ _ R) _ X) as (h2 & i & h1 & c & m' & u & E & Q & Z).
  destruct Z as [(e & A & B)|(A & _)]; [|inversion A; discriminate]. inversion B; subst e m' u. exists (h2 ++ [HFinish i]), h1, c.
  split; [rewrite <- app_assoc; exact E|]. split; [apply found_iff in A; apply A|apply nth_error_In in Q; auto].
Qed.

Lemma p_C113_malformed_refuted : forall h s, chat_run h = Some s ->
  (ch_dead s = true <-> exists c lg, In (HMsg c 5 lg None) h) /\
  (ch_dead s = false -> forall c lg, is_conn (calls h) c = true ->
     exists s', chat_run (HMsg c 5 lg None :: h) = Some s' /\ ch_dead s' = true /\ forall e, chat_run (e :: HMsg c 5 lg None :: h) = None).
Proof.
  intros h s R. split.
  - rewrite (ci_dead _ _ (chat_inv _ _ R)), existsb_exists. split.
    + intros (e & A & B). destruct e as [|c id lg [(?, ?)|]|i|c]; try discriminate. cbn in B. apply Z.eqb_eq in B. subst id. eauto.
    + intros (c & lg & A). exists (HMsg c 5 lg None). auto.
  - intros Dd c lg I. pose proof (msg5_step h s c lg None R Dd I) as M. eexists. split; [exact M|]. split; [reflexivity|].
    intros e. change (chat_run (e :: HMsg c 5 lg None :: h)) with (match chat_run (HMsg c 5 lg None :: h) with Some s => cstep1 e s | None => None end).
    rewrite M. reflexivity.
Qed.

Lemma p_C113_lost_refuted : forall h s c d m u lg,
  chat_run h = Some s -> ch_dead s = false -> is_conn (calls h) c = true -> found_at h u d ->
  exists s', chat_run (HFinish (List.length (sends_of h)) :: HGone d :: HMsg c 5 lg (Some (m, u)) :: h) = Some s' /\ ch_out s' = ch_out s.
Proof.
  intros h s c d m u lg R Dd I F. pose proof (msg5_step h s c lg (Some (m, u)) R Dd I) as M. cbv iota beta in M.
  pose proof F as (F1 & F2 & F3). apply found_iff in F. rewrite F in M. pose proof (ci_len _ _ (chat_inv _ _ R)) as L.
  set (h1 := HMsg c 5 lg (Some (m, u)) :: h) in *.
  destruct (last_online_conn _ _ _ _ F1) as (Id & _).
  assert (C1 : calls h1 = calls h) by (unfold h1; rewrite calls_cons; reflexivity).
  assert (G : exists s1, chat_run (HGone d :: h1) = Some s1 /\ ch_out s1 = ch_out s /\ ch_dead s1 = false /\
     ch_sends s1 = ch_sends s ++ [Some (c, m, u, true)]).
  { pose proof (ci_pool _ _ (chat_inv _ _ M)) as P. cbn [ch_pool] in P. cbn [chat_run]. fold h1. rewrite M. unfold cstep1. cbn [ch_dead ch_pool].
    rewrite P, len_conns, C1. fold (is_conn (calls h) d). rewrite Id. eexists. split; [reflexivity|]. cbn. auto. }
  destruct G as (s1 & G1 & G2 & G3 & G4).
  assert (N : found (HGone d :: h1) u = None).
  { unfold found. rewrite calls_cons, C1. cbn [call_of app dropped_since was_closed last_online]. rewrite F1.
    rewrite Nat.eqb_refl, Id. cbn [andb orb]. destruct (_ || _); reflexivity. }
  eexists. split; [eapply finish_step; [exact G1|exact G3|rewrite G4, nth_error_app2 by lia; rewrite <- L, Nat.sub_diag; reflexivity]|].
  cbn [ch_out]. rewrite N. exact G2.
Qed.

Lemma p_C113_online_refuted : forall h s c0 d u lg0,
  chat_run h = Some s -> ch_dead s = false -> is_conn (calls h) c0 = true -> is_conn (calls h) d = true -> c0 <> d ->
  was_closed (calls h) d = false -> u <> ""%string ->
  let h' := HMsg d 1 (Some u) lg0 :: HMsg c0 1 (Some u) lg0 :: h in
  found_at h' u d /\ (exists s', chat_run (HGone c0 :: h') = Some s') /\ forall e, ~ found_at (HGone c0 :: h') u e.
Proof.
  intros h s c0 d u lg0 R Dd I0 Id N W Nu h'. destruct (calls_facts h) as (S & M & C & P). apply String.eqb_neq in Nu as Nu'.
  assert (E : calls h' = POnline d u :: POnline c0 u :: calls h) by (unfold h'; rewrite !calls_cons; reflexivity).
  apply Nat.eqb_neq in N as N'. split; [|split].
  - unfold found_at. rewrite E. cbn [last_online dropped_since was_closed]. change (pool_of (POnline c0 u :: calls h) d) with (pool_of (calls h) d).
    rewrite (P d Id). cbn [opt_is]. rewrite Nat.eqb_refl, String.eqb_refl, Nu'. cbn [andb negb]. auto.
  - assert (L : forall c l g, is_conn (calls l) c = true -> forall s0, chat_run l = Some s0 -> ch_dead s0 = false -> exists s1, chat_run (HMsg c 1 (Some u) g :: l) = Some s1 /\ ch_dead s1 = false).
    { intros c l g Il s0 R0 D0. cbn [chat_run]. rewrite R0. unfold cstep1. rewrite D0, (ci_pool _ _ (chat_inv _ _ R0)).
      destruct (conn_exists _ _ Il) as (k & K). rewrite K, chat_plan. change (1 =? 1) with true. cbv iota. eexists. split; [reflexivity|]. exact D0. }
    destruct (L c0 h lg0 I0 s R Dd) as (s1 & R1 & D1).
    assert (I2 : is_conn (calls (HMsg c0 1 (Some u) lg0 :: h)) d = true) by (apply calls_conn; auto).
    destruct (L d _ lg0 I2 s1 R1 D1) as (s2 & R2 & D2).
    fold h' in R2. cbn [chat_run]. rewrite R2. unfold cstep1. rewrite D2, (ci_pool _ _ (chat_inv _ _ R2)), len_conns.
    assert (X : is_conn (calls h') c0 = true) by (unfold h'; do 2 apply calls_conn; auto). unfold is_conn in X. rewrite X. eauto.
  - intros e (_ & X & _). revert X. rewrite calls_cons, E. cbn [call_of app dropped_since drops].
    change (pool_of (POnline d u :: POnline c0 u :: calls h) c0) with (pool_of (calls h) c0). rewrite (P c0 I0). cbn [opt_is]. cbn [name_of].
    rewrite N'. cbn [andb]. rewrite !Nat.eqb_refl, I0, Nu'. cbn [andb negb named]. rewrite String.eqb_refl. discriminate.
Qed.

(* two users log in, one writes to the other and then to somebody who is not there *)
Definition chat_demo : list cev :=
  [HFinish 1; HMsg 0 5 None (Some ("anyone?", "carol")); HFinish 0; HMsg 0 5 None (Some ("hello", "bob")); HMsg 1 1 (Some "bob") None; HMsg 0 1 (Some "alice") None; HConnect; HConnect]%string.
