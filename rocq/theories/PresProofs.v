(* C122: the online-offline example. NODEMO *)
From Verif Require Export SpecPres PoolFacts.

Lemma pres_plan id : plan_of (ById id) pres_server =
  if id =? 1 then RunChain [User 1] else if id =? 3 then RunChain [User 3] else Unrouted.
Proof.
  let v := eval vm_compute in pres_server in change pres_server with v. unfold plan_of. cbn -[Z.eqb]. unfold plan_id. cbn -[Z.eqb].
  destruct (Z.eqb_spec id 1) as [->|A]; [reflexivity|]. destruct (Z.eqb_spec id 3) as [->|B]; reflexivity.
Qed.

(* what the calls change *)
Definition user_at (w : pworld) (d : nat) : option (option cval) := option_map pc_user (nth_error (pw_conns w) d).
Record one_pool (w : pworld) : Prop := {
  op_cur : pw_cur w = Some 0%nat;
  op_len : List.length (pw_pools w) = 1%nat;
  op_ref : forall d k, nth_error (pw_conns w) d = Some k -> pc_ref k = Some 0%nat;
  op_user : forall d k, nth_error (pw_conns w) d = Some k -> pc_user k = None \/ exists n, pc_user k = Some (VStr n) }.
Definition entry (w : pworld) (u : string) : option nat := GetClientPool w 0 u.

Lemma accept_effect w : one_pool w -> let w' := snd (pstep PAccept w) in one_pool w' /\
  (forall d, user_at w' d = if Nat.eqb d (List.length (pw_conns w)) then Some None else user_at w d) /\ (forall u, entry w' u = entry w u) /\
  List.length (pw_conns w') = S (List.length (pw_conns w)).
Proof.
  intros [A B C D]. cbn [pstep snd]. rewrite A.
  assert (N : forall d k, nth_error (pw_conns w ++ [PConn (Some 0%nat) None true false false]) d = Some k ->
    nth_error (pw_conns w) d = Some k \/ d = List.length (pw_conns w) /\ k = PConn (Some 0%nat) None true false false).
  { intros d k H. destruct (Nat.lt_ge_cases d (List.length (pw_conns w))) as [L|L].
    - left. rewrite nth_error_app1 in H by auto. exact H.
    - right. rewrite nth_error_app2 in H by auto. destruct (d - List.length (pw_conns w))%nat as [|n] eqn:E; [|destruct n; discriminate].
      cbn in H. split; [lia|congruence]. }
  split; [constructor; cbn [pw_cur pw_pools pw_conns]; auto|split; [|split]].
  - intros d k H. destruct (N d k H) as [X|(_ & ->)]; eauto.
  - intros d k H. destruct (N d k H) as [X|(_ & ->)]; eauto.
  - intros d. unfold user_at. cbn [pw_conns]. destruct (Nat.eqb_spec d (List.length (pw_conns w))) as [->|X].
    + rewrite nth_error_app2, Nat.sub_diag by lia. reflexivity.
    + destruct (Nat.lt_ge_cases d (List.length (pw_conns w))) as [L|L]; [rewrite nth_error_app1 by auto; reflexivity|].
      assert (E1 : nth_error (pw_conns w) d = None) by (apply nth_error_None; auto).
      assert (E2 : nth_error (pw_conns w ++ [PConn (Some 0%nat) None true false false]) d = None) by (apply nth_error_None; rewrite app_length; cbn; lia).
      rewrite E1, E2. reflexivity.
  - reflexivity.
  - cbn [pw_conns]. rewrite app_length. cbn. lia.
Qed.

Lemma online_effect w c v : one_pool w -> (c < List.length (pw_conns w))%nat -> v <> EmptyString -> let w' := snd (pstep (POnline c v) w) in one_pool w' /\
  (forall d, user_at w' d = if Nat.eqb d c then Some (Some (VStr v)) else user_at w d) /\
  (forall u, entry w' u = if String.eqb u v then Some c else entry w u) /\
  List.length (pw_conns w') = List.length (pw_conns w).
Proof.
  intros [A B C D] L Nv. cbn [pstep]. unfold pon. destruct (nth_error (pw_conns w) c) as [k|] eqn:K; [|apply nth_error_None in K; lia].
  unfold Online. apply String.eqb_neq in Nv. rewrite Nv, (C c k K). cbn [snd]. unfold SetClientPool.
  split; [constructor; cbn [pw_cur pw_pools pw_conns set_pool set_conn]; auto|split; [|split]].
  - rewrite upd_length. exact B.
  - intros d kd H. rewrite nth_upd in H. destruct (Nat.eqb d c); [rewrite K in H; inversion H; subst; cbn; apply (C c k K)|eauto].
  - intros d kd H. rewrite nth_upd in H. destruct (Nat.eqb d c); [rewrite K in H; inversion H; subst; cbn; eauto|eauto].
  - intros d. unfold user_at. cbn [pw_conns set_pool set_conn]. rewrite nth_upd. destruct (Nat.eqb d c); [rewrite K|]; reflexivity.
  - intros u. unfold entry, GetClientPool. rewrite pool_at_set. cbn [set_conn pw_pools]. rewrite B. cbn [Nat.eqb andb Nat.ltb Nat.leb].
    rewrite aget_aset. reflexivity.
  - cbn [set_pool set_conn pw_conns]. apply upd_length.
Qed.
Lemma online_empty w c : snd (pstep (POnline c EmptyString) w) = w.
Proof. cbn [pstep]. unfold pon. destruct (nth_error (pw_conns w) c); reflexivity. Qed.

Lemma offline_pool w n u : one_pool w -> entry (PoolOffline w 0 n) u = if String.eqb u n then None else entry w u.
Proof.
  intros [A B C D]. unfold PoolOffline, entry. destruct (GetClientPool w 0 n) as [d|] eqn:G.
  - unfold GetClientPool, DeleteFromClientPool. rewrite pool_at_set, B. cbn [Nat.eqb andb Nat.ltb Nat.leb]. rewrite aget_adel. reflexivity.
  - destruct (String.eqb u n) eqn:E; auto. apply String.eqb_eq in E. subst. exact G.
Qed.
Lemma offline_keeps w n : one_pool w -> one_pool (PoolOffline w 0 n) /\ pw_conns (PoolOffline w 0 n) = pw_conns w.
Proof.
  intros [A B C D]. destruct (PoolOffline_conns w 0 n) as (E1 & E2 & E3). split; auto. constructor; rewrite ?E1, ?E2, ?E3; auto.
Qed.
Definition is_named (o : option (option cval)) (u : string) : bool := match o with Some (Some (VStr n)) => String.eqb u n | _ => false end.
Lemma offline_effect w c : one_pool w -> (c < List.length (pw_conns w))%nat -> let w' := snd (pstep (POffline c) w) in one_pool w' /\
  (forall d, user_at w' d = user_at w d) /\ (forall u, entry w' u = if is_named (user_at w c) u then None else entry w u) /\
  List.length (pw_conns w') = List.length (pw_conns w).
Proof.
  intros O L. pose proof O as [A B C D]. cbn [pstep]. unfold pon. unfold user_at at 3. destruct (nth_error (pw_conns w) c) as [k|] eqn:K; [|apply nth_error_None in K; lia].
  unfold Offline. rewrite (C c k K). cbn [option_map]. destruct (D c k K) as [->|(n & ->)]; cbn [snd is_named]; [auto|].
  destruct (offline_keeps w n O) as (O' & E). split; [exact O'|]. unfold user_at. rewrite E. repeat split; auto. intros u. apply offline_pool. exact O.
Qed.
Lemma set_conn_pool w c k k' : one_pool w -> nth_error (pw_conns w) c = Some k -> pc_ref k' = pc_ref k -> pc_user k' = pc_user k ->
  one_pool (set_conn w c k') /\ (forall d, user_at (set_conn w c k') d = user_at w d) /\ (forall u, entry (set_conn w c k') u = entry w u) /\
  List.length (pw_conns (set_conn w c k')) = List.length (pw_conns w).
Proof.
  intros [A B C D] K R U. split; [constructor; cbn [set_conn pw_conns pw_cur pw_pools]; auto|split; [|split]].
  - intros d kd H. rewrite nth_upd in H. destruct (Nat.eqb d c); [rewrite K in H; inversion H; subst; rewrite R; eauto|eauto].
  - intros d kd H. rewrite nth_upd in H. destruct (Nat.eqb d c); [rewrite K in H; inversion H; subst; rewrite U; eauto|eauto].
  - intros d. unfold user_at. cbn [set_conn pw_conns]. rewrite nth_upd. destruct (Nat.eqb_spec d c) as [->|X]; auto. rewrite K. cbn. rewrite U. reflexivity.
  - reflexivity.
  - cbn [set_conn pw_conns]. apply upd_length.
Qed.
Lemma close_effect w c : one_pool w -> (c < List.length (pw_conns w))%nat -> let w' := snd (pstep (PClose c) w) in one_pool w' /\
  (forall d, user_at w' d = user_at w d) /\ (forall u, entry w' u = if is_named (user_at w c) u then None else entry w u) /\
  List.length (pw_conns w') = List.length (pw_conns w).
Proof.
  intros O L. pose proof O as [A B C D]. cbn [pstep]. unfold pon. unfold user_at at 3. destruct (nth_error (pw_conns w) c) as [k|] eqn:K; [|apply nth_error_None in K; lia].
  unfold CloseConn. set (k1 := PConn (pc_ref k) (pc_user k) (pc_online k) true true). set (k2 := PConn (pc_ref k) (pc_user k) false true true).
  rewrite (C c k K). destruct (set_conn_pool w c k k1 O K eq_refl eq_refl) as (O1 & U1 & E1 & L1).
  assert (K1 : nth_error (pw_conns (set_conn w c k1)) c = Some k1) by (cbn [set_conn pw_conns]; rewrite nth_upd, Nat.eqb_refl, K; reflexivity).
  unfold Offline. change (pc_ref k1) with (pc_ref k). change (pc_user k1) with (pc_user k). rewrite (C c k K). cbn [option_map].
  destruct (D c k K) as [Eu|(n & Eu)]; rewrite Eu; cbn [snd is_named].
  - destruct (set_conn_pool _ c k1 k2 O1 K1 eq_refl eq_refl) as (O2 & U2 & E2 & L2).
    unfold k2 in *. rewrite ?(C c k K), ?Eu in *. split; [exact O2|]. split; [intros; rewrite U2; apply U1|]. split; [intros; rewrite E2; apply E1|rewrite L2; exact L1].
  - destruct (offline_keeps _ n O1) as (O1' & Ec). assert (K1' : nth_error (pw_conns (PoolOffline (set_conn w c k1) 0 n)) c = Some k1) by (rewrite Ec; exact K1).
    destruct (set_conn_pool _ c k1 k2 O1' K1' eq_refl eq_refl) as (O2 & U2 & E2 & L2). unfold k2 in *. rewrite ?(C c k K), ?Eu in *. split; [exact O2|]. split; [|split].
    + intros d. rewrite U2. unfold user_at. rewrite Ec. apply U1.
    + intros u. rewrite E2, offline_pool, E1 by exact O1. reflexivity.
    + rewrite L2, Ec. exact L1.
Qed.

(* the messages and the goroutines *)
Lemma pres_jobs_of h s : pres_run h = Some s -> List.length (pr_jobs s) = List.length (msgs_of h) /\
  forall i j, nth_error (pr_jobs s) i = Some (Some j) -> nth_error (msgs_of h) i = Some j.
Proof.
  revert s. induction h as [|e h IH]; intros s H; [inversion H; subst; split; [reflexivity|intros [|i] j X; discriminate]|].
  cbn [pres_run] in H. destruct (pres_run h) as [s1|] eqn:E; [|discriminate]. destruct (IH s1 eq_refl) as (L & N). clear IH.
  destruct e as [|c id lg|i|c]; cbn [pres_step msgs_of] in *.
  - inversion H; subst; auto.
  - destruct (Nat.ltb c _); [|discriminate]. inversion H; subst. cbn [pr_jobs]. rewrite !app_length, L. split; auto. intros i j X.
    destruct (Nat.lt_ge_cases i (List.length (pr_jobs s1))) as [Y|Y].
    + rewrite nth_error_app1 in X by auto. rewrite nth_error_app1 by lia. auto.
    + rewrite nth_error_app2 in X by auto. rewrite nth_error_app2 by lia. rewrite L in X.
      destruct (i - List.length (msgs_of h))%nat as [|n]; [cbn in *; congruence|destruct n; discriminate].
  - destruct (nth_error (pr_jobs s1) i) as [[j|]|] eqn:J; try discriminate. destruct (pres_handle j (pr_pool s1)) as (ls, w).
    inversion H; subst. cbn [pr_jobs]. rewrite upd_length. split; auto. intros i' j' X. rewrite nth_upd in X. destruct (Nat.eqb i' i); [rewrite J in X; discriminate|auto].
  - destruct (Nat.ltb c _); [|discriminate]. inversion H; subst; auto.
Qed.

Record presence (h : list pres_ev) (s : pres) : Prop := {
  q_pool : one_pool (pr_pool s);
  q_jobs : forall c id lg, In (c, id, lg) (msgs_of h) -> (c < List.length (pw_conns (pr_pool s)))%nat;
  q_own : forall c u, own_name (deeds h) c u -> u <> EmptyString ->
    (forall d n, user_at (pr_pool s) d = Some (Some (VStr n)) -> (d = c <-> n = u)) /\
    (logged_in (deeds h) c = true -> user_at (pr_pool s) c = Some (Some (VStr u))) /\
    entry (pr_pool s) u = if logged_in (deeds h) c then Some c else None }.

Lemma own_tl d ds c u : own_name (d :: ds) c u -> own_name ds c u.
Proof. intros H e v I. apply H. right. exact I. Qed.
Lemma logged_skip d ds c : Nat.eqb (deed_conn d) c && matters d = false -> logged_in (d :: ds) c = logged_in ds c.
Proof. intros H. unfold logged_in. cbn [find]. rewrite H. reflexivity. Qed.

(* a logout or an end of connection d *)
Lemma leave_step h s w' d (x : deed) : presence h s -> deed_conn x = d -> matters x = true ->
  (match x with DDid (_, id, _) => id =? 1 | DGone _ => false end) = false ->
  one_pool w' -> (forall e, user_at w' e = user_at (pr_pool s) e) ->
  (forall u, entry w' u = if is_named (user_at (pr_pool s) d) u then None else entry (pr_pool s) u) ->
  forall c u, own_name (x :: deeds h) c u -> u <> EmptyString ->
    (forall e n, user_at w' e = Some (Some (VStr n)) -> (e = c <-> n = u)) /\
    (logged_in (x :: deeds h) c = true -> user_at w' c = Some (Some (VStr u))) /\
    entry w' u = if logged_in (x :: deeds h) c then Some c else None.
Proof.
  intros [P J Q] Hd Hm Hx O' U' E' c u Ow Nu. destruct (Q c u (own_tl _ _ _ _ Ow) Nu) as (Q1 & Q2 & Q3).
  split; [intros e n; rewrite U'; apply Q1|]. destruct (Nat.eqb_spec d c) as [->|Nd].
  - assert (F : logged_in (x :: deeds h) c = false). { unfold logged_in. cbn [find]. rewrite Hd, Nat.eqb_refl, Hm. cbn [andb]. destruct x as [[[? ?] ?]|]; auto. }
    rewrite F. split; [discriminate|]. rewrite E', Q3. destruct (user_at (pr_pool s) c) as [[[n|n|n]|]|] eqn:Uc; cbn [is_named].
    + assert (n = u) as -> by (apply (Q1 c n Uc); reflexivity). rewrite String.eqb_refl. reflexivity.
    + destruct (logged_in (deeds h) c); auto. discriminate (Q2 eq_refl).
    + destruct (logged_in (deeds h) c); auto. discriminate (Q2 eq_refl).
    + destruct (logged_in (deeds h) c); auto. discriminate (Q2 eq_refl).
    + destruct (logged_in (deeds h) c); auto. discriminate (Q2 eq_refl).
  - assert (F : logged_in (x :: deeds h) c = logged_in (deeds h) c). { apply logged_skip. rewrite Hd. apply Nat.eqb_neq in Nd. rewrite Nd. reflexivity. }
    rewrite F, U', E'. split; auto. destruct (user_at (pr_pool s) d) as [[[n|n|n]|]|] eqn:Ud; cbn [is_named]; auto.
    destruct (String.eqb_spec u n) as [->|]; auto. exfalso. apply Nd. apply (Q1 d n Ud). reflexivity.
Qed.

Lemma presence_all h : forall s, pres_run h = Some s -> presence h s.
Proof.
  induction h as [|e h IH]; intros s H.
  - inversion H; subst. constructor; cbn.
    + constructor; cbn; auto; intros [|d] k X; discriminate.
    + contradiction.
    + intros c u _ Nu. split; [intros [|d] n X; discriminate|]. split; [discriminate|reflexivity].
  - pose proof H as Hrun. cbn [pres_run] in H. destruct (pres_run h) as [s1|] eqn:E; [|discriminate]. pose proof (IH s1 eq_refl) as I. clear IH.
    pose proof I as [P J Q]. destruct e as [|c id lg|i|c]; cbn [pres_step] in H.
    + destruct (accept_effect _ P) as (P' & U' & E' & L'). set (w' := snd (pstep PAccept (pr_pool s1))) in *. clearbody w'. inversion H; subst. clear H. constructor; cbn [pr_pool deeds msgs_of]; auto.
      * intros c id lg X. rewrite L'. specialize (J c id lg X). lia.
      * intros c u Ow Nu. destruct (Q c u Ow Nu) as (Q1 & Q2 & Q3). rewrite E', Q3. split; [|split; auto].
        -- intros d n. rewrite U'. destruct (Nat.eqb d _); [discriminate|apply Q1].
        -- intros X. rewrite U'. destruct (Nat.eqb_spec c (List.length (pw_conns (pr_pool s1)))) as [->|]; auto.
           exfalso. specialize (Q2 X). unfold user_at in Q2. assert (Z : nth_error (pw_conns (pr_pool s1)) (List.length (pw_conns (pr_pool s1))) = None) by (apply nth_error_None; lia).
           rewrite Z in Q2. discriminate.
    + destruct (Nat.ltb_spec c (List.length (pw_conns (pr_pool s1)))) as [L|L]; [|discriminate]. inversion H; subst. constructor; cbn [pr_pool deeds msgs_of]; auto.
      intros c' id' lg' X. apply in_app_or in X as [X|[X|[]]]; [eauto|]. inversion X; subst. exact L.
    + destruct (nth_error (pr_jobs s1) i) as [[[[c id] lg]|]|] eqn:Jb; try discriminate.
      pose proof (proj2 (pres_jobs_of h s1 E) i _ Jb) as Jm. pose proof (J c id lg (nth_error_In _ _ Jm)) as L.
      destruct (pres_handle (c, id, lg) (pr_pool s1)) as (ls, w) eqn:Hh. inversion H; subst. clear H.
      cbn [deeds]. assert (Dd : deeds (NRun i :: h) = DDid (c, id, lg) :: deeds h) by (cbn [deeds]; rewrite Jm; reflexivity).
      unfold pres_handle in Hh. rewrite pres_plan in Hh. destruct (Z.eqb_spec id 1) as [->|N1].
      * destruct lg as [v|].
        -- destruct (String.eqb_spec v EmptyString) as [->|Nv].
           ++ rewrite online_empty in Hh. inversion Hh; subst. constructor; rewrite ?Dd; cbn [pr_pool msgs_of]; auto.
              intros c' u Ow Nu. rewrite logged_skip by (cbn [matters Z.eqb String.eqb negb andb orb]; apply andb_false_r). apply Q; auto. exact (own_tl _ _ _ _ Ow).
           ++ destruct (online_effect _ c v P L Nv) as (P' & U' & E' & L'). set (w' := snd (pstep (POnline c v) (pr_pool s1))) in *. clearbody w'. inversion Hh; subst. constructor; rewrite ?Dd; cbn [pr_pool msgs_of]; auto.
              ** intros c' id' lg' X. rewrite L'. eauto.
              ** intros c' u Ow Nu. destruct (Q c' u (own_tl _ _ _ _ Ow) Nu) as (Q1 & Q2 & Q3).
                 assert (Oc : c = c' <-> v = u) by (apply (Ow c v); [left; reflexivity|exact Nv]).
                 assert (M : matters (DDid (c, 1, Some v)) = true) by (cbn; apply String.eqb_neq in Nv; rewrite Nv; reflexivity).
                 split; [|split].
                 --- intros d n. rewrite U'. destruct (Nat.eqb_spec d c) as [->|]; [|apply Q1]. intros X. inversion X; subst. exact Oc.
                 --- intros X. rewrite U'. destruct (Nat.eqb_spec c' c) as [->|Nc]; [do 3 f_equal; apply Oc; reflexivity|].
                     apply Q2. rewrite logged_skip in X; auto. cbn [deed_conn]. apply not_eq_sym in Nc. apply Nat.eqb_neq in Nc. rewrite Nc. reflexivity.
                 --- rewrite E'. destruct (String.eqb_spec u v) as [->|Nuv].
                     +++ assert (c = c') as -> by (apply Oc; reflexivity). unfold logged_in. cbn [find deed_conn]. rewrite Nat.eqb_refl, M. reflexivity.
                     +++ rewrite logged_skip; auto. cbn [deed_conn]. destruct (Nat.eqb_spec c c') as [->|]; auto. exfalso. apply Nuv. symmetry. apply Oc. reflexivity.
        -- inversion Hh; subst. constructor; rewrite ?Dd; cbn [pr_pool msgs_of]; auto.
           intros c' u Ow Nu. rewrite logged_skip by (cbn [matters Z.eqb]; apply andb_false_r). apply Q; auto. exact (own_tl _ _ _ _ Ow).
      * destruct (Z.eqb_spec id 3) as [->|N3].
        -- destruct (offline_effect _ c P L) as (P' & U' & E' & L'). set (w' := snd (pstep (POffline c) (pr_pool s1))) in *. clearbody w'. inversion Hh; subst. constructor; rewrite ?Dd; cbn [pr_pool msgs_of]; auto.
           ++ intros c' id' lg' X. rewrite L'. eauto.
           ++ apply (leave_step h s1 _ c (DDid (c, 3, lg))); auto. destruct lg; cbn; auto.
        -- assert (w = pr_pool s1 /\ ls = []) as (-> & ->) by (inversion Hh; auto). constructor; rewrite ?Dd; cbn [pr_pool msgs_of]; auto.
           intros c' u Ow Nu. rewrite logged_skip; [apply Q; auto; exact (own_tl _ _ _ _ Ow)|]. apply Z.eqb_neq in N1, N3.
           destruct lg; cbn [matters]; rewrite ?N1, ?N3; cbn; apply andb_false_r.
    + destruct (Nat.ltb_spec c (List.length (pw_conns (pr_pool s1)))) as [L|L]; [|discriminate].
      destruct (close_effect _ c P L) as (P' & U' & E' & L'). set (w' := snd (pstep (PClose c) (pr_pool s1))) in *. clearbody w'. inversion H; subst. constructor; cbn [pr_pool msgs_of]; auto.
      * intros c' id' lg' X. rewrite L'. eauto.
      * cbn [deeds]. apply (leave_step h s1 _ c (DGone c)); auto.
Qed.

Lemma p_C122_last_handled_partial : forall h s c u, pres_run h = Some s -> u <> EmptyString -> own_name (deeds h) c u ->
  GetClientPool (pr_pool s) 0 u = if logged_in (deeds h) c then Some c else None.
Proof. intros h s c u H Nu Ow. apply (q_own _ _ (presence_all h s H) c u Ow Nu). Qed.

Lemma find_filter {A} (p q : A -> bool) l : (forall x, In x l -> p x = true -> q x = true) -> find p l = find p (filter q l).
Proof.
  induction l as [|x l IH]; intros H; auto. cbn [find filter]. destruct (p x) eqn:E.
  - rewrite (H x (or_introl eq_refl) E). cbn [find]. rewrite E. reflexivity.
  - rewrite IH by (intros y I; apply H; right; exact I). destruct (q x); auto. cbn [find]. rewrite E. reflexivity.
Qed.

Lemma p_C122_presence_partial : forall h s c u, pres_run h = Some s -> u <> EmptyString -> own_name (deeds h) c u ->
  in_order h c -> ~ In (DGone c) (deeds h) ->
  GetClientPool (pr_pool s) 0 u = if logged_in (map DDid (rev (of_conn c (msgs_of h)))) c then Some c else None.
Proof.
  intros h s c u H Nu Ow O G. rewrite (p_C122_last_handled_partial h s c u H Nu Ow). rewrite O. unfold logged_in. rewrite (find_filter _ (fun d => match d with DDid (d, _, _) => Nat.eqb d c | DGone _ => false end) (deeds h)); auto.
  intros x I X. apply andb_true_iff in X as (X & _). destruct x as [[[d ?] ?]|d]; cbn [deed_conn] in X; auto. apply Nat.eqb_eq in X. subst. contradiction.
Qed.

Lemma p_C122_lines : forall h s, pres_run h = Some s ->
  map fst (filter (fun l => match snd l with LOnline => true | _ => false end) (pr_lines s)) = map deed_conn (filter login_msg (deeds h)).
Proof.
  induction h as [|e h IH]; intros s H; [inversion H; reflexivity|].
  cbn [pres_run] in H. destruct (pres_run h) as [s1|] eqn:E; [|discriminate]. specialize (IH s1 eq_refl).
  destruct e as [|c id lg|i|c]; cbn [pres_step deeds] in *.
  - inversion H; subst; exact IH.
  - destruct (Nat.ltb c _); [|discriminate]. inversion H; subst. exact IH.
  - destruct (nth_error (pr_jobs s1) i) as [[[[c id] lg]|]|] eqn:Jb; try discriminate.
    rewrite (proj2 (pres_jobs_of h s1 E) i _ Jb). unfold pres_handle in H. rewrite pres_plan in H. cbn [filter login_msg].
    destruct (Z.eqb_spec id 1) as [->|N1].
    + destruct lg as [v|]; inversion H; subst; cbn [pr_lines app filter snd map fst deed_conn Z.eqb]; [|exact IH]. f_equal. exact IH.
    + replace (match lg with Some _ => false | None => false end) with false by (destruct lg; reflexivity).
      destruct (id =? 3); inversion H; subst; cbn [pr_lines app filter snd]; destruct lg; exact IH.
  - destruct (Nat.ltb c _); [|discriminate]. inversion H; subst. exact IH.
Qed.

Lemma pres_more h s c id lg : pres_run h = Some s -> (c < List.length (pw_conns (pr_pool s)))%nat ->
  pres_run (NMsg c id lg :: h) = Some (Pres (pr_pool s) (pr_jobs s ++ [Some (c, id, lg)]) (pr_lines s)).
Proof. intros H L. cbn [pres_run]. rewrite H. cbn [pres_step]. apply Nat.ltb_lt in L. rewrite L. reflexivity. Qed.
Lemma pres_handled h s i c id lg ls w : pres_run h = Some s -> nth_error (pr_jobs s) i = Some (Some (c, id, lg)) -> pres_handle (c, id, lg) (pr_pool s) = (ls, w) ->
  pres_run (NRun i :: h) = Some (Pres w (upd (pr_jobs s) i None) (ls ++ pr_lines s)).
Proof. intros H J Hh. cbn [pres_run]. rewrite H. cbn [pres_step]. rewrite J, Hh. reflexivity. Qed.
Lemma handle1 c u w : pres_handle (c, 1, Some u) w = ([(c, LOnline)], snd (pstep (POnline c u) w)).
Proof. unfold pres_handle. rewrite pres_plan. reflexivity. Qed.
Lemma handle3 c lg w : pres_handle (c, 3, lg) w = ([(c, LOffline)], snd (pstep (POffline c) w)).
Proof. unfold pres_handle. rewrite pres_plan. reflexivity. Qed.

Lemma p_C122_order_refuted : forall h s c u, pres_run h = Some s -> (c < List.length (pw_conns (pr_pool s)))%nat -> u <> EmptyString ->
  let n := List.length (msgs_of h) in
  exists s', pres_run (NRun n :: NRun (S n) :: NMsg c 3 None :: NMsg c 1 (Some u) :: h) = Some s' /\
    GetClientPool (pr_pool s') 0 u = Some c /\ List.length (filter (fun j => match j with None => true | _ => false end) (pr_jobs s')) =
      (2 + List.length (filter (fun j => match j with None => true | _ => false end) (pr_jobs s)))%nat.
Proof.
  intros h s c u H L Nu n. pose proof (presence_all h s H) as [P J Q]. destruct (pres_jobs_of h s H) as (Ln & _).
  assert (N0 : forall (l : list (option pres_job)) a b, nth_error ((l ++ [a]) ++ [b]) (S (List.length l)) = Some b).
  { intros l a b. rewrite nth_error_app2 by (rewrite app_length; cbn; lia). rewrite app_length. cbn [List.length]. replace (S (List.length l) - (List.length l + 1))%nat with 0%nat by lia. reflexivity. }
  pose proof (pres_more _ _ c 1 (Some u) H L) as H1. pose proof (pres_more _ _ c 3 None H1 L) as H2. cbn [pr_pool pr_jobs pr_lines] in H1, H2.
  assert (X : nth_error (pr_jobs (Pres (pr_pool s) ((pr_jobs s ++ [Some (c, 1, Some u)]) ++ [Some (c, 3, None)]) (pr_lines s))) (S n) = Some (Some (c, 3, None))).
  { cbn [pr_jobs]. unfold n. rewrite <- Ln. apply N0. }
  pose proof (pres_handled _ _ _ _ _ _ _ _ H2 X (handle3 _ _ _)) as H3. cbn [pr_pool pr_jobs pr_lines] in H3.
  destruct (offline_effect _ c P L) as (P' & U' & E' & L').
  assert (Upd1 : upd ((pr_jobs s ++ [Some (c, 1, Some u)]) ++ [Some (c, 3, None)]) (S n) None = (pr_jobs s ++ [Some (c, 1, Some u)]) ++ [None]).
  { unfold n. rewrite <- Ln. clear. induction (pr_jobs s) as [|a l IH]; [reflexivity|]. cbn [app upd List.length]. f_equal. exact IH. }
  rewrite Upd1 in H3.
  assert (Y : nth_error ((pr_jobs s ++ [Some (c, 1, Some u)]) ++ [None]) n = Some (Some (c, 1, Some u))).
  { unfold n. rewrite <- Ln, nth_error_app1 by (rewrite app_length; cbn; lia). rewrite nth_error_app2, Nat.sub_diag by lia. reflexivity. }
  pose proof (pres_handled _ _ _ _ _ _ _ _ H3 Y (handle1 _ _ _)) as H4. cbn [pr_pool pr_jobs pr_lines] in H4.
  eexists. split; [exact H4|]. cbn [pr_pool pr_jobs]. rewrite <- L' in L. destruct (online_effect _ c u P' L Nu) as (_ & _ & E2 & _). split.
  - change (GetClientPool ?w 0 u) with (entry w u). rewrite E2, String.eqb_refl. reflexivity.
  - assert (Upd2 : upd ((pr_jobs s ++ [Some (c, 1, Some u)]) ++ [None]) n None = (pr_jobs s ++ [None]) ++ [None]).
    { unfold n. rewrite <- Ln. clear. induction (pr_jobs s) as [|a l IH]; [reflexivity|]. cbn [app upd List.length]. f_equal. exact IH. }
    rewrite Upd2, !filter_app, !app_length. cbn. lia.
Qed.

Lemma p_C122_empty_name_refuted : forall h s c, pres_run h = Some s -> (c < List.length (pw_conns (pr_pool s)))%nat ->
  exists s', pres_run (NRun (List.length (msgs_of h)) :: NMsg c 1 (Some EmptyString) :: h) = Some s' /\
    pr_lines s' = (c, LOnline) :: pr_lines s /\ pr_pool s' = pr_pool s.
Proof.
  intros h s c H L. destruct (pres_jobs_of h s H) as (Ln & _). pose proof (pres_more _ _ c 1 (Some EmptyString) H L) as H1.
  assert (Y : nth_error (pr_jobs s ++ [Some (c, 1, Some EmptyString)]) (List.length (msgs_of h)) = Some (Some (c, 1, Some EmptyString))).
  { rewrite <- Ln, nth_error_app2, Nat.sub_diag by lia. reflexivity. }
  pose proof (pres_handled _ _ _ _ _ _ _ _ H1 Y (handle1 _ _ _)) as H2. eexists. split; [exact H2|]. cbn [pr_lines pr_pool app]. rewrite online_empty. auto.
Qed.

(* the handled events of the two remaining refutations: connection 0 and 1 use one name; a client
   changes its name *)
Definition shared_name (u : string) : list pres_ev :=
  [NRun 2; NMsg 0 3 None; NRun 1; NMsg 1 1 (Some u); NRun 0; NMsg 0 1 (Some u); NConnect; NConnect].
Definition new_name (u v : string) : list pres_ev :=
  [NRun 2; NMsg 0 3 None; NRun 1; NMsg 0 1 (Some v); NRun 0; NMsg 0 1 (Some u); NConnect].

Lemma p_C122_shared_name_refuted : forall u, u <> EmptyString ->
  exists s, pres_run (shared_name u) = Some s /\ all_handled s /\ in_order (shared_name u) 0 /\ in_order (shared_name u) 1 /\
    logged_in (deeds (shared_name u)) 1 = true /\ GetClientPool (pr_pool s) 0 u = None.
Proof.
  intros u Nu. apply String.eqb_neq in Nu.
  assert (X : exists s, pres_run (shared_name u) = Some s /\ all_handled s /\ GetClientPool (pr_pool s) 0 u = None).
  { unfold shared_name. repeat (cbn -[pres_handle String.eqb]; rewrite ?handle1, ?handle3; unfold Online, Offline, PoolOffline, GetClientPool; rewrite ?Nu, ?String.eqb_refl).
    eexists. split; [reflexivity|]. split; [repeat constructor|]. cbn -[String.eqb]. rewrite ?String.eqb_refl. reflexivity. }
  destruct X as (s & X1 & X2 & X3). exists s. repeat split; auto.
  assert (W : deeds (shared_name u) = [DDid (0%nat, 3, None); DDid (1%nat, 1, Some u); DDid (0%nat, 1, Some u)]) by reflexivity.
  rewrite W. unfold logged_in. cbn. rewrite Nu. reflexivity.
Qed.

Lemma p_C122_new_name_refuted : forall u v, u <> EmptyString -> v <> EmptyString -> u <> v ->
  exists s, pres_run (new_name u v) = Some s /\ all_handled s /\ in_order (new_name u v) 0 /\
    logged_in (deeds (new_name u v)) 0 = false /\ GetClientPool (pr_pool s) 0 u = Some 0%nat.
Proof.
  intros u v Nu Nv N. apply String.eqb_neq in Nu, Nv. assert (N1 : String.eqb u v = false) by (apply String.eqb_neq; auto). assert (N2 : String.eqb v u = false) by (apply String.eqb_neq; auto).
  assert (X : exists s, pres_run (new_name u v) = Some s /\ all_handled s /\ GetClientPool (pr_pool s) 0 u = Some 0%nat).
  { unfold new_name. repeat (cbn -[pres_handle String.eqb]; rewrite ?handle1, ?handle3; unfold Online, Offline, PoolOffline, GetClientPool; rewrite ?Nu, ?Nv, ?N1, ?N2, ?String.eqb_refl).
    eexists. split; [reflexivity|]. split; [repeat constructor|]. repeat (cbn -[String.eqb]; rewrite ?N1, ?N2, ?String.eqb_refl). reflexivity. }
  destruct X as (s & X1 & X2 & X3). exists s. repeat split; auto.
Qed.
