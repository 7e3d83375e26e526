(* The mux of a server used directly (C132). NODEMO *)
From Verif Require Export SpecBare BaseFacts.

Lemma to_int32_small z : - two31 <= z < two31 -> to_int32 z = z.
Proof. apply to_int32_id. Qed.

Lemma on_mux_live f m b : on_mux f (TX m b false) = (TX (fst (f m)) b false, snd (f m)).
Proof. unfold on_mux. cbn. destruct (f m). reflexivity. Qed.

Lemma xadd_eq id ms f m : -two31 <= m_seed m + 1 < two31 -> xAddHandler id ms f (TX m true false) = (TX (fst (AddHandler id ms f m)) true false, snd (AddHandler id ms f m)).
Proof.
  intros Hs. unfold xAddHandler, AddHandler.
  assert (G : forall m1, m_seed m1 = m_seed m -> xthen (xAddHandleFunc id f (ensure (TX m1 true false))) (fun t => xAnchorID id t) =
    (TX (fst (andthen (AddHandleFunc id f m1) (fun m => AddMessageIDAnchor id (next_index m) (tick m)))) true false,
     snd (andthen (AddHandleFunc id f m1) (fun m => AddMessageIDAnchor id (next_index m) (tick m))))).
  { intros m1 E. unfold ensure, xAddHandleFunc. cbn [t_nil t_allow]. rewrite on_mux_live. unfold AddHandleFunc, xthen, andthen.
    destruct (ahas id (m_handlers m1)); [reflexivity|]. cbn [snd fst ok]. unfold xAnchorID. rewrite on_mux_live. unfold index32, tick32, index32, next_index, tick. cbn [m_seed set_handlers].
    rewrite E, to_int32_small by auto. reflexivity. }
  destruct ms as [|x ms].
  - unfold xthen at 1. cbn [xok snd fst]. unfold andthen at 2 4. cbn [ok fst snd]. exact (G m eq_refl).
  - unfold xAddSelf. rewrite on_mux_live. unfold AddSelf. destruct (ahas id (m_self m)); [reflexivity|]. unfold xthen at 1. cbn [snd fst ok]. unfold andthen at 2 4. cbn [ok fst snd].
    apply G. reflexivity.
Qed.

Lemma xop_eq o m : -two31 <= m_seed m + 1 < two31 -> x_op o (TX m true false) = (TX (fst (step o m)) true false, snd (step o m)).
Proof.
  intros Hs. pose proof (to_int32_small _ Hs) as E. destruct o as [k f|k|l|id ms f|p l|on thr id|id f|yes thr id f|f]; cbn [x_op step].
  - unfold ensure. cbn [t_nil]. rewrite on_mux_live. unfold Use. cbn [List.length Nat.even use_pairs]. unfold use1, xuse1, index32, tick32, tick, index32, next_index. rewrite E.
    unfold ahas. destruct (aget k (m_amap m)) as [a|].
    + destruct (callUse a (m_seed m + 1)); reflexivity.
    + destruct (callUse (Anchor k f [] []) (m_seed m + 1)); reflexivity.
  - rewrite on_mux_live. cbn [UnUse]. unfold unuse1, xunuse1, index32, tick32, tick, index32, next_index. rewrite E.
    destruct (aget k (m_amap m)) as [a|]; [|reflexivity]. destruct (callUnUse a (m_seed m + 1)) as [a'|]; [|reflexivity].
    unfold andthen. destruct (replace_middleware a' (set_seed (m_seed m + 1) m)) as [m' [|]]; reflexivity.
  - unfold ensure. cbn [t_nil]. rewrite on_mux_live. reflexivity.
  - apply xadd_eq. auto.
  - unfold xAny, Any. destruct l as [|x l]; [reflexivity|].
    assert (G : forall m1, m_seed m1 = m_seed m -> xthen (xMuxAny p (x :: l) (TX m1 true false)) (fun t => xAnchorURL p t) =
      (TX (fst (AddURLAnchor p (next_index (AddURLPatternHandler p (x :: l) m1)) (tick (AddURLPatternHandler p (x :: l) m1)))) true false,
       snd (AddURLAnchor p (next_index (AddURLPatternHandler p (x :: l) m1)) (tick (AddURLPatternHandler p (x :: l) m1))))).
    { intros m1 E1. unfold xMuxAny. cbn [t_nil t_allow]. rewrite on_mux_live. unfold xthen. cbn [snd fst ok]. unfold xAnchorURL. rewrite on_mux_live.
      assert (E2 : m_seed (AddURLPatternHandler p (x :: l) m1) = m_seed m) by (unfold AddURLPatternHandler; destruct (aget p (m_urls m1)); exact E1).
      unfold index32, tick32, index32, next_index, tick. rewrite E2, E. reflexivity. }
    destruct (1 <? List.length (x :: l))%nat.
    + rewrite on_mux_live. unfold xthen at 1. cbn [snd fst ok]. apply G. unfold AddURLPatternHandler. destruct (aget p (m_urls m)); reflexivity.
    + unfold xthen at 1. cbn [xok snd fst]. apply G. reflexivity.
  - unfold x_fields. cbn [t_m t_allow t_nil]. unfold HeartBeatModeDetail. destruct on; [|reflexivity]. rewrite xadd_eq; auto.
  - rewrite on_mux_live. unfold xthen at 1. cbn [snd fst ok]. unfold x_fields. cbn [t_m t_allow t_nil]. unfold RewriteHeartBeatHandler. rewrite xadd_eq; auto.
  - unfold x_fields. cbn [t_m t_allow t_nil]. unfold WithAuthDetail. destruct yes; [|reflexivity]. rewrite xadd_eq; auto.
  - reflexivity.
Qed.

Lemma seed_step o m : m_seed m <= m_seed (fst (step o m)) <= m_seed m + 1.
Proof.
  assert (AH : forall id ms f m, m_seed m <= m_seed (fst (AddHandler id ms f m)) <= m_seed m + 1).
  { clear. intros id ms f m. unfold AddHandler.
    assert (G : forall m1, m_seed m1 = m_seed m -> m_seed m <= m_seed (fst (andthen (AddHandleFunc id f m1) (fun m => AddMessageIDAnchor id (next_index m) (tick m)))) <= m_seed m + 1).
    { intros m1 E. unfold AddHandleFunc, andthen. destruct (ahas id (m_handlers m1)); cbn; [lia|]. unfold AddMessageIDAnchor. destruct (ahas _ _); cbn; lia. }
    destruct ms; [apply G; reflexivity|]. unfold AddSelf. destruct (ahas id (m_self m)); [cbn; lia|]. apply G. reflexivity. }
  destruct o as [k f|k|l|id ms f|p l|on thr id|id f|yes thr id f|f]; cbn [step].
  - unfold Use. cbn [List.length Nat.even use_pairs]. unfold use1, andthen. destruct (aget k (m_amap m)) as [a|].
    + destruct (callUse a (next_index m)); cbn; lia.
    + destruct (callUse (Anchor k f [] []) (next_index m)); cbn; [|lia]. unfold add_anchor. destruct (ahas _ _); cbn; lia.
  - cbn [UnUse]. unfold unuse1, andthen. destruct (aget k (m_amap m)) as [a|]; [|cbn; lia]. destruct (callUnUse a (next_index m)) as [a'|]; [|cbn; lia].
    unfold replace_middleware. destruct (ahas _ _); cbn; lia.
  - cbn. lia.
  - apply AH.
  - unfold Any. destruct l; [cbn; lia|]. assert (E : forall m l, m_seed (AddURLPatternHandler p l m) = m_seed m) by (intros m0 l0; unfold AddURLPatternHandler; destruct (aget p (m_urls m0)); reflexivity).
    destruct (1 <? _)%nat; unfold AddURLAnchor; destruct (ahas _ _); cbn; rewrite ?E; lia.
  - unfold HeartBeatModeDetail. destruct on; [|cbn; lia]. specialize (AH id [] Beat (set_hb true id thr m)). cbn [m_seed set_hb] in AH. exact AH.
  - unfold RewriteHeartBeatHandler. specialize (AH id [] f (set_hb (m_hb_on m) id (m_hb_through m) (removeHandler (m_hb_id m) m))). exact AH.
  - unfold WithAuthDetail. destruct yes; [|cbn; lia]. specialize (AH id [] f (set_auth true id thr m)). exact AH.
  - cbn. lia.
Qed.

Lemma p_C132_conservative : forall h o, Z.of_nat (List.length h) < two31 - 2 ->
  xbuild (map XSrv h) = TX (build h) true false /\ snd (xstep (XSrv o) (xbuild (map XSrv h))) = snd (step o (build h)).
Proof.
  intros h o Hl.
  assert (G : forall h, Z.of_nat (List.length h) < two31 - 2 -> xbuild (map XSrv h) = TX (build h) true false /\ 1 <= m_seed (build h) <= 1 + Z.of_nat (List.length h)).
  { clear. induction h as [|o p IH]; intros Hl; [split; [reflexivity|cbn; lia]|]. cbn [List.length] in Hl. destruct IH as (IH & Sd); [lia|].
    cbn [map xbuild xstep build]. rewrite IH, xop_eq by (unfold two31 in *; lia). split; [reflexivity|]. pose proof (seed_step o (build p)). cbn [List.length]. lia. }
  destruct (G h Hl) as (E & Sd). split; [exact E|]. rewrite E. cbn [xstep]. rewrite xop_eq by (unfold two31 in *; lia). reflexivity.
Qed.

Lemma to_int32_next z : to_int32 (to_int32 z + 1) = to_int32 (z + 1).
Proof.
  unfold to_int32 at 1 3. replace ((to_int32 z + 1) mod two32) with ((z + 1) mod two32); [reflexivity|].
  rewrite (Zplus_mod z), (Zplus_mod (to_int32 z)). f_equal. f_equal. unfold to_int32. destruct (z mod two32 <? two31).
  - rewrite Z.mod_mod; [reflexivity|discriminate].
  - rewrite Zminus_mod, Z_mod_same_full, Z.sub_0_r, !Z.mod_mod; [reflexivity|discriminate|discriminate].
Qed.

Lemma ticks n t : t_nil t = false -> is_int32 (m_seed (t_m t)) -> forall l, xbuild l = t ->
  xbuild (repeat XTick n ++ l) = TX (set_seed (to_int32 (m_seed (t_m t) + Z.of_nat n)) (t_m t)) (t_allow t) false.
Proof.
  intros Hn Hi l E. induction n as [|n IH].
  - cbn [repeat app]. rewrite E, Z.add_0_r, to_int32_small by exact Hi. destruct t as [m a b]. cbn in *. subst b. destruct m; reflexivity.
  - cbn [repeat app xbuild xstep]. rewrite IH, on_mux_live. cbn [fst ok]. unfold tick32, index32. cbn [m_seed set_seed]. rewrite to_int32_next, Nat2Z.inj_succ. unfold Z.succ.
    rewrite Z.add_assoc. reflexivity.
Qed.

Lemma p_C132_wrap : forall n k f id g, id <> 0 ->
  xplan (ById id) (xbuild (XSrv (OAdd id [] g) :: repeat XTick n ++ [XSrv (OUse k f)])) = RunChain (if 2 <=? to_int32 (Z.of_nat n + 3) then [f; g] else [g]).
Proof.
  intros n k f id g Hid. cbn [xbuild]. rewrite (ticks n (xbuild [XSrv (OUse k f)])) by (try reflexivity; unfold is_int32, two31; cbn; lia).
  cbn [xstep x_op]. set (m1 := t_m (xbuild [XSrv (OUse k f)])). change (t_allow (xbuild [XSrv (OUse k f)])) with true.
  unfold xAddHandler, xthen at 1. cbn [xok snd fst]. unfold xAddHandleFunc, ensure. cbn [t_nil t_allow]. rewrite on_mux_live. unfold AddHandleFunc. cbn [m_handlers set_seed].
  change (ahas id (m_handlers m1)) with false. cbn [fst snd ok]. unfold xthen. cbn [fst snd]. unfold xAnchorID. rewrite on_mux_live. unfold AddMessageIDAnchor. cbn [m_ids tick32 set_handlers set_seed].
  change (ahas id (m_ids m1)) with false. cbn [fst ok]. unfold index32. cbn [m_seed set_handlers set_seed tick32]. rewrite to_int32_next. change (m_seed m1) with 2.
  replace (2 + Z.of_nat n + 1) with (Z.of_nat n + 3) by lia. unfold xplan. cbn [t_nil t_m]. unfold plan_of. change (m_onmsg _) with (@None hdl) at 1. cbn iota.
  unfold plan_id. cbn [m_handlers set_ids set_handlers set_seed tick32]. rewrite aget_aset, keqb_refl. change (m_hb_id _) with 0. change (m_auth_id _) with 0.
  apply Z.eqb_neq in Hid. rewrite Hid. cbn [andb]. cbn [m_ids set_ids]. rewrite aget_aset, keqb_refl.
  change (m_anchors _) with [Anchor k f [2] []]. change (m_globals _) with (@nil hdl). change (m_self _) with (@nil (Z * list hdl)). cbn.
  destruct (2 <=? to_int32 (Z.of_nat n + 3)) eqn:C; rewrite ?C; reflexivity.
Qed.

Lemma p_C132_wrap_refuted : ~ forall n k f id g, id <> 0 ->
  xplan (ById id) (xbuild (XSrv (OAdd id [] g) :: repeat XTick n ++ [XSrv (OUse k f)])) = RunChain [f; g].
Proof.
  intros H. specialize (H (Z.to_nat (two31 - 3)) "m"%string (User 1) 5 (User 2) ltac:(discriminate)). rewrite p_C132_wrap in H by discriminate.
  rewrite Z2Nat.id in H by discriminate. discriminate H.
Qed.

Lemma windows_ok s : forall e i, (List.length e <= List.length s)%nat -> exists b, windows s e i = Ok b.
Proof.
  induction s as [|x s IH]; intros [|y e] i H; cbn in *; try lia; eauto.
  destruct ((x <=? i) && (i <=? y)); eauto. apply IH. lia.
Qed.
Lemma contains_ok a i : check_valid a = true -> exists b, Contains a i = Ok b.
Proof.
  unfold check_valid, Contains. destruct (Nat.eqb_spec (List.length (a_starts a)) (List.length (a_ends a))) as [E|E]; cbn [orb].
  - intros _. apply windows_ok. lia.
  - intros H. apply Nat.eqb_eq in H. destruct (rev (a_starts a)) as [|x r] eqn:R.
    + apply (f_equal (@List.length Z)) in R. rewrite rev_length in R. cbn in R. lia.
    + destruct (x <=? i); eauto. apply windows_ok. lia.
Qed.
Lemma select_ok l i : forallb check_valid l = true -> exists x, select_anchors l i = Ok x.
Proof.
  induction l as [|a l IH]; cbn; eauto. rewrite andb_true_iff. intros (A & B). destruct (contains_ok a i A) as (b & ->). destruct (IH B) as (x & ->). cbn. eauto.
Qed.

Lemma p_C132_panics : forall t, xcheckPrepare t = true -> m_onmsg (t_m t) = None ->
  (forall id, xplan (ById id) t = PlanPanic <-> id_unindexed (t_m t) id) /\
  (forall u, xplan (ByURL u) t = PlanPanic <-> url_unindexed (t_m t) u).
Proof.
  intros [m a n] Hc Ho. unfold xcheckPrepare in Hc. cbn [t_nil t_m] in *. destruct n; [discriminate|]. cbn in Hc. unfold xplan, plan_of. cbn [t_nil t_m]. rewrite Ho. split.
  - intros id. unfold plan_id, id_unindexed, directly. destruct (aget id (m_handlers m)) as [f|]; [|split; [discriminate|intros (X & _); congruence]].
    destruct (Z.eqb_spec id (m_hb_id m)) as [->|N1]; destruct (m_hb_through m) eqn:T1; cbn [andb negb];
    try (split; [discriminate|intros (_ & X & _); exfalso; apply X; left; split; reflexivity]);
    (destruct (Z.eqb_spec id (m_auth_id m)) as [->|N2] || destruct (Z.eqb_spec (m_hb_id m) (m_auth_id m)) as [N2|N2]); destruct (m_auth_through m) eqn:T2; cbn [andb negb];
    try (split; [discriminate|intros (_ & X & _); exfalso; apply X; right; split; auto]);
    match goal with |- context [aget ?id (m_ids m)] => destruct (aget id (m_ids m)) as [i|] end;
    try (destruct (select_ok (m_anchors m) i Hc) as (x & ->); split; [discriminate|intros (_ & _ & X); discriminate]);
    (split; [intros _; split; [discriminate|]; split; [|reflexivity]; intros [(X & Y)|(X & Y)]; congruence|reflexivity]).
  - intros u. unfold plan_url, url_unindexed. destruct (aget u (m_urls m)) as [hs|]; [|split; [discriminate|intros (X & _); congruence]].
    destruct (aget u (m_urlids m)) as [i|]; [|split; [intros _; split; [discriminate|reflexivity]|reflexivity]].
    destruct (select_ok (m_anchors m) i Hc) as (x & ->). split; [discriminate|intros (_ & X); discriminate].
Qed.

Lemma p_C132_unchecked_refuted : ~ forall t id, t_nil t = false -> m_onmsg (t_m t) = None -> xplan (ById id) t = PlanPanic -> id_unindexed (t_m t) id.
Proof.
  intros H. destruct (H (xbuild [XMiddle (Anchor "m" (User 1) [5] [1; 1]); XSrv (OAdd 7 [] (User 2))]) 7 eq_refl eq_refl eq_refl) as (_ & _ & X). discriminate X.
Qed.

Lemma p_C132_bare_refuted :
  (~ forall h id f, snd (xstep (XFunc id f) (xbuild h)) = false -> xplan (ById id) (xbuild (XFunc id f :: h)) <> PlanPanic) /\
  (~ forall h p l, snd (xstep (XAny p l) (xbuild h)) = false -> xplan (ByURL p) (xbuild (XAny p l :: h)) <> PlanPanic).
Proof.
  split; intros H.
  - apply (H [] 5 (User 1) eq_refl). reflexivity.
  - apply (H [] "u"%string [User 1] eq_refl). reflexivity.
Qed.

Lemma p_C132_by_hand : forall t id f, t_nil t = false -> by_hand id f t = xstep (XSrv (OAdd id [] f)) t.
Proof.
  intros [m a n] id f Hn. cbn in Hn. subst n. unfold by_hand. cbn [xstep x_op]. unfold xAddHandler, ensure. unfold xthen at 3. cbn [xok snd fst t_nil].
  unfold xAddHandleFunc. cbn [t_nil t_allow]. destruct a; [|reflexivity]. rewrite on_mux_live. unfold AddHandleFunc. destruct (ahas id (m_handlers m)); [reflexivity|].
  unfold xthen at 1 3. cbn [snd fst ok]. unfold xAnchorID. rewrite !on_mux_live. unfold xthen. cbn [fst snd ok]. rewrite on_mux_live. cbn [t_m]. unfold tick32. cbn [m_seed set_seed]. reflexivity.
Qed.

Definition anchored (p : string) (l : list hdl) (m : mux) : mux := set_urlids (aset p (index32 m) (m_urlids m)) (tick32 (set_urls (aset p l (m_urls m)) m)).
Lemma url_hand_eq m p l : aget p (m_urls m) = None -> aget p (m_urlids m) = None -> url_by_hand p l (TX m true false) = (TX (anchored p l m) true false, false).
Proof.
  intros Hu Hi. unfold url_by_hand, xthen. cbn [xstep]. unfold xMuxAny. cbn [t_nil t_allow]. rewrite on_mux_live. unfold AddURLPatternHandler. rewrite Hu. cbn [snd fst ok]. rewrite on_mux_live. cbn [snd fst ok t_m].
  rewrite on_mux_live. unfold AddURLAnchor. replace (ahas p (m_urlids (tick32 (set_urls (aset p l (m_urls m)) m)))) with false; [reflexivity|]. unfold ahas. cbn [m_urlids tick32 set_seed set_urls]. rewrite Hi. reflexivity.
Qed.
Lemma anchored_plan p l m b sel : m_onmsg m = None -> select_anchors (m_anchors m) (index32 m) = Ok sel -> xplan (ByURL p) (TX (anchored p l m) b false) = RunChain (m_globals m ++ sel ++ l).
Proof.
  intros Ho Hs. unfold xplan, plan_of. cbn [t_nil t_m]. change (m_onmsg (anchored p l m)) with (m_onmsg m). rewrite Ho. unfold plan_url.
  change (m_urls (anchored p l m)) with (aset p l (m_urls m)). change (m_urlids (anchored p l m)) with (aset p (index32 m) (m_urlids m)). rewrite !aget_aset, !keqb_refl.
  change (m_anchors (anchored p l m)) with (m_anchors m). rewrite Hs. reflexivity.
Qed.

Lemma p_C132_url_once : forall t p l sel, t_nil t = false -> t_allow t = true -> m_onmsg (t_m t) = None ->
  aget p (m_urls (t_m t)) = None -> aget p (m_urlids (t_m t)) = None -> select_anchors (m_anchors (t_m t)) (index32 (t_m t)) = Ok sel ->
  snd (url_by_hand p l t) = false /\ xplan (ByURL p) (fst (url_by_hand p l t)) = RunChain (m_globals (t_m t) ++ sel ++ l).
Proof.
  intros [m a n] p l sel Hn Ha Ho Hu Hi Hs. cbn [t_nil t_allow t_m] in *. subst a n. rewrite url_hand_eq by auto. split; [reflexivity|]. apply anchored_plan; auto.
Qed.

Lemma locked_step o t : (forall b, o <> XAllow b) -> o <> XNil -> t_nil t = false -> t_allow t = false ->
  t_nil (fst (xstep o t)) = false /\ t_allow (fst (xstep o t)) = false /\
  (forall id f, aget id (m_handlers (t_m (fst (xstep o t)))) = Some f -> aget id (m_handlers (t_m t)) = Some f).
Proof.
  intros NA NN. destruct t as [m a n]. intros Hn Ha. cbn in Hn, Ha. subst a n.
  assert (KEEP : forall (r : out), m_handlers (fst r) = m_handlers m -> t_nil (fst (TX (fst r) false false, snd r)) = false /\ t_allow (fst (TX (fst r) false false, snd r)) = false /\
    (forall id f, aget id (m_handlers (t_m (fst (TX (fst r) false false, snd r)))) = Some f -> aget id (m_handlers (t_m (TX m false false))) = Some f)).
  { intros r E. cbn. rewrite E. auto. }
  assert (ADD : forall m1 id ms f, m_handlers m1 = m_handlers m -> t_nil (fst (xAddHandler id ms f (TX m1 false false))) = false /\ t_allow (fst (xAddHandler id ms f (TX m1 false false))) = false /\
    (m_handlers (t_m (fst (xAddHandler id ms f (TX m1 false false)))) = m_handlers m)).
  { intros m1 id ms f E. unfold xAddHandler, xthen, ensure, xAddHandleFunc. destruct ms as [|x ms]; [cbn; auto|]. unfold xAddSelf. rewrite on_mux_live. destruct (ahas id (m_self m1)); cbn; auto. }
  destruct o as [o|b| |id f| |id i|p i|p l|id l|l|an|an]; cbn [xstep]; try (exfalso; eapply NA; reflexivity); try congruence.
  - destruct o as [k f|k|l|id ms f|p l|on thr id|id f|yes thr id f|f]; cbn [x_op].
    + unfold ensure. cbn [t_nil]. rewrite on_mux_live. apply KEEP. unfold xuse1. destruct (callUse _ _); [|reflexivity]. destruct (ahas k (m_amap m)); [reflexivity|]. unfold add_anchor. destruct (ahas _ _); reflexivity.
    + rewrite on_mux_live. apply KEEP. unfold xunuse1. destruct (aget k (m_amap m)) as [a|]; [|reflexivity]. destruct (callUnUse a (index32 m)) as [a'|]; [|reflexivity]. unfold replace_middleware. destruct (ahas _ _); reflexivity.
    + unfold ensure. cbn [t_nil]. rewrite on_mux_live. apply KEEP. reflexivity.
    + destruct (ADD m id ms f eq_refl) as (A & B & C). rewrite C. auto.
    + unfold xAny. destruct l as [|x l]; [cbn; auto|].
      assert (UE : forall m l, m_handlers (AddURLPatternHandler p l m) = m_handlers m) by (intros m0 l0; unfold AddURLPatternHandler; destruct (aget p (m_urls m0)); reflexivity).
      assert (G : forall m1, m_handlers m1 = m_handlers m -> t_nil (fst (xAnchorURL p (TX m1 false false))) = false /\ t_allow (fst (xAnchorURL p (TX m1 false false))) = false /\
        m_handlers (t_m (fst (xAnchorURL p (TX m1 false false)))) = m_handlers m).
      { intros m1 E. unfold xAnchorURL. rewrite on_mux_live. unfold AddURLAnchor. destruct (ahas _ _); cbn; auto. }
      destruct (1 <? List.length (x :: l))%nat.
      * rewrite on_mux_live. unfold xthen. cbn [snd fst ok]. unfold xMuxAny. cbn [t_nil t_allow xok snd fst]. destruct (G (AddURLPatternHandler p (x :: l) m)) as (A & B & C); [apply UE|]. rewrite C. auto.
      * unfold xthen. cbn [xok snd fst]. unfold xMuxAny. cbn [t_nil t_allow xok snd fst]. destruct (G m eq_refl) as (A & B & C). rewrite C. auto.
    + unfold x_fields. cbn [t_m t_allow t_nil]. destruct on; [|cbn; auto]. destruct (ADD (set_hb true id thr m) id [] Beat eq_refl) as (A & B & C). rewrite C. auto.
    + rewrite on_mux_live. unfold xthen. cbn [snd fst ok]. unfold x_fields. cbn [t_m t_allow t_nil]. unfold xAddHandler, xthen. cbn. split; [auto|]. split; [auto|].
      intros id' f' H. rewrite aget_adel in H. destruct (keqb id' (m_hb_id m)); [discriminate|exact H].
    + unfold x_fields. cbn [t_m t_allow t_nil]. destruct yes; [|cbn; auto]. destruct (ADD (set_auth true id thr m) id [] f eq_refl) as (A & B & C). rewrite C. auto.
    + cbn. auto.
  - cbn. auto.
  - rewrite on_mux_live. apply KEEP. reflexivity.
  - rewrite on_mux_live. apply KEEP. unfold AddMessageIDAnchor. destruct (ahas _ _); reflexivity.
  - rewrite on_mux_live. apply KEEP. unfold AddURLAnchor. destruct (ahas _ _); reflexivity.
  - cbn. auto.
  - unfold xAddSelf. rewrite on_mux_live. apply KEEP. destruct (ahas _ _); [reflexivity|]. destruct l; reflexivity.
  - rewrite on_mux_live. apply KEEP. reflexivity.
  - rewrite on_mux_live. apply KEEP. unfold add_anchor. destruct (ahas _ _); reflexivity.
  - rewrite on_mux_live. apply KEEP. unfold replace_middleware. destruct (ahas _ _); reflexivity.
Qed.

Lemma p_C132_locked_partial : forall l h id f, t_nil (xbuild h) = false -> stays_locked l ->
  aget id (m_handlers (t_m (xbuild (l ++ XAllow false :: h)))) = Some f -> aget id (m_handlers (t_m (xbuild h))) = Some f.
Proof.
  intros l h id f Hn Hl.
  assert (G : t_nil (xbuild (l ++ XAllow false :: h)) = false /\ t_allow (xbuild (l ++ XAllow false :: h)) = false /\
    (forall id f, aget id (m_handlers (t_m (xbuild (l ++ XAllow false :: h)))) = Some f -> aget id (m_handlers (t_m (xbuild h))) = Some f)).
  { induction l as [|o l IH].
    - cbn [app xbuild xstep]. rewrite Hn. cbn. auto.
    - destruct IH as (A & B & C); [intros b; destruct (Hl b) as (X & Y); split; intros Z; [apply X|apply Y]; right; auto|].
      cbn [app xbuild]. destruct (locked_step o (xbuild (l ++ XAllow false :: h))) as (A' & B' & C'); auto.
      + intros b ->. destruct (Hl b) as (X & _). apply X. left. reflexivity.
      + intros ->. destruct (Hl true) as (_ & Y). apply Y. left. reflexivity. }
  apply G.
Qed.

Lemma p_C132_locked_any_refuted : forall t p f g l, t_nil t = false -> t_allow t = false -> m_onmsg (t_m t) = None ->
  aget p (m_urls (t_m t)) = None -> aget p (m_urlids (t_m t)) = None -> forallb check_valid (m_anchors (t_m t)) = true ->
  (snd (xstep (XSrv (OAny p (f :: g :: l))) t) = false /\
   exists sel, xplan (ByURL p) (fst (xstep (XSrv (OAny p (f :: g :: l))) t)) = RunChain (m_globals (t_m t) ++ sel ++ f :: g :: l)) /\
  (snd (xstep (XSrv (OAny p [f])) t) = false /\ xplan (ByURL p) (fst (xstep (XSrv (OAny p [f])) t)) = Unrouted /\
   snd (xstep (XSrv (OAny p [f])) (fst (xstep (XAllow true) (fst (xstep (XSrv (OAny p [f])) t))))) = true).
Proof.
  intros [m a n] p f g l Hn Ha Ho Hu Hi Hc. cbn [t_nil t_allow t_m] in *. subst a n. cbn [xstep]. split.
  - assert (E : x_op (OAny p (f :: g :: l)) (TX m false false) = (TX (anchored p (f :: g :: l) m) false false, false)).
    { cbn [x_op]. unfold xAny, xthen. cbn [List.length Nat.ltb Nat.leb]. rewrite on_mux_live. unfold AddURLPatternHandler. rewrite Hu. cbn [snd fst ok]. unfold xMuxAny. cbn [t_nil t_allow xok snd fst].
      unfold xAnchorURL. rewrite on_mux_live. unfold AddURLAnchor. replace (ahas p _) with false; [reflexivity|]. unfold ahas. cbn [m_urlids tick32 set_seed set_urls]. rewrite Hi. reflexivity. }
    rewrite E. split; [reflexivity|]. destruct (select_ok (m_anchors m) (index32 m) Hc) as (sel & Es). exists sel. apply anchored_plan; auto.
  - assert (E : x_op (OAny p [f]) (TX m false false) = (TX (set_urlids (aset p (index32 m) (m_urlids m)) (tick32 m)) false false, false)).
    { cbn [x_op]. unfold xAny, xthen. cbn [List.length Nat.ltb Nat.leb]. cbn [xok snd fst]. unfold xMuxAny. cbn [t_nil t_allow xok snd fst].
      unfold xAnchorURL. rewrite on_mux_live. unfold AddURLAnchor. replace (ahas p _) with false; [reflexivity|]. unfold ahas. cbn [m_urlids tick32 set_seed]. rewrite Hi. reflexivity. }
    rewrite E. cbn [snd fst t_nil t_m xok]. split; [reflexivity|]. split.
    + unfold xplan, plan_of. cbn [t_nil t_m]. change (m_onmsg _) with (m_onmsg m) at 1. rewrite Ho. unfold plan_url. change (m_urls _) with (m_urls m) at 1. rewrite Hu. reflexivity.
    + cbn [x_op]. unfold xAny, xthen. cbn [List.length Nat.ltb Nat.leb]. cbn [xok snd fst]. unfold xMuxAny. cbn [t_nil t_allow xok snd fst]. rewrite on_mux_live. cbn [snd fst ok]. unfold xAnchorURL. rewrite on_mux_live.
      unfold AddURLAnchor. replace (ahas p _) with true; [reflexivity|]. unfold AddURLPatternHandler. cbn [m_urls set_urlids tick32 set_seed]. rewrite Hu. unfold ahas. cbn [m_urlids set_urls set_urlids tick32 set_seed]. rewrite aget_aset, keqb_refl. reflexivity.
Qed.

Lemma p_C132_leftover_refuted : forall t id m0 ms f, t_nil t = false -> t_allow t = false -> aget id (m_self (t_m t)) = None ->
  snd (xstep (XSrv (OAdd id (m0 :: ms) f)) t) = true /\
  aget id (m_self (t_m (fst (xstep (XSrv (OAdd id (m0 :: ms) f)) t)))) = Some (m0 :: ms) /\
  snd (xstep (XSrv (OAdd id (m0 :: ms) f)) (fst (xstep (XAllow true) (fst (xstep (XSrv (OAdd id (m0 :: ms) f)) t))))) = true.
Proof.
  intros [m a n] id m0 ms f Hn Ha Hs. cbn [t_nil t_allow t_m] in *. subst a n. cbn [xstep].
  assert (E : x_op (OAdd id (m0 :: ms) f) (TX m false false) = (TX (set_self (aset id (m0 :: ms) (m_self m)) m) false false, true)).
  { cbn [x_op]. unfold xAddHandler, xAddSelf, xthen. rewrite on_mux_live. unfold ahas. rewrite Hs. reflexivity. }
  rewrite E. cbn [snd fst t_nil t_m xok m_self set_self]. rewrite aget_aset, keqb_refl. split; [reflexivity|]. split; [reflexivity|].
  cbn [x_op]. unfold xAddHandler, xAddSelf, xthen. rewrite on_mux_live. unfold ahas. cbn [m_self set_self]. rewrite aget_aset, keqb_refl. reflexivity.
Qed.

Lemma p_C132_nil : forall t, t_nil t = true -> exists m', emptied (t_m t) m' /\
  (forall k f, xstep (XSrv (OUse k f)) t = xstep (XSrv (OUse k f)) (TX m' true false)) /\
  (forall l, xstep (XSrv (OGlobal l)) t = xstep (XSrv (OGlobal l)) (TX m' true false)) /\
  (forall id f, xstep (XSrv (OAdd id [] f)) t = xstep (XSrv (OAdd id [] f)) (TX m' true false)) /\
  (forall k p l id m0 ms f, xstep (XSrv (OUnUse k)) t = (t, true) /\ xstep (XSrv (OAny p l)) t = (t, true) /\
     xstep (XSrv (OAdd id (m0 :: ms) f)) t = (t, true) /\ xstep (XSrv (ORewrite id f)) t = (t, true)) /\
  (forall o, match o with XSrv _ | XNil => False | _ => True end -> xstep o t = (t, true)) /\
  xcheckPrepare t = false.
Proof.
  intros [m a n] Hn. cbn in Hn. subst n. cbn [t_m]. exists (fresh m). split; [repeat split|].
  split; [reflexivity|]. split; [reflexivity|]. split; [reflexivity|]. split; [|split; [intros [ | | | | | | | | | | | ] X; try contradiction; reflexivity|reflexivity]].
  intros k p l id m0 ms f. split; [reflexivity|]. split; [|split; reflexivity]. cbn [xstep x_op]. unfold xAny. destruct l as [|x [|y l]]; reflexivity.
Qed.

Lemma p_C132_assign : forall t, 
  (snd (xstep XNil t) = false /\ t_nil (fst (xstep XNil t)) = true /\ emptied (t_m t) (t_m (fst (xstep XNil t)))) /\
  (forall b, t_nil t = false -> xstep (XAllow b) t = (TX (t_m t) b false, false)).
Proof.
  intros [m a n]. split.
  - split; [reflexivity|]. split; [reflexivity|]. cbn. repeat split.
  - intros b H. cbn [t_nil] in H. subst n. reflexivity.
Qed.

Lemma p_C132_self : forall t id l, t_nil t = false ->
  (snd (xstep (XSelf id l) t) = true <-> aget id (m_self (t_m t)) <> None) /\
  (aget id (m_self (t_m t)) = None ->
     (l = [] -> xstep (XSelf id l) t = (t, false)) /\
     (l <> [] -> (forall id', aget id' (m_self (t_m (fst (xstep (XSelf id l) t)))) = if id' =? id then Some l else aget id' (m_self (t_m t))) /\
                 t_m (fst (xstep (XSelf id l) t)) = set_self (m_self (t_m (fst (xstep (XSelf id l) t)))) (t_m t)) /\
     forall f, xthen (xstep (XSelf id l) t) (fun t1 => xstep (XSrv (OAdd id [] f)) t1) = xstep (XSrv (OAdd id l f)) t).
Proof.
  intros [m al nl] id l Hn. cbn [t_nil t_m] in *. subst nl. cbn [xstep]. unfold xAddSelf. rewrite !on_mux_live. unfold ahas. split.
  - destruct (aget id (m_self m)); cbn [snd]; [split; [discriminate|reflexivity]|]. destruct l; cbn; split; congruence.
  - intros Hs. rewrite Hs. split; [|split].
    + intros ->. reflexivity.
    + intros Hl. destruct l as [|x l]; [congruence|]. cbn [fst snd ok t_m]. split; [|destruct m; reflexivity]. intros id'. unfold set_self. cbn [m_self]. rewrite aget_aset. reflexivity.
    + intros f. destruct l as [|x l]; [reflexivity|]. cbn [x_op]. unfold xAddHandler, xAddSelf. rewrite !on_mux_live. unfold ahas. rewrite Hs. reflexivity.
Qed.

Lemma p_C132_nil_requests : forall t r, t_nil t = true ->
  (xplan r t = Unrouted <-> m_onmsg (t_m t) = None /\ r = ByNothing) /\ (xplan r t = PlanPanic <-> ~ (m_onmsg (t_m t) = None /\ r = ByNothing)).
Proof.
  intros t r N. unfold xplan. rewrite N. destruct (m_onmsg (t_m t)) as [f|], r; (split; split; try discriminate; try (intros _; auto; fail)); try (intros (A & B); discriminate); intros H; try (intros (A & B); discriminate); try (exfalso; apply H; auto; fail); try reflexivity; auto.
Qed.
