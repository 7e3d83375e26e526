(* Heartbeat and authentication messages reach their handlers (C91). *)
From Verif Require Export SpecBeat EndProofs CtxProofs.

Lemma announced_serving id f o q1 : asks_for id o f -> serving id q1 = None -> forall q2,
  (forall i g, ~ In (ORewrite i g) q2) -> exists r, serving id (q2 ++ o :: q1) = Some r /\ r_fn r = f.
Proof.
  intros A S0. induction q2 as [|a q2 IH]; intros N.
  - cbn [app]. destruct A; cbn [serving]; rewrite S0, Z.eqb_refl; cbn; eauto.
  - cbn [app serving]. destruct IH as (r & E & F); [intros i g J; apply (N i g); right; auto|].
    rewrite E. assert (L : exists r', later a (Some r) = Some r' /\ r_fn r' = f) by (cbn; eauto).
    destruct L as (r' & L & F'). rewrite L.
    destruct a as [k u|k|l|i ms g|u l|on thr i|i g|y thr i g|u]; try (eauto; fail).
    + destruct (id =? i); eauto. destruct ms, (own id (q2 ++ o :: q1)); eauto.
    + destruct on; eauto. destruct (id =? i); eauto.
    + exfalso. apply (N i g). left; auto.
    + destruct y; eauto. destruct (id =? i); eauto.
Qed.

Lemma globals_given q f : In f (globals q) -> exists o, In o q /\ In f (given o).
Proof.
  induction q as [|o q IH]; cbn [globals]; [intros []|].
  assert (K : In f (globals q) -> exists o0, In o0 (o :: q) /\ In f (given o0)).
  { intros H. destruct (IH H) as (a & A & B). exists a. split; [right|]; auto. }
  destruct o; auto. intros H. apply in_app_or in H. destruct H; auto. exists (OGlobal l). split; [left|]; auto.
Qed.

Lemma first_given q k f : In (k, f) (first_uses q) -> exists o, In o q /\ In f (given o).
Proof.
  induction q as [|o q IH]; cbn [first_uses]; [intros []|].
  assert (K : In (k, f) (first_uses q) -> exists o0, In o0 (o :: q) /\ In f (given o0)).
  { intros H. destruct (IH H) as (a & A & B). exists a. split; [right|]; auto. }
  destruct o as [k' g| | | | | | | |]; auto. destruct (ahas k' (first_uses q)); auto.
  intros H. apply in_app_or in H. destruct H as [H|[H|[]]]; auto. injection H as -> ->. exists (OUse k f). split; [left|]; cbn; auto.
Qed.

Lemma own_given id q f : In f (own id q) -> exists o, In o q /\ In f (given o).
Proof.
  induction q as [|o q IH]; cbn [own]; [intros []|].
  assert (K : In f (own id q) -> exists o0, In o0 (o :: q) /\ In f (given o0)).
  { intros H. destruct (IH H) as (a & A & B). exists a. split; [right|]; auto. }
  destruct o as [| | |i ms g| | | | |]; auto. destruct (own id q); auto. destruct (id =? i); [|intros []].
  intros H. exists (OAdd i ms g). split; [left|]; cbn; auto.
Qed.

Lemma plan_given q id r : serving id q = Some r -> exists l,
  (planned q (ById id) = Direct (r_fn r) /\ l = [] \/ planned q (ById id) = RunChain (l ++ [r_fn r])) /\
  forall g, In g l -> exists o, In o q /\ In g (given o).
Proof.
  intros S0. cbn [planned]. unfold spec_plan. rewrite S0.
  assert (D : exists l, l = @nil hdl) by eauto.
  destruct (_ && _); [exists []; split; auto; intros ? []|]. destruct (_ && _); [exists []; split; auto; intros ? []|].
  exists (globals q ++ covering effectively_covered r q ++ own id q). split.
  - right. rewrite <- !app_assoc. reflexivity.
  - intros g H. apply in_app_or in H. destruct H as [H|H]; [apply globals_given; auto|].
    apply in_app_or in H. destruct H as [H|H]; [|eapply own_given; eauto].
    unfold covering in H. apply in_map_iff in H. destruct H as ((k & g') & E & H). cbn in E. subst g'.
    apply filter_In in H. destruct H as (H & _). eapply first_given; eauto.
Qed.

Lemma gin_steady beh :
  (forall hs tr st rest, gin_chain beh hs tr st rest -> (forall h, In h hs -> ~ In AAbort (beh h) /\ ~ In APanic (beh h)) ->
     st = Returned /\ rest = [] /\ forall h n, In h hs -> In (AEff n) (beh h) -> In (EEff n) tr) /\
  (forall acts hs tr st rest, gin_body beh acts hs tr st rest -> ~ In AAbort acts -> ~ In APanic acts ->
     (forall h, In h hs -> ~ In AAbort (beh h) /\ ~ In APanic (beh h)) ->
     st = Returned /\ (forall h, In h rest -> In h hs) /\ (forall n, In (AEff n) acts -> In (EEff n) tr) /\
     forall h, In h hs -> In h rest \/ forall n, In (AEff n) (beh h) -> In (EEff n) tr).
Proof.
  apply gin_mut; cbn [In].
  - intros _. repeat split. intros h n [].
  - intros h hs t1 rest t2 st rest' _ IB _ IC G.
    destruct (IB (proj1 (G h (or_introl eq_refl))) (proj2 (G h (or_introl eq_refl))) (fun h' J => G h' (or_intror J))) as (_ & Sub & Own & Rest).
    destruct (IC (fun h' J => G h' (or_intror (Sub h' J)))) as (-> & -> & All).
    split; [reflexivity|]. split; [reflexivity|]. intros h' n [<-|J] E; right; apply in_or_app.
    + left. auto.
    + destruct (Rest h' J) as [K|K]; [right; eapply All; eauto|left; auto].
  - intros h hs t1 rest _ IB G.
    destruct (IB (proj1 (G h (or_introl eq_refl))) (proj2 (G h (or_introl eq_refl))) (fun h' J => G h' (or_intror J))) as (X & _). discriminate X.
  - intros rest _ _ _. split; [reflexivity|]. split; [auto|]. split; [intros n []|]. intros h J. left. exact J.
  - intros n r rest t st rest' _ IB NA NP G. destruct IB as (-> & Sub & Own & Rest); auto.
    split; [reflexivity|]. split; [exact Sub|]. split.
    + intros m [E|J]; [injection E as ->; left; auto|right; auto].
    + intros h J. destruct (Rest h J) as [K|K]; [left; auto|right; intros m E; right; auto].
  - intros r rest t1 rest1 t2 st rest' _ IC _ IB NA NP G. destruct (IC G) as (_ & -> & All).
    destruct IB as (-> & Sub & Own & Rest); [tauto|tauto|intros h []|].
    split; [reflexivity|]. split; [intros h J; destruct (Sub h J)|]. split.
    + intros m [E|J]; [discriminate E|apply in_or_app; right; auto].
    + intros h J. right. intros m E. apply in_or_app. left. eapply All; eauto.
  - intros r rest t1 rest1 _ IC NA NP G. destruct (IC G) as (X & _). discriminate X.
  - intros r rest t1 st1 rest1 t2 st rest' _ IC _ IB NA NP G. destruct (IC G) as (_ & -> & All).
    destruct IB as (-> & Sub & Own & Rest); [tauto|tauto|intros h []|].
    split; [reflexivity|]. split; [intros h J; destruct (Sub h J)|]. split.
    + intros m [E|J]; [discriminate E|apply in_or_app; right; auto].
    + intros h J. right. intros m E. apply in_or_app. left. eapply All; eauto.
  - intros r rest t st rest' _ _ NA. exfalso. apply NA. auto.
  - intros r rest _ NP. exfalso. apply NP. auto.
Qed.

Lemma p_C91_reaches_handler_partial : forall hc q q1 q2 o id f behave n h x c cx hd,
  q = q2 ++ o :: q1 -> asks_for id o f -> refused o q1 = false -> (forall i g, ~ In (ORewrite i g) q2) -> onmessage q = None ->
  nth_error (w_ctxs (crun hc h)) x = Some cx -> nth_error (born h) x = Some (Req c) -> was_reset h x = false ->
  (forall s, read_on h c s -> exists id' hd', is_message hc s id' hd' /\ asked_type hd' = "MESSAGE_ID"%string) ->
  leaves_alone h c (KStr "router_type") -> is_message hc (stream_of h x) id hd ->
  not_too_long (planned q (ById id)) ->
  steady behave Beat -> (forall o' g, In o' q -> In g (given o') -> steady behave g) ->
  In (AEff n) (behave f) ->
  exists tr, handleMiddleware hc (build q) behave (-1) cx (crun hc h) = Some (tr, Returned) /\ In (EEff n) tr.
Proof.
  intros hc q q1 q2 o id f behave n h x c cx hd Eq A R N Q Hx Bx Rx Hu Hn M L SB SG En.
  assert (S0 : serving id q1 = None).
  { destruct A; cbn [refused] in R; destruct (serving id q1); auto; discriminate R. }
  destruct (announced_serving id f o q1 A S0 q2 N) as (r & S1 & F1). rewrite <- Eq in S1.
  assert (T : asked_type hd = "MESSAGE_ID"%string).
  { destruct (Hu _ (req_stream _ _ _ Bx)) as (id' & hd' & M' & T'). destruct (is_message_header _ _ _ _ M) as (E1 & _).
    destruct (is_message_header _ _ _ _ M') as (E2 & _). congruence. }
  assert (K : asked_routing hd id = ById id).
  { pose proof T as T'. unfold asked_type in T'. unfold asked_routing. destruct (hget "Router-Type" hd) as [v|]; [|reflexivity]. destruct v; try reflexivity. subst s. reflexivity. }
  destruct (p_C70_handled_as_planned hc q behave h x c cx _ id hd Q Hx Bx Rx Hu Hn M) as (tr & st & E & P).
  { rewrite K. exact L. }
  rewrite K in P. rewrite E.
  destruct (plan_given q id r S1) as (l & D & G).
  assert (SF : steady behave f).
  { destruct A as [thr|thr f]; auto. apply (SG (OAuth true thr id f)); [rewrite Eq; apply in_or_app; right; left; auto|left; auto]. }
  subst f.
  destruct D as [(D & ->)|D]; rewrite D in P.
  - inversion P as [|g tr' st' rest B|]; subst. destruct (proj2 (gin_steady (fun _ => [])) _ _ _ _ _ B) as (-> & _ & O & _); [apply SF|apply SF|intros ? []|].
    exists tr. split; auto.
  - inversion P as [| |l' tr' st' rest B]; subst. destruct (proj1 (gin_steady _) _ _ _ _ B) as (-> & _ & O).
    + intros i _. destruct (nth_in_or_default i (l ++ [r_fn r]) Beat) as [J|J]; [|rewrite J; exact SB].
      apply in_app_or in J. destruct J as [J|[J|[]]]; [|rewrite <- J; exact SF]. destruct (G _ J) as (a & A1 & A2). eapply SG; eauto.
    + exists tr. split; auto. apply (O (List.length l)).
      * apply in_seq. rewrite app_length. cbn. lia.
      * rewrite app_nth2 by lia. rewrite Nat.sub_diag. exact En.
Qed.

Lemma exec_effects next acts m : (forall o t s o', next o = Some (t, s, o') -> ~ In (EEff m) t) -> ~ In (AEff m) acts ->
  forall off t s o, exec next acts off = Some (t, s, o) -> ~ In (EEff m) t.
Proof.
  intros Hn. induction acts as [|a acts IH]; intros NA off t s o E; cbn [exec] in E.
  - injection E as <- _ _. intros [].
  - assert (NA' : ~ In (AEff m) acts) by (intros J; apply NA; right; auto). specialize (IH NA').
    destruct a as [z| | | |].
    + destruct (exec next acts off) as [[[t' s'] o']|] eqn:E'; [|discriminate E]. injection E as <- <- <-.
      intros [J|J]; [injection J as ->; apply NA; left; auto|eapply IH; eauto].
    + destruct (next off) as [[[t1 s1] o1]|] eqn:E1; [|discriminate E]. destruct s1.
      * destruct (exec next acts o1) as [[[t' s'] o']|] eqn:E'; [|discriminate E]. injection E as <- <- <-.
        intros J. apply in_app_or in J. destruct J as [J|J]; [exact (Hn _ _ _ _ E1 J)|exact (IH _ _ _ _ E' J)].
      * injection E as <- <- <-. eapply Hn; eauto.
    + destruct (next off) as [[[t1 s1] o1]|] eqn:E1; [|discriminate E].
      destruct (exec next acts o1) as [[[t' s'] o']|] eqn:E'; [|discriminate E]. injection E as <- <- <-.
      intros J. apply in_app_or in J. destruct J as [J|J]; [exact (Hn _ _ _ _ E1 J)|exact (IH _ _ _ _ E' J)].
    + destruct (exec next acts ABORT) as [[[t' s'] o']|] eqn:E'; [|discriminate E]. injection E as <- <- <-.
      intros [J|J]; [discriminate J|eapply IH; eauto].
    + injection E as <- <- <-. intros [].
Qed.

Lemma loop_effects c m : (forall h, In h (ch_handlers c) -> ~ In (AEff m) (ch_beh c h)) ->
  forall f off t s o, loop c f off = Some (t, s, o) -> ~ In (EEff m) t.
Proof.
  intros H. induction f as [|f IH]; intros off t s o E; cbn [loop] in E; [discriminate E|].
  destruct (off <? _); [|injection E as <- _ _; intros []]. destruct (ABORT <=? off); [injection E as <- _ _; intros []|].
  destruct (nth_error (ch_handlers c) (Z.to_nat off)) as [g|] eqn:Eg; [|injection E as <- _ _; intros []].
  destruct (exec _ (ch_beh c g) off) as [[[t1 s1] o1]|] eqn:E1; [|discriminate E].
  assert (X : ~ In (EEff m) t1).
  { refine (exec_effects _ _ _ _ (H g (nth_error_In _ _ Eg)) _ _ _ _ E1). intros o' t' s' o'' E'. exact (IH _ _ _ _ E'). }
  destruct s1.
  - destruct (loop c f (o1 + 1)) as [[[t2 s2] o2]|] eqn:E2; [|discriminate E]. injection E as <- <- <-.
    intros [J|J]; [discriminate J|]. apply in_app_or in J. destruct J as [J|J]; [exact (X J)|exact (IH _ _ _ _ E2 J)].
  - injection E as <- <- <-. intros [J|J]; [discriminate J|auto].
Qed.

Lemma p_C91_onmessage_refuted : forall hc q q1 q2 o id f g behave n off cx w,
  q = q2 ++ o :: q1 -> asks_for id o f -> onmessage q = Some g -> -1 <= off ->
  In (AEff n) (behave f) -> only_for behave q id n ->
  exists tr st, handleMiddleware hc (build q) behave off cx w = Some (tr, st) /\ ~ In (EEff n) tr.
Proof.
  intros hc q q1 q2 o id f g behave n off cx w Eq A Q Ho En Ob.
  destruct (handle_total hc (build q) behave off cx w Ho) as (tr & st & E). exists tr, st. split; auto.
  unfold handleMiddleware in E. rewrite (i_onmsg q (MuxFacts.inv_all q)), Q in E.
  assert (P : plan_onmessage g (build q) = RunChain (globals q ++ map snd (first_uses q) ++ [g])).
  { pose proof (p_C31_onmessage_replaces_routing q g ByNothing Q) as X. unfold plan_of in X. rewrite (i_onmsg q (MuxFacts.inv_all q)), Q in X. exact X. }
  rewrite P in E. cbn [run_plan] in E. set (l := globals q ++ map snd (first_uses q) ++ [g]) in *.
  destruct (run_from off (act_chain behave l)) as [[[t s] o']|] eqn:E'; [|discriminate E]. injection E as <- <-.
  unfold run_from in E'. eapply loop_effects; [|exact E']. cbn [act_chain ch_handlers ch_beh]. intros i Hi.
  apply in_seq in Hi. assert (J : In (nth i l Beat) l) by (apply nth_In; lia).
  assert (Gv : exists a, In a q /\ In (nth i l Beat) (given a) /\ (forall thr yes i' k, a <> OAuth yes thr i' k) /\ (forall on thr i', a <> OBeat on thr i')).
  { clear -J Q. generalize dependent (nth i l Beat). intros k J. unfold l in J. clear l.
    apply in_app_or in J. destruct J as [J|J].
    - clear Q. induction q as [|a q IH]; cbn [globals] in J; [destruct J|].
      assert (K : In k (globals q) -> exists a0, In a0 (a :: q) /\ In k (given a0) /\ (forall thr yes i' k0, a0 <> OAuth yes thr i' k0) /\ (forall on thr i', a0 <> OBeat on thr i')).
      { intros H. destruct (IH H) as (b & B & R). exists b. split; [right|]; auto. }
      destruct a; auto. apply in_app_or in J. destruct J as [J|J]; auto. exists (OGlobal l). split; [left; auto|]. split; [exact J|]. split; discriminate.
    - apply in_app_or in J. destruct J as [J|[<-|[]]].
      + clear Q. apply in_map_iff in J. destruct J as ((u & k') & E & J). cbn in E. subst k'. induction q as [|a q IH]; cbn [first_uses] in J; [destruct J|].
        assert (K : In (u, k) (first_uses q) -> exists a0, In a0 (a :: q) /\ In k (given a0) /\ (forall thr yes i' k0, a0 <> OAuth yes thr i' k0) /\ (forall on thr i', a0 <> OBeat on thr i')).
        { intros H. destruct (IH H) as (b & B & R). exists b. split; [right|]; auto. }
        destruct a as [k' z| | | | | | | |]; auto. destruct (ahas k' (first_uses q)); auto. apply in_app_or in J. destruct J as [J|[J|[]]]; auto. injection J as -> ->.
        exists (OUse u k). split; [left; auto|]. split; [left; auto|]. split; discriminate.
      + induction q as [|a q IH]; cbn [onmessage] in Q; [discriminate Q|].
        destruct a as [| | | | | | | |z]; try (destruct (IH Q) as (b & B & R); exists b; split; [right; auto|exact R]).
        subst z. exists (OOnMessage (Some g)). split; [left; auto|]. split; [left; auto|]. split; discriminate. }
  destruct Gv as (a & Ia & Ga & N1 & N2). apply (Ob a); auto. intros k X. inversion X; subst; [eapply N2; reflexivity|eapply N1; reflexivity].
Qed.

Lemma p_C91_after_url_refuted : forall hc q q1 q2 o id f behave off h h2 c y cy x cx hd,
  let h' := h2 ++ CRouter y :: h in
  q = q2 ++ o :: q1 -> asks_for id o f -> onmessage q = None -> url_serving "" q = None ->
  nth_error (w_ctxs (crun hc h)) y = Some cy -> nth_error (born h) y = Some (Req c) -> was_reset h y = false ->
  fst (RouterType hc cy (crun hc h)) = Ok "URL_PATTERN"%string ->
  existsb (names_key (KStr "router_type")) h2 = false ->
  nth_error (w_ctxs (crun hc h')) x = Some cx -> nth_error (born h') x = Some (Req c) -> was_reset h' x = false ->
  is_message hc (stream_of h' x) id hd -> hget "Router-Pattern-Value" hd = None ->
  handleMiddleware hc (build q) behave off cx (crun hc h') = Some ([], Returned).
Proof.
  intros hc q q1 q2 o id f behave off h h2 c y cy x cx hd h' Eq A Q U Hy By Ry Ty Hn Hx Bx Rx M V.
  destruct M as (G & I & B & hdr & body & L & D).
  destruct (p_C34_sticky_refuted hc h h2 c y cy "URL_PATTERN" x cx id hdr body hd Hy By Ry Ty Hn Hx Bx Rx I L B G D) as (_ & R).
  fold h' in R. unfold handleMiddleware. rewrite (i_onmsg q (MuxFacts.inv_all q)), Q, R.
  unfold routing_by. rewrite V. cbn [String.eqb]. destruct (plan_planned q (ByURL "") Q) as (P & _).
  assert (Z0 : (if String.eqb "URL_PATTERN" "MESSAGE_ID" then ById id else if String.eqb "URL_PATTERN" "URL_PATTERN" then ByURL "" else ByNothing) = ByURL "") by reflexivity.
  change (run_plan behave off (plan_of (ByURL "") (build q)) = Some ([], Returned)).
  rewrite P. cbn [planned]. unfold spec_url_plan. rewrite U. reflexivity.
Qed.
