(* C24-C33: registration and routing.  NODEMO *)
From Verif Require Export MuxPlan.

(* Calls with whole argument lists do nothing that single calls could not have done: every
   state reachable through the API is reached by a history of single calls (so the theorems
   below, stated for those, cover all of it). *)
Lemma use_pairs_reach m0 p : m0 = build p -> forall n l, (List.length l <= n)%nat -> exists q, fst (use_pairs l m0) = build (q ++ p).
Proof.
  intros ->. intros n. revert p. induction n as [|n IH]; intros p l Hl.
  - destruct l; [|simpl in Hl; lia]. exists []. reflexivity.
  - destruct l as [|[k|f|] l]; try (exists []; reflexivity).
    destruct l as [|[k'|f|] l]; try (exists []; reflexivity).
    simpl. unfold andthen.
    assert (E : step (OUse k f) (build p) = use1 k f (build p)).
    { unfold step, Use. simpl. unfold andthen. destruct (use1 k f (build p)) as [m b]. destruct b; reflexivity. }
    assert (F : fst (use1 k f (build p)) = build (OUse k f :: p)) by (rewrite <- E; reflexivity).
    destruct (snd (use1 k f (build p))) eqn:S.
    + exists [OUse k f]. exact F.
    + rewrite F. destruct (IH (OUse k f :: p) l) as (q & Q); [simpl in Hl; lia|].
      exists (q ++ [OUse k f]). rewrite <- app_assoc. exact Q.
Qed.

Lemma unuse_reach ks : forall p, exists q, fst (UnUse ks (build p)) = build (q ++ p).
Proof.
  induction ks as [|k ks IH]; intros p; [exists []; reflexivity|]. simpl. unfold andthen.
  assert (E : step (OUnUse k) (build p) = unuse1 k (build p)).
  { unfold step. simpl. unfold andthen. destruct (unuse1 k (build p)) as [m b]. destruct b; reflexivity. }
  assert (F : fst (unuse1 k (build p)) = build (OUnUse k :: p)) by (rewrite <- E; reflexivity).
  destruct (snd (unuse1 k (build p))).
  - exists [OUnUse k]. exact F.
  - rewrite F. destruct (IH (OUnUse k :: p)) as (q & Q). exists (q ++ [OUnUse k]). rewrite <- app_assoc. exact Q.
Qed.

Lemma api_step_reach a p : exists q, fst (api_step a (build p)) = build (q ++ p).
Proof.
  destruct a; simpl.
  - unfold Use. destruct (Nat.even (List.length l)); [|exists []; reflexivity]. eapply use_pairs_reach; eauto.
  - apply unuse_reach.
  - exists []. reflexivity.
  - exists [OBeat on false DEFAULT_HEARTBEAT_MESSAGEID]. reflexivity.
  - exists [o]. reflexivity.
Qed.

Lemma no_reuse_tail l h : no_reuse (l ++ h) -> no_reuse h.
Proof. induction l as [|o l IH]; simpl; auto. destruct o; tauto. Qed.

Lemma no_reuse_used k h : no_reuse h -> in_use k h = true -> ever_unused k h = false.
Proof.
  induction h as [|o p IH]; [discriminate|]. destruct o; simpl; auto.
  - intros [E H]. destruct (String.eqb_spec k k0); subst; auto.
  - intros H. destruct (String.eqb_spec k k0); subst; [discriminate|]. simpl. auto.
Qed.

Lemma no_reuse_first k f h : no_reuse h -> in_use k h = true -> aget k (first_uses h) = Some f -> latest_use k h = Some f.
Proof.
  induction h as [|o p IH]; [discriminate|]. destruct o; simpl; auto.
  - intros [E H]. unfold ahas. destruct (String.eqb_spec k k0); subst.
    + intros _. destruct (in_use k0 p) eqn:U.
      * pose proof (in_use_first k0 p U) as F. unfold ahas in F. destruct (aget k0 (first_uses p)) eqn:G; [|discriminate].
        intros X. simpl. apply IH; auto. congruence.
      * simpl. destruct (aget k0 (first_uses p)) eqn:G.
        -- exfalso. rewrite ever_ends in E. pose proof (lens k0 p) as L. rewrite U in L. destruct (ends k0 p); [|discriminate].
           assert (Z : starts k0 p = []) by (destruct (starts k0 p); [auto|discriminate]).
           clear - G Z. induction p as [|q p IHp]; [discriminate|]. destruct q; simpl in *; auto.
           unfold ahas in G. destruct (String.eqb_spec k0 k); subst; simpl in Z.
           ++ destruct (in_use k p) eqn:U; simpl in Z.
              ** pose proof (lens k p) as L. rewrite U, Z in L. simpl in L. lia.
              ** apply app_eq_nil in Z as [_ Z]. discriminate.
           ++ destruct (aget k (first_uses p)) eqn:G2; auto. rewrite aget_app in G.
              destruct (aget k0 (first_uses p)) eqn:G3; auto. simpl in G.
              apply String.eqb_neq in n. rewrite n in G. discriminate.
        -- rewrite aget_app, G. simpl. now rewrite String.eqb_refl.
    + simpl. intros U X. apply IH; auto. destruct (aget k0 (first_uses p)); auto.
      rewrite aget_app in X. destruct (aget k (first_uses p)); auto. simpl in X.
      apply String.eqb_neq in n. now rewrite n in X.
  - intros H. destruct (String.eqb_spec k k0); subst; [discriminate|]. auto.
Qed.

Lemma p_C24_api_reduces_to_single_calls : forall h, exists q, api_build h = build q.
Proof.
  induction h as [|a p (q & E)]; [exists []; reflexivity|]. simpl. rewrite E.
  destruct (api_step_reach a q) as (q' & E'). exists (q' ++ q). exact E'.
Qed.

Lemma p_C24_chain_exact : forall h id, onmessage h = None ->
  plan_of (ById id) (build h) =
  match serving id h with
  | None => Unrouted
  | Some r =>
      if (id =? beat_id h) && negb (beat_through h) then Direct (r_fn r)
      else if (id =? auth_id h) && negb (auth_through h) then Direct (r_fn r)
      else RunChain (globals h ++ covering effectively_covered r h ++ own id h ++ [r_fn r])
  end.
Proof.
  intros h id E. unfold plan_of. rewrite (i_onmsg h (inv_all h)), E. apply plan_id_exact.
Qed.

Lemma p_C24_chain_partial : forall h id ms f p l, onmessage h = None -> no_refusal h -> existsb rewrites h = false ->
  h = l ++ OAdd id ms f :: p -> Some id <> configured_beat h -> Some id <> configured_auth h -> id <> 0 ->
  exists r, r_fn r = f /\ r_before r = p /\ r_after r = l /\
    plan_of (ById id) (build h) = RunChain (globals h ++ covering effectively_covered r h ++ ms ++ [f]).
Proof.
  intros h id ms f p l Ho Hr Hw Eh Hb Ha H0.
  assert (S : serving id h = Some (Reg f p l) /\ own id h = ms).
  { rewrite Eh in Hr, Hw. clear Ho Hb Ha. subst h. induction l as [|o l IH].
    - simpl in *. rewrite Z.eqb_refl. destruct Hr as [Hr Hrp].
      assert (OW : forall q, no_refusal q -> existsb rewrites q = false -> serving id q = None -> own id q = []).
      { clear. induction q as [|o q IHq]; auto. simpl. intros [R1 R2] W S. apply orb_false_iff in W as [W1 W2].
        destruct o; simpl in *; try discriminate; try (apply IHq; auto; destruct (serving id q); [discriminate|auto]; fail).
        - destruct (Z.eqb_spec id id0) as [<-|N].
          + destruct ms; [|destruct (own id q)]; destruct (later _ (serving id q)); try discriminate; simpl in R1; congruence.
          + assert (own id q = []) as -> by (apply IHq; auto; destruct (serving id q); [discriminate|auto]). auto.
        - destruct on; [|apply IHq; auto; destruct (serving id q); [discriminate|auto]].
          destruct (Z.eqb_spec id id0) as [<-|N]; [|apply IHq; auto; destruct (serving id q); [discriminate|auto]].
          destruct (later _ (serving id q)); discriminate.
        - destruct yes; [|apply IHq; auto; destruct (serving id q); [discriminate|auto]].
          destruct (Z.eqb_spec id id0) as [<-|N]; [|apply IHq; auto; destruct (serving id q); [discriminate|auto]].
          destruct (later _ (serving id q)); discriminate. }
      destruct (serving id p) as [r|] eqn:Es.
      { exfalso. destruct ms; [discriminate|]. destruct (own id p); discriminate. }
      rewrite OW by auto.
      destruct ms; auto.
    - simpl in Hr, Hw. destruct Hr as [Hr1 Hr2]. apply orb_false_iff in Hw as [Hw1 Hw2].
      destruct (IH Hr2 Hw2) as [IS IO]. cbn [app]. split.
      + simpl. destruct o; try (rewrite IS; reflexivity); try discriminate.
        * destruct (Z.eqb_spec id id0) as [<-|N]; [|rewrite IS; reflexivity].
          exfalso. simpl in Hr1. rewrite IS, IO in Hr1. destruct ms0; [discriminate|]. destruct ms; discriminate.
        * destruct on; [|rewrite IS; reflexivity]. destruct (Z.eqb_spec id id0) as [<-|N]; [|rewrite IS; reflexivity].
          exfalso. simpl in Hr1. rewrite IS in Hr1. discriminate.
        * destruct yes; [|rewrite IS; reflexivity]. destruct (Z.eqb_spec id id0) as [<-|N]; [|rewrite IS; reflexivity].
          exfalso. simpl in Hr1. rewrite IS in Hr1. discriminate.
      + simpl. destruct o; auto. rewrite IO. destruct ms; auto. destruct (Z.eqb_spec id id0) as [<-|N]; auto.
        exfalso. simpl in Hr1. rewrite IS, IO in Hr1. destruct ms0; discriminate. }
  destruct S as [S O]. exists (Reg f p l). split; [auto|]. split; [auto|]. split; [auto|].
  rewrite p_C24_chain_exact, S, O by exact Ho. simpl r_fn.
  assert (B : forall h, Some id <> configured_beat h -> (id =? beat_id h) = false).
  { clear - H0. induction h as [|o h IH]; simpl; intros D; [apply Z.eqb_neq; auto|].
    destruct o; auto; apply Z.eqb_neq; congruence. }
  assert (A : forall h, Some id <> configured_auth h -> (id =? auth_id h) = false).
  { clear - H0. induction h as [|o h IH]; simpl; intros D; [apply Z.eqb_neq; auto|].
    destruct o; auto; apply Z.eqb_neq; congruence. }
  rewrite B, A by assumption. reflexivity.
Qed.

Lemma p_C24_stale_own_middleware_refuted : exists h id f p,
  onmessage h = None /\ no_refusal h /\ h = OAdd id [] f :: p /\
  plan_of (ById id) (build h) = RunChain [User 1; f]%nat /\ f <> User 1%nat.
Proof.
  exists [OAdd 5 [] (User 3); ORewrite 6 Beat; OBeat false false 5; OAdd 5 [User 1] (User 2)]%nat, 5, (User 3),
    [ORewrite 6 Beat; OBeat false false 5; OAdd 5 [User 1] (User 2)]%nat.
  repeat split. discriminate.
Qed.

Lemma p_C24_refused_call_leaks_middleware_refuted : exists p id f,
  plan_of (ById id) (build p) = RunChain [f] /\
  refused (OAdd id [User 1%nat] (User 2%nat)) p = true /\
  plan_of (ById id) (build (OAdd id [User 1%nat] (User 2%nat) :: p)) = RunChain [User 1%nat; f].
Proof. exists [OAdd 7 [] (User 9)]%nat, 7, (User 9)%nat. repeat split. Qed.

Lemma p_C25_coverage_exact : forall h, onmessage h = None ->
  (forall id, plan_of (ById id) (build h) = spec_plan effectively_covered h id) /\
  (forall u, plan_of (ByURL u) (build h) = spec_url_plan effectively_covered h u).
Proof.
  intros h E. unfold plan_of. rewrite (i_onmsg h (inv_all h)), E. split; intros.
  - apply plan_id_exact.
  - apply plan_url_exact.
Qed.

Lemma p_C25_coverage_partial : forall h, onmessage h = None -> no_reuse h ->
  (forall id, plan_of (ById id) (build h) = spec_plan covered h id) /\
  (forall u, plan_of (ByURL u) (build h) = spec_url_plan covered h u).
Proof.
  intros h E N. destruct (p_C25_coverage_exact h E) as [A B].
  assert (X : forall r o, h = r_after r ++ o :: r_before r -> covering effectively_covered r h = covering covered r h).
  { intros r o Eh. unfold covering. f_equal. apply filter_ext. intros [k f]. simpl. unfold effectively_covered, covered.
    destruct (in_use k (r_before r)) eqn:U; auto. simpl.
    rewrite (no_reuse_used k (r_before r)); auto. rewrite Eh in N. apply no_reuse_tail in N.
    change (o :: r_before r) with ([o] ++ r_before r) in N. apply no_reuse_tail in N. exact N. }
  split.
  - intros id. rewrite A. unfold spec_plan. destruct (serving id h) as [r|] eqn:S; auto.
    destruct (serving_split id h r S) as (o & Eh & _). now rewrite (X r o Eh).
  - intros u. rewrite B. unfold spec_url_plan. destruct (url_serving u h) as [r|] eqn:S; auto.
    destruct (url_split u h r S) as (o & Eh & _). now rewrite (X r o Eh).
Qed.

Lemma p_C25_reuse_refuted : exists h id, no_refusal h /\ onmessage h = None /\
  plan_of (ById id) (build h) <> spec_plan covered h id /\
  plan_of (ById id) (build h) = RunChain [User 10%nat] /\
  spec_plan covered h id = RunChain [User 100; User 10]%nat.
Proof.
  exists [OAdd 1 [] (User 10); OUse "a" (User 100); OUnUse "a"; OUse "a" (User 100)]%nat, 1.
  repeat split. discriminate.
Qed.

Lemma p_C26_given_function_partial : forall h id r k f, no_reuse h -> serving id h = Some r ->
  In (k, f) (first_uses h) -> effectively_covered k r = true -> latest_use k (r_before r) = Some f.
Proof.
  intros h id r k f N S Hin Hc. destruct (serving_split id h r S) as (o & Eh & _).
  unfold effectively_covered in Hc. apply andb_true_iff in Hc as [U _].
  rewrite Eh in N, Hin. apply no_reuse_tail in N. change (o :: r_before r) with ([o] ++ r_before r) in N.
  apply no_reuse_tail in N. apply no_reuse_first; auto.
  pose proof (in_use_first k (r_before r) U) as F. unfold ahas in F.
  destruct (aget k (first_uses (r_before r))) as [g|] eqn:G; [|discriminate]. f_equal.
  assert (X : forall l, aget k (first_uses (l ++ r_before r)) = Some g).
  { induction l as [|q l IH]; auto. simpl. destruct q; auto. unfold ahas. destruct (aget k0 (first_uses (l ++ r_before r))); auto.
    rewrite aget_app, IH. reflexivity. }
  specialize (X (r_after r ++ [o])). rewrite <- app_assoc in X. simpl in X.
  pose proof (first_uses_nodup (r_after r ++ o :: r_before r)) as ND.
  revert X Hin ND. generalize (first_uses (r_after r ++ o :: r_before r)). clear.
  induction l as [|[k1 f1] l IH]; [discriminate|]. simpl. intros X [E|Hin] ND; inversion ND; subst.
  - inversion E; subst. rewrite String.eqb_refl in X. congruence.
  - destruct (String.eqb_spec k k1) as [->|Nk]; [|auto]. exfalso. apply H1. apply (in_map fst) in Hin. exact Hin.
Qed.

Lemma p_C26_later_function_dropped_refuted : exists h id r, no_refusal h /\ onmessage h = None /\
  serving id h = Some r /\ latest_use "a" (r_before r) = Some (User 200%nat) /\ in_use "a" (r_before r) = true /\
  plan_of (ById id) (build h) = RunChain [User 100; User 10]%nat.
Proof.
  exists [OUnUse "a"; OAdd 1 [] (User 10); OUse "a" (User 200); OUnUse "a"; OUse "a" (User 100)]%nat, 1.
  eexists. repeat split.
Qed.

Lemma p_C27_one_handler_per_id : forall h id ms f,
  (forall g, aget id (m_handlers (build h)) = Some g ->
     snd (step (OAdd id ms f) (build h)) = true /\
     aget id (m_handlers (fst (step (OAdd id ms f) (build h)))) = Some g) /\
  (snd (step (OAdd id ms f) (build h)) = false ->
     aget id (m_handlers (fst (step (OAdd id ms f) (build h)))) = Some f) /\
  (forall i, i <> id -> aget i (m_handlers (fst (step (OAdd id ms f) (build h)))) = aget i (m_handlers (build h))) /\
  (forall r, serving id h = Some r -> aget id (m_handlers (build h)) = Some (r_fn r)).
Proof.
  intros h id ms f. rewrite step_refused, fold_step.
  pose proof (inv_all h) as I. pose proof (inv_all (OAdd id ms f :: h)) as I'.
  assert (KEY : forall i, aget i (m_handlers (build (OAdd id ms f :: h))) = option_map r_fn (serving i (OAdd id ms f :: h))) by (intros; apply (i_hand _ I')).
  rewrite (i_hand h I), KEY. split; [|split; [|split]].
  - intros g E. destruct (serving id h) as [r|] eqn:S; [|discriminate]. simpl in *. rewrite S, Z.eqb_refl.
    split.
    + destruct ms; auto. destruct (own id h); auto.
    + destruct ms; simpl; auto. destruct (own id h); simpl; auto.
  - simpl. rewrite Z.eqb_refl. destruct ms; [destruct (serving id h); [discriminate|reflexivity]|].
    destruct (own id h); [|discriminate]. destruct (serving id h); [discriminate|reflexivity].
  - intros i N. rewrite KEY, (i_hand h I). simpl. apply Z.eqb_neq in N. rewrite N. apply later_fn.
  - intros r ->. reflexivity.
Qed.

Lemma p_C28_no_missing_anchor : forall (h : list api) rt,
  plan_of rt (api_build h) <> PlanPanic /\ checkPrepare (api_build h) = true.
Proof.
  intros h rt. destruct (p_C24_api_reduces_to_single_calls h) as (q & ->). split.
  - unfold plan_of. destruct (m_onmsg (build q)); [discriminate|]. destruct rt; [|rewrite plan_url_exact|discriminate].
    + rewrite plan_id_exact. unfold spec_plan. destruct (serving id q); [|discriminate].
      destruct (_ && _); [discriminate|]. destruct (_ && _); discriminate.
    + unfold spec_url_plan. destruct (url_serving u q); discriminate.
  - unfold checkPrepare. rewrite (i_anchors q (inv_all q)). apply forallb_forall. intros a Ha.
    apply in_map_iff in Ha as ([k f] & <- & _). unfold check_valid, slice_anchor. cbn [a_starts a_ends fst snd].
    unfold slice_starts. pose proof (lens k q) as L. destruct (in_use k q); simpl andb; cbv iota.
    + destruct (ever_unused k q).
      * destruct (@exists_last _ (starts k q)) as (S & s & E). { intros D. rewrite D in L. simpl in L. lia. }
        rewrite E in *. rewrite app_length in L. simpl in L. rewrite removelast_last.
        destruct (Nat.eqb_spec (List.length S) (List.length (ends k q))); [reflexivity|lia].
      * rewrite L, Nat.eqb_refl. apply orb_true_r.
    + rewrite L, Nat.add_0_r, Nat.eqb_refl. reflexivity.
Qed.

Lemma p_C29_globals_first_partial : forall h id, onmessage h = None -> id <> 0 ->
  Some id <> configured_beat h -> Some id <> configured_auth h -> serving id h <> None ->
  exists rest, plan_of (ById id) (build h) = RunChain (globals h ++ rest).
Proof.
  intros h id Ho H0 Hb Ha Hs. rewrite p_C24_chain_exact by exact Ho.
  destruct (serving id h) as [r|]; [|congruence].
  assert (B : forall h, Some id <> configured_beat h -> (id =? beat_id h) = false).
  { clear - H0. induction h as [|o h IH]; simpl; intros D; [apply Z.eqb_neq; auto|].
    destruct o; auto; apply Z.eqb_neq; congruence. }
  assert (A : forall h, Some id <> configured_auth h -> (id =? auth_id h) = false).
  { clear - H0. induction h as [|o h IH]; simpl; intros D; [apply Z.eqb_neq; auto|].
    destruct o; auto; apply Z.eqb_neq; congruence. }
  rewrite B, A by assumption. eexists. reflexivity.
Qed.

Lemma p_C29_id_zero_refuted : exists h, onmessage h = None /\ configured_beat h = None /\ configured_auth h = None /\
  globals h = [User 1%nat] /\ plan_of (ById 0) (build h) = Direct (User 2%nat).
Proof. exists [OAdd 0 [] (User 2); OGlobal [User 1]]%nat. repeat split. Qed.

Lemma p_C30_any_exact : forall h u l after before, onmessage h = None -> l <> [] ->
  h = after ++ OAny u l :: before ->
  (forall l', ~ In (OAny u l') before) -> (forall l', ~ In (OAny u l') after) ->
  exists r, r_before r = before /\ r_after r = after /\
    plan_of (ByURL u) (build h) =
    RunChain (globals h ++ covering effectively_covered r h ++ (if (1 <? List.length l)%nat then l ++ l else l)).
Proof.
  intros h u l after before Ho Hl Eh Hb Ha. destruct (p_C25_coverage_exact h Ho) as [_ B]. rewrite B.
  assert (Nb : url_serving u before = None /\ url_handlers u before = []).
  { clear - Hb. induction before as [|o b IH]; auto. destruct IH as [I1 I2]. { intros l' D. apply (Hb l'). now right. }
    simpl. rewrite I1. simpl. destruct o; auto. destruct (String.eqb_spec u p) as [->|N].
    - exfalso. apply (Hb l). now left.
    - rewrite I2. split; auto. destruct l; auto. }
  assert (S : exists r, url_serving u h = Some r /\ r_before r = before /\ r_after r = after /\ url_handlers u h = if (1 <? List.length l)%nat then l ++ l else l).
  { subst h. clear Ho B. induction after as [|o a IH].
    - simpl. destruct Nb as [-> ->]. simpl. destruct l as [|x l]; [congruence|]. rewrite String.eqb_refl. eexists. split; [reflexivity|]. auto.
    - destruct IH as (r & I1 & I3 & I4 & I2). { intros l' D. apply (Ha l'). now right. }
      simpl. rewrite I1. simpl. eexists. split; [reflexivity|]. split; [exact I3|]. split; [simpl; now rewrite I4|]. destruct o; auto. rewrite I2.
      destruct (String.eqb_spec u p) as [->|N]; [exfalso; apply (Ha l0); now left|]. apply app_nil_r. }
  destruct S as (r & S1 & S3 & S4 & S2). exists r. split; [exact S3|]. split; [exact S4|]. unfold spec_url_plan. rewrite S1, S2. reflexivity.
Qed.

Lemma p_C30_any_once_partial : forall h u f after before, onmessage h = None ->
  h = after ++ OAny u [f] :: before ->
  (forall l', ~ In (OAny u l') before) -> (forall l', ~ In (OAny u l') after) ->
  exists r, r_before r = before /\ r_after r = after /\
    plan_of (ByURL u) (build h) = RunChain (globals h ++ covering effectively_covered r h ++ [f]).
Proof. intros h u f after before Ho Eh Hb Ha. exact (p_C30_any_exact h u [f] after before Ho ltac:(discriminate) Eh Hb Ha). Qed.

Lemma p_C30_twice_refuted : exists h u f g, h = [OAny u [f; g]] /\ f <> g /\
  plan_of (ByURL u) (build h) = RunChain [f; g; f; g].
Proof. exists [OAny "/a/" [User 1; User 2]]%nat, "/a/"%string, (User 1), (User 2). repeat split. discriminate. Qed.

Lemma p_C31_onmessage_replaces_routing : forall h f rt, onmessage h = Some f ->
  plan_of rt (build h) = RunChain (globals h ++ map snd (first_uses h) ++ [f]).
Proof.
  intros h f rt E. pose proof (inv_all h) as I. unfold plan_of. rewrite (i_onmsg h I), E.
  unfold plan_onmessage. rewrite (i_glob h I), (i_anchors h I), map_map. reflexivity.
Qed.

Lemma p_C32_misuse_rejected : forall h k f,
  (in_use k h = true -> snd (step (OUse k f) (build h)) = true) /\
  (in_use k h = false -> snd (step (OUnUse k) (build h)) = true) /\
  (in_use k h = false -> snd (step (OUse k f) (build h)) = false) /\
  (in_use k h = true -> snd (step (OUnUse k) (build h)) = false).
Proof.
  intros h k f. rewrite !step_refused. simpl. repeat split; auto; intros ->; reflexivity.
Qed.

Lemma p_C32_bad_arguments_rejected : forall l m,
  (Nat.odd (List.length l) = true -> snd (Use l m) = true) /\
  (forall n x, nth_error l n = Some x ->
     (Nat.even n = true /\ (forall k, x <> UKey k)) \/ (Nat.odd n = true /\ (forall f, x <> UFn f)) ->
     snd (Use l m) = true).
Proof.
  intros l m. unfold Use. split.
  - intros H. rewrite <- Nat.negb_odd, H. reflexivity.
  - intros n x Hn Hx. destruct (Nat.even (List.length l)); [|reflexivity].
    assert (G : forall len l, (List.length l <= len)%nat -> forall n m, nth_error l n = Some x ->
      (Nat.even n = true /\ (forall k, x <> UKey k)) \/ (Nat.odd n = true /\ (forall f, x <> UFn f)) -> snd (use_pairs l m) = true).
    { clear. induction len as [|len IH]; intros l Hl n m Hn Hx.
      - destruct l; [destruct n; discriminate|simpl in Hl; lia].
      - destruct l as [|[k|f|] l]; try reflexivity; [destruct n; discriminate|].
        destruct l as [|[k'|f|] l]; try reflexivity. simpl. unfold andthen.
        destruct (snd (use1 k f m)) eqn:S; [exact S|].
        destruct n as [|[|n]].
        + simpl in Hn. inversion Hn; subst. destruct Hx as [[_ D]|[D _]]; [congruence|discriminate].
        + simpl in Hn. inversion Hn; subst. destruct Hx as [[D _]|[_ D]]; [discriminate|congruence].
        + simpl in Hn. apply (IH l) with (n := n); auto. simpl in Hl. lia. }
    eapply G; eauto.
Qed.

Lemma p_C32_windows_well_formed : forall (h : list api) a,
  In a (m_anchors (api_build h)) \/ (exists k, aget k (m_amap (api_build h)) = Some a) ->
  (List.length (a_ends a) <= List.length (a_starts a) <= List.length (a_ends a) + 1)%nat.
Proof.
  intros h a. destruct (p_C24_api_reduces_to_single_calls h) as (q & ->). pose proof (inv_all q) as I.
  assert (X : forall k, (List.length (ends k q) <= List.length (starts k q) <= List.length (ends k q) + 1)%nat).
  { intros k. rewrite lens. destruct (in_use k q); lia. }
  intros [H|(k & H)].
  - rewrite (i_anchors q I) in H. apply in_map_iff in H as ([k f] & <- & _). unfold slice_anchor, slice_starts. cbn [a_starts a_ends fst snd].
    pose proof (lens k q) as L. destruct (in_use k q) eqn:U; simpl andb; cbv iota; [|rewrite L; lia].
    destruct (ever_unused k q); [|rewrite L; lia].
    destruct (@exists_last _ (starts k q)) as (S & s & E). { intros D. rewrite D in L. simpl in L. lia. }
    rewrite E in *. rewrite app_length in L. simpl in L. rewrite removelast_last. lia.
  - rewrite (i_amap q I) in H. destruct (aget k (first_uses q)); [|discriminate]. inversion H; subst. apply X.
Qed.

Lemma p_C33_rewrite_moves_heartbeat : forall h id f, onmessage h = None ->
  snd (step (ORewrite id f) (build h)) = false ->
  let m := fst (step (ORewrite id f) (build h)) in
  aget id (m_handlers m) = Some f /\
  plan_of (ById id) m = (if beat_through h && ((negb (id =? auth_id h)) || auth_through h)
    then RunChain (globals h ++ covering effectively_covered (Reg f h []) h ++ own id h ++ [f]) else Direct f) /\
  (beat_id h <> id -> plan_of (ById (beat_id h)) m = Unrouted) /\
  (forall i, i <> id -> i <> beat_id h -> plan_of (ById i) m = plan_of (ById i) (build h)).
Proof.
  intros h id f Ho Hr. rewrite step_refused in Hr. cbv zeta. rewrite fold_step.
  pose proof (inv_all (ORewrite id f :: h)) as I'.
  rewrite (i_hand _ I'). rewrite !p_C24_chain_exact by exact Ho.
  simpl in Hr. simpl serving. simpl beat_id. simpl beat_through. simpl auth_id. simpl auth_through. simpl globals. simpl own.
  rewrite !Z.eqb_refl.
  assert (N : (if id =? beat_id h then Some (Reg f h []) else match later (ORewrite id f) (serving id h) with Some r => Some r | None => Some (Reg f h []) end) = Some (Reg f h [])).
  { destruct (id =? beat_id h); auto. destruct (serving id h); [discriminate|reflexivity]. }
  rewrite N. cbn [option_map r_fn andb]. split; [auto|]. split; [|split].
  - destruct (beat_through h) eqn:Bt; simpl.
    + destruct (id =? auth_id h) eqn:Ea; simpl.
      * destruct (auth_through h); reflexivity.
      * reflexivity.
    + reflexivity.
  - intros Hn. apply Z.eqb_neq in Hn. rewrite Hn. reflexivity.
  - intros i N1 N2. rewrite p_C24_chain_exact by exact Ho. apply Z.eqb_neq in N1, N2. rewrite p_C24_chain_exact by exact Ho. simpl. rewrite N1, N2. simpl.
    destruct (serving i h) as [r|]; simpl; auto.
Qed.

Lemma p_C33_refused_rewrite_is_half_done : forall h id f r, onmessage h = None -> serving id h = Some r -> id <> beat_id h ->
  beat_through h = false ->
  let m := fst (step (ORewrite id f) (build h)) in
  snd (step (ORewrite id f) (build h)) = true /\ plan_of (ById (beat_id h)) m = Unrouted /\
  plan_of (ById id) m = Direct (r_fn r).
Proof.
  intros h id f r Ho S N Bt. rewrite step_refused. cbv zeta. rewrite fold_step, !p_C24_chain_exact by exact Ho.
  simpl. rewrite !Z.eqb_refl, S, Bt. simpl. apply Z.eqb_neq in N. rewrite N. rewrite Z.eqb_sym in N. rewrite N. simpl. auto.
Qed.
