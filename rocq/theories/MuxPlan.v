(* From the state of MuxFacts.v to the chain of a request. *)
From Verif Require Export MuxFacts.

Lemma sd_mono o p : sd p <= sd (o :: p).
Proof.
  pose proof (inv_all p) as I. unfold sd. rewrite <- fold_step. destruct o.
  - rewrite use_eq by exact I. destruct (aget k (first_uses p)); [destruct (in_use k p)|]; simpl; unfold sd; lia.
  - rewrite unuse_eq by exact I. destruct (aget k (first_uses p)); [destruct (in_use k p)|]; simpl; lia.
  - simpl. lia.
  - simpl step. rewrite AddHandler_eq by (apply inv_has, I).
    destruct ms; [destruct (ahas id (m_handlers (build p))); simpl; lia|].
    destruct (ahas id (m_self (build p))); simpl; [lia|]. destruct (ahas id (m_handlers (build p))); simpl; lia.
  - simpl step. unfold Any. destruct l; [simpl; lia|].
    set (m1 := AddURLPatternHandler p0 (h :: l) (if (1 <? List.length (h :: l))%nat then AddURLPatternHandler p0 (h :: l) (build p) else build p)).
    assert (E : m_seed m1 = m_seed (build p)).
    { unfold m1, AddURLPatternHandler. destruct (1 <? List.length (h :: l))%nat; destruct (aget p0 (m_urls (build p))); simpl;
        rewrite ?String.eqb_refl; reflexivity. }
    unfold AddURLAnchor, tick. destruct (ahas _ _); simpl; lia.
  - simpl step. unfold HeartBeatModeDetail. destruct on; [|simpl; lia].
    rewrite add0 by (apply (inv_has p I)). simpl. destruct (ahas id (m_handlers (build p))); simpl; lia.
  - simpl step. unfold RewriteHeartBeatHandler. rewrite add0.
    + destruct (ahas _ _); simpl; lia.
    + intros i. simpl. rewrite !ahas_adel. destruct (keqb _ _); auto. apply (inv_has p I).
  - simpl step. unfold WithAuthDetail. destruct yes; [|simpl; lia].
    rewrite add0 by (apply (inv_has p I)). simpl. destruct (ahas id (m_handlers (build p))); simpl; lia.
  - simpl. lia.
Qed.

Lemma sd_app l p : sd p <= sd (l ++ p).
Proof. induction l as [|o l IH]; simpl; [lia|]. pose proof (sd_mono o (l ++ p)). lia. Qed.

Definition registering (o : op) : Prop := match o with OUse _ _ | OUnUse _ => False | _ => True end.

(* the calls around the registration in force, and its index *)
Lemma serving_split id h r : serving id h = Some r ->
  exists o, h = r_after r ++ o :: r_before r /\ registering o /\ sd (r_before r) + 1 <= sd (o :: r_before r).
Proof.
  revert r. induction h as [|o p IH]; intros r; [discriminate|].
  assert (OLD : forall r', later o (serving id p) = Some r' -> 
     exists o', o :: p = r_after r' ++ o' :: r_before r' /\ registering o' /\ sd (r_before r') + 1 <= sd (o' :: r_before r')).
  { intros r'. destruct (serving id p) as [r0|]; [|discriminate]. intros E. inversion E; subst; simpl.
    destruct (IH r0 eq_refl) as (o' & -> & R & S). exists o'. auto. }
  pose proof (inv_all p) as I.
  assert (NEW : forall f, registering o -> serving id p = None \/ (exists i g, o = ORewrite i g /\ id = beat_id p) ->
     match o with OAdd i ms _ => i = id /\ (ms = [] \/ own id p = []) | OBeat b _ i => b = true /\ i = id
       | OAuth b _ i _ => b = true /\ i = id | ORewrite i _ => i = id | _ => False end ->
     exists o', o :: p = r_after (Reg f p []) ++ o' :: r_before (Reg f p []) /\ registering o' /\ sd (r_before (Reg f p [])) + 1 <= sd (o' :: r_before (Reg f p []))).
  { intros f R N Ho. simpl. exists o. split; [auto|]. split; [auto|].
    unfold sd at 2. rewrite <- fold_step. destruct o; try contradiction; simpl step.
    - destruct Ho as [-> Ho]. assert (N0 : serving id p = None) by (destruct N as [N|(i & g & D & _)]; [auto|discriminate]).
      rewrite AddHandler_eq by (apply inv_has, I). rewrite (inv_hand p I), N0.
      destruct ms; [simpl; unfold sd; lia|]. rewrite (inv_self p I). destruct Ho as [D|Ho]; [discriminate|]. rewrite Ho.
      cbv zeta. change (m_handlers (set_self (aset id (h :: ms) (m_self (build p))) (build p))) with (m_handlers (build p)).
      rewrite (inv_hand p I), N0. simpl. unfold sd. lia.
    - destruct Ho as [-> ->]. assert (N0 : serving id p = None) by (destruct N as [N|(i & g & D & _)]; [auto|discriminate]).
      unfold HeartBeatModeDetail. rewrite add0 by (apply (inv_has p I)). simpl. rewrite (inv_hand p I), N0. simpl. unfold sd. lia.
    - subst. unfold RewriteHeartBeatHandler. rewrite add0.
      + simpl. rewrite ahas_adel, (i_hbid p I), (inv_hand p I). simpl keqb.
        destruct N as [N|(i & g & _ & D)].
        * rewrite N. destruct (id =? beat_id p); simpl; unfold sd; lia.
        * rewrite D, Z.eqb_refl. simpl. unfold sd. lia.
      + intros i. simpl. rewrite !ahas_adel. destruct (keqb _ _); auto. apply (inv_has p I).
    - destruct Ho as [-> ->]. assert (N0 : serving id p = None) by (destruct N as [N|(i & g & D & _)]; [auto|discriminate]).
      unfold WithAuthDetail. rewrite add0 by (apply (inv_has p I)). simpl. rewrite (inv_hand p I), N0. simpl. unfold sd. lia. }
  assert (LN : later o (serving id p) = None -> serving id p = None) by (destruct (serving id p); [discriminate|auto]).
  destruct o; try (exact (OLD r)); cbn [serving].
  - destruct (Z.eqb_spec id id0) as [<-|N]; [|exact (OLD r)].
    destruct ms as [|m1 ms]; [|destruct (own id p) eqn:Eo; [|exact (OLD r)]];
    (destruct (later _ (serving id p)) eqn:El; intros E; [apply OLD; congruence|]; inversion E; subst;
     apply NEW; simpl; auto).
  - destruct on; [|exact (OLD r)]. destruct (Z.eqb_spec id id0) as [<-|N]; [|exact (OLD r)].
    destruct (later _ (serving id p)) eqn:El; intros E; [apply OLD; congruence|]; inversion E; subst; apply NEW; simpl; auto.
  - destruct (Z.eqb_spec id (beat_id p)) as [Eb|N].
    + destruct (Z.eqb_spec id id0) as [<-|N]; [|discriminate]. intros E. inversion E; subst. apply NEW; simpl; auto.
      right. eauto.
    + destruct (Z.eqb_spec id id0) as [<-|N']; [|exact (OLD r)].
      destruct (later _ (serving id p)) eqn:El; intros E; [apply OLD; congruence|]; inversion E; subst; apply NEW; simpl; auto.
  - destruct yes; [|exact (OLD r)]. destruct (Z.eqb_spec id id0) as [<-|N]; [|exact (OLD r)].
    destruct (later _ (serving id p)) eqn:El; intros E; [apply OLD; congruence|]; inversion E; subst; apply NEW; simpl; auto.
Qed.

Lemma sd_any p u f l : url_serving u p = None -> sd p + 1 <= sd (OAny u (f :: l) :: p).
Proof.
  intros N. pose proof (inv_all p) as I.
  unfold sd at 2. rewrite <- fold_step. simpl step. unfold Any. cbv zeta.
  set (L := f :: l). change (S (List.length l)) with (List.length L).
  set (m1 := AddURLPatternHandler u L (if (1 <? List.length L)%nat then AddURLPatternHandler u L (build p) else build p)).
  assert (E : m_seed m1 = m_seed (build p) /\ m_urlids m1 = m_urlids (build p)).
  { unfold m1, AddURLPatternHandler. destruct (1 <? List.length L)%nat; destruct (aget u (m_urls (build p))); simpl;
      rewrite ?String.eqb_refl; auto. }
  destruct E as [E1 E2]. unfold AddURLAnchor, tick. cbn [m_urlids set_seed]. rewrite E2. unfold ahas. rewrite (i_urlids p I), N.
  simpl. unfold sd. lia.
Qed.

Lemma url_split u h r : url_serving u h = Some r ->
  exists o, h = r_after r ++ o :: r_before r /\ registering o /\ sd (r_before r) + 1 <= sd (o :: r_before r).
Proof.
  revert r. induction h as [|o p IH]; intros r; [discriminate|]. cbn [url_serving].
  destruct (url_serving u p) as [r0|] eqn:Es; simpl later.
  - intros E. inversion E; subst. simpl. destruct (IH r0 eq_refl) as (o' & -> & R & S). exists o'. auto.
  - destruct o; try discriminate. destruct l; [discriminate|].
    destruct (String.eqb_spec u p0) as [<-|N]; [|discriminate]. intros E. inversion E; subst. simpl.
    exists (OAny u (h :: l)). split; [auto|]. split; [exact Logic.I|]. apply sd_any. exact Es.
Qed.

(* windows *)
Definition inw (i : Z) (w : Z * Z) : bool := (fst w <=? i) && (i <=? snd w).
Lemma windows_ok S E i : (List.length E <= List.length S)%nat -> windows S E i = Ok (existsb (inw i) (combine S E)).
Proof.
  revert S. induction E as [|e E IH]; intros [|s S] L; simpl in *; auto; try lia.
  unfold inw at 1. simpl. destruct ((s <=? i) && (i <=? e)); simpl; auto. apply IH. lia.
Qed.

Definition closed (k : string) (i : Z) (h : list op) : bool := existsb (inw i) (combine (starts k h) (ends k h)).

Lemma ends_le k h e : In e (ends k h) -> e <= sd h.
Proof.
  induction h as [|o p IH]; [intros []|]. pose proof (sd_mono o p) as M.
  assert (X : In e (ends k p) -> e <= sd (o :: p)) by (intros H; specialize (IH H); lia).
  destruct o; auto. cbn [ends]. destruct (String.eqb k k0 && in_use k p) eqn:E; auto.
  intros H. apply in_app_or in H as [H|[H|[]]]; auto. subst.
  apply andb_true_iff in E as [E1 E2]. apply String.eqb_eq in E1. subst k0.
  pose proof (inv_all p) as I. unfold sd at 2. rewrite <- fold_step, unuse_eq by exact I.
  pose proof (in_use_first k p E2) as F. unfold ahas in F. destruct (aget k (first_uses p)); [|discriminate].
  rewrite E2. simpl. unfold sd. lia.
Qed.

Lemma closed_early k i h : sd h < i -> closed k i h = false.
Proof.
  intros H. unfold closed. apply not_true_is_false. intros D. apply existsb_exists in D as ([s e] & Hin & W).
  apply in_combine_r in Hin. apply ends_le in Hin. unfold inw in W. simpl in W.
  apply andb_true_iff in W as [_ W]. apply Z.leb_le in W. lia.
Qed.

Lemma combine_app2 {A B} (l1 l1' : list A) (l2 l2' : list B) : List.length l1 = List.length l2 ->
  combine (l1 ++ l1') (l2 ++ l2') = combine l1 l2 ++ combine l1' l2'.
Proof. revert l2. induction l1; intros [|b l2] H; simpl in *; try discriminate; auto. f_equal. auto. Qed.

Lemma combine_more {A B} (l1 l1' : list A) (l2 : list B) : List.length l1 = List.length l2 ->
  combine (l1 ++ l1') l2 = combine l1 l2.
Proof. intros H. rewrite <- (app_nil_r l2) at 1. rewrite combine_app2 by exact H. simpl. destruct l1'; now rewrite app_nil_r. Qed.

Lemma in_use_keeps k l h : in_use k h = true -> unuse_called k l = false -> in_use k (l ++ h) = true.
Proof.
  intros H. induction l as [|o l IH]; simpl; auto. intros U. apply orb_false_iff in U as [U1 U2].
  destruct o; auto.
  - destruct (String.eqb k k0); auto.
  - rewrite U1. auto.
Qed.

Lemma window_state k i p o l : sd p < i <= sd (o :: p) -> registering o ->
  closed k i (l ++ o :: p) = in_use k p && unuse_called k l /\
  (in_use k (l ++ o :: p) = true -> exists S s, starts k (l ++ o :: p) = S ++ [s] /\
     List.length S = List.length (ends k (l ++ o :: p)) /\ (s <=? i) = in_use k p && negb (unuse_called k l)).
Proof.
  intros Hi Ho. destruct (same_use o p k Ho) as (Es & Ee & Eu & _ & _).
  induction l as [|q l IH].
  - cbn [app unuse_called existsb]. unfold closed. rewrite Es, Ee, Eu, andb_false_r, andb_true_r.
    change (closed k i p = false /\ (in_use k p = true -> exists S s, starts k p = S ++ [s] /\ List.length S = List.length (ends k p) /\ (s <=? i) = in_use k p)).
    split; [apply closed_early; lia|]. intros Hu. rewrite Hu. pose proof (lens k p) as L. rewrite Hu in L.
    destruct (@exists_last _ (starts k p)) as (S & s & E). { intros D. rewrite D in L. simpl in L. lia. }
    exists S, s. split; [auto|]. rewrite E, app_length in L. simpl in L. split; [lia|].
    apply Z.leb_le. assert (B : s <= sd p).
    { assert (In s (starts k p)) as Hin by (rewrite E; apply in_or_app; right; now left).
      clear - Hin. induction p as [|q p IHp]; [destruct Hin|]. pose proof (sd_mono q p) as M.
      assert (X : In s (starts k p) -> s <= sd (q :: p)) by (intros H; specialize (IHp H); lia).
      destruct q; auto. cbn [starts] in Hin. destruct (String.eqb k k0 && negb (in_use k p)) eqn:E; auto.
      apply in_app_or in Hin as [H|[H|[]]]; auto. subst.
      apply andb_true_iff in E as [E1 E2]. apply String.eqb_eq in E1. subst k0. apply negb_true_iff in E2.
      pose proof (inv_all p) as I. unfold sd at 2. rewrite <- fold_step, use_eq by exact I. rewrite E2.
      destruct (aget k (first_uses p)); simpl; unfold sd; lia. }
    lia.
  - set (h := l ++ o :: p) in *. change ((q :: l) ++ o :: p) with (q :: h).
    destruct IH as [IC IO].
    assert (SAME : starts k (q :: h) = starts k h -> ends k (q :: h) = ends k h -> in_use k (q :: h) = in_use k h ->
       unuse_called k (q :: l) = unuse_called k l ->
       closed k i (q :: h) = in_use k p && unuse_called k (q :: l) /\
       (in_use k (q :: h) = true -> exists S s, starts k (q :: h) = S ++ [s] /\
          List.length S = List.length (ends k (q :: h)) /\ (s <=? i) = in_use k p && negb (unuse_called k (q :: l)))).
    { intros A B C D. unfold closed. rewrite A, B, C, D. auto. }
    destruct q; try (apply SAME; reflexivity).
    + (* Use *) destruct (String.eqb_spec k k0) as [<-|N].
      2:{ apply SAME; try reflexivity; simpl; apply String.eqb_neq in N; rewrite N; reflexivity. }
      destruct (in_use k h) eqn:Hu.
      * apply SAME; try reflexivity; simpl; rewrite String.eqb_refl, ?Hu; reflexivity.
      * cbn [unuse_called existsb orb]. unfold closed. cbn [starts ends in_use]. rewrite String.eqb_refl, Hu. cbn [negb andb].
        assert (L : List.length (starts k h) = List.length (ends k h)) by (rewrite lens, Hu; lia).
        assert (Z : in_use k p && negb (unuse_called k l) = false).
        { apply not_true_is_false. intros D. apply andb_true_iff in D as [D1 D2]. apply negb_true_iff in D2.
          assert (in_use k h = true); [|congruence]. unfold h. apply in_use_keeps; auto; congruence. }
        split.
        -- rewrite combine_more by exact L. exact IC.
        -- intros _. exists (starts k h), (sd h + 1). split; [auto|]. split; [auto|].
           fold (unuse_called k l). rewrite Z. apply Z.leb_gt.
           assert (B : sd (o :: p) <= sd h) by (unfold h; apply sd_app). lia.
    + (* UnUse *) destruct (String.eqb_spec k k0) as [<-|N].
      2:{ apply SAME; try reflexivity; simpl; apply String.eqb_neq in N; rewrite N; reflexivity. }
      cbn [unuse_called existsb]. rewrite String.eqb_refl. cbn [orb]. rewrite andb_true_r.
      unfold closed. cbn [starts ends in_use]. rewrite String.eqb_refl. cbn [andb]. split; [|discriminate].
      destruct (in_use k h) eqn:Hu.
      * destruct (IO eq_refl) as (S & s & E & L & W). unfold closed in IC. rewrite E in *.
        rewrite combine_more in IC by exact L. rewrite combine_app2 by exact L. rewrite existsb_app, IC.
        simpl. unfold inw at 1. simpl. rewrite W.
        assert (B : sd (o :: p) <= sd h) by (unfold h; apply sd_app).
        assert (T : (i <=? sd h + 1) = true) by (apply Z.leb_le; lia). rewrite T.
        destruct (in_use k p); destruct (unuse_called k l); reflexivity.
      * unfold closed in IC. rewrite IC. destruct (in_use k p) eqn:P; auto. destruct (unuse_called k l) eqn:U; auto.
        assert (in_use k h = true); [|congruence]. unfold h. apply in_use_keeps; auto; congruence.
Qed.

Lemma ever_app k l h : ever_unused k h = true -> ever_unused k (l ++ h) = true.
Proof. intros H. induction l as [|o l IH]; simpl; auto. destruct o; auto. rewrite IH. apply orb_true_r. Qed.

Lemma ever_none k l h : ever_unused k h = false -> in_use k h = true -> unuse_called k l = false -> ever_unused k (l ++ h) = false.
Proof.
  intros H U. induction l as [|o l IH]; simpl; auto. intros D. apply orb_false_iff in D as [D1 D2].
  destruct o; auto. rewrite D1. simpl. auto.
Qed.

(* Contains on the slice entry decides effective coverage *)
Lemma contains_spec kf p o l : registering o -> sd p + 1 <= sd (o :: p) ->
  Contains (slice_anchor (l ++ o :: p) kf) (sd p + 1)
  = Ok (in_use (fst kf) p && (negb (ever_unused (fst kf) p) || unuse_called (fst kf) l)).
Proof.
  intros Ho Hs. destruct kf as [k f]. set (i := sd p + 1) in *. set (h := l ++ o :: p). cbn [fst].
  destruct (window_state k i p o l ltac:(unfold i in *; lia) Ho) as [C O]. fold h in C, O.
  destruct (same_use o p k Ho) as (_ & _ & Eu & Ev & _).
  pose proof (lens k h) as L.
  unfold Contains, slice_anchor. cbn [a_starts a_ends fst snd]. unfold slice_starts.
  destruct (in_use k h) eqn:Hu; cbn [andb].
  - destruct (O eq_refl) as (S & s & E & LS & W).
    destruct (ever_unused k h) eqn:He.
    + rewrite E, removelast_last, LS, Nat.eqb_refl, windows_ok by lia.
      f_equal. unfold closed in C. rewrite E, combine_more in C by exact LS. rewrite C.
      destruct (in_use k p) eqn:P; auto. destruct (unuse_called k l) eqn:U; simpl; [now rewrite orb_true_r|].
      destruct (ever_unused k p) eqn:V; auto. exfalso.
      assert (ever_unused k h = false); [|congruence]. unfold h. apply ever_none; auto; congruence.
    + destruct (Nat.eqb_spec (List.length (starts k h)) (List.length (ends k h))); [lia|].
      rewrite E, rev_app_distr. cbn [rev app]. rewrite W.
      assert (V : ever_unused k p = false).
      { destruct (ever_unused k p) eqn:V; auto. assert (ever_unused k h = true); [|congruence].
        unfold h. apply ever_app. congruence. }
      rewrite V. simpl. rewrite andb_true_r.
      destruct (in_use k p) eqn:P; simpl.
      * destruct (unuse_called k l) eqn:U; simpl; auto. rewrite windows_ok by (rewrite app_length; simpl; lia).
        f_equal. unfold closed in C. rewrite E in C. exact C.
      * rewrite windows_ok by (rewrite app_length; simpl; lia). f_equal. unfold closed in C. rewrite E in C. exact C.
  - rewrite Nat.add_0_r in L. rewrite L, Nat.eqb_refl, windows_ok by lia.
    f_equal. unfold closed in C. rewrite C.
    destruct (in_use k p) eqn:P; auto. simpl. destruct (unuse_called k l) eqn:U; [now rewrite orb_true_r|].
    exfalso. assert (in_use k h = true); [|congruence]. unfold h. apply in_use_keeps; auto; congruence.
Qed.

Lemma select_spec p o l fu : registering o -> sd p + 1 <= sd (o :: p) ->
  select_anchors (map (slice_anchor (l ++ o :: p)) fu) (sd p + 1)
  = Ok (map snd (filter (fun kf => in_use (fst kf) p && (negb (ever_unused (fst kf) p) || unuse_called (fst kf) l)) fu)).
Proof.
  intros Ho Hs. induction fu as [|kf fu IH]; simpl; auto.
  rewrite (contains_spec kf p o l Ho Hs), IH. cbn [rbind]. destruct (in_use (fst kf) p && _); reflexivity.
Qed.

Theorem plan_id_exact h id : plan_id id (build h) = spec_plan effectively_covered h id.
Proof.
  pose proof (inv_all h) as I. unfold plan_id, spec_plan.
  rewrite (i_hand h I), (i_hbid h I), (i_hbt h I), (i_auid h I), (i_aut h I), (i_ids h I), (i_glob h I), (i_anchors h I), (i_self h I).
  destruct (serving id h) as [r|] eqn:E; simpl option_map; cbv iota; auto.
  destruct (serving_split id h r E) as (o & Eh & Ho & Hs).
  assert (X : select_anchors (map (slice_anchor h) (first_uses h)) (sd (r_before r) + 1) = Ok (covering effectively_covered r h)).
  { rewrite Eh at 1. rewrite select_spec by assumption. reflexivity. }
  rewrite X. destruct ((id =? beat_id h) && negb (beat_through h)); auto.
  destruct ((id =? auth_id h) && negb (auth_through h)); auto. destruct (own id h); reflexivity.
Qed.

Theorem plan_url_exact h u : plan_url u (build h) = spec_url_plan effectively_covered h u.
Proof.
  pose proof (inv_all h) as I. unfold plan_url, spec_url_plan.
  rewrite (i_urls h I), (i_urlids h I), (i_glob h I), (i_anchors h I).
  destruct (url_serving u h) as [r|] eqn:E; simpl option_map; cbv iota; auto.
  destruct (url_split u h r E) as (o & Eh & Ho & Hs).
  assert (X : select_anchors (map (slice_anchor h) (first_uses h)) (sd (r_before r) + 1) = Ok (covering effectively_covered r h)).
  { rewrite Eh at 1. rewrite select_spec by assumption. reflexivity. }
  rewrite X. reflexivity.
Qed.

Theorem step_refused o p : snd (step o (build p)) = refused o p.
Proof.
  pose proof (inv_all p) as I. destruct o.
  - rewrite use_eq by exact I. simpl. destruct (aget k (first_uses p)) eqn:E.
    + destruct (in_use k p); reflexivity.
    + destruct (not_first_nil k p) as (_ & _ & U). { unfold ahas. now rewrite E. } now rewrite U.
  - rewrite unuse_eq by exact I. simpl. destruct (aget k (first_uses p)) eqn:E.
    + destruct (in_use k p); reflexivity.
    + destruct (not_first_nil k p) as (_ & _ & U). { unfold ahas. now rewrite E. } now rewrite U.
  - reflexivity.
  - simpl step. rewrite AddHandler_eq by (apply inv_has, I). simpl refused. rewrite (inv_hand p I), (inv_self p I).
    destruct ms; [destruct (serving id p); reflexivity|]. destruct (own id p); [|reflexivity].
    cbv zeta. change (m_handlers (set_self (aset id (h :: ms) (m_self (build p))) (build p))) with (m_handlers (build p)).
    rewrite (inv_hand p I). destruct (serving id p); reflexivity.
  - simpl step. unfold Any. destruct l as [|f l]; auto. cbv zeta. set (L := f :: l). change (S (List.length l)) with (List.length L).
    set (m1 := AddURLPatternHandler p0 L (if (1 <? List.length L)%nat then AddURLPatternHandler p0 L (build p) else build p)).
    assert (E2 : m_urlids m1 = m_urlids (build p)).
    { unfold m1, AddURLPatternHandler. destruct (1 <? List.length L)%nat; destruct (aget p0 (m_urls (build p))); simpl;
      rewrite ?String.eqb_refl; auto. }
    unfold AddURLAnchor, tick. cbn [m_urlids set_seed]. rewrite E2. unfold ahas. rewrite (i_urlids p I). simpl.
    destruct (url_serving p0 p); reflexivity.
  - simpl step. unfold HeartBeatModeDetail. destruct on; auto. rewrite AddHandler_eq by (apply (inv_has p I)). simpl.
    rewrite (inv_hand p I). destruct (serving id p); reflexivity.
  - simpl step. unfold RewriteHeartBeatHandler. rewrite AddHandler_eq.
    + simpl. rewrite ahas_adel, (i_hbid p I), (inv_hand p I). simpl keqb.
      destruct (id =? beat_id p); auto. destruct (serving id p); reflexivity.
    + intros i. simpl. rewrite !ahas_adel. destruct (keqb _ _); auto. apply (inv_has p I).
  - simpl step. unfold WithAuthDetail. destruct yes; auto. rewrite AddHandler_eq by (apply (inv_has p I)). simpl.
    rewrite (inv_hand p I). destruct (serving id p); reflexivity.
  - reflexivity.
Qed.
