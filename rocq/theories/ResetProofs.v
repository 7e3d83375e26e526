(* Reset and ResetOffset called by handlers (C106). NODEMO *)
From Verif Require Export SpecReset.

Section Facts.
Context (beh : nat -> nat -> list ract).

Lemma rsteps_app n m x : rsteps beh (n + m) x = match rsteps beh n x with Some y => rsteps beh m y | None => None end.
Proof. revert x. induction n as [|n IH]; intros x; cbn; [reflexivity|]. destruct (rstep beh x); auto. Qed.

Lemma then_steps n m x y z : rsteps beh n x = Some y -> rsteps beh m y = Some z -> rsteps beh (n + m) x = Some z.
Proof. intros A B. rewrite rsteps_app, A. exact B. Qed.

(* effects of a handler *)
Lemma run_effects l : plain l -> forall off hs calls tr r st, exists t,
  rsteps beh (List.length l) (RS off hs calls tr (FBody (l ++ r) :: st) None) = Some (RS off hs calls (tr ++ t) (FBody r :: st) None) /\
  flat_map (fun e => match e with EEnter h => [h] | _ => [] end) t = [].
Proof.
  induction l as [|a l IH]; intros P off hs calls tr r st.
  - exists []. rewrite app_nil_r. split; reflexivity.
  - destruct (P a (or_introl eq_refl)) as (n & ->). destruct (IH (fun b B => P b (or_intror B)) off hs calls (tr ++ [EEff n]) r st) as (t & E & F).
    exists (EEff n :: t). split; [|exact F]. cbn [List.length rsteps app rstep x_end x_stack x_off x_hs x_trace x_calls]. rewrite E, <- app_assoc. reflexivity.
Qed.

Definition ins (t : list ev) : list nat := flat_map (fun e => match e with EEnter h => [h] | _ => [] end) t.
Lemma ins_app a b : ins (a ++ b) = ins a ++ ins b.
Proof. apply flat_map_app. Qed.

(* handlers without a call of theirs *)
Lemma run_plain hs1 : forall done rest calls tr st, (forall i g, nth_error hs1 i = Some g -> plain (beh (calls + i) g)) ->
  Z.of_nat (List.length (done ++ hs1)) <= 2019 -> exists n t,
  rsteps beh n (RS (Z.of_nat (List.length done)) (done ++ hs1 ++ rest) calls tr (FCheck (Z.of_nat (List.length (done ++ hs1 ++ rest))) :: st) None) =
    Some (RS (Z.of_nat (List.length (done ++ hs1))) (done ++ hs1 ++ rest) (calls + List.length hs1) (tr ++ t) (FCheck (Z.of_nat (List.length (done ++ hs1 ++ rest))) :: st) None) /\ ins t = hs1.
Proof.
  induction hs1 as [|h hs1 IH]; intros done rest calls tr st P B.
  - exists 0%nat, []. cbn [rsteps app]. rewrite !app_nil_r, Nat.add_0_r. split; reflexivity.
  - rewrite app_length in B. cbn [List.length] in B.
    pose proof (P 0%nat h eq_refl) as P0. rewrite Nat.add_0_r in P0.
    destruct (run_effects _ P0 (Z.of_nat (List.length done)) (done ++ (h :: hs1) ++ rest) (S calls) (tr ++ [EEnter h]) [] (FAfter (Z.of_nat (List.length (done ++ (h :: hs1) ++ rest))) :: st)) as (t1 & E1 & F1).
    rewrite app_nil_r in E1.
    destruct (IH (done ++ [h]) rest (S calls) ((tr ++ [EEnter h]) ++ t1) st) as (n2 & t2 & E2 & F2).
    { intros i g G. replace (S calls + i)%nat with (calls + S i)%nat by lia. apply P. exact G. }
    { rewrite !app_length. cbn. lia. }
    rewrite <- !app_assoc in E2. cbn [app] in E2.
    exists (1 + (List.length (beh calls h) + (2 + n2)))%nat, (EEnter h :: t1 ++ t2). split.
    + cbn [app] in *. eapply then_steps; [|eapply then_steps; [exact E1|]].
      * cbn [rsteps rstep x_end x_stack x_off x_hs x_trace x_calls].
        replace (Z.of_nat (List.length done) <? Z.of_nat (List.length (done ++ h :: hs1 ++ rest))) with true by (symmetry; apply Z.ltb_lt; rewrite app_length; cbn; lia).
        unfold ABORT. replace (2019 <=? Z.of_nat (List.length done)) with false by (symmetry; apply Z.leb_gt; lia).
        replace (Z.of_nat (List.length done) <? 0) with false by (symmetry; apply Z.ltb_ge; lia). rewrite Nat2Z.id, nth_error_app2, Nat.sub_diag by lia. cbn [nth_error]. reflexivity.
      * cbn [plus rsteps rstep x_end x_stack x_off x_hs x_trace x_calls].
        replace (Z.of_nat (List.length done) + 1) with (Z.of_nat (List.length (done ++ [h]))) by (rewrite app_length; cbn; lia).
        cbn [app] in E2. rewrite <- !app_assoc. cbn [app]. rewrite E2. f_equal. f_equal; first [reflexivity | (cbn [List.length]; lia) | (rewrite !app_length; cbn; lia) | (rewrite <- ?app_assoc; reflexivity)].
    + cbn [ins flat_map app]. fold (ins (t1 ++ t2)). rewrite ins_app, F2. change (ins t1) with (flat_map (fun e => match e with EEnter h => [h] | _ => [] end) t1). rewrite F1. reflexivity.
Qed.

(* entering the handler after them *)
Lemma enter_next h done rest calls tr st : Z.of_nat (List.length done) < 2019 ->
  rsteps beh 1 (RS (Z.of_nat (List.length done)) (done ++ h :: rest) calls tr (FCheck (Z.of_nat (List.length (done ++ h :: rest))) :: st) None) =
  Some (RS (Z.of_nat (List.length done)) (done ++ h :: rest) (S calls) (tr ++ [EEnter h]) (FBody (beh calls h) :: FAfter (Z.of_nat (List.length (done ++ h :: rest))) :: st) None).
Proof.
  intros B. cbn [rsteps rstep x_end x_stack x_off x_hs x_trace x_calls].
  replace (Z.of_nat (List.length done) <? Z.of_nat (List.length (done ++ h :: rest))) with true by (symmetry; apply Z.ltb_lt; rewrite app_length; cbn; lia).
  unfold ABORT. replace (2019 <=? Z.of_nat (List.length done)) with false by (symmetry; apply Z.leb_gt; lia).
  replace (Z.of_nat (List.length done) <? 0) with false by (symmetry; apply Z.ltb_ge; lia). rewrite Nat2Z.id, nth_error_app2, Nat.sub_diag by lia. reflexivity.
Qed.

Lemma to_handler hs1 h hs2 : (forall i g, nth_error hs1 i = Some g -> plain (beh i g)) -> Z.of_nat (List.length hs1) < 2019 -> exists n t,
  rsteps beh n (rstart (hs1 ++ h :: hs2)) = Some (RS (Z.of_nat (List.length hs1)) (hs1 ++ h :: hs2) (S (List.length hs1)) (t ++ [EEnter h])
    (FBody (beh (List.length hs1) h) :: [FAfter (Z.of_nat (List.length (hs1 ++ h :: hs2)))]) None) /\ ins t = hs1.
Proof.
  intros P B. destruct (run_plain hs1 [] (h :: hs2) 0 [] [] P) as (n & t & E & F); [cbn; lia|]. cbn [app plus List.length] in E.
  exists (n + 1)%nat, t. split; [|exact F]. eapply then_steps; [exact E|]. apply enter_next, B.
Qed.

(* with an empty list the loop of the running chain panics *)
Lemma empty_panics s calls tr : 0 < s -> rsteps beh 3 (RS (-1) [] calls tr (FBody [] :: [FAfter s]) None) = Some (RS 0 [] calls tr [] (Some Panicked)).
Proof. intros S. cbn [rsteps rstep x_end x_stack x_off x_hs x_trace x_calls]. change (-1 + 1) with 0. apply Z.ltb_lt in S. rewrite S. reflexivity. Qed.
End Facts.

Lemma p_C106_reset_refuted : forall beh hs1 h hs2 e1 e2, (forall i g, nth_error hs1 i = Some g -> plain (beh i g)) ->
  Z.of_nat (List.length hs1) < 2019 -> plain e1 -> plain e2 -> beh (List.length hs1) h = e1 ++ RReset :: e2 ->
  ends_as beh (rstart (hs1 ++ h :: hs2)) Panicked (hs1 ++ [h]).
Proof.
  intros beh hs1 h hs2 e1 e2 P B P1 P2 E. destruct (to_handler beh hs1 h hs2 P B) as (n & t & R & F). rewrite E in R. set (s := Z.of_nat (List.length (hs1 ++ h :: hs2))) in *.
  destruct (run_effects beh e1 P1 (Z.of_nat (List.length hs1)) (hs1 ++ h :: hs2) (S (List.length hs1)) (t ++ [EEnter h]) (RReset :: e2) [FAfter s]) as (t1 & R1 & F1).
  destruct (run_effects beh e2 P2 (-1) [] (S (List.length hs1)) ((t ++ [EEnter h]) ++ t1) [] [FAfter s]) as (t2 & R2 & F2). rewrite app_nil_r in R2.
  exists (n + (List.length e1 + (1 + (List.length e2 + 3))))%nat. eexists. split.
  - eapply then_steps; [exact R|]. eapply then_steps; [exact R1|]. eapply then_steps; [reflexivity|]. eapply then_steps; [exact R2|]. apply empty_panics. unfold s. rewrite app_length. cbn. lia.
  - split; [reflexivity|]. cbn [x_trace]. change (ins (((t ++ [EEnter h]) ++ t1) ++ t2) = hs1 ++ [h]). rewrite !ins_app, F. change (ins t1) with (flat_map (fun e => match e with EEnter h => [h] | _ => [] end) t1). rewrite F1.
    change (ins t2) with (flat_map (fun e => match e with EEnter h => [h] | _ => [] end) t2). rewrite F2, !app_nil_r. reflexivity.
Qed.

Lemma p_C106_after_next_refuted : forall beh hs1 h hs2 e1 e2 e3, (forall i g, nth_error hs1 i = Some g -> plain (beh i g)) ->
  (forall i g, nth_error hs2 i = Some g -> plain (beh (S (List.length hs1) + i)%nat g)) -> Z.of_nat (List.length (hs1 ++ h :: hs2)) <= 2019 ->
  plain e1 -> plain e2 -> plain e3 -> beh (List.length hs1) h = e1 ++ RNext :: e2 ++ RReset :: e3 ->
  ends_as beh (rstart (hs1 ++ h :: hs2)) Panicked (hs1 ++ h :: hs2).
Proof.
  intros beh hs1 h hs2 e1 e2 e3 P Q B P1 P2 P3 E. destruct (to_handler beh hs1 h hs2 P) as (n & t & R & F); [rewrite app_length in B; cbn in B; lia|]. rewrite E in R. set (s := Z.of_nat (List.length (hs1 ++ h :: hs2))) in *.
  destruct (run_effects beh e1 P1 (Z.of_nat (List.length hs1)) (hs1 ++ h :: hs2) (S (List.length hs1)) (t ++ [EEnter h]) (RNext :: e2 ++ RReset :: e3) [FAfter s]) as (t1 & R1 & F1).
  destruct (run_plain beh hs2 (hs1 ++ [h]) [] (S (List.length hs1)) ((t ++ [EEnter h]) ++ t1) [FBody (e2 ++ RReset :: e3); FAfter s]) as (n2 & t2 & R2 & F2).
  { intros i g G. apply Q, G. }
  { rewrite <- app_assoc. exact B. }
  rewrite app_nil_r in R2. rewrite <- !app_assoc in R2. cbn [app] in R2.
  destruct (run_effects beh e2 P2 s (hs1 ++ h :: hs2) (S (List.length hs1) + List.length hs2) (t ++ [EEnter h] ++ t1 ++ t2) (RReset :: e3) [FAfter s]) as (t3 & R3 & F3).
  destruct (run_effects beh e3 P3 (-1) [] (S (List.length hs1) + List.length hs2) ((t ++ [EEnter h] ++ t1 ++ t2) ++ t3) [] [FAfter s]) as (t4 & R4 & F4). rewrite app_nil_r in R4.
  exists (n + (List.length e1 + (1 + (n2 + (1 + (List.length e2 + (1 + (List.length e3 + 3))))))))%nat. eexists. split.
  - eapply then_steps; [exact R|]. eapply then_steps; [exact R1|]. eapply then_steps.
    { cbn [rsteps rstep x_end x_stack x_off x_hs x_trace x_calls]. fold s. replace (Z.of_nat (List.length hs1) + 1) with (Z.of_nat (List.length (hs1 ++ [h]))) by (rewrite app_length; cbn; lia). reflexivity. }
    eapply then_steps. { rewrite <- app_assoc. exact R2. }
    eapply then_steps. { cbn [rsteps rstep x_end x_stack x_off x_hs x_trace x_calls]. fold s. rewrite Z.ltb_irrefl. reflexivity. }
    cbn [app] in R3. eapply then_steps; [exact R3|]. eapply then_steps; [reflexivity|]. eapply then_steps; [exact R4|]. apply empty_panics. unfold s. rewrite app_length. cbn. lia.
  - split; [reflexivity|]. cbn [x_trace]. change (ins (((t ++ [EEnter h] ++ t1 ++ t2) ++ t3) ++ t4) = hs1 ++ h :: hs2). rewrite !ins_app, F, F2.
    change (ins t1) with (flat_map (fun e => match e with EEnter h => [h] | _ => [] end) t1). rewrite F1.
    change (ins t3) with (flat_map (fun e => match e with EEnter h => [h] | _ => [] end) t3). rewrite F3.
    change (ins t4) with (flat_map (fun e => match e with EEnter h => [h] | _ => [] end) t4). rewrite F4, !app_nil_r. reflexivity.
Qed.

Lemma forever beh (S : rst -> Prop) : (forall x, S x -> exists k y, (0 < k)%nat /\ rsteps beh k x = Some y /\ S y /\ x_end y = None) -> forall x, S x -> runs_forever beh x.
Proof.
  intros H x X n. revert x X. induction n as [n IH] using lt_wf_ind. intros x X. destruct (H x X) as (k & y & K & R & Y & E).
  destruct (le_lt_dec k n) as [L|L].
  - destruct (IH (n - k)%nat ltac:(lia) y Y) as (z & Z1 & Z2). exists z. split; [|exact Z2]. replace n with (k + (n - k))%nat by lia. rewrite rsteps_app, R. exact Z1.
  - replace k with (n + (k - n))%nat in R by lia. rewrite rsteps_app in R. destruct (rsteps beh n x) as [z|] eqn:Z; [|discriminate]. exists z. split; [reflexivity|].
    destruct (k - n)%nat as [|j] eqn:J; [lia|]. cbn in R. unfold rstep in R. destruct (x_end z); [discriminate|reflexivity].
Qed.

Lemma p_C106_offset_forever_refuted : forall b hs1 h hs2 e1 e2, (forall g, In g hs1 -> plain (b g)) ->
  Z.of_nat (List.length hs1) < 2019 -> plain e1 -> plain e2 -> b h = e1 ++ RResetOffset :: e2 -> runs_forever (always b) (rstart (hs1 ++ h :: hs2)).
Proof.
  intros b hs1 h hs2 e1 e2 P B P1 P2 E. set (hs := hs1 ++ h :: hs2). set (s := Z.of_nat (List.length hs)).
  apply (forever (always b) (fun x => exists calls tr, x = RS 0 hs calls tr [FCheck s] None)); [|exists 0%nat, []; reflexivity].
  intros x (calls & tr & ->). destruct (run_plain (always b) hs1 [] (h :: hs2) calls tr []) as (n & t & R & F).
  { intros i g G. apply P. exact (nth_error_In _ _ G). }
  { cbn. lia. }
  cbn [app List.length] in R. fold hs in R. fold s in R. pose proof (enter_next (always b) h hs1 hs2 (calls + List.length hs1) (tr ++ t) [] B) as R0. fold hs in R0. fold s in R0. unfold always in R0 at 2. rewrite E in R0.
  destruct (run_effects (always b) e1 P1 (Z.of_nat (List.length hs1)) hs (S (calls + List.length hs1)) ((tr ++ t) ++ [EEnter h]) (RResetOffset :: e2) [FAfter s]) as (t1 & R1 & F1).
  destruct (run_effects (always b) e2 P2 (-1) hs (S (calls + List.length hs1)) (((tr ++ t) ++ [EEnter h]) ++ t1) [] [FAfter s]) as (t2 & R2 & F2). rewrite app_nil_r in R2.
  exists (n + (1 + (List.length e1 + (1 + (List.length e2 + 2)))))%nat. eexists. split; [lia|]. split.
  - eapply then_steps; [exact R|]. eapply then_steps; [exact R0|]. eapply then_steps; [exact R1|]. eapply then_steps; [reflexivity|]. eapply then_steps; [exact R2|]. reflexivity.
  - split; [|reflexivity]. do 2 eexists. reflexivity.
Qed.

Lemma p_C106_offset_twice_refuted : forall beh hs1 h hs2 e1 e2, (forall i g, i <> List.length hs1 -> plain (beh i g)) ->
  Z.of_nat (List.length (hs1 ++ h :: hs2)) <= 2019 -> plain e1 -> plain e2 -> beh (List.length hs1) h = e1 ++ RResetOffset :: e2 ->
  ends_as beh (rstart (hs1 ++ h :: hs2)) Returned (hs1 ++ h :: hs1 ++ h :: hs2).
Proof.
  intros beh hs1 h hs2 e1 e2 P B P1 P2 E. set (hs := hs1 ++ h :: hs2) in *. set (s := Z.of_nat (List.length hs)).
  destruct (to_handler beh hs1 h hs2) as (n & t & R & F).
  { intros i g G. apply P. assert (i < List.length hs1)%nat by (apply nth_error_Some; congruence). lia. }
  { unfold hs in B. rewrite app_length in B. cbn in B. lia. }
  rewrite E in R. fold hs in R. fold s in R.
  destruct (run_effects beh e1 P1 (Z.of_nat (List.length hs1)) hs (S (List.length hs1)) (t ++ [EEnter h]) (RResetOffset :: e2) [FAfter s]) as (t1 & R1 & F1).
  destruct (run_effects beh e2 P2 (-1) hs (S (List.length hs1)) ((t ++ [EEnter h]) ++ t1) [] [FAfter s]) as (t2 & R2 & F2). rewrite app_nil_r in R2.
  destruct (run_plain beh hs [] [] (S (List.length hs1)) (((t ++ [EEnter h]) ++ t1) ++ t2) []) as (n2 & t3 & R3 & F3).
  { intros i g G. apply P. lia. }
  { exact B. }
  cbn [app List.length] in R3. rewrite app_nil_r in R3. fold s in R3.
  exists (n + (List.length e1 + (1 + (List.length e2 + (2 + (n2 + 2))))))%nat. eexists. split.
  - eapply then_steps; [exact R|]. eapply then_steps; [exact R1|]. eapply then_steps; [reflexivity|]. eapply then_steps; [exact R2|]. eapply then_steps; [reflexivity|]. eapply then_steps; [exact R3|].
    cbn [rsteps rstep x_end x_stack x_off x_hs x_trace x_calls]. rewrite Z.ltb_irrefl. reflexivity.
  - split; [reflexivity|]. cbn [x_trace]. change (ins ((((t ++ [EEnter h]) ++ t1) ++ t2) ++ t3) = hs1 ++ h :: hs). rewrite !ins_app, F, F3.
    change (ins t1) with (flat_map (fun e => match e with EEnter h => [h] | _ => [] end) t1). rewrite F1.
    change (ins t2) with (flat_map (fun e => match e with EEnter h => [h] | _ => [] end) t2). rewrite F2, !app_nil_r, <- app_assoc. reflexivity.
Qed.

Lemma p_C106_then_abort_partial : forall beh hs1 h hs2 e1 e2 e3 a, (forall i g, nth_error hs1 i = Some g -> plain (beh i g)) ->
  Z.of_nat (List.length hs1) < 2019 -> plain e1 -> plain e2 -> plain e3 -> a = RReset \/ a = RResetOffset ->
  beh (List.length hs1) h = e1 ++ a :: e2 ++ RAbort :: e3 -> ends_as beh (rstart (hs1 ++ h :: hs2)) Returned (hs1 ++ [h]).
Proof.
  intros beh hs1 h hs2 e1 e2 e3 a P B P1 P2 P3 A E. destruct (to_handler beh hs1 h hs2 P B) as (n & t & R & F). rewrite E in R. set (s := Z.of_nat (List.length (hs1 ++ h :: hs2))) in *.
  destruct (run_effects beh e1 P1 (Z.of_nat (List.length hs1)) (hs1 ++ h :: hs2) (S (List.length hs1)) (t ++ [EEnter h]) (a :: e2 ++ RAbort :: e3) [FAfter s]) as (t1 & R1 & F1).
  assert (Q : exists hs', rsteps beh 1 (RS (Z.of_nat (List.length hs1)) (hs1 ++ h :: hs2) (S (List.length hs1)) ((t ++ [EEnter h]) ++ t1) (FBody (a :: e2 ++ RAbort :: e3) :: [FAfter s]) None) =
    Some (RS (-1) hs' (S (List.length hs1)) ((t ++ [EEnter h]) ++ t1) (FBody (e2 ++ RAbort :: e3) :: [FAfter s]) None)) by (destruct A as [->| ->]; eexists; reflexivity).
  destruct Q as (hs' & Q).
  destruct (run_effects beh e2 P2 (-1) hs' (S (List.length hs1)) ((t ++ [EEnter h]) ++ t1) (RAbort :: e3) [FAfter s]) as (t2 & R2 & F2).
  destruct (run_effects beh e3 P3 ABORT hs' (S (List.length hs1)) ((((t ++ [EEnter h]) ++ t1) ++ t2) ++ [EAbort]) [] [FAfter s]) as (t3 & R3 & F3). rewrite app_nil_r in R3.
  exists (n + (List.length e1 + (1 + (List.length e2 + (1 + (List.length e3 + 4))))))%nat.
  exists (RS (ABORT + 1) hs' (S (List.length hs1)) (((((t ++ [EEnter h]) ++ t1) ++ t2) ++ [EAbort]) ++ t3) [] (Some Returned)). split.
  - eapply then_steps; [exact R|]. eapply then_steps; [exact R1|]. eapply then_steps; [exact Q|]. eapply then_steps; [exact R2|]. eapply then_steps; [reflexivity|]. eapply then_steps; [exact R3|].
    cbn [rsteps rstep x_end x_stack x_off x_hs x_trace x_calls]. change (ABORT <=? ABORT + 1) with true. destruct (ABORT + 1 <? s); reflexivity.
  - split; [reflexivity|]. cbn [x_trace]. change (ins (((((t ++ [EEnter h]) ++ t1) ++ t2) ++ [EAbort]) ++ t3) = hs1 ++ [h]). rewrite !ins_app, F.
    change (ins t1) with (flat_map (fun e => match e with EEnter h => [h] | _ => [] end) t1). rewrite F1.
    change (ins t2) with (flat_map (fun e => match e with EEnter h => [h] | _ => [] end) t2). rewrite F2.
    change (ins t3) with (flat_map (fun e => match e with EEnter h => [h] | _ => [] end) t3). rewrite F3. cbn [ins flat_map app]. rewrite !app_nil_r. reflexivity.
Qed.

Lemma p_C106_direct_partial : forall beh l, ~ In RPanic l -> ends_as beh (rdirect l) Returned [].
Proof.
  intros beh l. assert (X : forall l off tr calls, ~ In RPanic l -> (off = -1 \/ 0 <= off) -> exists n y, rsteps beh n (RS off [] calls tr [FBody l] None) = Some y /\ x_end y = Some Returned /\ ins (x_trace y) = ins tr).
  { clear l. induction l as [|a l IH]; intros off tr calls N O; [exists 2%nat; eexists; split; [reflexivity|]; split; reflexivity|].
    assert (N' : ~ In RPanic l) by (intros X; apply N; right; exact X).
    assert (L : (off + 1 <? 0) = false) by (apply Z.ltb_ge; lia).
    destruct a.
    - destruct (IH off (tr ++ [EEff n]) calls N' O) as (m & y & R & E & T). exists (S m), y. split; [exact R|]. split; [exact E|]. rewrite T, ins_app. cbn. apply app_nil_r.
    - destruct (IH (off + 1) tr calls N' ltac:(lia)) as (m & y & R & E & T). exists (S (S m)), y. split; [|auto]. cbn [rsteps rstep x_end x_stack x_off x_hs x_trace x_calls List.length]. change (Z.of_nat 0) with 0. rewrite L. exact R.
    - destruct (IH (off + 1) tr calls N' ltac:(lia)) as (m & y & R & E & T). exists (S (S (S m))), y. split; [|auto]. cbn [rsteps rstep x_end x_stack x_off x_hs x_trace x_calls List.length]. change (Z.of_nat 0) with 0. rewrite L. exact R.
    - destruct (IH ABORT (tr ++ [EAbort]) calls N' ltac:(unfold ABORT; lia)) as (m & y & R & E & T). exists (S m), y. split; [exact R|]. split; [exact E|]. rewrite T, ins_app. cbn. apply app_nil_r.
    - destruct (N (or_introl eq_refl)).
    - destruct (IH (-1) tr calls N' ltac:(lia)) as (m & y & R & E & T). exists (S m), y. auto.
    - destruct (IH (-1) tr calls N' ltac:(lia)) as (m & y & R & E & T). exists (S m), y. auto. }
  intros N. destruct (X l (-1) [] 0%nat N ltac:(lia)) as (n & y & R & E & T). exists n, y. auto.
Qed.

(* without these two calls the machine does what C21 to C23 are about *)
Lemma rpanic_cut off hs calls tr f st : f <> FRec -> rpanic (RS off hs calls tr (f :: st) None) = rpanic (RS off hs calls tr st None).
Proof. destruct f; intros H; try reflexivity. congruence. Qed.

Definition outcome_of (s : status) (x : rst) : rst := match s with Returned => x | Panicked => rpanic x end.

Section Sim.
Context (c : chain).
Let beh := always (fun h => map as_ract (ch_beh c h)).
Let hs := ch_handlers c.
Let len := Z.of_nat (List.length hs).

Definition sim_next (next : Z -> option (list ev * status * Z)) : Prop := forall off t s o, 0 <= off -> next off = Some (t, s, o) -> 0 <= o /\ forall calls tr st,
  exists n calls', rsteps beh n (RS (off + 1) hs calls tr (FCheck len :: st) None) = Some (outcome_of s (RS o hs calls' (tr ++ t) st None)).

Lemma sim_exec next : sim_next next -> forall acts off t s o, 0 <= off -> exec next acts off = Some (t, s, o) -> 0 <= o /\ forall calls tr st,
  exists n calls', rsteps beh n (RS off hs calls tr (FBody (map as_ract acts) :: st) None) = Some (outcome_of s (RS o hs calls' (tr ++ t) (match s with Returned => FBody [] :: st | Panicked => st end) None)).
Proof.
  intros Hn. induction acts as [|a acts IH]; intros off t s o O H; cbn [exec] in H.
  - injection H as <- <- <-. split; [exact O|]. intros calls tr st. exists 0%nat, calls. cbn. rewrite app_nil_r. reflexivity.
  - destruct a.
    + destruct (exec next acts off) as [[[t' s'] o']|] eqn:E; [|discriminate]. injection H as <- <- <-. destruct (IH _ _ _ _ O E) as (O' & R). split; [exact O'|].
      intros calls tr st. destruct (R calls (tr ++ [EEff n]) st) as (m & calls' & X). exists (S m), calls'. rewrite <- app_assoc in X. exact X.
    + destruct (next off) as [[[t1 [|]] o1]|] eqn:N; try discriminate.
      * destruct (exec next acts o1) as [[[t2 s2] o2]|] eqn:E; [|discriminate]. injection H as <- <- <-. destruct (Hn _ _ _ _ O N) as (O1 & R1). destruct (IH _ _ _ _ O1 E) as (O2 & R2). split; [exact O2|].
        intros calls tr st. destruct (R1 calls tr (FBody (map as_ract acts) :: st)) as (m1 & c1 & X1). destruct (R2 c1 (tr ++ t1) st) as (m2 & c2 & X2). exists (1 + (m1 + m2))%nat, c2.
        rewrite app_assoc. eapply then_steps; [reflexivity|]. eapply then_steps; [exact X1|exact X2].
      * injection H as <- <- <-. destruct (Hn _ _ _ _ O N) as (O1 & R1). split; [exact O1|]. intros calls tr st. destruct (R1 calls tr (FBody (map as_ract acts) :: st)) as (m1 & c1 & X1). exists (1 + m1)%nat, c1.
        eapply then_steps; [reflexivity|]. unfold outcome_of in *. rewrite rpanic_cut in X1 by discriminate. exact X1.
    + destruct (next off) as [[[t1 s1] o1]|] eqn:N; [|discriminate]. destruct (exec next acts o1) as [[[t2 s2] o2]|] eqn:E; [|discriminate]. injection H as <- <- <-.
      destruct (Hn _ _ _ _ O N) as (O1 & R1). destruct (IH _ _ _ _ O1 E) as (O2 & R2). split; [exact O2|].
      intros calls tr st. destruct (R1 calls tr (FRec :: FBody (map as_ract acts) :: st)) as (m1 & c1 & X1). destruct (R2 c1 (tr ++ t1) st) as (m2 & c2 & X2). rewrite app_assoc. destruct s1.
      * exists (1 + (m1 + (1 + m2)))%nat, c2. eapply then_steps; [reflexivity|]. eapply then_steps; [exact X1|]. eapply then_steps; [reflexivity|]. exact X2.
      * exists (1 + (m1 + m2))%nat, c2. eapply then_steps; [reflexivity|]. eapply then_steps; [exact X1|]. exact X2.
    + destruct (exec next acts ABORT) as [[[t' s'] o']|] eqn:E; [|discriminate]. injection H as <- <- <-. destruct (IH ABORT _ _ _ ltac:(unfold ABORT; lia) E) as (O' & R). split; [exact O'|].
      intros calls tr st. destruct (R calls (tr ++ [EAbort]) st) as (m & calls' & X). exists (S m), calls'. rewrite <- app_assoc in X. exact X.
    + injection H as <- <- <-. split; [exact O|]. intros calls tr st. exists 1%nat, calls. cbn [rsteps rstep x_end x_stack map as_ract outcome_of]. rewrite app_nil_r, rpanic_cut by discriminate. reflexivity.
Qed.

Lemma sim_loop : forall fuel off t s o, 0 <= off -> loop c fuel off = Some (t, s, o) -> 0 <= o /\ forall calls tr st,
  exists n calls', rsteps beh n (RS off hs calls tr (FCheck len :: st) None) = Some (outcome_of s (RS o hs calls' (tr ++ t) st None)).
Proof.
  induction fuel as [|f IH]; intros off t s o O H; [discriminate|]. cbn [loop] in H. fold hs len in H.
  destruct (off <? len) eqn:L.
  - destruct (ABORT <=? off) eqn:A.
    + injection H as <- <- <-. split; [exact O|]. intros calls tr st. exists 1%nat, calls. cbn [rsteps rstep x_end x_stack x_off x_hs x_trace x_calls]. rewrite L, A, app_nil_r. reflexivity.
    + assert (NN : (off <? 0) = false) by (apply Z.ltb_ge; lia).
      destruct (nth_error hs (Z.to_nat off)) as [h|] eqn:E.
      * assert (SN : sim_next (fun o => loop c f (o + 1))) by (intros off' t' s' o' O' H'; apply (IH (off' + 1) t' s' o'); [lia|exact H']).
        destruct (exec _ (ch_beh c h) off) as [[[t1 [|]] o1]|] eqn:X; [| |discriminate].
        -- destruct (loop c f (o1 + 1)) as [[[t2 s2] o2]|] eqn:Y; [|discriminate]. injection H as <- <- <-. destruct (sim_exec _ SN _ _ _ _ _ O X) as (O1 & R1). destruct (IH (o1 + 1) t2 s2 o2 ltac:(lia) Y) as (O2 & R2). split; [exact O2|].
           intros calls tr st. destruct (R1 (S calls) (tr ++ [EEnter h]) (FAfter len :: st)) as (m1 & c1 & X1). destruct (R2 c1 ((tr ++ [EEnter h]) ++ t1) st) as (m2 & c2 & X2). exists (1 + (m1 + (2 + m2)))%nat, c2.
           replace (tr ++ EEnter h :: t1 ++ t2) with (((tr ++ [EEnter h]) ++ t1) ++ t2) by (rewrite <- !app_assoc; reflexivity).
           eapply then_steps; [cbn [rsteps rstep x_end x_stack x_off x_hs x_trace x_calls]; rewrite L, A, NN, E; reflexivity|]. eapply then_steps; [exact X1|]. eapply then_steps; [reflexivity|]. exact X2.
        -- injection H as <- <- <-. destruct (sim_exec _ SN _ _ _ _ _ O X) as (O1 & R1). split; [exact O1|]. intros calls tr st. destruct (R1 (S calls) (tr ++ [EEnter h]) (FAfter len :: st)) as (m1 & c1 & X1). exists (1 + m1)%nat, c1.
           replace (tr ++ EEnter h :: t1) with ((tr ++ [EEnter h]) ++ t1) by (rewrite <- !app_assoc; reflexivity).
           eapply then_steps; [cbn [rsteps rstep x_end x_stack x_off x_hs x_trace x_calls]; rewrite L, A, NN, E; reflexivity|]. unfold outcome_of in *. rewrite rpanic_cut in X1 by discriminate. exact X1.
      * injection H as <- <- <-. split; [exact O|]. intros calls tr st. exists 1%nat, calls. cbn [rsteps rstep x_end x_stack x_off x_hs x_trace x_calls]. rewrite L, A, NN, E, app_nil_r. cbn [outcome_of]. rewrite rpanic_cut by discriminate. reflexivity.
  - injection H as <- <- <-. split; [exact O|]. intros calls tr st. exists 1%nat, calls. cbn [rsteps rstep x_end x_stack x_off x_hs x_trace x_calls]. rewrite L, app_nil_r. reflexivity.
Qed.
End Sim.

Lemma p_C106_same_chain : forall c t s o, run_chain c = Some (t, s, o) -> exists n y,
  rsteps (always (fun h => map as_ract (ch_beh c h))) n (rstart (ch_handlers c)) = Some y /\ x_end y = Some s /\ x_trace y = t /\ x_off y = o.
Proof.
  intros c t s o H. destruct (sim_loop c _ _ _ _ _ (Z.le_refl 0) H) as (_ & R). destruct (R 0%nat [] []) as (n & calls & X). destruct s.
  - exists (n + 1)%nat. eexists. split; [eapply then_steps; [exact X|reflexivity]|]. repeat split.
  - exists n. eexists. split; [exact X|]. repeat split.
Qed.
