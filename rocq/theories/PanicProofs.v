(* What a panic in a callback or handler does (C107). NODEMO *)
From Coq Require Import Sorted.
From Verif Require Export SpecPanic.

Fixpoint prun (f : conf) (l : list nat) (s : pst) : pst := match l with [] => s | i :: r => match pstep f i s with Some s' => prun f r s' | None => s end end.
Lemma prun_reach f k l s : preach f k s -> preach f k (prun f l s).
Proof. revert s. induction l as [|i l IH]; intros s R; cbn; [exact R|]. destruct (pstep f i s) eqn:E; [apply IH; econstructor; eassumption|exact R]. Qed.

Definition evs (l : list item) : list (act * bool) := flat_map (fun x => match x with IDo a p => [(a, p)] | _ => [] end) l.
Definition gos (l : list item) : list kind := flat_map (fun x => match x with IGo k => [k] | _ => [] end) l.
Definition defers (l : list item) : list def := flat_map (fun x => match x with IDefer a p => [DDo a p] | IRecover => [DRec] | _ => [] end) l.
Definition devs (l : list def) : list (act * bool) := flat_map (fun x => match x with DDo a p => [(a, p)] | DRec => [] end) l.
Definition calm (l : list item) : Prop := forall a, ~ In (IDo a true) l.
Fixpoint dfold (b : bool) (l : list def) : bool := match l with [] => b | DRec :: r => dfold false r | DDo _ p :: r => dfold (b || p) r end.

Lemma dfold_app b l r : dfold b (l ++ r) = dfold (dfold b l) r.
Proof. revert b. induction l as [|[|a p] l IH]; intros b; cbn; auto. Qed.

(* where a goroutine can be, seen from its body *)
Definition running (b : list item) (g : gst) (tr : list (act * bool)) (sp : list kind) : Prop :=
  exists done, b = done ++ g_todo g /\ calm done /\ g_def g = rev (defers done) /\ g_pan g = false /\ g_over g = false /\ tr = evs done /\ sp = gos done.
Definition ending (b : list item) (g : gst) (tr : list (act * bool)) (sp : list kind) : Prop :=
  exists done rest p0 ran, b = done ++ rest /\ ((p0 = false /\ rest = [] /\ calm done) \/ (p0 = true /\ exists d a, done = d ++ [IDo a true] /\ calm d)) /\
    g_todo g = [] /\ rev (defers done) = ran ++ g_def g /\ tr = evs done ++ devs ran /\ sp = gos done /\ g_pan g = dfold p0 ran /\ (g_over g = true -> g_def g = []).
Definition loc (b : list item) (g : gst) tr sp : Prop := running b g tr sp \/ ending b g tr sp.

Lemma calm_snoc l x : calm l -> (forall a, x <> IDo a true) -> calm (l ++ [x]).
Proof. intros C N a I. apply in_app_or in I as [I|[I|[]]]; [exact (C a I)|exact (N a I)]. Qed.
Lemma evs_app a b : evs (a ++ b) = evs a ++ evs b. Proof. apply flat_map_app. Qed.
Lemma gos_app a b : gos (a ++ b) = gos a ++ gos b. Proof. apply flat_map_app. Qed.
Lemma defers_app a b : defers (a ++ b) = defers a ++ defers b. Proof. apply flat_map_app. Qed.
Lemma devs_app a b : devs (a ++ b) = devs a ++ devs b. Proof. apply flat_map_app. Qed.

(* the effect of one step on its own goroutine *)
Inductive own (g : gst) : gst -> list (act * bool) -> list kind -> bool -> Prop :=
| own_do a p r : g_todo g = IDo a p :: r -> g_over g = false -> own g (G (g_kind g) (if p then [] else r) (g_def g) p false) [(a, p)] [] false
| own_defer a p r : g_todo g = IDefer a p :: r -> g_over g = false -> own g (G (g_kind g) r (DDo a p :: g_def g) (g_pan g) false) [] [] false
| own_rec r : g_todo g = IRecover :: r -> g_over g = false -> own g (G (g_kind g) r (DRec :: g_def g) (g_pan g) false) [] [] false
| own_go k r : g_todo g = IGo k :: r -> g_over g = false -> own g (G (g_kind g) r (g_def g) (g_pan g) false) [] [k] false
| own_drec d : g_todo g = [] -> g_def g = DRec :: d -> g_over g = false -> own g (G (g_kind g) [] d false false) [] [] false
| own_ddo a p d : g_todo g = [] -> g_def g = DDo a p :: d -> g_over g = false -> own g (G (g_kind g) [] d (g_pan g || p) false) [(a, p)] [] false
| own_end : g_todo g = [] -> g_def g = [] -> g_over g = false -> own g (G (g_kind g) [] [] (g_pan g) true) [] [] (g_pan g).

Lemma pstep_own f i s s' : pstep f i s = Some s' -> p_crash s = false /\ exists g g' e k,
  nth_error (p_gs s) i = Some g /\ own g g' e k (p_crash s') /\ p_gs s' = set_at (p_gs s) i g' ++ map (start f) k /\ p_tr s' = p_tr s ++ map (fun x => (i, fst x, snd x)) e.
Proof.
  unfold pstep. intros H. destruct (p_crash s); [discriminate|]. split; [reflexivity|]. destruct (nth_error (p_gs s) i) as [g|]; [|discriminate]. destruct g as [k todo ds pan ov]. destruct ov; [discriminate|].
  exists (G k todo ds pan false).
  destruct todo as [|[a p|a p| |k'] r]; [destruct ds as [|[|a p] d]| | | |]; injection H as <-; do 3 eexists; (split; [reflexivity|]); (split; [econstructor; cbn; reflexivity|]); cbn; rewrite ?app_nil_r; split; reflexivity.
Qed.

Lemma own_loc b g tr sp g' e k c : loc b g tr sp -> own g g' e k c -> loc b g' (tr ++ e) (sp ++ k).
Proof.
  intros L O. destruct L as [(done & B & C & D & PN & OV & T & SP)|(done & rest & p0 & ran & B & C & TD & D & T & SP & PN & OV)]; destruct O as [a p r X Y|a p r X Y|r X Y|k r X Y|d X W Y|a p d X W Y|X W Y];
    try (rewrite TD in X; discriminate); try (rewrite X in B).
  - destruct p.
    + right. exists (done ++ [IDo a true]), r, true, []. split; [rewrite <- app_assoc; exact B|]. split; [right; split; [reflexivity|exists done, a; auto]|]. cbn [g_todo g_def g_pan g_over].
      rewrite defers_app, evs_app, gos_app. cbn. rewrite !app_nil_r. subst. repeat split; auto. discriminate.
    + left. exists (done ++ [IDo a false]). cbn [g_todo g_def g_pan g_over]. rewrite defers_app, evs_app, gos_app. cbn. rewrite !app_nil_r, <- app_assoc. subst. repeat split; auto. apply calm_snoc; [exact C|discriminate].
  - left. exists (done ++ [IDefer a p]). cbn [g_todo g_def g_pan g_over]. rewrite defers_app, evs_app, gos_app, rev_app_distr. cbn. rewrite !app_nil_r, <- app_assoc, D, PN. subst. repeat split; auto. apply calm_snoc; [exact C|discriminate].
  - left. exists (done ++ [IRecover]). cbn [g_todo g_def g_pan g_over]. rewrite defers_app, evs_app, gos_app, rev_app_distr. cbn. rewrite !app_nil_r, <- app_assoc, D, PN. subst. repeat split; auto. apply calm_snoc; [exact C|discriminate].
  - left. exists (done ++ [IGo k]). cbn [g_todo g_def g_pan g_over]. rewrite defers_app, evs_app, gos_app. cbn. rewrite !app_nil_r, <- app_assoc, PN. subst. repeat split; auto. apply calm_snoc; [exact C|discriminate].
  - right. exists done, [], false, [DRec]. cbn [g_todo g_def g_pan g_over]. rewrite app_nil_r in B. rewrite W in D. rewrite <- D. cbn. rewrite !app_nil_r. subst. repeat split; auto. discriminate.
  - right. exists done, [], false, [DDo a p]. cbn [g_todo g_def g_pan g_over]. rewrite app_nil_r in B. rewrite W in D. rewrite <- D. cbn. rewrite !app_nil_r, PN. subst. repeat split; auto. discriminate.
  - right. exists done, [], false, []. cbn [g_todo g_def g_pan g_over]. rewrite app_nil_r in B. rewrite W in D. rewrite <- D. cbn. rewrite !app_nil_r, PN. subst. repeat split; auto.
  - right. exists done, rest, p0, (ran ++ [DRec]). cbn [g_todo g_def g_pan g_over]. rewrite devs_app, dfold_app, <- app_assoc, D, W. cbn. rewrite !app_nil_r. subst. repeat split; auto. discriminate.
  - right. exists done, rest, p0, (ran ++ [DDo a p]). cbn [g_todo g_def g_pan g_over]. rewrite devs_app, dfold_app, <- app_assoc, D, W, PN. cbn. rewrite !app_nil_r. subst. rewrite <- app_assoc. repeat split; auto. discriminate.
  - right. exists done, rest, p0, ran. cbn [g_todo g_def g_pan g_over]. rewrite D, W, !app_nil_r. repeat split; auto.
Qed.

(* calls of goroutine i *)
Definition of_g (i : nat) (tr : list event) : list (act * bool) := flat_map (fun x => if (fst (fst x) =? i)%nat then [(snd (fst x), snd x)] else []) tr.
Lemma of_g_app i a b : of_g i (a ++ b) = of_g i a ++ of_g i b. Proof. apply flat_map_app. Qed.
Lemma of_g_in i a p tr : In (i, a, p) tr <-> In (a, p) (of_g i tr).
Proof.
  unfold of_g. rewrite in_flat_map. split.
  - intros I. exists (i, a, p). split; [exact I|]. cbn. rewrite Nat.eqb_refl. left. reflexivity.
  - intros ([[j a'] p'] & I & J). cbn in J. destruct (Nat.eqb_spec j i) as [->|]; [|destruct J]. destruct J as [[= <- <-]|[]]. exact I.
Qed.
Lemma of_g_same i e : of_g i (map (fun x => (i, fst x, snd x)) e) = e.
Proof. induction e as [|[a p] e IH]; cbn; [reflexivity|]. rewrite Nat.eqb_refl. cbn. f_equal. exact IH. Qed.
Lemma of_g_other i j e : i <> j -> of_g i (map (fun x => (j, fst x, snd x)) e) = [].
Proof. intros N. induction e as [|[a p] e IH]; cbn; [reflexivity|]. destruct (Nat.eqb_spec j i); [congruence|exact IH]. Qed.

Lemma set_at_len {A} (l : list A) i x : List.length (set_at l i x) = List.length l.
Proof. revert i. induction l as [|y l IH]; intros [|i]; cbn; auto. Qed.
Lemma set_at_nth {A} (l : list A) i x j : nth_error (set_at l i x) j = if (j =? i)%nat then (match nth_error l i with Some _ => Some x | None => None end) else nth_error l j.
Proof. revert i j. induction l as [|y l IH]; intros [|i] [|j]; cbn; auto. destruct (j =? i)%nat; reflexivity. Qed.

Definition inv (f : conf) (k : kind) (s : pst) : Prop := exists sps,
  (List.length sps = List.length (p_gs s)) /\
  (forall i a p, In (i, a, p) (p_tr s) -> (i < List.length (p_gs s))%nat) /\
  (forall i g, nth_error (p_gs s) i = Some g -> loc (body f (g_kind g)) g (of_g i (p_tr s)) (nth i sps [])) /\
  (exists g, nth_error (p_gs s) 0 = Some g /\ g_kind g = k) /\
  (forall i g, nth_error (p_gs s) i = Some g -> i <> 0%nat -> exists j, (j < List.length (p_gs s))%nat /\ In (g_kind g) (nth j sps [])) /\
  (p_crash s = true <-> exists i g, nth_error (p_gs s) i = Some g /\ g_over g = true /\ g_pan g = true).

Lemma start_loc f k : loc (body f (g_kind (start f k))) (start f k) [] [].
Proof. left. exists []. cbn. repeat split; auto. intros a []. Qed.

Lemma own_kind g g' e k c : own g g' e k c -> g_kind g' = g_kind g /\ g_over g = false /\ (c = true <-> g_over g' = true /\ g_pan g' = true).
Proof. destruct 1; cbn; split; auto; split; auto; split; try tauto; try discriminate; intros [? ?]; try discriminate; auto. Qed.

Lemma preach_inv f k s : preach f k s -> inv f k s.
Proof.
  induction 1 as [|s i s' R (sps & LN & TI & LO & (g0 & Z0 & K0) & SP & CR) ST].
  - exists [[]]. cbn. split; [reflexivity|]. split; [intros i a p []|]. split.
    { intros [|[|i]] g H; try discriminate. injection H as <-. apply start_loc. }
    split; [eexists; split; reflexivity|]. split; [intros [|[|i]] g H N; try discriminate; congruence|].
    split; [discriminate|]. intros ([|[|i]] & g & H & O & _); try discriminate. injection H as <-. discriminate.
  - destruct (pstep_own _ _ _ _ ST) as (NC & g & g' & e & ks & N & O & GS & TR). destruct (own_kind _ _ _ _ _ O) as (KK & NO & CO).
    assert (IL : (i < List.length (p_gs s))%nat) by (apply nth_error_Some; congruence).
    assert (LN' : List.length (set_at sps i (nth i sps [] ++ ks)) = List.length (p_gs s)) by (rewrite set_at_len; exact LN).
    assert (OLD : forall j, (j < List.length (p_gs s))%nat -> nth j (set_at sps i (nth i sps [] ++ ks) ++ map (fun _ => []) ks) [] = if (j =? i)%nat then nth i sps [] ++ ks else nth j sps []).
    { intros j J. rewrite app_nth1 by lia. apply nth_error_nth. rewrite set_at_nth. destruct (j =? i)%nat eqn:E.
      - destruct (nth_error sps i) eqn:Q; [reflexivity|]. apply nth_error_None in Q. lia.
      - apply nth_error_nth'. lia. }
    assert (NEW : forall j, (List.length (p_gs s) <= j)%nat -> nth j (set_at sps i (nth i sps [] ++ ks) ++ map (fun _ => []) ks) [] = []).
    { intros j J. rewrite app_nth2 by lia. clear. revert j. generalize (List.length (set_at sps i (nth i sps [] ++ ks))). intros m j. generalize (j - m)%nat. induction ks as [|q ks IH]; intros [|w]; cbn; auto. }
    assert (GN : forall j h, nth_error (p_gs s') j = Some h -> (j = i /\ h = g') \/ (j <> i /\ nth_error (p_gs s) j = Some h) \/ ((List.length (p_gs s) <= j)%nat /\ exists q, In q ks /\ h = start f q)).
    { intros j h H. rewrite GS in H. destruct (Nat.ltb_spec j (List.length (p_gs s))) as [J|J].
      - rewrite nth_error_app1 in H by (rewrite set_at_len; exact J). rewrite set_at_nth, N in H. destruct (Nat.eqb_spec j i) as [->|E]; [injection H as <-; auto|auto].
      - right. right. split; [exact J|]. rewrite nth_error_app2 in H by (rewrite set_at_len; exact J). apply nth_error_In in H. apply in_map_iff in H as (q & Q1 & Q2). exists q. auto. }
    exists (set_at sps i (nth i sps [] ++ ks) ++ map (fun _ => []) ks).
    assert (LG : List.length (p_gs s') = (List.length (p_gs s) + List.length ks)%nat) by (rewrite GS, app_length, set_at_len, map_length; reflexivity).
    split; [rewrite app_length, LN', map_length, LG; reflexivity|].
    split. { intros j a p I. rewrite TR in I. apply in_app_or in I as [I|I]; [specialize (TI _ _ _ I); lia|]. apply in_map_iff in I as (x & [= <- <- <-] & _). lia. }
    split.
    { intros j h H. rewrite TR, of_g_app. destruct (GN j h H) as [(-> & ->)|[(NE & H')|(J & q & Q & ->)]].
      - rewrite of_g_same, OLD, Nat.eqb_refl, KK by exact IL. eapply own_loc; [apply LO, N|exact O].
      - rewrite of_g_other, app_nil_r by exact NE. rewrite OLD by (apply nth_error_Some; congruence). destruct (Nat.eqb_spec j i); [contradiction|]. apply LO, H'.
      - rewrite of_g_other, app_nil_r by lia. rewrite NEW by exact J. replace (of_g j (p_tr s)) with (@nil (act * bool)); [apply start_loc|].
        destruct (of_g j (p_tr s)) as [|[a p] r] eqn:E; [reflexivity|]. assert (I : In (j, a, p) (p_tr s)) by (apply of_g_in; rewrite E; left; reflexivity). specialize (TI _ _ _ I). lia. }
    split.
    { destruct (Nat.eqb_spec 0 i) as [<-|E].
      - exists g'. split; [|congruence]. rewrite GS, nth_error_app1 by (rewrite set_at_len; lia). rewrite set_at_nth, N. reflexivity.
      - exists g0. split; [|exact K0]. rewrite GS, nth_error_app1 by (rewrite set_at_len; lia). rewrite set_at_nth. destruct (Nat.eqb_spec 0 i); [contradiction|exact Z0]. }
    assert (KEEP : forall j q, (j < List.length (p_gs s))%nat -> In q (nth j sps []) -> In q (nth j (set_at sps i (nth i sps [] ++ ks) ++ map (fun _ => []) ks) [])).
    { intros j q J Q. rewrite OLD by exact J. destruct (Nat.eqb_spec j i) as [->|]; [apply in_or_app; left; exact Q|exact Q]. }
    split.
    { intros j h H J0. destruct (GN j h H) as [(-> & ->)|[(NE & H')|(J & q & Q & ->)]].
      - rewrite KK. destruct (SP _ _ N J0) as (w & W1 & W2). exists w. split; [lia|]. apply KEEP; assumption.
      - destruct (SP _ _ H' J0) as (w & W1 & W2). exists w. split; [lia|]. apply KEEP; assumption.
      - exists i. split; [lia|]. rewrite OLD, Nat.eqb_refl by exact IL. apply in_or_app. right. exact Q. }
    rewrite CO. split.
    + intros [A B]. exists i, g'. split; [|auto]. rewrite GS, nth_error_app1 by (rewrite set_at_len; exact IL). rewrite set_at_nth, Nat.eqb_refl, N. reflexivity.
    + intros (j & h & H & A & B). destruct (GN j h H) as [(-> & ->)|[(NE & H')|(J & q & Q & ->)]]; [auto| |discriminate]. assert (X : p_crash s = true) by (apply CR; eauto). congruence.
Qed.

Lemma all_over f s : complete f s -> p_crash s = false -> forall i g, nth_error (p_gs s) i = Some g -> g_over g = true.
Proof.
  intros C NC i g N. specialize (C i). unfold pstep in C. rewrite NC, N in C. destruct g as [k todo ds pan ov]. destruct ov; [reflexivity|]. destruct todo as [|[a p|a p| |k'] r]; [destruct ds as [|[|a p] d]| | | |]; discriminate.
Qed.

(* what the calls of a goroutine are *)
Lemma loc_in b g tr sp a p : loc b g tr sp -> In (a, p) tr -> In (IDo a p) b \/ In (IDefer a p) b.
Proof.
  assert (E : forall l, In (a, p) (evs l) -> In (IDo a p) l).
  { intros l I. unfold evs in I. apply in_flat_map in I as (x & X & Y). assert (x = IDo a p) as -> by (destruct x; cbn in Y; intuition congruence). exact X. }
  intros [(done & B & C & D & PN & OV & T & SP)|(done & rest & p0 & ran & B & C & TD & D & T & SP & PN & OV)] I; rewrite T in I.
  - left. rewrite B. apply in_or_app. left. apply E, I.
  - apply in_app_or in I as [I|I]; [left; rewrite B; apply in_or_app; left; apply E, I|]. right. rewrite B. apply in_or_app. left.
    assert (J : In (DDo a p) (defers done)).
    { apply in_rev. rewrite D. apply in_or_app. left. unfold devs in I. apply in_flat_map in I as ([|a' p'] & X & Y); [destruct Y|]. destruct Y as [[= -> ->]|[]]. exact X. }
    unfold defers in J. apply in_flat_map in J as (x & X & Y). assert (x = IDefer a p) as -> by (destruct x; cbn in Y; intuition congruence). exact X.
Qed.

Lemma loc_go b g tr sp k : loc b g tr sp -> In k sp -> In (IGo k) b.
Proof.
  assert (E : forall l, In k (gos l) -> In (IGo k) l).
  { intros l I. unfold gos in I. apply in_flat_map in I as (x & X & Y). assert (x = IGo k) as -> by (destruct x; cbn in Y; intuition congruence). exact X. }
  intros [(done & B & C & D & PN & OV & T & SP)|(done & rest & p0 & ran & B & C & TD & D & T & SP & PN & OV)] I; rewrite SP in I; rewrite B; apply in_or_app; left; apply E, I.
Qed.

(* a goroutine that begins with a recovering function never ends in a panic *)
Lemma rec_safe l g tr sp : loc (IRecover :: l) g tr sp -> g_over g = true -> g_pan g = false.
Proof.
  intros [(done & B & C & D & PN & OV & T & SP)|(done & rest & p0 & ran & B & C & TD & D & T & SP & PN & OV)] O; [exact PN|].
  specialize (OV O). rewrite OV, app_nil_r in D. rewrite PN, <- D. destruct done as [|x d].
  - destruct C as [(_ & -> & _)|(_ & d & a & X & _)]; [discriminate|destruct d; discriminate].
  - injection B as <- _. cbn [defers flat_map]. cbn [app rev]. rewrite dfold_app. reflexivity.
Qed.

(* deferred calls at the head of a body are made before its end *)
Lemma defer_made l1 l2 a p g tr sp : loc (l1 ++ IDefer a p :: l2) g tr sp -> (forall b q, ~ In (IDo b q) l1) -> g_over g = true -> In (a, p) tr.
Proof.
  intros [(done & B & C & D & PN & OV & T & SP)|(done & rest & p0 & ran & B & C & TD & D & T & SP & PN & OV)] N O; [congruence|].
  specialize (OV O). rewrite OV, app_nil_r in D. rewrite T, <- D. apply in_or_app. right.
  assert (I : In (IDefer a p) done).
  { destruct C as [(_ & -> & _)|(_ & d & b & -> & _)].
    - rewrite app_nil_r in B. rewrite <- B. apply in_elt.
    - clear -B N. revert l1 B N. induction d as [|x d IH]; intros [|y l1] B N; cbn in B.
      + discriminate.
      + injection B as -> B. destruct (N b true). left. reflexivity.
      + injection B as <- B. left. reflexivity.
      + injection B as -> B. right. apply (IH l1 B). intros c q I. apply (N c q). right. exact I. }
  unfold devs. apply in_flat_map. exists (DDo a p). split; [|left; reflexivity]. apply in_rev. rewrite rev_involutive. unfold defers. apply in_flat_map. exists (IDefer a p). split; [exact I|left; reflexivity].
Qed.

Lemma wh_in b l x : In x (wh b l) -> b = true /\ In x l.
Proof. destruct b; cbn; [auto|intros []]. Qed.

Ltac inn H := repeat first
  [ match type of H with
    | In _ (_ ++ _) => apply in_app_or in H as [H|H]
    | In _ (_ :: _) => destruct H as [H|H]; [first [discriminate H | idtac]|]
    | In _ [] => destruct H
    | In _ (wh _ _) => apply wh_in in H as [? H]
    end ].

Lemma tcp_items f cs : forall n x, In x (accept_tcp f n cs) -> exists m c, nth_error cs m = Some c /\
  (x = IDo (AAccept (n + m)) false \/ (f_connect f = true /\ x = IDo (AOnConnect (n + m)) (cl_connect c)) \/ x = IGo (GSignal (n + m) (cl_signal c)) \/ x = IGo (GBeat (n + m) (cl_beat c)) \/ x = IGo (GAuth (n + m) (cl_auth c)) \/ x = IGo (GRead (n + m) c)).
Proof.
  induction cs as [|c cs IH]; intros n x H; [destruct H|]. cbn [accept_tcp] in H.
  assert (Z : x = IDo (AAccept n) false \/ (f_connect f = true /\ x = IDo (AOnConnect n) (cl_connect c)) \/ x = IGo (GSignal n (cl_signal c)) \/ x = IGo (GBeat n (cl_beat c)) \/ x = IGo (GAuth n (cl_auth c)) \/ x = IGo (GRead n c) \/ In x (accept_tcp f (S n) cs)).
  { destruct H as [H|H]; [auto|]. inn H; subst; auto 10. }
  destruct Z as [Z|[Z|[Z|[Z|[Z|[Z|Z]]]]]]; [exists 0%nat, c; rewrite Nat.add_0_r; split; [reflexivity|tauto]..|].
  destruct (IH _ _ Z) as (m & c' & M & W). exists (S m), c'. split; [exact M|]. rewrite Nat.add_succ_r. exact W.
Qed.

Lemma raw_items f cs : forall n x, In x (accept_raw f n cs) -> exists m c, nth_error cs m = Some c /\
  (x = IDo (AAccept (n + m)) false \/ (f_connect f = true /\ x = IDo (AOnConnect (n + m)) (cl_connect c)) \/ x = IGo (GSignal (n + m) (f_signals f && cl_signal c)) \/ x = IGo (GBeat (n + m) (cl_beat c)) \/ x = IGo (GReadRaw (n + m) c)).
Proof.
  induction cs as [|c cs IH]; intros n x H; [destruct H|]. cbn [accept_raw] in H.
  assert (Z : x = IDo (AAccept n) false \/ (f_connect f = true /\ x = IDo (AOnConnect n) (cl_connect c)) \/ x = IGo (GSignal n (f_signals f && cl_signal c)) \/ x = IGo (GBeat n (cl_beat c)) \/ x = IGo (GReadRaw n c) \/ In x (accept_raw f (S n) cs)).
  { destruct H as [H|H]; [auto|]. inn H; subst; auto 10. }
  destruct Z as [Z|[Z|[Z|[Z|[Z|Z]]]]]; [exists 0%nat, c; rewrite Nat.add_0_r; split; [reflexivity|tauto]..|].
  destruct (IH _ _ Z) as (m & c' & M & W). exists (S m), c'. split; [exact M|]. rewrite Nat.add_succ_r. exact W.
Qed.

Lemma udp_items f cs : forall n x, In x (receive_udp f n cs) -> exists m c, nth_error cs m = Some c /\
  (x = IDo (AAccept (n + m)) false \/ x = IGo (GSignal (n + m) (f_signals f && cl_signal c)) \/ x = IGo (GBeat (n + m) (cl_beat c)) \/ exists p r, cl_msgs c = MOne p :: r /\ x = IGo (GHandle (n + m) p)).
Proof.
  induction cs as [|c cs IH]; intros n x H; [destruct H|]. cbn [receive_udp] in H.
  assert (Z : x = IDo (AAccept n) false \/ x = IGo (GSignal n (f_signals f && cl_signal c)) \/ x = IGo (GBeat n (cl_beat c)) \/ (exists p r, cl_msgs c = MOne p :: r /\ x = IGo (GHandle n p)) \/ In x (receive_udp f (S n) cs)).
  { destruct H as [H|[H|H]]; auto. apply in_app_or in H as [H|H]; [inn H; subst; auto 10|]. apply in_app_or in H as [H|H]; [|auto 10]. destruct (cl_msgs c) as [|[p|l|] r]; inn H. subst. right. right. right. left. eauto. }
  destruct Z as [Z|[Z|[Z|[Z|Z]]]]; [exists 0%nat, c; rewrite Nat.add_0_r; split; [reflexivity|tauto]..|].
  destruct (IH _ _ Z) as (m & c' & M & W). exists (S m), c'. split; [exact M|]. rewrite Nat.add_succ_r. exact W.
Qed.

Lemma read_items n l x : In x (reading n l) -> (exists p, In (MOne p) l /\ x = IGo (GHandle n p)) \/ (exists ps, In (MPipe ps) l /\ x = IGo (GPipe n ps)) \/ x = IDo (ALib n) true.
Proof.
  induction l as [|m l IH]; intros H; [destruct H|]. assert (Z : In x (reading n l) \/ (exists p, m = MOne p /\ x = IGo (GHandle n p)) \/ (exists ps, m = MPipe ps /\ x = IGo (GPipe n ps)) \/ x = IDo (ALib n) true).
  { destruct m; cbn [reading] in H; destruct H as [<-|H]; eauto 10. }
  destruct Z as [Z|[(p & -> & ->)|[(ps & -> & ->)| ->]]].
  - destruct (IH Z) as [(q & Q & ->)|[(q & Q & ->)| ->]]; [left; exists q; split; [right; exact Q|reflexivity]|right; left; exists q; split; [right; exact Q|reflexivity]|auto].
  - left. exists p. split; [left; reflexivity|reflexivity].
  - right. left. exists ps. split; [left; reflexivity|reflexivity].
  - auto.
Qed.

(* which goroutines make which calls *)
Definition chain_kind (k : kind) : Prop := (exists n p, k = GHandle n p) \/ (exists n l, k = GPipe n l).

Lemma chain_body f k n p : In (IDo (AChain n) p) (body f k) \/ In (IDefer (AChain n) p) (body f k) -> chain_kind k /\ defers (body f k) = [].
Proof.
  assert (M : forall m l, defers (map (IDo (AChain m)) l) = []) by (intros m l; induction l; cbn; auto).
  destruct k as [cs|cs|cs|m c|m c|m q|m l|m cl|m b|m cl]; cbn [body]; intros [H|H]; try (split; [unfold chain_kind; eauto|cbn; auto]; fail); exfalso.
  all: try (destruct H as [H|[H|H]]; try discriminate; (apply tcp_items in H as (m & c & _ & H) || apply raw_items in H as (m & c & _ & H)); decompose [or and ex] H; discriminate).
  all: try (destruct H as [H|H]; try discriminate; apply udp_items in H as (m & c & _ & H); decompose [or and ex] H; discriminate).
  all: try (inn H; try (apply read_items in H; decompose [or and ex] H); discriminate).
  all: try (destruct H as [H|H]; try discriminate; destruct b; inn H; discriminate).
Qed.

Lemma not_rec f k : (exists l, body f k = IRecover :: l) \/ chain_kind k \/ (exists n c, k = GSignal n c) \/ (exists n c, k = GAuth n c).
Proof. unfold chain_kind. destruct k; cbn [body app]; eauto 10. Qed.

Lemma quiet_watch f k g tr sp : (exists n c, k = GSignal n c) \/ (exists n c, k = GAuth n c) -> loc (body f k) g tr sp -> g_pan g = false.
Proof.
  intros K [(done & B & C & D & PN & OV & T & SP)|(done & rest & p0 & ran & B & C & TD & D & T & SP & PN & OV)]; [exact PN|].
  assert (X : calm (body f k) /\ defers (body f k) = []).
  { destruct K as [(n & c & ->)|(n & c & ->)]; destruct c; cbn; split; auto; intros a H; inn H. }
  destruct X as (X1 & X2). rewrite B, defers_app in X2. apply app_eq_nil in X2 as (X2 & _). rewrite X2 in D. cbn in D. symmetry in D. apply app_eq_nil in D as (-> & _). rewrite PN. cbn.
  destruct C as [(-> & _)|(_ & d & a & -> & _)]; [reflexivity|]. destruct (X1 a). rewrite B. apply in_or_app. left. apply in_elt.
Qed.

Lemma p_C107_crash_iff_refuted : forall f k s, preach f k s -> complete f s -> (p_crash s = true <-> exists i n, called s i (AChain n) true).
Proof.
  intros f k s R C. destruct (preach_inv _ _ _ R) as (sps & LN & TI & LO & _ & _ & CR). split.
  - intros X. apply CR in X as (i & g & N & O & PN). specialize (LO _ _ N). exists i. destruct (not_rec f (g_kind g)) as [(l & E)|[K|K]].
    + rewrite E in LO. rewrite (rec_safe _ _ _ _ LO O) in PN. discriminate.
    + assert (Q : exists n, forall a, In (IDo a true) (body f (g_kind g)) -> a = AChain n).
      { destruct K as [(n & p & ->)|(n & l & ->)]; exists n; cbn; intros a I; [destruct I as [[= <- _]|[]]; reflexivity|]. apply in_map_iff in I as (x & [= <- _] & _). reflexivity. }
      assert (D0 : defers (body f (g_kind g)) = []) by (destruct K as [(n & p & ->)|(n & l & ->)]; cbn; [reflexivity|]; induction l; cbn; auto).
      destruct LO as [(done & B & _ & _ & PN' & _)|(done & rest & p0 & ran & B & C' & _ & D & T & _ & PN' & _)]; [congruence|].
      rewrite B, defers_app in D0. apply app_eq_nil in D0 as (D0 & _). rewrite D0 in D. cbn in D. symmetry in D. apply app_eq_nil in D as (-> & _).
      rewrite PN in PN'. cbn in PN'. subst p0. destruct C' as [(X & _)|(_ & d & a & -> & _)]; [discriminate|]. destruct Q as (n & Q). exists n. apply of_g_in. rewrite T.
      rewrite <- (Q a) by (rewrite B; apply in_or_app; left; apply in_elt). apply in_or_app. left. rewrite evs_app. apply in_or_app. right. left. reflexivity.
    + rewrite (quiet_watch _ _ _ _ _ K LO) in PN. discriminate.
  - intros (i & n & X). destruct (p_crash s) eqn:NC; [reflexivity|]. exfalso. specialize (TI _ _ _ X) as IL. destruct (nth_error (p_gs s) i) as [g|] eqn:N; [|apply nth_error_None in N; lia].
    assert (O := all_over _ _ C NC _ _ N). specialize (LO _ _ N). apply of_g_in in X. destruct (chain_body f (g_kind g) n true (loc_in _ _ _ _ _ _ LO X)) as (K & D0).
    destruct LO as [(done & B & _ & _ & _ & OV & _)|(done & rest & p0 & ran & B & C' & _ & D & T & _ & PN' & _)]; [congruence|].
    rewrite B, defers_app in D0. apply app_eq_nil in D0 as (D0 & _). rewrite D0 in D. cbn in D. symmetry in D. apply app_eq_nil in D as (-> & _). cbn in T, PN'. rewrite app_nil_r in T.
    assert (PT : p0 = true). { destruct C' as [(-> & _ & CA)|(-> & _)]; [|reflexivity]. exfalso. rewrite T in X. unfold evs in X. apply in_flat_map in X as (x & X & Y). assert (x = IDo (AChain n) true) as -> by (destruct x; cbn in Y; intuition congruence). exact (CA _ X). }
    assert (Z : false = true) by (apply CR; exists i, g; rewrite PT in PN'; auto). discriminate.
Qed.

(* what is spawned *)
Lemma kinds f k s : preach f k s -> forall (Q : kind -> Prop), Q k -> (forall a b, Q a -> In (IGo b) (body f a) -> Q b) -> forall i g, nth_error (p_gs s) i = Some g -> Q (g_kind g).
Proof.
  intros R Q Q0 QS. induction R as [|s i s' R IH ST]; intros j h H.
  - destruct j as [|[|j]]; try discriminate. injection H as <-. exact Q0.
  - destruct (preach_inv _ _ _ R) as (sps & LN & TI & LO & _). destruct (pstep_own _ _ _ _ ST) as (NC & g & g' & e & ks & N & O & GS & TR). destruct (own_kind _ _ _ _ _ O) as (KK & _).
    rewrite GS in H. destruct (Nat.ltb_spec j (List.length (p_gs s))) as [J|J].
    + rewrite nth_error_app1 in H by (rewrite set_at_len; exact J). rewrite set_at_nth, N in H. destruct (Nat.eqb_spec j i) as [->|E]; [injection H as <-; rewrite KK; exact (IH _ _ N)|exact (IH _ _ H)].
    + rewrite nth_error_app2 in H by (rewrite set_at_len; exact J). apply nth_error_In in H. apply in_map_iff in H as (q & <- & Q2). cbn.
      apply (QS (g_kind g)); [exact (IH _ _ N)|]. apply (loc_go _ g' (of_g i (p_tr s) ++ e) (nth i sps [] ++ ks)); [|apply in_or_app; right; exact Q2]. eapply own_loc; [apply LO, N|exact O].
Qed.

Lemma p_C107_raw_partial : forall f cs s, preach f (GRaw cs) s -> p_crash s = false.
Proof.
  intros f cs s R. destruct (p_crash s) eqn:X; [|reflexivity]. exfalso. destruct (preach_inv _ _ _ R) as (sps & LN & TI & LO & _ & _ & CR).
  assert (Q := kinds f _ s R (fun k => ~ chain_kind k /\ (forall n c, k <> GRead n c) /\ (forall c, k <> GTcp c) /\ (forall c, k <> GUdp c))).
  apply CR in X as (i & g & N & O & PN). specialize (LO _ _ N).
  assert (NK : ~ chain_kind (g_kind g)).
  { apply (Q) with (i := i) (g := g); [| |exact N].
    - repeat split; try discriminate. intros [(n & p & E)|(n & l & E)]; discriminate.
    - intros a b (A & A1 & A2 & A3) I. destruct a as [c|c|c|m c|m c|m q|m l|m cl|m bb|m cl]; try (exfalso; first [exact (A2 _ eq_refl)|exact (A3 _ eq_refl)|exact (A1 _ _ eq_refl)]); cbn [body] in I.
      + destruct I as [I|[I|I]]; try discriminate. apply raw_items in I as (m & c' & _ & I). decompose [or and] I; try discriminate; match goal with E : IGo b = IGo _ |- _ => injection E as -> end; repeat split; try discriminate; intros [(n & p & E)|(n & l & E)]; discriminate.
      + exfalso. inn I; discriminate.
      + exfalso. inn I; discriminate.
      + exfalso. apply in_map_iff in I as (x & I & _). discriminate.
      + exfalso. inn I; discriminate.
      + exfalso. destruct I as [I|I]; [discriminate|]. destruct bb; inn I; discriminate.
      + exfalso. inn I; discriminate. }
  destruct (not_rec f (g_kind g)) as [(l & E)|[K|K]]; [|contradiction|rewrite (quiet_watch _ _ _ _ _ K LO) in PN; discriminate].
  rewrite E in LO. rewrite (rec_safe _ _ _ _ LO O) in PN. discriminate.
Qed.

Lemma p_C107_closed_partial : forall f k s i n c, preach f k s -> reads s i n c -> over s i ->
  called s i (AClose n) false /\ (f_close f = true -> called s i (AOnClose n) (cl_close c)).
Proof.
  intros f k s i n c R (g & N & K) (g' & N' & O). rewrite N in N'. injection N' as <-. destruct (preach_inv _ _ _ R) as (sps & LN & TI & LO & _). specialize (LO _ _ N).
  assert (B : exists l, body f (g_kind g) = [IRecover] ++ IDefer (AClose n) false :: wh (f_close f) [IDefer (AOnClose n) (cl_close c)] ++ l) by (destruct K as [-> | ->]; eexists; reflexivity).
  destruct B as (l & B). rewrite B in LO. split.
  - apply of_g_in. eapply defer_made; [exact LO| |exact O]. intros b q [I|[]]. discriminate.
  - intros F. apply of_g_in. rewrite F in LO. cbn [wh] in LO. apply (defer_made [IRecover; IDefer (AClose n) false] l (AOnClose n) (cl_close c) g _ _ LO); [|exact O]. intros b q I. inn I. all: discriminate.
Qed.

Section Runs.
Context (f : conf) (k0 : kind).

Lemma run_items l : forall s i k r ds, preach f k0 s -> p_crash s = false -> nth_error (p_gs s) i = Some (G k (l ++ r) ds false false) -> calm l ->
  exists s', preach f k0 s' /\ p_crash s' = false /\ nth_error (p_gs s') i = Some (G k r (rev (defers l) ++ ds) false false) /\
    (forall j g, j <> i -> nth_error (p_gs s) j = Some g -> nth_error (p_gs s') j = Some g) /\ (forall k', In k' (gos l) -> exists j, nth_error (p_gs s') j = Some (start f k')).
Proof.
  induction l as [|x l IH]; intros s i k r ds R NC N C.
  - exists s. repeat split; auto. intros k' [].
  - assert (IL : (i < List.length (p_gs s))%nat) by (apply nth_error_Some; congruence).
    assert (C' : calm l) by (intros a I; apply (C a); right; exact I).
    assert (ST : exists s1, pstep f i s = Some s1 /\ p_crash s1 = false /\ nth_error (p_gs s1) i = Some (G k (l ++ r) (rev (defers [x]) ++ ds) false false) /\
      (forall j g, j <> i -> nth_error (p_gs s) j = Some g -> nth_error (p_gs s1) j = Some g) /\ (forall k', In k' (gos [x]) -> exists j, j <> i /\ nth_error (p_gs s1) j = Some (start f k'))).
    { assert (AT : forall g, nth_error (set_at (p_gs s) i g) i = Some g) by (intros g; rewrite set_at_nth, Nat.eqb_refl, N; reflexivity).
      assert (OT : forall g j h, j <> i -> nth_error (p_gs s) j = Some h -> nth_error (set_at (p_gs s) i g) j = Some h) by (intros g j h J H; rewrite set_at_nth; destruct (Nat.eqb_spec j i); [contradiction|exact H]).
      unfold pstep. rewrite NC, N. cbn [app]. destruct x as [a p|a p| |k'].
      - assert (p = false) as -> by (destruct p; [destruct (C a); left|]; reflexivity). eexists. split; [reflexivity|]. split; [reflexivity|]. split; [apply AT|]. split; [intros j g J H; apply OT; assumption|intros k' []].
      - eexists. split; [reflexivity|]. split; [reflexivity|]. split; [apply AT|]. split; [intros j g J H; apply OT; assumption|intros k' []].
      - eexists. split; [reflexivity|]. split; [reflexivity|]. split; [apply AT|]. split; [intros j g J H; apply OT; assumption|intros k' []].
      - eexists. split; [reflexivity|]. split; [reflexivity|]. cbn [p_gs]. split; [rewrite nth_error_app1 by (rewrite set_at_len; exact IL); apply AT|]. split.
        + intros j g J H. rewrite nth_error_app1 by (rewrite set_at_len; apply nth_error_Some; congruence). apply OT; assumption.
        + intros q [<-|[]]. exists (List.length (p_gs s)). split; [lia|]. rewrite nth_error_app2 by (rewrite set_at_len; lia). rewrite set_at_len, Nat.sub_diag. reflexivity. }
    destruct ST as (s1 & ST & NC1 & N1 & K1 & G1). destruct (IH s1 i k r _ (preach_step _ _ _ _ _ R ST) NC1 N1 C') as (s' & R' & NC' & N' & K' & G'). exists s'. repeat split; auto.
    + rewrite N'. change (x :: l) with ([x] ++ l). rewrite defers_app, rev_app_distr, <- app_assoc. reflexivity.
    + intros k' I. change (x :: l) with ([x] ++ l) in I. rewrite gos_app in I. apply in_app_or in I as [I|I]; [|apply G', I]. destruct (G1 _ I) as (j & J & H). exists j. apply K'; assumption.
Qed.

(* a goroutine of this kind that has been started gets to start another *)
Lemma run_go s i k l k' r : preach f k0 s -> p_crash s = false -> nth_error (p_gs s) i = Some (start f k) -> body f k = l ++ IGo k' :: r -> calm l ->
  exists s' j, preach f k0 s' /\ p_crash s' = false /\ nth_error (p_gs s') j = Some (start f k').
Proof.
  intros R NC N B C. unfold start in N. rewrite B in N. change (l ++ IGo k' :: r) with (l ++ [IGo k'] ++ r) in N. rewrite app_assoc in N.
  destruct (run_items _ _ _ _ _ _ R NC N (calm_snoc _ (IGo k') C ltac:(discriminate))) as (s' & R' & NC' & _ & _ & G'). destruct (G' k') as (j & J); [rewrite gos_app; apply in_or_app; right; left; reflexivity|]. eauto.
Qed.

Lemma run_crash s i n k l r : preach f k0 s -> p_crash s = false -> nth_error (p_gs s) i = Some (start f k) -> body f k = l ++ IDo (AChain n) true :: r -> calm l -> defers l = [] ->
  exists s', preach f k0 s' /\ p_crash s' = true /\ called s' i (AChain n) true.
Proof.
  intros R NC N B C D. unfold start in N. rewrite B in N. destruct (run_items _ _ _ _ _ _ R NC N C) as (s' & R' & NC' & N' & _). rewrite D in N'. cbn in N'.
  assert (S1 : pstep f i s' = Some (P (set_at (p_gs s') i (G k [] [] true false)) (p_tr s' ++ [(i, AChain n, true)]) false)) by (unfold pstep; rewrite NC', N'; reflexivity).
  eexists. split; [|split].
  - eapply preach_step; [eapply preach_step; [exact R'|exact S1]|]. unfold pstep. cbn [p_crash p_gs]. rewrite set_at_nth, Nat.eqb_refl, N'. reflexivity.
  - reflexivity.
  - unfold called. cbn. apply in_or_app. right. left. reflexivity.
Qed.
End Runs.

Definition bad_msg (m : msg) : Prop := m = MOne true \/ exists l, m = MPipe l /\ In true l.

Lemma bad_crash f k0 s i n m : preach f k0 s -> p_crash s = false -> bad_msg m -> nth_error (p_gs s) i = Some (start f (match m with MOne p => GHandle n p | MPipe l => GPipe n l | MBad => GHandle n true end)) ->
  exists s', preach f k0 s' /\ p_crash s' = true /\ called s' i (AChain n) true.
Proof.
  intros R NC [->|(l & -> & I)] N.
  - eapply (run_crash f k0 s i n (GHandle n true) [] []); auto. intros a [].
  - assert (Z : exists l1 l2, l = l1 ++ true :: l2 /\ ~ In true l1).
    { clear -I. induction l as [|[|] l IH]; [destruct I|exists [], l; split; [reflexivity|intros []]|]. destruct I as [I|I]; [discriminate|]. destruct (IH I) as (l1 & l2 & -> & Q). exists (false :: l1), l2. split; [reflexivity|]. intros [X|X]; [discriminate|exact (Q X)]. }
    destruct Z as (l1 & l2 & -> & Q). eapply (run_crash f k0 s i n (GPipe n (l1 ++ true :: l2)) (map (IDo (AChain n)) l1) (map (IDo (AChain n)) l2)); auto.
    + cbn [body]. rewrite map_app. reflexivity.
    + intros a X. apply in_map_iff in X as (b & [= _ ->] & X). exact (Q X).
    + clear. induction l1; cbn; auto.
Qed.

Lemma tcp_reaches f cs1 c cs2 : forall n, (f_connect f = true -> forall c', In c' (cs1 ++ [c]) -> cl_connect c' = false) -> exists l r, accept_tcp f n (cs1 ++ c :: cs2) = l ++ IGo (GRead (n + List.length cs1) c) :: r /\ calm l.
Proof.
  assert (BL : forall n c', (f_connect f = true -> cl_connect c' = false) -> calm (IDo (AAccept n) false :: wh (f_connect f) [IDo (AOnConnect n) (cl_connect c')] ++ wh (f_signals f) [IGo (GSignal n (cl_signal c'))] ++ wh (f_beat f) [IGo (GBeat n (cl_beat c'))] ++ wh (f_auth f) [IGo (GAuth n (cl_auth c'))])).
  { intros n c' H a I. destruct I as [I|I]; [discriminate|]. inn I. injection I as _ E. rewrite H in E; [discriminate|assumption]. }
  induction cs1 as [|c1 cs1 IH]; intros n H; cbn [app accept_tcp].
  - rewrite Nat.add_0_r. do 2 eexists. split; [|apply (BL n c); intros F; apply (H F); left; reflexivity]. cbn [app]. rewrite <- !app_assoc. reflexivity.
  - destruct (IH (S n)) as (l & r & E & C); [intros F c' I; apply (H F); right; exact I|]. rewrite E. assert (C1 := BL n c1 (fun F => H F c1 (or_introl eq_refl))).
    do 2 eexists. split.
    + instantiate (2 := (IDo (AAccept n) false :: wh (f_connect f) [IDo (AOnConnect n) (cl_connect c1)] ++ wh (f_signals f) [IGo (GSignal n (cl_signal c1))] ++ wh (f_beat f) [IGo (GBeat n (cl_beat c1))] ++ wh (f_auth f) [IGo (GAuth n (cl_auth c1))]) ++ IGo (GRead n c1) :: l).
      cbn [app List.length]. rewrite Nat.add_succ_r. rewrite <- !app_assoc. cbn [app]. rewrite <- ?app_assoc. reflexivity.
    + intros a I. apply in_app_or in I as [I|[I|I]]; [exact (C1 a I)|discriminate|exact (C a I)].
Qed.

Lemma read_reaches n ms1 m ms2 : ~ In MBad ms1 -> bad_msg m -> exists l r, reading n (ms1 ++ m :: ms2) = l ++ IGo (match m with MOne p => GHandle n p | MPipe l => GPipe n l | MBad => GHandle n true end) :: r /\ calm l.
Proof.
  intros N B. induction ms1 as [|x ms1 IH].
  - exists [], (reading n ms2). split; [|intros a []]. destruct B as [->|(l & -> & _)]; reflexivity.
  - destruct IH as (l & r & E & C); [intros I; apply N; right; exact I|]. cbn [app reading]. rewrite E. destruct x as [p|ps|]; [exists (IGo (GHandle n p) :: l), r|exists (IGo (GPipe n ps) :: l), r|destruct N; left; reflexivity]; (split; [reflexivity|]); intros a [I|I]; try discriminate; exact (C a I).
Qed.

Lemma p_C107_tcp_refuted : forall f cs1 c cs2 ms1 m ms2, (f_connect f = true -> forall c', In c' (cs1 ++ [c]) -> cl_connect c' = false) ->
  cl_msgs c = ms1 ++ m :: ms2 -> ~ In MBad ms1 -> (m = MOne true \/ exists l, m = MPipe l /\ In true l) ->
  exists s i, preach f (GTcp (cs1 ++ c :: cs2)) s /\ p_crash s = true /\ called s i (AChain (List.length cs1)) true.
Proof.
  intros f cs1 c cs2 ms1 m ms2 H M NB B. set (k0 := GTcp (cs1 ++ c :: cs2)). destruct (tcp_reaches f cs1 c cs2 0 H) as (l & r & E & C). destruct (read_reaches (List.length cs1) ms1 m ms2 NB B) as (l' & r' & E' & C').
  destruct (run_go f k0 (pinit f k0) 0 k0 (IRecover :: IDefer AUnlisten false :: l) (GRead (List.length cs1) c) r) as (s1 & i1 & R1 & NC1 & N1); [constructor|reflexivity|reflexivity| | |].
  { cbn [body k0]. rewrite E. reflexivity. }
  { intros a [I|[I|I]]; try discriminate. exact (C a I). }
  destruct (run_go f k0 s1 i1 (GRead (List.length cs1) c) ([IRecover; IDefer (AClose (List.length cs1)) false] ++ wh (f_close f) [IDefer (AOnClose (List.length cs1)) (cl_close c)] ++ l') (match m with MOne p => GHandle (List.length cs1) p | MPipe l => GPipe (List.length cs1) l | MBad => GHandle (List.length cs1) true end) r' R1 NC1 N1) as (s2 & i2 & R2 & NC2 & N2).
  { cbn [body]. rewrite M, E', <- !app_assoc. reflexivity. }
  { intros a I. inn I. exact (C' a I). }
  destruct (bad_crash f k0 s2 i2 _ m R2 NC2 B N2) as (s3 & R3 & X & Y). exists s3, i2. auto.
Qed.

Lemma p_C107_udp_refuted : forall f cs1 c cs2 r, cl_msgs c = MOne true :: r ->
  exists s i, preach f (GUdp (cs1 ++ c :: cs2)) s /\ p_crash s = true /\ called s i (AChain (List.length cs1)) true.
Proof.
  intros f cs1 c cs2 r M. set (k0 := GUdp (cs1 ++ c :: cs2)).
  assert (E : forall n, exists l r, receive_udp f n (cs1 ++ c :: cs2) = l ++ IGo (GHandle (n + List.length cs1) true) :: r /\ calm l).
  { clear k0. induction cs1 as [|c1 cs1 IH]; intros n; cbn [app receive_udp].
    - rewrite M, Nat.add_0_r. exists (IDo (AAccept n) false :: IGo (GSignal n (f_signals f && cl_signal c)) :: wh (f_beat f) [IGo (GBeat n (cl_beat c))]), (receive_udp f (S n) cs2). split; [cbn; reflexivity|]. intros a I. inn I.
    - destruct (IH (S n)) as (l & r' & E & C). rewrite E. exists (IDo (AAccept n) false :: IGo (GSignal n (f_signals f && cl_signal c1)) :: wh (f_beat f) [IGo (GBeat n (cl_beat c1))] ++ match cl_msgs c1 with MOne p :: _ => [IGo (GHandle n p)] | _ => [] end ++ l), r'. split.
      + cbn [app List.length]. rewrite Nat.add_succ_r, <- !app_assoc. reflexivity.
      + intros a I. destruct I as [I|[I|I]]; try discriminate. apply in_app_or in I as [I|I]; [inn I|]. apply in_app_or in I as [I|I]; [destruct (cl_msgs c1) as [|[p|q|] w]; inn I|exact (C a I)]. }
  destruct (E 0%nat) as (l & r' & E' & C).
  destruct (run_go f k0 (pinit f k0) 0 k0 (IRecover :: l) (GHandle (List.length cs1) true) r') as (s1 & i1 & R1 & NC1 & N1); [constructor|reflexivity|reflexivity| | |].
  { cbn [body k0]. rewrite E'. reflexivity. }
  { intros a [I|I]; try discriminate. exact (C a I). }
  destruct (bad_crash f k0 s1 i1 _ (MOne true) R1 NC1 (or_introl eq_refl) N1) as (s3 & R3 & X & Y). exists s3, i1. auto.
Qed.

(* numbers of connections *)
Definition num (k : kind) : option nat := match k with GRead n _ => Some n | GReadRaw n _ => Some n | GSignal n _ => Some n | GBeat n _ => Some n | GAuth n _ => Some n | _ => None end.

Lemma close_num f k n p : In (IDo (AClose n) p) (body f k) \/ In (IDefer (AClose n) p) (body f k) -> num k = Some n.
Proof.
  destruct k as [cs|cs|cs|m c|m c|m q|m l|m cl|m b|m cl]; cbn [body num]; intros [H|H]; try (apply in_map_iff in H as (x & H & _); discriminate).
  all: try (destruct H as [H|[H|H]]; try discriminate; (apply tcp_items in H as (m & c & _ & H) || apply raw_items in H as (m & c & _ & H)); decompose [or and ex] H; discriminate).
  all: try (destruct H as [H|H]; try discriminate; apply udp_items in H as (m & c & _ & H); decompose [or and ex] H; discriminate).
  all: try (destruct H as [H|H]; try discriminate; destruct b; inn H; try (injection H as <-; reflexivity); try (injection H as <- _; reflexivity); try discriminate; fail).
  all: try (inn H; try (apply read_items in H; decompose [or and ex] H; discriminate); try (injection H as <-; reflexivity); try (injection H as <- _; reflexivity); discriminate).
Qed.

Lemma go_num f a k : In (IGo k) (body f a) -> ~ listening k /\ (num k <> None -> listening a).
Proof.
  unfold listening. destruct a as [cs|cs|cs|m c|m c|m q|m l|m cl|m b|m cl]; cbn [body]; intros H.
  - split; [|eauto]. destruct H as [H|[H|H]]; try discriminate. apply tcp_items in H as (m & c & _ & H). decompose [or and ex] H; try discriminate; match goal with E : IGo k = IGo _ |- _ => injection E as -> end; intros [(? & ?X)|[(? & ?X)|(? & ?X)]]; discriminate.
  - split; [|eauto]. destruct H as [H|[H|H]]; try discriminate. apply raw_items in H as (m & c & _ & H). decompose [or and ex] H; try discriminate; match goal with E : IGo k = IGo _ |- _ => injection E as -> end; intros [(? & ?X)|[(? & ?X)|(? & ?X)]]; discriminate.
  - split; [|eauto]. destruct H as [H|H]; try discriminate. apply udp_items in H as (m & c & _ & H). decompose [or and ex] H; try discriminate; match goal with E : IGo k = IGo _ |- _ => injection E as -> end; intros [(? & ?X)|[(? & ?X)|(? & ?X)]]; discriminate.
  - inn H; try discriminate. apply read_items in H as [(p & _ & E)|[(p & _ & E)|E]]; [injection E as ->..|discriminate]; (split; [intros [(? & ?X)|[(? & ?X)|(? & ?X)]]; discriminate|intros X; exfalso; apply X; reflexivity]).
  - exfalso. inn H; discriminate.
  - exfalso. inn H; discriminate.
  - exfalso. apply in_map_iff in H as (x & H & _). discriminate.
  - exfalso. inn H; discriminate.
  - exfalso. destruct H as [H|H]; [discriminate|]. destruct b; inn H; discriminate.
  - exfalso. inn H; discriminate.
Qed.

(* the order of an accept loop *)
Definition rank (x : item) : nat := match x with
  | IDo (AAccept n) _ => 3 * n | IDo (AOnConnect n) _ => 3 * n + 1
  | IGo k => match num k with Some n => 3 * n + 2 | None => 0 end
  | _ => 0 end.

Lemma sorted_split d x r : StronglySorted le (map rank (d ++ x :: r)) -> forall y, In y d -> (rank y <= rank x)%nat.
Proof.
  induction d as [|z d IH]; intros S y I; [destruct I|]. cbn in S. inversion S as [|? ? S' F]; subst. destruct I as [<-|I]; [|apply IH; assumption].
  rewrite Forall_forall in F. apply F. apply in_map. apply in_elt.
Qed.

Lemma tcp_sorted f cs : forall n, StronglySorted le (map rank (accept_tcp f n cs)) /\ Forall (fun m => (3 * n <= m)%nat) (map rank (accept_tcp f n cs)).
Proof.
  induction cs as [|c cs IH]; intros n; [split; constructor|]. destruct (IH (S n)) as (S1 & F1). cbn [accept_tcp].
  assert (F2 : forall q, (q <= 3 * n + 2)%nat -> Forall (le q) (map rank (accept_tcp f (S n) cs))) by (intros q Q; eapply Forall_impl; [|exact F1]; cbn; intros; lia).
  unfold wh. destruct (f_connect f), (f_signals f), (f_beat f), (f_auth f); cbn [app map rank num]; (split; [repeat (apply SSorted_cons); [exact S1|..]; repeat (apply Forall_cons; [lia|]); apply F2; lia|repeat (apply Forall_cons; [lia|]); eapply Forall_impl; [|exact F1]; cbn; intros; lia]).
Qed.

Lemma raw_sorted f cs : forall n, StronglySorted le (map rank (accept_raw f n cs)) /\ Forall (fun m => (3 * n <= m)%nat) (map rank (accept_raw f n cs)).
Proof.
  induction cs as [|c cs IH]; intros n; [split; constructor|]. destruct (IH (S n)) as (S1 & F1). cbn [accept_raw].
  assert (F2 : forall q, (q <= 3 * n + 2)%nat -> Forall (le q) (map rank (accept_raw f (S n) cs))) by (intros q Q; eapply Forall_impl; [|exact F1]; cbn; intros; lia).
  unfold wh. destruct (f_connect f), (f_beat f); cbn [app map rank num]; (split; [repeat (apply SSorted_cons); [exact S1|..]; repeat (apply Forall_cons; [lia|]); apply F2; lia|repeat (apply Forall_cons; [lia|]); eapply Forall_impl; [|exact F1]; cbn; intros; lia]).
Qed.

Lemma p_C107_connect_refuted : forall f cs k s n, k = GTcp cs \/ k = GRaw cs -> preach f k s -> called s 0 (AOnConnect n) true ->
  ~ made s (AClose n) /\ (forall m, (n < m)%nat -> ~ made s (AAccept m)) /\ (complete f s -> p_crash s = false -> called s 0 AUnlisten false).
Proof.
  intros f cs k s n K R X. destruct (preach_inv _ _ _ R) as (sps & LN & TI & LO & (g0 & N0 & K0) & SP & CR). assert (L0 := LO _ _ N0). apply of_g_in in X. rewrite K0 in L0.
  assert (BK : exists l, body f k = IRecover :: IDefer AUnlisten false :: l /\ StronglySorted le (map rank l)).
  { destruct K as [-> | ->]; eexists; (split; [reflexivity|]); [apply tcp_sorted|apply raw_sorted]. }
  destruct BK as (l & BK & SL).
  assert (ND : forall a p, In (IDefer a p) (body f k) -> a = AUnlisten).
  { intros a p I. destruct K as [-> | ->]; cbn [body] in I; destruct I as [I|[I|I]]; try discriminate; try (injection I as <- _; reflexivity); (apply tcp_items in I as (m & c & _ & I) || apply raw_items in I as (m & c & _ & I)); decompose [or and] I; discriminate. }
  assert (Z : exists d rest, l = d ++ IDo (AOnConnect n) true :: rest /\ nth 0 sps [] = gos d /\ (forall a p, In (a, p) (of_g 0 (p_tr s)) -> a = AUnlisten \/ a = AOnConnect n \/ In (a, p) (evs d))).
  { destruct L0 as [(done & B & C & D & PN & OV & T & SPP)|(done & rest & p0 & ran & B & C & TD & D & T & SPP & PN & OV)].
    - exfalso. rewrite T in X. unfold evs in X. apply in_flat_map in X as (x & X & Y). assert (x = IDo (AOnConnect n) true) as -> by (destruct x; cbn in Y; intuition congruence). exact (C _ X).
    - assert (DV : forall a p, In (a, p) (devs ran) -> a = AUnlisten).
      { intros a p I. apply (ND a p). rewrite B. apply in_or_app. left. assert (J : In (DDo a p) (defers done)). { apply in_rev. rewrite D. apply in_or_app. left. unfold devs in I. apply in_flat_map in I as (x & Q & Y). assert (x = DDo a p) as -> by (destruct x; cbn in Y; intuition congruence). exact Q. }
        unfold defers in J. apply in_flat_map in J as (x & Q & Y). assert (x = IDefer a p) as -> by (destruct x; cbn in Y; intuition congruence). exact Q. }
      assert (XE : In (IDo (AOnConnect n) true) done).
      { rewrite T in X. apply in_app_or in X as [X|X]; [|specialize (DV _ _ X); discriminate]. unfold evs in X. apply in_flat_map in X as (x & X & Y). assert (x = IDo (AOnConnect n) true) as -> by (destruct x; cbn in Y; intuition congruence). exact X. }
      destruct C as [(_ & _ & C)|(_ & d & a & -> & C)]; [destruct (C _ XE)|]. apply in_app_or in XE as [XE|[XE|[]]]; [destruct (C _ XE)|]. injection XE as ->.
      rewrite BK in B. destruct d as [|x1 [|x2 d]]; cbn in B; try discriminate. injection B as <- <- B. exists d, rest. rewrite <- app_assoc in B. split; [exact B|]. split.
      + rewrite SPP. cbn. rewrite gos_app. cbn. apply app_nil_r.
      + intros a p I. rewrite T in I. apply in_app_or in I as [I|I]; [|left; exact (DV _ _ I)]. cbn in I. rewrite evs_app in I. apply in_app_or in I as [I|[I|[]]]; [auto|]. injection I as <- <-. auto. }
  destruct Z as (d & rest & E & SG & EV). rewrite E in SL. assert (RK := sorted_split _ _ _ SL). cbn [rank] in RK.
  assert (ZERO : forall j g, nth_error (p_gs s) j = Some g -> listening (g_kind g) -> j = 0%nat).
  { intros j g N L. destruct j as [|j]; [reflexivity|]. exfalso. destruct (SP _ _ N ltac:(lia)) as (w & W & I). destruct (nth_error (p_gs s) w) as [gw|] eqn:NW; [|apply nth_error_None in NW; lia].
    destruct (go_num _ _ _ (loc_go _ _ _ _ _ (LO _ _ NW) I)) as (Q & _). exact (Q L). }
  assert (LK : listening k) by (unfold listening; destruct K as [-> | ->]; eauto).
  split; [|split].
  - intros (i & p & M). specialize (TI _ _ _ M) as IL. destruct (nth_error (p_gs s) i) as [g|] eqn:N; [|apply nth_error_None in N; lia]. apply of_g_in in M. pose proof (close_num _ _ _ _ (loc_in _ _ _ _ _ _ (LO _ _ N) M)) as NU.
    destruct i as [|i]. { rewrite N in N0. injection N0 as ->. rewrite K0 in NU. destruct K as [-> | ->]; discriminate. }
    destruct (SP _ _ N ltac:(lia)) as (w & W & I). destruct (nth_error (p_gs s) w) as [gw|] eqn:NW; [|apply nth_error_None in NW; lia].
    destruct (go_num _ _ _ (loc_go _ _ _ _ _ (LO _ _ NW) I)) as (_ & Q). specialize (Q ltac:(congruence)). rewrite (ZERO _ _ NW Q) in I. rewrite SG in I.
    unfold gos in I. apply in_flat_map in I as (x & I & Y). assert (x = IGo (g_kind g)) as -> by (destruct x; cbn in Y; intuition congruence). specialize (RK _ I). cbn [rank] in RK. rewrite NU in RK. lia.
  - intros m L (i & p & M). specialize (TI _ _ _ M) as IL. destruct (nth_error (p_gs s) i) as [g|] eqn:N; [|apply nth_error_None in N; lia]. apply of_g_in in M.
    assert (LG : listening (g_kind g)).
    { pose proof (loc_in _ _ _ _ _ _ (LO _ _ N) M) as B. clear -B. unfold listening. destruct (g_kind g) as [c|c|c|q c|q c|q b|q b|q cl|q b|q cl]; eauto; exfalso; cbn [body] in B; destruct B as [H|H]; try (apply in_map_iff in H as (x & H & _); discriminate);
        try (destruct H as [H|H]; try discriminate; destruct b; inn H; discriminate); inn H; try discriminate; apply read_items in H; decompose [or and ex] H; discriminate. }
    pose proof (ZERO _ _ N LG) as I0. subst i. destruct (EV _ _ M) as [Q|[Q|Q]]; try discriminate. unfold evs in Q. apply in_flat_map in Q as (x & I & Y). assert (x = IDo (AAccept m) p) as -> by (destruct x; cbn in Y; intuition congruence). specialize (RK _ I). cbn [rank] in RK. lia.
  - intros C NC. apply of_g_in. assert (O := all_over _ _ C NC _ _ N0). rewrite BK in L0. apply (defer_made [IRecover] l AUnlisten false g0 _ _ L0); [|exact O]. intros b q [I|[]]. discriminate.
Qed.

Lemma p_C107_loss_refuted : forall f k s i n, preach f k s -> called s i (AOnLoss n) true -> forall p, ~ called s i (AClose n) p.
Proof.
  intros f k s i n R X p Y. destruct (preach_inv _ _ _ R) as (sps & LN & TI & LO & _). specialize (TI _ _ _ X) as IL. destruct (nth_error (p_gs s) i) as [g|] eqn:N; [|apply nth_error_None in N; lia]. specialize (LO _ _ N).
  apply of_g_in in X. apply of_g_in in Y. pose proof (loc_in _ _ _ _ _ _ LO X) as B.
  assert (K : exists m, body f (g_kind g) = [IRecover; IDo (AOnLoss n) true; IDo (AClose m) false]).
  { clear -B. destruct (g_kind g) as [cs|cs|cs|m c|m c|m q|m l|m cl|m b|m cl]; cbn [body] in *; destruct B as [H|H]; try (exfalso; apply in_map_iff in H as (x & H & _); discriminate).
    all: try (exfalso; destruct H as [H|[H|H]]; try discriminate; (apply tcp_items in H as (m & c & _ & H) || apply raw_items in H as (m & c & _ & H)); decompose [or and ex] H; discriminate).
    all: try (exfalso; destruct H as [H|H]; try discriminate; apply udp_items in H as (m & c & _ & H); decompose [or and ex] H; discriminate).
    all: try (exfalso; inn H; try discriminate; apply read_items in H; decompose [or and ex] H; discriminate).
    all: try (destruct H as [H|H]; try discriminate; destruct b as [| |b]; inn H; try discriminate). injection H as -> ->. exists n. match goal with E : f_loss f = true |- _ => rewrite E end. reflexivity. }
  destruct K as (m & K). rewrite K in LO. destruct LO as [(done & B' & C & D & PN & OV & T & SPP)|(done & rest & p0 & ran & B' & C & TD & D & T & SPP & PN & OV)].
  - rewrite T in X. unfold evs in X. apply in_flat_map in X as (x & X & Z). assert (x = IDo (AOnLoss n) true) as -> by (destruct x; cbn in Z; intuition congruence). exact (C _ X).
  - destruct done as [|x1 [|x2 [|x3 [|x4 done]]]]; cbn in B'; try discriminate.
    + destruct C as [(_ & -> & _)|(_ & d & a & E & _)]; [discriminate|destruct d; discriminate].
    + injection B' as <- <-. destruct C as [(_ & Z & _)|(_ & d & a & E & _)]; [discriminate|]. destruct d as [|? [|? ?]]; discriminate.
    + injection B' as <- <- <-. cbn in D. destruct ran as [|[|a q] ran]; [|injection D as D|discriminate].
      * rewrite T in Y. cbn in Y. destruct Y as [Y|[]]. discriminate.
      * symmetry in D. apply app_eq_nil in D as (-> & _). rewrite T in Y. cbn in Y. destruct Y as [Y|[]]. discriminate.
    + injection B' as <- <- <- _. destruct C as [(_ & _ & C)|(_ & d & a & E & C)]; [apply (C (AOnLoss n)); cbn; auto|]. destruct d as [|y1 [|y2 [|y3 d]]]; try discriminate. destruct d; discriminate.
Qed.
