(* A URLMux of its own (C103). NODEMO *)
From Verif Require Export SpecUrlMux MuxProofs.

Definition wf_um (m : urlmux) : Prop := (forall p, aget p (um_routes m) = None <-> aget p (um_info m) = None) /\ forall p r, aget p (um_info m) = Some r -> rt_pattern r = p.
(* the mux after some calls, seen at one pattern *)
Definition seen (m : urlmux) (p : string) (acc : list (list hdl * string)) : Prop :=
  match acc with
  | [] => aget p (um_routes m) = None
  | _ => aget p (um_routes m) = Some (concat (map fst acc)) /\ exists r, aget p (um_info m) = Some r /\ rt_where r = map snd acc
  end.

Lemma wf_step m o : wf_um m -> wf_um (fst (ustep m o)).
Proof.
  intros [A B]. destruct o as [p l w| |]; cbn [ustep].
  - unfold UAddHandler. destruct (um_readonly m); [split; assumption|].
    assert (W : forall x, wf_um (UM (aset p x (um_routes m)) (aset p (match aget p (um_info m) with Some r => Merge r (Rt p 0 [w]) | None => Rt p 0 [w] end) (um_info m)) false (um_strict m))).
    { intros x. split; cbn [um_routes um_info].
      - intros q. rewrite !aget_aset. destruct (keqb q p); [split; discriminate|apply A].
      - intros q r. rewrite aget_aset. destruct (keqb q p) eqn:K; [|apply B]. apply keqb_eq in K. subst q. intros [= <-]. destruct (aget p (um_info m)) as [r|] eqn:E; [|reflexivity]. unfold Merge. destruct (_ || _)%bool; exact (B p r E). }
    destruct (aget p (um_routes m)) as [h|] eqn:E; [destruct (um_strict m) eqn:S|]; cbn [fst]; [split; assumption| |]; apply W.
  - unfold PanicOnExistRouter. destruct (um_readonly m); split; assumption.
  - split; assumption.
Qed.

Lemma wf_urun h : wf_um (urun h).
Proof. induction h as [|o h IH] using rev_ind; [split; [split; reflexivity|discriminate]|]. unfold urun. rewrite fold_left_app. apply wf_step. exact IH. Qed.

Lemma locked_stays m o : um_readonly m = true -> um_readonly (fst (ustep m o)) = true /\ um_routes (fst (ustep m o)) = um_routes m /\ um_info (fst (ustep m o)) = um_info m /\ um_strict (fst (ustep m o)) = um_strict m.
Proof. intros R. destruct o; cbn [ustep]; unfold UAddHandler, PanicOnExistRouter, LockWrite; rewrite ?R; repeat split; assumption. Qed.

Lemma locked_run h m : um_readonly m = true -> um_readonly (fold_left (fun m o => fst (ustep m o)) h m) = true /\ um_routes (fold_left (fun m o => fst (ustep m o)) h m) = um_routes m /\ um_info (fold_left (fun m o => fst (ustep m o)) h m) = um_info m.
Proof.
  revert m. induction h as [|o h IH]; intros m R; [auto|]. cbn [fold_left]. destruct (locked_stays m o R) as (R' & A & B & _). destruct (IH _ R') as (C & D & E). split; [exact C|]. split; congruence.
Qed.

Lemma seen_run p h : forall m acc, wf_um m -> um_readonly m = false -> seen m p acc ->
  seen (fold_left (fun m o => fst (ustep m o)) h m) p (acc ++ accepted p (um_strict m) (match acc with [] => false | _ => true end) (before_lock h)).
Proof.
  induction h as [|o h IH]; intros m acc W R S; [cbn; rewrite app_nil_r; exact S|]. assert (W' := wf_step m o W).
  destruct o as [q l w| |].
  - cbn [fold_left before_lock accepted]. cbn [ustep] in *. unfold UAddHandler in *. rewrite R in *.
    destruct (String.eqb q p) eqn:Q.
    + apply String.eqb_eq in Q. subst q. destruct acc as [|a acc].
      * cbn [seen] in S. rewrite S in *. rewrite Bool.andb_false_r. cbn [fst] in *. cbn [app]. refine (IH _ [(l, w)] W' eq_refl _).
        assert (N := proj1 (proj1 W p) S). rewrite N. cbn [seen um_routes um_info map fst snd concat]. rewrite !aget_aset, keqb_refl, app_nil_r. split; [reflexivity|]. eexists. split; reflexivity.
      * destruct S as (S1 & r & S2 & S3). rewrite S1, S2 in *. rewrite Bool.andb_true_r. destruct (um_strict m) eqn:St; cbn [fst] in *.
        -- assert (X := IH m (a :: acc) W R (conj S1 (ex_intro _ r (conj S2 S3)))). rewrite St in X. exact X.
        -- replace ((a :: acc) ++ (l, w) :: accepted p false true (before_lock h)) with (((a :: acc) ++ [(l, w)]) ++ accepted p false true (before_lock h)) by (rewrite <- app_assoc; reflexivity).
           refine (IH _ ((a :: acc) ++ [(l, w)]) W' eq_refl _). cbn [app seen um_routes um_info]. rewrite !aget_aset, keqb_refl. cbn [map concat]. split; [rewrite map_app, concat_app; cbn [map concat fst]; rewrite app_nil_r, app_assoc; reflexivity|].
           eexists. split; [reflexivity|]. unfold Merge. cbn [rt_pattern rt_id]. rewrite (proj2 W p r S2), String.eqb_refl. cbn [orb rt_where]. rewrite S3. cbn [map]. rewrite map_app. reflexivity.
    + assert (Ne : forall V (x : V) t, aget p (aset q x t) = aget p t) by (intros V x t; rewrite aget_aset; destruct (keqb p q) eqn:K; [apply keqb_eq in K; subst; rewrite String.eqb_refl in Q; discriminate|reflexivity]).
      destruct (aget q (um_routes m)) as [hh|] eqn:E; [destruct (um_strict m) eqn:St|]; cbn [fst] in *.
      * assert (X := IH m acc W R S). rewrite St in X. exact X.
      * refine (IH (UM _ _ false false) acc W' eq_refl _). unfold seen in *. cbn [um_routes um_info]. rewrite !Ne. exact S.
      * refine (IH (UM _ _ false (um_strict m)) acc W' eq_refl _). unfold seen in *. cbn [um_routes um_info]. rewrite !Ne. exact S.
  - cbn [fold_left before_lock accepted]. cbn [ustep] in *. unfold PanicOnExistRouter in *. rewrite R in *. cbn [fst] in *. refine (IH (UM _ _ false true) acc W' eq_refl S).
  - cbn [fold_left before_lock accepted]. rewrite app_nil_r. destruct (locked_run h (LockWrite m) eq_refl) as (_ & A & B). cbn [ustep fst]. unfold seen. rewrite A, B. exact S.
Qed.

Lemma p_C103_routes : forall h p, aget p (um_routes (urun h)) = match registered p h with [] => None | a => Some (concat (map fst a)) end.
Proof.
  intros h p. assert (S := seen_run p h NewURLMux [] (wf_urun []) eq_refl eq_refl). cbn [app um_strict NewURLMux] in S. unfold registered. fold (urun h) in S. unfold seen in S. destruct (accepted _ _ _ _); [exact S|exact (proj1 S)].
Qed.

Lemma p_C103_places : forall h p r, aget p (um_info (urun h)) = Some r -> rt_where r = map snd (registered p h).
Proof.
  intros h p r H. assert (S := seen_run p h NewURLMux [] (wf_urun []) eq_refl eq_refl). cbn [app um_strict NewURLMux] in S. unfold registered. fold (urun h) in S. unfold seen in S. destruct (accepted _ _ _ _) as [|a l].
  - apply (proj1 (wf_urun h) p) in S. congruence.
  - destruct S as (_ & r' & E & W). congruence.
Qed.

Lemma p_C103_locked : forall h1 h2 o, um_routes (urun (h1 ++ ULock :: h2)) = um_routes (urun h1) /\ um_info (urun (h1 ++ ULock :: h2)) = um_info (urun h1) /\
  (o <> ULock -> snd (ustep (urun (h1 ++ ULock :: h2)) o) = UError).
Proof.
  intros h1 h2 o. unfold urun. rewrite fold_left_app. cbn [fold_left ustep fst]. fold (urun h1). destruct (locked_run h2 (LockWrite (urun h1)) eq_refl) as (R & A & B). split; [exact A|]. split; [exact B|].
  intros N. destruct o as [p l w| |]; [| |congruence]; cbn [ustep]; unfold UAddHandler, PanicOnExistRouter; rewrite R; reflexivity.
Qed.

Lemma join_lines l : join l = lines l.
Proof. induction l as [|x [|y r] IH]; [reflexivity|reflexivity|]. change (join (x :: y :: r)) with (x ++ newline ++ join (y :: r))%string. rewrite IH. reflexivity. Qed.

Lemma p_C103_conflict : forall h p l w, um_readonly (urun h) = false -> um_strict (urun h) = true -> registered p h <> [] ->
  ustep (urun h) (UAdd p l w) = (urun h, UPanic w (lines (map snd (registered p h)))).
Proof.
  intros h p l w R S N. cbn [ustep]. unfold UAddHandler. rewrite R, S. rewrite p_C103_routes. destruct (registered p h) as [|a t] eqn:E; [congruence|].
  destruct (aget p (um_info (urun h))) as [r|] eqn:I.
  - unfold Location. rewrite (p_C103_places h p r I), E, join_lines. reflexivity.
  - apply (proj1 (wf_urun h) p) in I. rewrite p_C103_routes, E in I. discriminate.
Qed.
