(* Lifetimes of the goroutines of connections and datagrams (C90). NODEMO *)
From Verif Require Export SpecGor BaseFacts CtxFacts.

Lemma close_len w c : List.length (close_ctx w c) = List.length (gw_ctxs w).
Proof. unfold close_ctx. destruct (nth_error (gw_ctxs w) c); [apply upd_length|reflexivity]. Qed.

Lemma close_src w c d k : nth_error (close_ctx w c) d = Some k ->
  exists k0, nth_error (gw_ctxs w) d = Some k0 /\ gc_src k = gc_src k0 /\ (gc_end k0 = true -> gc_end k = true) /\ (d = c -> gc_end k = true).
Proof.
  unfold close_ctx. destruct (nth_error (gw_ctxs w) c) as [x|] eqn:E; intros H.
  - rewrite nth_upd in H. destruct (Nat.eqb_spec d c) as [->|D]; [rewrite E in H; inversion H; subst; exists x; auto|exists k; tauto].
  - exists k. repeat split; auto. intros ->. congruence.
Qed.

Lemma close_keeps w c d k : nth_error (gw_ctxs w) d = Some k ->
  exists k', nth_error (close_ctx w c) d = Some k' /\ gc_src k' = gc_src k /\ (gc_end k = true -> gc_end k' = true) /\ (d = c -> gc_end k' = true).
Proof.
  intros H. unfold close_ctx. destruct (nth_error (gw_ctxs w) c) as [x|] eqn:E.
  - rewrite nth_upd. destruct (Nat.eqb_spec d c) as [->|D]; [rewrite E; eexists; split; [reflexivity|]; cbn; repeat split; auto; congruence|exists k; tauto].
  - exists k. repeat split; auto. intros ->. congruence.
Qed.

Section Lives.
Context (signals beat auth : bool).

Notation step := (gstep signals beat auth).
Notation steps := (gsteps signals beat auth).

(* for every connection (TCP or raw): the reader runs or recvEnd is closed *)
Definition LInv (w : gworld) : Prop :=
  (forall c k, nth_error (gw_ctxs w) c = Some k -> gc_src k <> FromUdp -> (runs_for w GReader c \/ runs_for w GRaw c) \/ gc_end k = true) /\
  (forall g, In g (gw_gors w) -> (g_ctx g < List.length (gw_ctxs w))%nat).

Lemma in_upd {A} (l : list A) i x y z : nth_error l i = Some x -> In z l -> z <> x -> In z (upd l i y).
Proof.
  revert i. induction l as [|a l IH]; intros [|i] N H D; cbn in *; try discriminate.
  - inversion N; subst. destruct H; [congruence|auto].
  - destruct H; auto.
Qed.

Lemma upd_in {A} (l : list A) i y z : In z (upd l i y) -> z = y \/ In z l.
Proof. revert i. induction l as [|a l IH]; intros [|i] H; cbn in *; auto; destruct H; auto. destruct (IH _ H); auto. Qed.

Lemma linv_step w o w' : step w o w' -> LInv w -> LInv w'.
Proof.
  intros V (A & B). destruct V; unfold LInv, runs_for; cbn [gw_ctxs gw_gors].
  - split.
    + intros c k N U. destruct (lt_dec c (List.length (gw_ctxs w))) as [L|L].
      * rewrite nth_error_app1 in N by auto. destruct (A c k N U) as [[H|H]|H]; [left; left; apply in_or_app; auto|left; right; apply in_or_app; auto|auto].
      * rewrite nth_error_app2 in N by lia. destruct (c - List.length (gw_ctxs w))%nat as [|[|]] eqn:E; cbn in N; inversion N; subst k. cbn in U.
        left. unfold spawn. replace c with (List.length (gw_ctxs w)) by lia.
        destruct src; [left|right|congruence]; (do 4 (apply in_or_app; right)); cbn; auto.
    + intros g H. rewrite app_length. cbn. apply in_app_or in H as [H|H]; [specialize (B g H); lia|].
      unfold spawn in H. repeat (apply in_app_or in H as [H|H]).
      * destruct signals; cbn in H; [destruct H as [<-|[]]; cbn; lia|destruct H].
      * destruct beat; cbn in H; [destruct H as [<-|[]]; cbn; lia|destruct H].
      * destruct src; cbn in H; try (destruct H; fail). destruct auth; cbn in H; [destruct H as [<-|[]]; cbn; lia|destruct H].
      * destruct src; cbn in H; destruct H as [<-|[]]; cbn; lia.
  - split.
    + intros d k N U. destruct (A d k N U) as [[X|X]|X]; [left; left; apply in_or_app; auto|left; right; apply in_or_app; auto|auto].
    + intros g X. apply in_app_or in X as [X|[X|[]]]; [exact (B g X)|]. subst g. cbn. apply nth_error_In in H. exact (B _ H).
  - split.
    + intros d k N U. destruct (close_src _ _ _ _ N) as (k0 & N0 & E1 & E2 & _). rewrite E1 in U. destruct (A d k0 N0 U); auto.
    + intros g X. rewrite close_len. exact (B g X).
  - split; [exact A|exact B].
  - split; [exact A|exact B].
  - split.
    + intros d x N U. destruct b.
      * destruct (close_src _ _ _ _ N) as (k0 & N0 & E1 & E2 & E3). rewrite E1 in U. destruct (A d k0 N0 U) as [[X|X]|X]; [| |auto];
        (destruct (Nat.eq_dec d c) as [->|D]; [auto|]); left; [left|right]; (eapply in_upd; [exact H|exact X|congruence]).
      * destruct (A d x N U) as [[X|X]|X]; [| |auto]; left; [left|right]; (eapply in_upd; [exact H|exact X|]); intros E; inversion E; subst; destruct y; cbn in H0; try discriminate. destruct (ended w c); discriminate.
    + intros g X. replace (List.length (if b then close_ctx w c else gw_ctxs w)) with (List.length (gw_ctxs w)) by (destruct b; [rewrite close_len|]; reflexivity).
      apply upd_in in X as [->|X]; [|exact (B g X)]. cbn. apply nth_error_In in H. exact (B _ H).
Qed.

Lemma linv_run w os w' : steps w os w' -> LInv w -> LInv w'.
Proof. induction 1; auto. intros I. apply IHgsteps. eapply linv_step; eassumption. Qed.

Lemma linv0 : LInv gworld0.
Proof. split; [intros [|c] k H; discriminate|intros g []]. Qed.

(* every goroutine of an ended context can end, one after another *)
Lemma drain w c : ended w c = true -> exists os w', only_ends os /\ steps w os w' /\ gone w' c /\ ended w' c = true.
Proof.
  assert (X : forall n w, (List.length (filter g_live (gw_gors w)) <= n)%nat -> ended w c = true ->
     exists os w', only_ends os /\ steps w os w' /\ gone w' c /\ ended w' c = true).
  { clear w. induction n as [|n IH]; intros w L E.
    - exists [], w. split; [intros o []|]. split; [apply gr_nil|]. split; [|exact E]. intros k R.
      assert (In (G k c true) (filter g_live (gw_gors w))) by (apply filter_In; auto). destruct (filter g_live (gw_gors w)); [destruct H|cbn in L; lia].
    - destruct (existsb (fun g => g_live g && Nat.eqb (g_ctx g) c && match g_kind g with GHandler | GRaw => false | _ => true end) (gw_gors w)) eqn:Q.
      + apply existsb_exists in Q as ([k d lv] & I & Q). cbn in Q. apply andb_prop in Q as (Q & Q3). apply andb_prop in Q as (Q1 & Q2). apply Nat.eqb_eq in Q2. subst d lv.
        destruct (In_nth_error _ _ I) as (i & Ni).
        assert (M : exists y b, may_end w k c y = Some b /\ (y = WSock \/ y = WRecv)) by (destruct k; [exists WSock, true|discriminate|exists WRecv, false|exists WRecv, false|exists WRecv, false|discriminate]; cbn; rewrite E; auto).
        destruct M as (y & b & M & Y). pose proof (gs_end signals beat auth w i k c y b Ni M) as V. set (w1 := GW _ _ _ _) in V.
        assert (E1 : ended w1 c = true).
        { unfold ended, w1. cbn. unfold ended in E. destruct (nth_error (gw_ctxs w) c) as [x|] eqn:Nx; [|discriminate]. destruct b; [|rewrite Nx; exact E].
          destruct (close_keeps w c c x Nx) as (x' & Nx' & _ & _ & F). rewrite Nx'. auto. }
        assert (L1 : (List.length (filter g_live (gw_gors w1)) <= n)%nat).
        { unfold w1. cbn [gw_gors]. clear - Ni L. revert i Ni n L. induction (gw_gors w) as [|g gs IH]; intros [|i] Ni n L; cbn in *; try discriminate.
          - inversion Ni; subst. cbn in *. lia.
          - destruct (g_live g); cbn in *; [|apply (IH i Ni n L)]. destruct n as [|n]; [|specialize (IH i Ni n); lia].
            exfalso. apply nth_error_In in Ni. assert (In (G k c true) (filter g_live gs)) by (apply filter_In; auto). destruct (filter g_live gs); [destruct H|cbn in L; lia]. }
        destruct (IH w1 L1 E1) as (os & w' & O & W & Gn & E'). exists (GEnd i y :: os), w'. split; [|split; [|auto]].
        * intros o [<-|H]; [exists i; destruct Y as [-> | ->]; auto|exact (O o H)].
        * eapply gr_cons; eassumption.
      + exists [], w. split; [intros o []|]. split; [apply gr_nil|]. split; [|exact E]. intros k R. destruct k; auto; exfalso;
        rewrite <- not_true_iff_false in Q; apply Q; apply existsb_exists; eexists; (split; [exact R|]); cbn; rewrite Nat.eqb_refl; reflexivity. }
  intros E. exact (X _ w (Nat.le_refl _) E).
Qed.

Lemma ended_stays w os w' c : steps w os w' -> ended w c = true -> ended w' c = true.
Proof.
  induction 1 as [|w o w1 os w2 V W IH]; auto. intros E. apply IH. clear IH W. unfold ended in *.
  assert (K : forall d, match nth_error (close_ctx w d) c with Some k => gc_end k | None => false end = true).
  { intros d. destruct (nth_error (gw_ctxs w) c) as [x|] eqn:Nx; [|discriminate]. destruct (close_keeps w d c x Nx) as (x' & Nx' & _ & F & _). rewrite Nx'. auto. }
  destruct V; cbn [gw_ctxs]; auto.
  - destruct (nth_error (gw_ctxs w) c) eqn:N; [|discriminate]. rewrite nth_error_app1 by (apply nth_error_Some; congruence). rewrite N. exact E.
  - destruct b; auto.
Qed.
End Lives.

Lemma p_C90_connection_partial : forall sg bt au os w c s, gsteps sg bt au gworld0 os w -> from_src w c s -> s <> FromUdp ->
  ((~ runs_for w GReader c /\ ~ runs_for w GRaw c) \/ ended w c = true) ->
  forall os1 w1, gsteps sg bt au w os1 w1 ->
  exists os2 w2, only_ends os2 /\ gsteps sg bt au w1 os2 w2 /\ gone w2 c.
Proof.
  intros sg bt au os w c s V (k & N & K) U H os1 w1 V1. subst s.
  assert (E : ended w c = true).
  { destruct H as [H|H]; [|exact H]. destruct (linv_run _ _ _ _ _ _ V linv0) as (A & _). destruct (A c k N U) as [X|X]; [tauto|].
    unfold ended. rewrite N. exact X. }
  apply (ended_stays _ _ _ _ _ _ _ V1) in E. destruct (drain sg bt au w1 c E) as (os2 & w2 & O & W & Gn & _). eauto.
Qed.

Lemma p_C90_datagram_refuted : forall bt au os w, gsteps true bt au gworld0 os w -> (forall o, In o os -> harmless o) ->
  (datagrams os <= live w)%nat /\ forall c, from_src w c FromUdp -> runs_for w GBroadcast c /\ forall i y b, ~ (nth_error (gw_gors w) i = Some (G GBroadcast c true) /\ may_end w GBroadcast c y = Some b).
Proof.
  intros bt au os w V Q.
  assert (X : forall w0 os w, gsteps true bt au w0 os w -> (forall o, In o os -> harmless o) ->
     (forall c, ended w0 c = false) -> gw_all w0 = false ->
     (forall c, from_src w0 c FromUdp -> runs_for w0 GBroadcast c) ->
     (forall c, ended w c = false) /\ gw_all w = false /\ (forall c, from_src w c FromUdp -> runs_for w GBroadcast c) /\
     (datagrams os + List.length (filter (fun g => g_live g && match g_kind g with GBroadcast => true | _ => false end) (gw_gors w0)) <=
        List.length (filter (fun g => g_live g && match g_kind g with GBroadcast => true | _ => false end) (gw_gors w)))%nat).
  { clear. induction 1 as [w|w o w1 os w2 V W IH]; intros Q E A B; [cbn; auto|].
    assert (Y : (forall c, ended w1 c = false) /\ gw_all w1 = false /\ (forall c, from_src w1 c FromUdp -> runs_for w1 GBroadcast c) /\
      ((match o with GNew FromUdp => 1 | _ => 0 end) + List.length (filter (fun g => g_live g && match g_kind g with GBroadcast => true | _ => false end) (gw_gors w)) <=
        List.length (filter (fun g => g_live g && match g_kind g with GBroadcast => true | _ => false end) (gw_gors w1)))%nat).
    { pose proof (Q _ (or_introl eq_refl)) as Qo. unfold ended, from_src, runs_for in *. destruct V; cbn [gw_ctxs gw_gors gw_all] in *; try (destruct Qo; fail).
      - split; [|split; [exact A|split]].
        + intros c. destruct (lt_dec c (List.length (gw_ctxs w))) as [L|L]; [rewrite nth_error_app1 by auto; apply E|].
          rewrite nth_error_app2 by lia. destruct (c - List.length (gw_ctxs w))%nat as [|[|]]; reflexivity.
        + intros c (k & N & K). apply in_or_app. destruct (lt_dec c (List.length (gw_ctxs w))) as [L|L].
          * rewrite nth_error_app1 in N by auto. left. apply B. eauto.
          * rewrite nth_error_app2 in N by lia. destruct (c - List.length (gw_ctxs w))%nat as [|[|]] eqn:Z; cbn in N; inversion N; subst. cbn in K. subst src.
            right. replace c with (List.length (gw_ctxs w)) by lia. cbn. auto.
        + rewrite filter_app, app_length. unfold spawn. destruct src; cbn [app filter g_live g_kind andb List.length]; lia.
      - split; [exact E|]. split; [exact A|]. split; [intros d D; apply in_or_app; left; apply B, D|]. rewrite filter_app, app_length. cbn. lia.
      - split; [exact E|]. split; [exact A|]. split; [exact B|]. lia.
      - destruct y; try (destruct Qo; fail). assert (K : k <> GBroadcast) by (intros ->; discriminate).
        assert (b = false) by (destruct k; cbn in H0; inversion H0; reflexivity). subst b.
        split; [exact E|]. split; [exact A|]. split.
        + intros d D. eapply in_upd; [exact H|apply B, D|congruence].
        + clear - H K. revert i H. induction (gw_gors w) as [|g gs IH]; intros [|i] H; cbn in *; try discriminate.
          * inversion H; subst. cbn. destruct k; try lia. congruence.
          * specialize (IH i H). destruct (g_live g && _); cbn; lia. }
    destruct Y as (E1 & A1 & B1 & C1). destruct IH as (E2 & A2 & B2 & C2); auto.
    { intros o' H. apply Q. right. exact H. }
    split; [exact E2|]. split; [exact A2|]. split; [exact B2|]. unfold datagrams in *. cbn [filter]. destruct o as [[| |]| | | | |]; cbn [List.length] in *; lia. }
  destruct (X gworld0 os w V Q) as (E & A & B & C).
  - intros [|c]; reflexivity.
  - reflexivity.
  - intros c (k & N & _). destruct c; discriminate.
  - cbn [gworld0 gw_gors filter List.length] in C. split.
    + unfold live. assert (Y : forall l, (List.length (filter (fun g => g_live g && match g_kind g with GBroadcast => true | _ => false end) l) <= List.length (filter g_live l))%nat).
      { induction l as [|g l IHl]; cbn; [lia|]. destruct (g_live g); cbn; [destruct (g_kind g); cbn; lia|exact IHl]. }
      specialize (Y (gw_gors w)). lia.
    + intros c U. split; [exact (B c U)|]. intros i y b (_ & M). destruct y; cbn in M; rewrite ?E, ?A in M; discriminate.
Qed.

Lemma p_C90_not_early : forall sg bt au os w, gsteps sg bt au gworld0 os w -> forall i,
  (In (GEnd i WAll) os -> sg = true /\ In (GStop true) os) /\ (In (GEnd i WStop) os -> exists all, In (GStop all) os).
Proof.
  intros sg bt au os w H. assert (X : forall u os w, gsteps sg bt au u os w -> forall i,
    (In (GEnd i WAll) os -> gw_all u = true \/ sg = true /\ In (GStop true) os) /\ (In (GEnd i WStop) os -> gw_stop u = true \/ exists all, In (GStop all) os)).
  { clear. intros u os w H. induction H as [u|u o u1 os w S R IH]; intros i; [split; intros []|]. specialize (IH i). destruct IH as (A & B).
    split; intros [->|I].
    - left. inversion S; subst. destruct k; cbn in H4; try discriminate H4; (destruct (gw_all u); [reflexivity|discriminate H4]).
    - destruct (A I) as [Y|(Y & Z)]; [|right; split; [exact Y|right; exact Z]]. inversion S; subst; cbn [gw_all] in Y; auto.
      apply orb_true_iff in Y as [Y|Y]; [auto|]. apply andb_true_iff in Y as (-> & ->). right. split; [reflexivity|left; reflexivity].
    - left. inversion S; subst. destruct k; cbn in H4; try discriminate H4; (destruct (gw_stop u); [reflexivity|discriminate H4]).
    - destruct (B I) as [Y|(all & Z)]; [|right; exists all; right; exact Z]. inversion S; subst; cbn [gw_stop] in Y; auto; [right; exists all; left; reflexivity|discriminate Y]. }
  intros i. destruct (X _ _ _ H i) as (A & B). split; intros I.
  - destruct (A I) as [Y|Y]; [discriminate Y|exact Y].
  - destruct (B I) as [Y|Y]; [discriminate Y|exact Y].
Qed.

Lemma p_C90_handlers : forall sg bt au w c s, from_src w c s ->
  (runs_for w GReader c -> exists w', gstep sg bt au w (GMsg c) w' /\ runs_for w' GHandler c) /\
  (~ runs_for w GReader c -> forall os1 w1, gsteps sg bt au w os1 w1 -> ~ In (GMsg c) os1 /\ ~ runs_for w1 GReader c).
Proof.
  intros sg bt au w c s F. split.
  - intros R. apply In_nth_error in R. destruct R as (i & Hi). eexists. split; [eapply gs_msg; exact Hi|]. unfold runs_for. cbn. apply in_or_app. right. left. reflexivity.
  - assert (F0 : (c < List.length (gw_ctxs w))%nat) by (destruct F as (k & Hk & _); apply nth_error_Some; congruence). clear F. intros N os1 w1 R. induction R as [w|w o w1 os w2 V W IH].
    + split; [intros []|exact N].
    + assert (X : o <> GMsg c /\ ~ runs_for w1 GReader c /\ (c < List.length (gw_ctxs w1))%nat).
      { unfold runs_for in *. assert (L : forall w d, List.length (close_ctx w d) = List.length (gw_ctxs w)).
        { intros w' d. unfold close_ctx. destruct (nth_error (gw_ctxs w') d); [apply upd_length|reflexivity]. }
        destruct V; cbn.
        - split; [discriminate|]. split; [|rewrite app_length; cbn; lia]. intros H. apply in_app_or in H. destruct H as [H|H]; [exact (N H)|].
          unfold spawn in H. repeat (apply in_app_or in H; destruct H as [H|H]);
            repeat (match type of H with context [if ?b then _ else _] => destruct b | context [match ?b with _ => _ end] => destruct b end); cbn in H;
            try contradiction; destruct H as [H|[]]; inversion H; subst; lia.
        - split; [intros Q; inversion Q; subst; apply N; eapply nth_error_In; eassumption|]. split; [|exact F0]. intros Q. apply in_app_or in Q. destruct Q as [Q|[Q|[]]]; [exact (N Q)|discriminate].
        - split; [discriminate|]. split; [exact N|]. rewrite L. exact F0.
        - split; [discriminate|]. split; [exact N|exact F0].
        - split; [discriminate|]. split; [exact N|exact F0].
        - split; [discriminate|]. split; [|destruct b; [rewrite L|]; exact F0]. intros Q. apply N. apply In_nth_error in Q. destruct Q as (j & Hj).
          rewrite nth_upd in Hj. destruct (Nat.eqb j i); [destruct (nth_error (gw_gors w) i); cbn in Hj; discriminate|eapply nth_error_In; exact Hj]. }
      destruct X as (X1 & X2 & X3). destruct (IH X3 X2) as (I1 & I2). split; [|exact I2]. intros [Q|Q]; [exact (X1 Q)|exact (I1 Q)].
Qed.

Lemma p_C90_closing : forall sg bt au w i k c y w', nth_error (gw_gors w) i = Some (G k c true) -> gstep sg bt au w (GEnd i y) w' ->
  forall c', ended w' c' = true <-> ended w c' = true \/ (c' = c /\ closes k y /\ (c < List.length (gw_ctxs w))%nat).
Proof.
  intros sg bt au w i k c y w' N H c'. inversion H as [| | | | |w0 i0 k0 c0 y0 b N0 M]; subst. rewrite N in N0. injection N0 as <- <-.
  assert (B : b = true <-> closes k y).
  { destruct k, y; cbn in M; try discriminate M; try (injection M as <-); repeat match type of M with (if ?x then _ else _) = _ => destruct x end; try discriminate M; try (injection M as <-);
      cbn; (split; intros Z; try discriminate Z; try reflexivity; auto; try contradiction; repeat match goal with H : _ \/ _ |- _ => destruct H end; discriminate). }
  unfold ended, close_ctx. cbn [gw_ctxs]. destruct b.
  - pose proof (proj1 B eq_refl) as CL. destruct (nth_error (gw_ctxs w) c) as [g|] eqn:G0.
    + assert (L : (c < List.length (gw_ctxs w))%nat) by (apply nth_error_Some; congruence). rewrite nth_upd. destruct (Nat.eqb_spec c' c) as [->|Ne].
      * rewrite G0. cbn. split; auto.
      * split; [auto|]. intros [X|(X & _)]; [exact X|contradiction].
    + split; [auto|]. intros [X|(-> & _ & L)]; [exact X|]. apply nth_error_None in G0. lia.
  - split; [auto|]. intros [X|(_ & X & _)]; [exact X|]. apply B in X. discriminate.
Qed.

Lemma gsteps_flags sg bt au os : forall u w, gsteps sg bt au u os w ->
  gw_stop w = fold_left (fun b o => match o with GStop _ => true | GStart => false | _ => b end) os (gw_stop u) /\
  (gw_all w = true <-> gw_all u = true \/ all_signalled sg os).
Proof.
  induction os as [|o os IH]; intros u w H; inversion H as [|? ? w1 ? ? S R]; subst.
  - split; [reflexivity|]. unfold all_signalled. cbn. tauto.
  - destruct (IH _ _ R) as [A B]. cbn [fold_left]. rewrite A, B. unfold all_signalled. cbn [In].
    inversion S; subst; cbn [gw_stop gw_all]; (split; [reflexivity|]).
    all: try (intuition congruence).
    rewrite Bool.orb_true_iff, Bool.andb_true_iff. destruct all; intuition congruence.
Qed.

Lemma p_C90_stop_seen : forall sg bt au os w i k c, gsteps sg bt au gworld0 os w -> nth_error (gw_gors w) i = Some (G k c true) ->
  ((exists w', gstep sg bt au w (GEnd i WStop) w') <-> k = GBeat /\ stopped os = true) /\
  ((exists w', gstep sg bt au w (GEnd i WAll) w') <-> (k = GBroadcast \/ k = GBeat \/ k = GAuth) /\ all_signalled sg os).
Proof.
  intros sg bt au os w i k c R N. destruct (gsteps_flags sg bt au os _ _ R) as [A B]. cbn [gworld0 gw_stop gw_all] in A, B. split; split.
  - intros (w' & S). inversion S as [| | | | |? ? k' c' ? b N' M]; subst. rewrite N in N'. injection N' as <- <-. destruct k; cbn in M; try discriminate M.
    split; [reflexivity|]. destruct (gw_stop w) eqn:E; [|discriminate M]. unfold stopped. congruence.
  - intros [-> T]. eexists. eapply (gs_end _ _ _ _ _ _ _ WStop true); [exact N|]. cbn. unfold stopped in T. rewrite A, T. reflexivity.
  - intros (w' & S). inversion S as [| | | | |? ? k' c' ? b N' M]; subst. rewrite N in N'. injection N' as <- <-.
    destruct k; cbn in M; try discriminate M; (destruct (gw_all w) eqn:E; [|discriminate M]); (split; [auto|]); destruct B as [B _]; destruct (B eq_refl) as [X|X]; [discriminate X|exact X|discriminate X|exact X|discriminate X|exact X].
  - intros [K T]. assert (G : gw_all w = true) by (apply B; right; exact T). eexists.
    eapply (gs_end _ _ _ _ _ _ _ WAll true); [exact N|]. destruct K as [->|[->| ->]]; cbn; rewrite G; reflexivity.
Qed.

Lemma p_C90_started : forall sg bt au w src w' k, gstep sg bt au w (GNew src) w' ->
  let c := List.length (gw_ctxs w) in
  List.length (gw_ctxs w') = (c + 1)%nat /\
  (forall g, In g (gw_gors w) -> In g (gw_gors w')) /\
  ((exists n, nth_error (gw_gors w') (List.length (gw_gors w) + n) = Some (G k c true)) <->
   match k with
   | GBroadcast => sg = true
   | GBeat => bt = true
   | GAuth => au = true /\ src = FromTcp
   | GReader => src = FromTcp
   | GRaw => src = FromRaw
   | GHandler => src = FromUdp
   end).
Proof.
  intros sg bt au w src w' k S c. inversion S; subst. cbn [gw_ctxs gw_gors]. fold c. split; [rewrite app_length; cbn; lia|]. split; [intros g H; apply in_or_app; auto|].
  assert (X : (exists n, nth_error (gw_gors w ++ spawn sg bt au src c) (List.length (gw_gors w) + n) = Some (G k c true)) <-> In (G k c true) (spawn sg bt au src c)).
  { split.
    - intros (n & H). rewrite nth_error_app2 in H by lia. eapply nth_error_In. exact H.
    - intros H. apply In_nth_error in H as (n & H). exists n. rewrite nth_error_app2 by lia. replace (List.length (gw_gors w) + n - List.length (gw_gors w))%nat with n by lia. exact H. }
  rewrite X. clear. unfold spawn. destruct sg, bt, au, src, k; cbn; split; intros H;
    repeat match goal with H : _ \/ _ |- _ => destruct H | H : _ /\ _ |- _ => destruct H end; try discriminate; try tauto; auto 9.
Qed.
