(* Memory asked for while receiving (C94). *)
From Verif Require Export SpecAlloc ServerProofs.

Lemma pipe_makes_fuel m : forall f1 f2 n r, (supply r < f1)%nat -> (supply r < f2)%nat -> pipe_makes m f1 n r = pipe_makes m f2 n r.
Proof.
  induction f1 as [|f1 IH]; intros f2 n r H1 H2; [lia|]. destruct f2 as [|f2]; [lia|]. cbn [pipe_makes]. destruct (n <=? 0); auto. f_equal.
  destruct (FirstBlockOfLimitMaxByte m r) as [o r1] eqn:R. apply read_supply in R as (_ & R). destruct o as [b| | |]; auto.
  specialize (R b eq_refl). apply IH; lia.
Qed.

(* more fuel changes nothing *)
Lemma serve_makes_fuel hc m : forall f1 f2 r, (supply r < f1)%nat -> (supply r < f2)%nat -> serve_makes hc m f1 r = serve_makes hc m f2 r.
Proof.
  induction f1 as [|f1 IH]; intros f2 r H1 H2; [lia|]. destruct f2 as [|f2]; [lia|]. cbn [serve_makes]. f_equal.
  destruct (FirstBlockOfLimitMaxByte m r) as [o r1] eqn:R. apply read_supply in R as (_ & R). destruct o as [b| | |]; auto.
  specialize (R b eq_refl). destruct (isPipe hc (of_bytes b)) as [[[] n]| |]; auto; [|apply IH; lia].
  destruct (make_ok (n + 1)); auto. f_equal. f_equal; [apply pipe_makes_fuel; lia|].
  destruct (pipe_fuel m f1 f2 n r1) as (A & _); [lia..|]. rewrite <- A. destruct (pipe_rest m f1 n r1) as [[[l k] p] r2] eqn:Q. apply pipe_supply in Q.
  destruct p; auto. apply IH; lia.
Qed.

Lemma block_bounded lim r m : 0 < lim < 2 ^ 31 -> In m (block_makes lim r) -> is_buffer m /\ size m <= lim + 4.
Proof.
  intros L [<-|H]; [split; [exact Logic.I|cbn [size]; lia]|].
  destruct (readUntil 4 r) as [[info| | |] r']; try (destruct H). destruct (LengthOf (of_bytes info)) as [n| |]; try (destruct H).
  destruct (Z.leb_spec lim 0) as [X|X]; [lia|]. cbn [negb andb] in H. rewrite to_int32_id in H by (unfold is_int32, two31; lia).
  destruct (Z.ltb_spec lim n) as [Y|Y]; [destruct H|]. destruct (n <? 0); [destruct H|].
  destruct H as [<-|H]; [split; [exact Logic.I|cbn [size]; lia]|]. destruct (readUntil (Z.to_nat n) r') as [[]]; try (destruct H). subst m. split; [exact Logic.I|cbn [size]; lia].
  destruct H.
Qed.

Lemma pipe_bounded lim m : 0 < lim < 2 ^ 31 -> forall f n r, In m (pipe_makes lim f n r) -> is_buffer m /\ size m <= lim + 4.
Proof.
  intros L. induction f as [|f IH]; intros n r H; cbn [pipe_makes] in H; [destruct H|]. destruct (n <=? 0); [destruct H|].
  apply in_app_or in H. destruct H as [H|H]; [eapply block_bounded; eauto|].
  destruct (FirstBlockOfLimitMaxByte lim r) as [[b| | |] r1]; try (destruct H). eapply IH; eauto.
Qed.

Lemma p_C94_buffers_bounded_partial : forall hc lim r m, 0 < lim < 2 ^ 31 -> In m (makes hc lim r) ->
  is_buffer m -> size m <= lim + 4.
Proof.
  intros hc lim r m L H B. unfold makes in H. revert H. generalize (S (supply r)) as f. intros f. revert r.
  induction f as [|f IH]; intros r H; cbn [serve_makes] in H; [destruct H|].
  apply in_app_or in H. destruct H as [H|H]; [apply (block_bounded lim r m L H)|].
  destruct (FirstBlockOfLimitMaxByte lim r) as [[b| | |] r1]; try (destruct H).
  destruct (isPipe hc (of_bytes b)) as [[[] n]| |]; try (destruct H); [|eapply IH; eauto].
  destruct (make_ok (n + 1)); [|destruct H]. destruct H as [<-|H]; [destruct B|]. apply in_app_or in H. destruct H as [H|H]; [apply (pipe_bounded lim m L _ _ _ H)|].
  destruct (pipe_rest lim f n r1) as [[[l k] p] r2]. destruct p; try (destruct H). eapply IH; eauto.
Qed.

Lemma p_C94_plain_messages_partial : forall hc lim msgs rest en r m, 0 < lim < 2 ^ 31 -> Forall (plain_message hc lim) msgs ->
  blen rest < 4 -> segmentation (concat msgs ++ rest) en r -> In m (makes hc lim r) -> size m <= lim + 4.
Proof.
  intros hc lim msgs rest en r m L F R S H. unfold makes in H. revert r S H.
  assert (G : forall f r, segmentation (concat msgs ++ rest) en r -> In m (serve_makes hc lim f r) -> size m <= lim + 4); [|intros r S H; eapply G; eauto].
  induction F as [|b msgs Fb F IH]; intros f r S H; (destruct f as [|f]; cbn [serve_makes] in H; [destruct H|]);
    (apply in_app_or in H; destruct H as [H|H]; [apply (block_bounded lim r m L H)|]).
  - cbn [concat app] in S. destruct (FirstBlockOfLimitMaxByte lim r) as [[b| | |] r1] eqn:E; try (destruct H). exfalso.
    destruct S as (P & T & _). rewrite FirstBlockOfLimit_eq in E. unfold UnpackToBlockFromReaderLimit, UnpackToBlockFromReader in E.
    destruct (readUntil_spec 4 r P) as [(X & _)|(_ & o & r' & X & NX)]; [rewrite T in X; unfold blen in R; lia|].
    rewrite X in E. destruct o as [i| | |]; [destruct NX as (NX & _); destruct (SpecReader.ends r); discriminate NX|destruct (0 <? lim); discriminate E..].
  - cbn [concat] in S. rewrite <- app_assoc in S. destruct Fb as (Fr & hdr & hd & T & U & A).
    destruct (read_frame lim b _ en r Fr S) as (r1 & E & S1). rewrite E, (isPipe_asks hc b hdr hd None (proj1 Fr) T U A) in H. eapply IH; eauto.
Qed.

Lemma p_C94_batch_refuted : forall hc lim b n rest en r, batch_head hc lim b n -> 1 <= n <= 2 ^ 45 ->
  segmentation (b ++ rest) en r -> In (MCtxs n) (makes hc lim r).
Proof.
  intros hc lim b n rest en r (F & hdr & hd & T & U & A) Hn S. unfold makes. cbn [serve_makes].
  destruct (read_frame lim b rest en r F S) as (r1 & E & S1). rewrite E, (isPipe_asks hc b hdr hd _ (proj1 F) T U A).
  apply in_or_app. right. replace (n - 1 + 1) with n by lia. unfold make_ok.
  destruct (Z.ltb_spec 0 n); [|lia]. destruct (Z.leb_spec n (2 ^ 45)); [|lia]. left. reflexivity.
Qed.

Lemma p_C94_without_limit : forall hc lim n l rest en r, lim <= 0 -> 0 <= n < 2 ^ 31 -> List.length l = 4%nat -> be_val l = n ->
  segmentation (l ++ rest) en r -> In (MBytes n) (makes hc lim r).
Proof.
  intros hc lim n l rest en r L Hn H4 Hv (P & T & _). unfold makes. cbn [serve_makes]. apply in_or_app. left. right.
  destruct (readUntil_spec 4 r P) as [(_ & r' & X & _)|(X & _)]; [|rewrite T, app_length in X; lia].
  rewrite X, T. replace (firstn 4 (l ++ rest)) with l by (rewrite <- H4, firstn_app, firstn_all, Nat.sub_diag; cbn; rewrite app_nil_r; reflexivity).
  rewrite (LengthOf_info l H4). assert (V : signed (field l 0) = n).
  { unfold field, slice. cbn [skipn Nat.add Nat.sub]. replace (firstn 4 l) with l by (rewrite <- H4, firstn_all; reflexivity). unfold signed. rewrite Hv. destruct (Z.ltb_spec n (2 ^ 31)); lia. }
  rewrite V. destruct (Z.leb_spec lim 0); [|lia]. cbn [negb andb]. destruct (Z.ltb_spec n 0); [lia|]. left. reflexivity.
Qed.

Lemma frame_makes lim b rest en r : frame lim b -> segmentation (b ++ rest) en r -> block_makes lim r = frame_buffers b.
Proof.
  intros (B & W) (P & T & N). destruct (is_block_head b rest B) as (H1 & H2 & H3 & H4 & H5 & H6).
  pose proof (app_length b rest) as L.
  assert (L4 : (4 <= List.length (b ++ rest))%nat) by (unfold blen in *; lia).
  unfold block_makes, frame_buffers. f_equal.
  destruct (readUntil_spec 4 r P) as [(X & r' & E & P' & T' & _)|(X & _)]; [|rewrite T in X; lia].
  rewrite E, T. rewrite LengthOf_info by (apply firstn_length_le; exact L4).
  rewrite field0_firstn4 by exact L4. rewrite H2.
  assert (C : negb (lim <=? 0) && (to_int32 lim <? blen b - 4) = false).
  { destruct (Z.leb_spec lim 0) as [Y|Y]; cbn [negb andb]; [reflexivity|]. apply Z.ltb_ge. apply W. lia. }
  rewrite C. destruct (Z.ltb_spec (blen b - 4) 0) as [Y|Y]; [lia|]. f_equal.
  destruct (readUntil_spec (Z.to_nat (blen b - 4)) r' P') as [(X' & r'' & E' & _)|(X' & _)].
  - rewrite E'. f_equal. f_equal. lia.
  - rewrite T', T, skipn_length in X'. unfold blen in *. lia.
Qed.

Lemma pipe_frames_makes lim : forall l f rest en r, (supply r < f)%nat -> Forall (frame lim) l -> segmentation (concat l ++ rest) en r ->
  pipe_makes lim f (Z.of_nat (List.length l)) r = flat_map frame_buffers l.
Proof.
  induction l as [|b l IH]; intros f rest en r Hf F S; (destruct f as [|f]; [lia|]); cbn [pipe_makes].
  - reflexivity.
  - inversion F; subst. cbn [concat] in S. rewrite <- app_assoc in S.
    destruct (Z.leb_spec (Z.of_nat (List.length (b :: l))) 0); [cbn [List.length] in *; lia|].
    rewrite (frame_makes lim b _ en r H1 S). destruct (read_frame lim b _ en r H1 S) as (r1 & E & S1). rewrite E.
    pose proof (read_supply lim r _ _ E) as (_ & Sp). specialize (Sp b eq_refl).
    replace (Z.of_nat (List.length (b :: l)) - 1) with (Z.of_nat (List.length l)) by (cbn [List.length]; lia).
    rewrite (IH f rest en r1); auto; lia.
Qed.

Lemma p_C94_exact : forall hc lim ps evs rest en r, Forall2 (part hc lim) ps evs -> blen rest < 4 ->
  segmentation (concat ps ++ rest) en r -> makes hc lim r = flat_map asked_for evs ++ [MBytes 4].
Proof.
  intros hc lim ps evs rest en r F R. revert r. unfold makes.
  assert (G : forall f r, (supply r < f)%nat -> segmentation (concat ps ++ rest) en r -> serve_makes hc lim f r = flat_map asked_for evs ++ [MBytes 4]); [|intros r S; apply G; [lia|exact S]].
  induction F as [|p e ps evs Hp F IH]; intros f r Hf S; (destruct f as [|f]; [lia|]); cbn [serve_makes].
  - cbn [concat app flat_map] in S |- *. pose proof S as (P & T & _).
    destruct (readUntil_spec 4 r P) as [(X & _)|(_ & o & r' & X & NX & _)]; [rewrite T in X; unfold blen in R; lia|].
    assert (NO : forall i, o <> RdOk i) by (intros i Z; rewrite Z in NX; destruct (SpecReader.ends r); discriminate NX).
    unfold block_makes. rewrite X. rewrite FirstBlockOfLimit_eq. unfold UnpackToBlockFromReaderLimit, UnpackToBlockFromReader. rewrite X.
    destruct o as [i| | |]; [destruct (NO i eq_refl)|destruct (0 <? lim); reflexivity..].
  - cbn [concat] in S. rewrite <- app_assoc in S. inversion Hp as [b Hb|b l Hb Hl Hn]; subst p e; cbn [flat_map asked_for].
    + destruct Hb as (Fr & hdr & hd & T & U & A). rewrite (frame_makes lim b _ en r Fr S).
      destruct (read_frame lim b _ en r Fr S) as (r1 & E & S1). rewrite E, (isPipe_asks hc b hdr hd None (proj1 Fr) T U A).
      pose proof (read_supply lim r _ _ E) as (_ & Sp). specialize (Sp b eq_refl).
      rewrite (IH f r1); [rewrite <- app_assoc; reflexivity|lia|exact S1].
    + rewrite <- app_assoc in S. destruct Hb as (Fr & hdr & hd & T & U & A). rewrite (frame_makes lim b _ en r Fr S).
      destruct (read_frame lim b _ en r Fr S) as (r1 & E & S1). rewrite E, (isPipe_asks hc b hdr hd _ (proj1 Fr) T U A).
      pose proof (read_supply lim r _ _ E) as (_ & Sp). specialize (Sp b eq_refl).
      replace (1 + Z.of_nat (List.length l) - 1 + 1) with (1 + Z.of_nat (List.length l)) by lia.
      replace (1 + Z.of_nat (List.length l) - 1) with (Z.of_nat (List.length l)) by lia.
      unfold make_ok. destruct (Z.ltb_spec 0 (1 + Z.of_nat (List.length l))) as [_|X]; [|lia].
      destruct (Z.leb_spec (1 + Z.of_nat (List.length l)) (2 ^ 45)) as [_|X]; [|lia].
      cbn [andb]. rewrite (pipe_frames_makes lim l f (concat ps ++ rest) en r1); [|lia|exact Hl|exact S1].
      destruct (pipe_frames lim l _ _ en r1 eq_refl Hl S1) as (r2 & E2 & S2).
      unfold pipe_reads in E2. destruct (pipe_fuel lim f (Datatypes.S (supply r1)) (Z.of_nat (List.length l)) r1) as (Q & _); [lia..|].
      rewrite Q, E2. pose proof (pipe_supply _ _ _ _ _ _ _ _ E2). rewrite (IH f r2); [|lia|exact S2].
      cbn [app]. rewrite <- !app_assoc. reflexivity.
Qed.
