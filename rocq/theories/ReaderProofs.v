(* C12-C16: reading blocks from a connection *)
From Verif Require Export ReaderFacts.

Lemma p_C12_segmentation_independent : forall m n r1 r2 bs en,
  segmentation bs en r1 -> segmentation bs en r2 ->
  fst (recv FirstBlockOf n r1) = fst (recv FirstBlockOf n r2) /\
  fst (recv (FirstBlockOfLimitMaxByte m) n r1) = fst (recv (FirstBlockOfLimitMaxByte m) n r2).
Proof.
  intros m n r1 r2 bs en S1 S2. split.
  - apply (recv_det FirstBlockOf) with (bs := bs) (en := en); auto.
    intros. apply (block_reader_det 0 false r0 r3 bs0 en0); assumption.
  - apply (recv_det (FirstBlockOfLimitMaxByte m)) with (bs := bs) (en := en); auto.
    intros. rewrite !FirstBlockOfLimit_eq. destruct (0 <? m).
    + apply (block_reader_det m true r0 r3 bs0 en0); assumption.
    + apply (block_reader_det m false r0 r3 bs0 en0); assumption.
Qed.

Lemma p_C13_sequence_received : forall V (E : env V) (sent : list (message V * option (marshaller V))) blocks rest en r,
  Forall2 (fun s b => PackWithMarshaller E (fst s) (snd s) = Ok b /\ blen b - 4 < 2 ^ 31) sent blocks ->
  segmentation (concat blocks ++ rest) en r ->
  exists r', recv FirstBlockOf (List.length sent) r = (blocks, RdOk tt, r') /\ segmentation rest en r'.
Proof.
  intros V E sent blocks rest en r HF HS.
  assert (Hb : Forall is_block blocks).
  { clear HS. induction HF as [|s b sent blocks (Hp & Hl) HF IH]; constructor; auto.
    apply PackWithMarshaller_ok in Hp. destruct Hp as (hdr & body & _ & _ & ->).
    rewrite assemble_length in Hl. apply assemble_is_block. lia. }
  replace (List.length sent) with (List.length blocks) by (symmetry; clear Hb HS; induction HF; cbn; congruence).
  destruct (recv_blocks 0 false blocks rest en r Hb) as (r' & E1 & E2); [|exact HS|exists r'; auto].
  clear. induction blocks; constructor; auto. discriminate.
Qed.

Lemma p_C13_blocks_received : forall blocks rest en r,
  Forall is_block blocks -> segmentation (concat blocks ++ rest) en r ->
  exists r', recv FirstBlockOf (List.length blocks) r = (blocks, RdOk tt, r') /\ segmentation rest en r'.
Proof.
  intros blocks rest en r Hb HS.
  destruct (recv_blocks 0 false blocks rest en r Hb) as (r' & E1 & E2); [|exact HS|exists r'; auto].
  clear. induction blocks; constructor; auto. discriminate.
Qed.

Lemma empty_block : is_block ["000"; "000"; "000"; "000"]%char.
Proof. repeat split; vm_compute; congruence. Qed.

Lemma firstn_concat_whole k : forall blocks, Forall is_block blocks ->
  exists part b, firstn k (concat blocks) = concat (whole k blocks) ++ part /\
    is_block b /\ (b = ["000"; "000"; "000"; "000"]%char \/ In b blocks) /\ prefix_of part b /\ part <> b /\
    Forall is_block (whole k blocks) /\ (List.length (whole k blocks) <= List.length blocks)%nat.
Proof.
  intros blocks. revert k. induction blocks as [|x blocks IH]; intros k Hb.
  - exists [], ["000"; "000"; "000"; "000"]%char. cbn [concat whole app]. rewrite firstn_nil.
    split; [reflexivity|]. split; [apply empty_block|]. split; [auto|]. split; [eexists; reflexivity|].
    split; [discriminate|]. split; [constructor|cbn; lia].
  - inversion Hb as [|? ? Hx Hb']; subst. cbn [concat whole].
    rewrite firstn_app. destruct (Nat.leb_spec (List.length x) k) as [Hle|Hgt].
    + destruct (IH (k - List.length x)%nat Hb') as (part & b & E & B & I & P & N & F & L).
      exists part, b. rewrite (firstn_all2 x) by lia. rewrite E. cbn [concat]. rewrite app_assoc.
      split; [reflexivity|]. split; [exact B|]. split; [destruct I; [auto|right; right; auto]|]. split; [exact P|]. split; [exact N|].
      split; [constructor; assumption|cbn [List.length]; lia].
    + replace (k - List.length x)%nat with O by lia. rewrite firstn_O, app_nil_r. cbn [concat app].
      exists (firstn k x), x. split; [reflexivity|]. split; [exact Hx|]. split; [right; left; reflexivity|].
      split; [exists (skipn k x); symmetry; apply firstn_skipn|].
      split; [intros He; apply (f_equal (@List.length _)) in He; rewrite firstn_length in He; lia|].
      split; [constructor|cbn; lia].
Qed.

Lemma p_C14_truncation : forall blocks k e r n,
  Forall is_block blocks -> segmentation (firstn k (concat blocks)) (Fails e) r ->
  (List.length blocks < n)%nat ->
  exists seen, fst (recv FirstBlockOf n r) = (whole k blocks, RdErr seen) /\ same_failure e seen.
Proof.
  intros blocks k e r n Hb HS Hn.
  destruct (firstn_concat_whole k blocks Hb) as (part & b & E & B & _ & P & N & F & L).
  rewrite E in HS.
  pose proof (recv_truncated 0 false (whole k blocks) part b (Fails e) r (n - S (List.length (whole k blocks))) F) as HR.
  specialize (HR ltac:(apply Forall_forall; discriminate) B ltac:(discriminate) P N HS).
  replace (List.length (whole k blocks) + S (n - S (List.length (whole k blocks))))%nat with n in HR by lia.
  cbv zeta in HR. exists (eof_or_wrap (wrap1 e)). split; [exact HR|].
  unfold same_failure. destruct e as [|z|s|e']; [left; auto| | |];
    (right; split; [discriminate|exists 2%nat; split; [reflexivity|lia]]).
Qed.

Lemma p_C14_silence : forall blocks k r n,
  Forall is_block blocks -> segmentation (firstn k (concat blocks)) StaysOpen r ->
  (List.length blocks < n)%nat -> fst (recv FirstBlockOf n r) = (whole k blocks, RdBlocked).
Proof.
  intros blocks k r n Hb HS Hn.
  destruct (firstn_concat_whole k blocks Hb) as (part & b & E & B & _ & P & N & F & L).
  rewrite E in HS.
  pose proof (recv_truncated 0 false (whole k blocks) part b StaysOpen r (n - S (List.length (whole k blocks))) F) as HR.
  specialize (HR ltac:(apply Forall_forall; discriminate) B ltac:(discriminate) P N HS).
  replace (List.length (whole k blocks) + S (n - S (List.length (whole k blocks))))%nat with n in HR by lia.
  exact HR.
Qed.

Lemma whole_part b k : (k < List.length b)%nat -> whole k [b] = [].
Proof. intros H. cbn [whole]. destruct (Nat.leb_spec (List.length b) k); [lia|reflexivity]. Qed.

Lemma p_C14_unpack_truncated : forall hc b k r, is_block b -> (k < List.length b)%nat ->
  (forall e, segmentation (firstn k b) (Fails e) r -> exists seen, fst (UnPackFromReader hc r) = RdErr seen /\ same_failure e seen) /\
  (segmentation (firstn k b) StaysOpen r -> fst (UnPackFromReader hc r) = RdBlocked).
Proof.
  intros hc b k r B K. split.
  - intros e HS. destruct (p_C14_truncation [b] k e r 2) as (seen & E & F); [constructor; auto|cbn [concat]; rewrite app_nil_r; exact HS|cbn; lia|].
    exists seen. split; [|exact F]. rewrite whole_part in E by exact K. cbn [recv] in E. unfold UnPackFromReader. unfold FirstBlockOf in E.
    destruct (UnpackToBlockFromReader r) as [[buf|e'| |] r']; cbn in E |- *; try discriminate E.
    + destruct (UnpackToBlockFromReader r') as [[buf'|e'| |] r'']; cbn in E; discriminate E.
    + injection E as ->. reflexivity.
  - intros HS. pose proof (p_C14_silence [b] k r 2) as E. specialize (E ltac:(constructor; auto)). cbn [concat] in E. rewrite app_nil_r in E. specialize (E HS ltac:(cbn; lia)).
    rewrite whole_part in E by exact K. cbn [recv] in E. unfold UnPackFromReader. unfold FirstBlockOf in E.
    destruct (UnpackToBlockFromReader r) as [[buf|e'| |] r']; cbn in E |- *; try discriminate E; [|reflexivity].
    destruct (UnpackToBlockFromReader r') as [[buf'|e'| |] r'']; cbn in E; discriminate E.
Qed.

Lemma p_C15_limit_partial : forall m bs en r,
  0 < m < 2 ^ 31 -> segmentation bs en r -> 4 <= blen bs -> field bs 0 < 2 ^ 31 ->
  (field bs 0 <= m -> FirstBlockOfLimitMaxByte m r = FirstBlockOf r) /\
  (m < field bs 0 -> exists e r', FirstBlockOfLimitMaxByte m r = (RdErr e, r') /\ segmentation (skipn 4 bs) en r').
Proof.
  intros m bs en r Hm (P & T & N) Hl Hf.
  assert (Hm' : to_int32 m = m).
  { apply to_int32_id. unfold is_int32, two31. change (2 ^ 31) with 2147483648 in Hm. lia. }
  assert (Hs : signed (field bs 0) = field bs 0).
  { unfold signed. destruct (Z.ltb_spec (field bs 0) (2 ^ 31)); lia. }
  rewrite FirstBlockOfLimit_eq. destruct (Z.ltb_spec 0 m); [|lia].
  split; intros Hc.
  - unfold FirstBlockOf, UnpackToBlockFromReader, UnpackToBlockFromReaderLimit.
    destruct (readUntil_spec 4 r P) as [(H1 & r4 & E4 & P4 & T4 & N4)|(H1 & _)]; [|rewrite T in H1; unfold blen in Hl; lia].
    rewrite E4, T. rewrite LengthOf_info by (rewrite firstn_length; unfold blen in Hl; lia).
    rewrite field0_firstn4 by (unfold blen in Hl; lia). rewrite Hs, Hm'.
    destruct (Z.ltb_spec m (field bs 0)); [lia|reflexivity].
  - pose proof (block_reader_spec m true r P) as HB. cbv zeta in HB. rewrite T, N, Hs, Hm' in HB.
    destruct HB as [(HB & _)|(_ & r4 & P4 & T4 & N4 & [(_ & _ & HB)|[(HB & _)|[(HB & _)|(HB & _)]]])];
      [lia| | | |]; try (specialize (HB eq_refl); lia).
    do 2 eexists. split; [exact HB|]. split; auto.
Qed.

Lemma p_C15_limit_refuted :
  (forall m bs en r, 0 < m < 2 ^ 31 -> segmentation bs en r -> 4 <= blen bs -> 2 ^ 31 <= field bs 0 ->
     fst (FirstBlockOfLimitMaxByte m r) = RdPanic) /\
  (exists bs, is_block bs /\ FirstBlockOf [RData bs] = (RdOk bs, []) /\
     exists e r', FirstBlockOfLimitMaxByte (2 ^ 31) [RData bs] = (RdErr e, r')).
Proof.
  split.
  - intros m bs en r Hm (P & T & N) Hl Hf.
    assert (Hm' : to_int32 m = m).
    { apply to_int32_id. unfold is_int32, two31. change (2 ^ 31) with 2147483648 in Hm. lia. }
    assert (Hr : 0 <= field bs 0 < two32) by (apply field_range; unfold blen in Hl; lia).
    assert (Hs : signed (field bs 0) < 0).
    { unfold signed. unfold two32 in Hr. change (2 ^ 31) with 2147483648 in *. change (2 ^ 32) with 4294967296.
      destruct (Z.ltb_spec (field bs 0) 2147483648); lia. }
    rewrite FirstBlockOfLimit_eq. destruct (Z.ltb_spec 0 m); [|lia].
    pose proof (block_reader_spec m true r P) as HB. cbv zeta in HB. rewrite T, N, Hm' in HB.
    destruct HB as [(HB & _)|(_ & r4 & P4 & T4 & N4 & [(_ & HB & _)|[(_ & _ & HB)|[(_ & HB & _)|(_ & HB & _)]]])]; try lia.
    rewrite HB. reflexivity.
  - exists ["000"; "000"; "000"; "000"]%char. split; [apply empty_block|]. split; [vm_compute; reflexivity|].
    do 2 eexists. vm_compute. reflexivity.
Qed.

Lemma p_C16_data_with_eof_refuted : forall b e, is_block b -> 4 < blen b ->
  exists seen, fst (FirstBlockOf [RDataFail b e]) = RdErr seen /\ same_failure e seen.
Proof.
  intros b e (H1 & H2 & H3) H4. unfold FirstBlockOf, UnpackToBlockFromReader, readUntil.
  cbn [Nat.eqb List.length readUntil_loop read_one].
  unfold blen in H4. destruct (Nat.leb_spec (List.length b) 4); [lia|].
  cbn [app].
  assert (Hf4 : List.length (firstn 4 b) = 4%nat) by (rewrite firstn_length; lia).
  rewrite Hf4. cbn [Nat.sub Nat.eqb].
  rewrite LengthOf_info by exact Hf4. rewrite field0_firstn4 by lia. rewrite H2.
  assert (Hs : signed (blen b - 4) = blen b - 4) by (unfold signed; destruct (Z.ltb_spec (blen b - 4) (2 ^ 31)); lia).
  rewrite Hs. unfold read_content. destruct (Z.ltb_spec (blen b - 4) 0); [unfold blen in *; lia|].
  unfold readUntil. destruct (Nat.eqb_spec (Z.to_nat (blen b - 4)) 0); [unfold blen in *; lia|].
  cbn [List.length readUntil_loop read_one]. rewrite skipn_length.
  destruct (Nat.leb_spec (List.length b - 4) (Z.to_nat (blen b - 4))); [|unfold blen in *; lia].
  eexists. cbn [fst]. split; [reflexivity|].
  unfold same_failure. destruct e as [|z|s|e']; [left; auto| | |];
    (right; split; [discriminate|exists 2%nat; split; [reflexivity|lia]]).
Qed.

Lemma p_C16_data_then_eof_partial : forall blocks e r, Forall is_block blocks ->
  segmentation (concat blocks) (Fails e) r ->
  exists seen, fst (recv FirstBlockOf (S (List.length blocks)) r) = (blocks, RdErr seen) /\ same_failure e seen.
Proof.
  intros blocks e r Hb HS.
  assert (Hw : forall bl, whole (List.length (concat bl)) bl = bl).
  { induction bl as [|x bl IH]; [reflexivity|]. cbn [concat whole]. rewrite app_length.
    destruct (Nat.leb_spec (List.length x) (List.length x + List.length (concat bl))); [|lia].
    replace (List.length x + List.length (concat bl) - List.length x)%nat with (List.length (concat bl)) by lia.
    rewrite IH. reflexivity. }
  destruct (p_C14_truncation blocks (List.length (concat blocks)) e r (S (List.length blocks)) Hb) as (seen & E & F).
  - rewrite firstn_all. exact HS.
  - lia.
  - exists seen. rewrite Hw in E. auto.
Qed.
