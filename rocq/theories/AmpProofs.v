(* Memory asked for in all (C94). *)
From Verif Require Export SpecAmp AllocProofs.

Lemma received_supply r : received r = Z.of_nat (supply r).
Proof. induction r as [|[d|e|d e] r IH]; cbn [received supply]; rewrite ?IH; unfold blen; lia. Qed.

Lemma buffers_app a b : buffers (a ++ b) = buffers a + buffers b.
Proof. induction a as [|[n|n] a IH]; [reflexivity| |]; cbn [app]; change (buffers (?x :: ?l)) with (match x with MBytes n => n + buffers l | MCtxs _ => buffers l end); cbv iota beta; rewrite IH; lia. Qed.

Lemma batches_app a b : batches (a ++ b) = batches a + batches b.
Proof. induction a as [|[n|n] a IH]; [reflexivity| |]; cbn [app]; change (batches (?x :: ?l)) with (match x with MBytes n => batches l | MCtxs _ => 1 + batches l end); cbv iota beta; rewrite IH; lia. Qed.

Definition sticky (r : reader) : Prop := exists e q, r = RFail e :: q.

Lemma read_one_sticky k r b e r' : read_one k r = Some (b, Some e, r') -> sticky r'.
Proof.
  destruct r as [|[d|x|d x] r]; cbn [read_one]; try discriminate; [| |]; try (destruct (_ <=? _)%nat; try discriminate); intros [= _ _ <-]; do 2 eexists; reflexivity.
Qed.

Lemma loop_sticky f : forall k acc r e r', readUntil_loop f k acc r = (RdErr e, r') -> sticky r'.
Proof.
  induction f as [|f IH]; intros k acc r e r'; cbn [readUntil_loop]; [discriminate|]. destruct (read_one k r) as [[[b [x|]] r1]|] eqn:R; [|cbv zeta|discriminate].
  - intros [= _ <-]. eapply read_one_sticky. exact R.
  - destruct (_ =? _)%nat; [discriminate|]. apply IH.
Qed.

Lemma until_sticky k r e r' : readUntil k r = (RdErr e, r') -> sticky r'.
Proof. unfold readUntil. destruct (k =? 0)%nat; [discriminate|]. apply loop_sticky. Qed.

Lemma sticky_first lim r : sticky r -> block_makes lim r = [MBytes 4] /\ exists e r', FirstBlockOfLimitMaxByte lim r = (RdErr e, r').
Proof.
  intros (e & q & ->). assert (E : readUntil 4 (RFail e :: q) = (RdErr (match e with EEOF => EEOF | _ => EWrap e end), RFail e :: q)) by reflexivity.
  split; [unfold block_makes; rewrite E; reflexivity|]. unfold FirstBlockOfLimitMaxByte, UnpackToBlockFromReader, UnpackToBlockFromReaderLimit. rewrite E. destruct (lim <=? 0); do 2 eexists; reflexivity.
Qed.

Lemma block_no_batch lim r : batches (block_makes lim r) = 0.
Proof.
  unfold block_makes. destruct (readUntil 4 r) as [[i| | |] r']; try reflexivity. destruct (LengthOf (of_bytes i)) as [n| |]; try reflexivity. destruct (_ && _)%bool; [reflexivity|]. destruct (n <? 0); [reflexivity|].
  destruct (readUntil (Z.to_nat n) r') as [[]]; reflexivity.
Qed.

Lemma block_cost lim r o r1 : 0 < lim < 2 ^ 31 -> FirstBlockOfLimitMaxByte lim r = (o, r1) ->
  match o with
  | RdOk _ => buffers (block_makes lim r) + 2 * received r1 <= 2 * received r
  | RdErr _ => buffers (block_makes lim r) + 2 * received r1 <= 2 * received r \/ sticky r1 /\ buffers (block_makes lim r) <= 2 * received r + lim + 4
  | _ => buffers (block_makes lim r) <= 2 * received r + lim + 4
  end.
Proof.
  intros L. rewrite !received_supply. unfold FirstBlockOfLimitMaxByte. destruct (Z.leb_spec lim 0) as [X|_]; [lia|]. unfold UnpackToBlockFromReaderLimit, block_makes.
  destruct (readUntil 4 r) as [x r4] eqn:R. pose proof (readUntil_supply _ _ _ _ R) as (R1 & R2).
  destruct x as [i|e| |]; cbn [buffers fold_right]; [|intros [= <- <-]; right; split; [eapply until_sticky; exact R|lia]|intros [= <- <-]; lia|intros [= <- <-]; lia].
  specialize (R2 i eq_refl). destruct (LengthOf (of_bytes i)) as [n|e|]; cbn [buffers fold_right]; [|intros [= <- <-]; left; lia|intros [= <- <-]; lia].
  destruct (Z.leb_spec lim 0) as [X|_]; [lia|]. cbn [negb andb]. rewrite to_int32_id by (unfold is_int32, two31; lia). destruct (Z.ltb_spec lim n) as [Y|Y]; cbn [buffers fold_right]; [intros [= <- <-]; left; lia|].
  unfold read_content. destruct (Z.ltb_spec n 0) as [N|N]; cbn [buffers fold_right]; [intros [= <- <-]; lia|].
  destruct (readUntil (Z.to_nat n) r4) as [x r5] eqn:Q. pose proof (readUntil_supply _ _ _ _ Q) as (Q1 & Q2). destruct x as [c|e| |]; cbn [buffers fold_right].
  - intros [= <- <-]. specialize (Q2 c eq_refl). lia.
  - intros [= <- <-]. right. split; [eapply until_sticky; exact Q|lia].
  - intros [= <- <-]. lia.
  - intros [= <- <-]. lia.
Qed.

Lemma received_nonneg r : 0 <= received r.
Proof. rewrite received_supply. lia. Qed.

Lemma first_less lim r b r1 : FirstBlockOfLimitMaxByte lim r = (RdOk b, r1) -> received r1 + 4 <= received r.
Proof. intros E. apply read_supply in E as (_ & E). specialize (E b eq_refl). rewrite !received_supply. lia. Qed.

Lemma pipe_no_batch lim f : forall n r, batches (pipe_makes lim f n r) = 0.
Proof. induction f as [|f IH]; intros n r; cbn [pipe_makes]; [reflexivity|]. destruct (n <=? 0); [reflexivity|]. rewrite batches_app, block_no_batch. destruct (FirstBlockOfLimitMaxByte lim r) as [[b| | |] r1]; try reflexivity. rewrite IH. reflexivity. Qed.

Lemma pipe_cost lim : 0 < lim < 2 ^ 31 -> forall f n r l k p r2, pipe_rest lim f n r = (l, k, p, r2) ->
  buffers (pipe_makes lim f n r) <= 2 * received r + lim + 4 /\
  (p = PDone -> buffers (pipe_makes lim f n r) + 2 * received r2 <= 2 * received r \/ sticky r2 /\ buffers (pipe_makes lim f n r) <= 2 * received r + lim + 4).
Proof.
  intros L. induction f as [|f IH]; intros n r l k p r2; cbn [pipe_rest pipe_makes]; pose proof (received_nonneg r).
  - intros [= <- <- <- <-]. split; [change (buffers []) with 0; lia|discriminate].
  - destruct (n <=? 0); [intros [= <- <- <- <-]; cbn [buffers fold_right]; split; [lia|intros _; left; lia]|].
    destruct (FirstBlockOfLimitMaxByte lim r) as [o r1] eqn:E. pose proof (block_cost lim r o r1 L E) as B. rewrite buffers_app. pose proof (received_nonneg r1). destruct o as [b|e| |].
    + destruct (pipe_rest lim f (n - 1) r1) as [[[l1 k1] p1] r3] eqn:Q. intros [= <- <- <- <-]. destruct (IH _ _ _ _ _ _ Q) as [I1 I2]. split; [lia|]. intros D. destruct (I2 D) as [I|[I J]]; [left; lia|right; split; [exact I|lia]].
    + intros [= <- <- <- <-]. change (buffers []) with 0. rewrite Z.add_0_r. split; [destruct B as [B|[_ B]]; lia|]. intros _. exact B.
    + intros [= <- <- <- <-]. change (buffers []) with 0. split; [lia|discriminate].
    + intros [= <- <- <- <-]. change (buffers []) with 0. split; [lia|discriminate].
Qed.

Lemma serve_sticky hc lim f r : sticky r -> buffers (serve_makes hc lim f r) <= 4.
Proof. intros S. destruct f as [|f]; [cbn; lia|]. cbn [serve_makes]. destruct (sticky_first lim r S) as (-> & e & r' & ->). cbn. lia. Qed.

Lemma p_C94_total_partial : forall hc lim r, 0 < lim < 2 ^ 31 -> buffers (makes hc lim r) <= 2 * received r + lim + 8.
Proof.
  intros hc lim r L. unfold makes. generalize (S (supply r)) as f. intros f. revert r. induction f as [|f IH]; intros r; cbn [serve_makes]; pose proof (received_nonneg r); [change (buffers []) with 0; lia|].
  rewrite buffers_app. destruct (FirstBlockOfLimitMaxByte lim r) as [o r1] eqn:E. pose proof (block_cost lim r o r1 L E) as B. pose proof (received_nonneg r1). destruct o as [b|e| |]; [|change (buffers []) with 0; destruct B as [B|[_ B]]; lia|change (buffers []) with 0; lia..].
  destruct (isPipe hc (of_bytes b)) as [[[] n]| |]; [|specialize (IH r1); lia|change (buffers []) with 0; lia..].
  destruct (make_ok (n + 1)); [|change (buffers []) with 0; lia].
  change (buffers (MCtxs (n + 1) :: ?l)) with (buffers l). rewrite buffers_app. destruct (pipe_rest lim f n r1) as [[[l k] p] r2] eqn:Q. destruct (pipe_cost lim L _ _ _ _ _ _ _ Q) as [P1 P2].
  destruct p; try (change (buffers []) with 0; lia). specialize (IH r2). destruct (P2 eq_refl) as [P|[S P]]; [lia|]. pose proof (serve_sticky hc lim f r2 S). lia.
Qed.

Lemma p_C94_few_batches : forall hc lim r, 4 * batches (makes hc lim r) <= received r.
Proof.
  intros hc lim r. unfold makes. generalize (S (supply r)) as f. intros f. revert r. induction f as [|f IH]; intros r; cbn [serve_makes]; pose proof (received_nonneg r); [change (batches []) with 0; lia|].
  rewrite batches_app, block_no_batch. destruct (FirstBlockOfLimitMaxByte lim r) as [o r1] eqn:E. destruct o as [b|e| |]; try (change (batches []) with 0; lia).
  apply first_less in E. pose proof (received_nonneg r1). destruct (isPipe hc (of_bytes b)) as [[[] n]| |]; [|specialize (IH r1); lia|change (batches []) with 0; lia..].
  destruct (make_ok (n + 1)); [|change (batches []) with 0; lia]. change (batches (MCtxs (n + 1) :: ?l)) with (1 + batches l). rewrite batches_app, pipe_no_batch.
  destruct (pipe_rest lim f n r1) as [[[l k] p] r2] eqn:Q. apply pipe_supply in Q. assert (received r2 <= received r1) by (rewrite !received_supply; lia).
  specialize (IH r2). destruct p; change (batches []) with 0; lia.
Qed.
