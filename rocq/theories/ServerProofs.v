(* The servers' receive loops and the handling goroutines (C18, C20, C49, C56-C61). *)
From Coq Require Import DecimalString DecimalPos.
From Verif Require Export SpecServer ReaderProofs StrProofs ChainProofs CtxProofs MuxProofs SpecMux ClientProofs.

Lemma read_one_supply k r bs e r' : read_one k r = Some (bs, e, r') -> (supply r' + List.length bs = supply r)%nat /\ (List.length bs <= k)%nat.
Proof.
  destruct r as [|[d|x|d x] r]; cbn [read_one]; intros H; try discriminate.
  - destruct (Nat.leb_spec (List.length d) k); inversion H; subst; cbn [supply]; [lia|]. rewrite firstn_length, skipn_length. lia.
  - inversion H; subst. cbn. lia.
  - destruct (Nat.leb_spec (List.length d) k); inversion H; subst; cbn [supply]; [lia|]. rewrite firstn_length, skipn_length. lia.
Qed.

Lemma readUntil_supply k r o r' : readUntil k r = (o, r') -> (supply r' <= supply r)%nat /\ (forall b, o = RdOk b -> (supply r' + k = supply r)%nat).
Proof.
  unfold readUntil. destruct (Nat.eqb_spec k 0) as [->|K]; [intros H; inversion H; subst; split; [lia|]; intros; lia|].
  assert (G : forall f need acc r, (need > 0)%nat -> forall o r', readUntil_loop f need acc r = (o, r') ->
    (supply r' <= supply r)%nat /\ (forall b, o = RdOk b -> (supply r' + need = supply r)%nat)).
  { induction f as [|f IH]; intros need acc r0 Hn o0 r0' H; cbn [readUntil_loop] in H.
    - inversion H; subst. split; [lia|]. discriminate.
    - destruct (read_one need r0) as [[[bs e] r1]|] eqn:R.
      + apply read_one_supply in R as (R1 & R2). destruct e as [e|].
        * inversion H; subst. split; [lia|]. discriminate.
        * cbv zeta in H. destruct (Nat.eqb_spec (need - List.length bs) 0) as [Z|Z].
          -- inversion H; subst. split; [lia|]. intros b _. lia.
          -- apply IH in H as (H1 & H2); [|lia]. split; [lia|]. intros b E. specialize (H2 b E). lia.
      + inversion H; subst. split; [lia|]. discriminate. }
  apply G. lia.
Qed.

Lemma read_supply m r o r' : FirstBlockOfLimitMaxByte m r = (o, r') ->
  (supply r' <= supply r)%nat /\ (forall b, o = RdOk b -> (supply r' + 4 <= supply r)%nat).
Proof.
  assert (C : forall i n r o r', read_content i n r = (o, r') -> (supply r' <= supply r)%nat).
  { intros i n r0 o0 r0' H. unfold read_content in H. destruct (n <? 0); [inversion H; subst; lia|].
    destruct (readUntil (Z.to_nat n) r0) as [x r1] eqn:R. apply readUntil_supply in R as (R & _). destruct x; inversion H; subst; lia. }
  rewrite FirstBlockOfLimit_eq. unfold UnpackToBlockFromReaderLimit, UnpackToBlockFromReader.
  destruct (readUntil 4 r) as [x r4] eqn:R. apply readUntil_supply in R as (R1 & R2).
  destruct (0 <? m); (destruct x as [info|e| |]; [specialize (R2 _ eq_refl)| | |]);
    try (intros H; inversion H; subst; split; [lia|discriminate]);
    (destruct (LengthOf (of_bytes info)) as [n|e|]; [|intros H; inversion H; subst; split; [lia|discriminate]..]).
  - destruct (to_int32 m <? n); [intros H; inversion H; subst; split; [lia|discriminate]|]. intros H. apply C in H. split; [lia|]. intros; lia.
  - intros H. apply C in H. split; [lia|]. intros; lia.
Qed.

Lemma pipe_supply m f : forall n r l k p r', pipe_rest m f n r = (l, k, p, r') -> (supply r' <= supply r)%nat.
Proof.
  induction f as [|f IH]; intros n r l k p r' H; cbn [pipe_rest] in H; [inversion H; subst; lia|].
  destruct (n <=? 0); [inversion H; subst; lia|].
  destruct (FirstBlockOfLimitMaxByte m r) as [o r1] eqn:R. apply read_supply in R as (R1 & _). destruct o as [b| | |]; try (inversion H; subst; lia).
  destruct (pipe_rest m f (n - 1) r1) as [[[l1 k1] p1] r2] eqn:Q. inversion H; subst. apply IH in Q. lia.
Qed.

Lemma pipe_fuel m : forall f1 f2 n r, (supply r < f1)%nat -> (supply r < f2)%nat -> pipe_rest m f1 n r = pipe_rest m f2 n r /\ snd (fst (pipe_rest m f1 n r)) <> PFuel.
Proof.
  induction f1 as [|f1 IH]; intros f2 n r H1 H2; [lia|]. destruct f2 as [|f2]; [lia|]. cbn [pipe_rest].
  destruct (n <=? 0); [split; [auto|discriminate]|].
  destruct (FirstBlockOfLimitMaxByte m r) as [o r1] eqn:R. apply read_supply in R as (_ & R). destruct o as [b| | |]; try (split; [auto|discriminate]).
  specialize (R b eq_refl). destruct (IH f2 (n - 1) r1) as (A & B); [lia..|]. rewrite <- A. destruct (pipe_rest m f1 (n - 1) r1) as [[[l k] p] r2].
  split; auto.
Qed.

Lemma serve_fuel hc m : forall f1 f2 r, (supply r < f1)%nat -> (supply r < f2)%nat -> serve hc m f1 r = serve hc m f2 r /\ snd (serve hc m f1 r) <> SFuel.
Proof.
  induction f1 as [|f1 IH]; intros f2 r H1 H2; [lia|]. destruct f2 as [|f2]; [lia|]. cbn [serve].
  destruct (FirstBlockOfLimitMaxByte m r) as [o r1] eqn:R. apply read_supply in R as (_ & R). destruct o as [b| | |]; try (split; [auto|discriminate]).
  specialize (R b eq_refl). destruct (isPipe hc (of_bytes b)) as [[[] n]| |]; try (split; [auto|discriminate]).
  - destruct (make_ok (n + 1)); [|split; [auto|discriminate]].
    destruct (pipe_fuel m f1 f2 n r1) as (A & B); [lia..|]. rewrite <- A. destruct (pipe_rest m f1 n r1) as [[[l k] p] r2] eqn:Q. apply pipe_supply in Q.
    cbn in B. destruct p; try (split; [auto|discriminate]); [|congruence].
    destruct (IH f2 r2) as (A' & B'); [lia..|]. rewrite <- A'. destruct (serve hc m f1 r2). auto.
  - destruct (IH f2 r1) as (A & B); [lia..|]. rewrite <- A. destruct (serve hc m f1 r1). auto.
Qed.

(* one round of each loop, without fuel *)
Definition pipe_reads m n r := pipe_rest m (S (supply r)) n r.

Lemma pipe_reads_step m n r : pipe_reads m n r =
  if n <=? 0 then ([], 0, PDone, r) else
  match FirstBlockOfLimitMaxByte m r with
  | (RdOk b, r1) => match pipe_reads m (n - 1) r1 with (l, k, p, r2) => (b :: l, k, p, r2) end
  | (RdErr _, r1) => ([], n, PDone, r1)
  | (RdPanic, r1) => ([], n, PPanicked, r1)
  | (RdBlocked, r1) => ([], n, PWaiting, r1)
  end.
Proof.
  unfold pipe_reads at 1. cbn [pipe_rest]. destruct (n <=? 0); auto.
  destruct (FirstBlockOfLimitMaxByte m r) as [o r1] eqn:R. apply read_supply in R as (_ & R). destruct o as [b| | |]; auto. specialize (R b eq_refl).
  unfold pipe_reads. destruct (pipe_fuel m (supply r) (S (supply r1)) (n - 1) r1) as (-> & _); auto; lia.
Qed.

Lemma serve_reads_step hc m r : serve_reads hc m r =
  match FirstBlockOfLimitMaxByte m r with
  | (RdErr _, _) => ([], SEnded)
  | (RdPanic, _) => ([], SPanicked)
  | (RdBlocked, _) => ([], SWaiting)
  | (RdOk b, r1) =>
      match isPipe hc (of_bytes b) with
      | Err _ => ([], SEnded)
      | Panic => ([], SPanicked)
      | Ok (false, _) => match serve_reads hc m r1 with (t, s) => (SDispatch b :: t, s) end
      | Ok (true, restN) =>
          if make_ok (restN + 1) then
            match pipe_reads m restN r1 with
            | (l, missing, PDone, r2) => match serve_reads hc m r2 with (t, s) => (SPipe (b :: l) missing :: t, s) end
            | (_, _, PPanicked, _) => ([], SPanicked)
            | (_, _, PWaiting, _) => ([], SWaiting)
            | (_, _, PFuel, _) => ([], SFuel)
            end
          else ([], SPanicked)
      end
  end.
Proof.
  unfold serve_reads at 1. cbn [serve].
  destruct (FirstBlockOfLimitMaxByte m r) as [o r1] eqn:R. apply read_supply in R as (_ & R). destruct o as [b| | |]; auto. specialize (R b eq_refl).
  destruct (isPipe hc (of_bytes b)) as [[[] n]| |]; auto.
  - destruct (make_ok (n + 1)); auto. unfold pipe_reads. destruct (pipe_fuel m (supply r) (S (supply r1)) n r1) as (-> & _); [lia..|].
    destruct (pipe_rest m (S (supply r1)) n r1) as [[[l k] p] r2] eqn:Q. apply pipe_supply in Q. destruct p; auto.
    unfold serve_reads. destruct (serve_fuel hc m (supply r) (S (supply r2)) r2) as (-> & _); auto; lia.
  - unfold serve_reads. destruct (serve_fuel hc m (supply r) (S (supply r1)) r1) as (-> & _); auto; lia.
Qed.

(* The receive loop and its fuel. *)
Lemma serve_total hc m r : snd (serve_reads hc m r) <> SFuel.
Proof. apply (serve_fuel hc m (S (supply r)) (S (supply r)) r); lia. Qed.

(* strings of the marker *)
Lemma split_parts c s : forall x, In x (Split c s) -> ~ In c x.
Proof.
  induction s as [|a s IH]; cbn [Split]; intros x H.
  - destruct H as [<-|[]]. auto.
  - destruct (Ascii.eqb_spec a c) as [->|N].
    + destruct H as [<-|H]; auto.
    + destruct (Split c s) as [|h t] eqn:E.
      * destruct H as [<-|[]]. intros [X|[]]. congruence.
      * destruct H as [<-|H]; [|apply IH; right; auto]. intros [X|X]; [congruence|]. apply (IH h); [left; auto|auto].
Qed.

Lemma split_two c s a b : Split c s = [a; b] <-> s = a ++ c :: b /\ ~ In c a /\ ~ In c b.
Proof.
  split.
  - intros H. pose proof (join_split c s) as J. rewrite H in J. cbn in J. split; [auto|].
    split; apply (split_parts c s); rewrite H; [left|right; left]; auto.
  - intros (-> & A & B). rewrite split_app by auto. rewrite split_nosep by auto. reflexivity.
Qed.

Lemma digits_sep : forall s acc z, digits acc s = Some z -> ~ In ";"%char s.
Proof.
  induction s as [|c s IH]; intros acc z H; [auto|]. cbn [digits] in H. destruct (digit c) eqn:D; [|discriminate].
  intros [->|X]; [discriminate|]. eapply IH; eauto.
Qed.

Lemma Atoi_sep t n : Atoi t = Some n -> ~ In ";"%char t.
Proof.
  unfold Atoi. destruct t as [|c t]; [discriminate|].
  destruct (Ascii.eqb_spec c "-"); [|destruct (Ascii.eqb_spec c "+")].
  - subst. destruct t; [discriminate|]. destruct (digits 0 _) eqn:D; [|discriminate]. intros _ [X|X]; [discriminate|]. eapply digits_sep; eauto.
  - subst. destruct t; [discriminate|]. destruct (digits 0 _) eqn:D; [|discriminate]. intros _ [X|X]; [discriminate|]. eapply digits_sep; eauto.
  - destruct (digits 0 (c :: t)) eqn:D; [|discriminate]. intros _. eapply digits_sep; eauto.
Qed.

Lemma digits_value : forall s acc z, digits acc s = Some z <->
  Forall (fun c => 48 <= code c <= 57) s /\ z = fold_left (fun a c => a * 10 + (code c - 48)) s acc.
Proof.
  induction s as [|c s IH]; intros acc z; cbn [digits fold_left].
  - split; [intros H; inversion H; auto|intros (_ & ->); auto].
  - unfold digit. destruct (Z.leb_spec 48 (code c)); cbn [andb]; [destruct (Z.leb_spec (code c) 57)|].
    + rewrite IH. split; intros (F & ->); split; auto. inversion F; auto.
    + split; [discriminate|]. intros (F & _). inversion F. lia.
    + split; [discriminate|]. intros (F & _). inversion F. lia.
Qed.

Lemma sign_no_digit : ~ (48 <= code "-"%char <= 57) /\ ~ (48 <= code "+"%char <= 57).
Proof. vm_compute. intuition congruence. Qed.

Lemma reads_Atoi t n : reads_as t n <-> Atoi t = Some n.
Proof.
  destruct sign_no_digit as (Nm & Np). unfold reads_as, decimal, Atoi, int_range. split.
  - intros (R & d & v & (Ne & F & Ev) & H). assert (D : digits 0 d = Some v) by (apply digits_value; auto).
    assert (B : ((- 2 ^ 63 <=? n) && (n <? 2 ^ 63))%bool = true) by (apply andb_true_intro; split; [apply Z.leb_le|apply Z.ltb_lt]; lia).
    destruct d as [|c d]; [congruence|]. destruct H as [(-> & ->)|[(-> & ->)|(-> & ->)]].
    + inversion F; subst. destruct (Ascii.eqb_spec c "-"); [subst; contradiction|]. destruct (Ascii.eqb_spec c "+"); [subst; contradiction|]. rewrite D, B. reflexivity.
    + change (Ascii.eqb "+" "-") with false. change (Ascii.eqb "+" "+") with true. cbv iota. rewrite D, B. reflexivity.
    + change (Ascii.eqb "-" "-") with true. cbv iota. rewrite D, B. reflexivity.
  - intros H. destruct t as [|c t]; [discriminate|].
    assert (G : forall (neg : bool) u, match u with [] => None | _ => match digits 0 u with Some v => let z := if neg then - v else v in if ((- 2 ^ 63 <=? z) && (z <? 2 ^ 63))%bool then Some z else None | None => None end end = Some n ->
      - 2 ^ 63 <= n < 2 ^ 63 /\ exists v, (u <> [] /\ Forall (fun c => 48 <= code c <= 57) u /\ v = fold_left (fun a c => a * 10 + (code c - 48)) u 0) /\ n = if neg then - v else v).
    { intros neg u X. destruct u as [|a u]; [discriminate|]. destruct (digits 0 (a :: u)) as [v|] eqn:D; [|discriminate]. cbv zeta in X.
      destruct ((- 2 ^ 63 <=? (if neg then - v else v)) && ((if neg then - v else v) <? 2 ^ 63))%bool eqn:B; [|discriminate].
      apply andb_prop in B as (B1 & B2). apply Z.leb_le in B1. apply Z.ltb_lt in B2. injection X as <-. split; [lia|].
      exists v. apply digits_value in D as (D1 & D2). split; [|reflexivity]. split; [discriminate|auto]. }
    destruct (Ascii.eqb_spec c "-"); [|destruct (Ascii.eqb_spec c "+")].
    + subst c. destruct (G true t H) as (R & v & D & E). split; [exact R|]. exists t, v. auto 6.
    + subst c. destruct (G false t H) as (R & v & D & E). split; [exact R|]. exists t, v. auto 6.
    + destruct (G false (c :: t) H) as (R & v & D & E). split; [exact R|]. exists (c :: t), v. auto 6.
Qed.

Lemma reads_sep t n : reads_as t n -> ~ In ";"%char t.
Proof. intros H. apply reads_Atoi in H. eapply Atoi_sep; eauto. Qed.

Lemma enable_nosep : ~ In ";"%char (str_bytes "enable").
Proof. cbn. intuition discriminate. Qed.

(* isPipe, declaratively *)
Lemma isPipe_header hc b hdr hd : is_block b -> header_text b hdr -> hunmarshal hc hdr = Ok hd -> HeaderOf hc (of_bytes b) = Ok hd.
Proof.
  intros (B1 & B2 & B3) (H1 & H2 & H3 & ->) Hu. unfold HeaderOf.
  assert (R : 0 <= field b 8 < two32) by (apply field_range; unfold blen in H1; lia).
  assert (S : signed (field b 8) = field b 8) by (unfold signed; destruct (Z.ltb_spec (field b 8) (2 ^ 31)); lia).
  destruct (HeaderBytesOf_cases (of_bytes b) (gwf_of_bytes b)) as [(C1 & _)|[(C1 & C2 & _)|[(C1 & C2 & C3 & r & -> & C4 & C5)|(C1 & C2 & C3 & _)]]];
    rewrite ?gbytes_of_bytes in *; unfold glen, of_bytes in *; cbn [gs_len] in *; unfold blen in *; try lia.
  cbn [rwrap rbind]. rewrite C5, S, Hu. reflexivity.
Qed.

Lemma no_header hc b : is_block b -> (forall hdr hd, header_text b hdr -> hunmarshal hc hdr <> Ok hd) -> forall hd, HeaderOf hc (of_bytes b) <> Ok hd.
Proof.
  intros (B1 & B2 & B3) N hd. unfold HeaderOf.
  destruct (HeaderBytesOf_cases (of_bytes b) (gwf_of_bytes b)) as [(C1 & ->)|[(C1 & C2 & ->)|[(C1 & C2 & C3 & r & -> & C4 & C5)|(C1 & C2 & C3 & ->)]]];
    rewrite ?gbytes_of_bytes in *; unfold glen, of_bytes in *; cbn [gs_len] in *; cbn [rwrap rbind]; try discriminate.
  assert (R : 0 <= field b 8 < two32) by (apply field_range; lia).
  assert (S : signed (field b 8) = field b 8) by (clear - C2 R; unfold signed, two32 in *; revert C2; destruct (Z.ltb_spec (field b 8) (2 ^ 31)); lia).
  rewrite S in *. rewrite C5. specialize (N (slice b 16 (16 + Z.to_nat (field b 8))) hd).
  assert (T : header_text b (slice b 16 (16 + Z.to_nat (field b 8)))) by (split; [unfold blen; lia|split; [lia|split; [unfold blen; lia|auto]]]).
  specialize (N T). destruct (hunmarshal hc (slice b 16 (16 + Z.to_nat (field b 8)))); cbn; congruence.
Qed.

Lemma header_or_not hc b : (exists hdr hd, header_text b hdr /\ hunmarshal hc hdr = Ok hd) \/ (forall hdr hd, header_text b hdr -> hunmarshal hc hdr <> Ok hd).
Proof.
  unfold header_text. set (x := slice b 16 (16 + Z.to_nat (field b 8))).
  destruct (Z.leb_spec 12 (blen b)); [|right; intros ? ? (? & ? & ? & ?); lia].
  destruct (Z.ltb_spec (field b 8) (2 ^ 31 - 16)); [|right; intros ? ? (? & ? & ? & ?); lia].
  destruct (Z.leb_spec (16 + field b 8) (blen b)); [|right; intros ? ? (? & ? & ? & ?); lia].
  destruct (hunmarshal hc x) as [hd|e|] eqn:E; [left; exists x, hd; auto|right; intros ? ? (_ & _ & _ & ->); congruence..].
Qed.

Lemma isPipe_asks hc b hdr hd o : is_block b -> header_text b hdr -> hunmarshal hc hdr = Ok hd -> asks hd o ->
  isPipe hc (of_bytes b) = match o with None => Ok (false, 0) | Some n => Ok (true, n - 1) end.
Proof.
  intros B T U A. unfold isPipe. rewrite (isPipe_header hc b hdr hd B T U). cbn [rwrap rbind].
  destruct (Nat.eqb (hlen hd) 0) eqn:L.
  - destruct A as [A|s a t n A|s t n A]; auto; rewrite (hlen_hget _ _ L) in A; discriminate.
  - change PIPED with "[tcpx-buffer-in-serial]"%string. destruct A as [A|s a t n A E Na Ne R|s t n A E R]; rewrite A; auto.
    + assert (Sp : Split ";"%char (str_bytes s) = [a; t]) by (apply split_two; split; [auto|split; [auto|eapply reads_sep; eauto]]).
      rewrite Sp. apply reads_Atoi in R. rewrite R. destruct (bytes_eqb a (str_bytes "enable")) eqn:X; auto. apply bytes_eqb_spec in X. contradiction.
    + assert (Sp : Split ";"%char (str_bytes s) = [str_bytes "enable"; t]) by (apply split_two; split; [auto|split; [apply enable_nosep|eapply reads_sep; eauto]]).
      rewrite Sp. apply reads_Atoi in R. rewrite R. destruct (bytes_eqb (str_bytes "enable") (str_bytes "enable")) eqn:X; auto.
      assert (Y : bytes_eqb (str_bytes "enable") (str_bytes "enable") = true) by (apply bytes_eqb_spec; auto). congruence.
Qed.

Lemma asks_nothing_or hd : (exists o, asks hd o) \/ (forall o, ~ asks hd o).
Proof.
  destruct (hget "[tcpx-buffer-in-serial]" hd) as [v|] eqn:H; [|left; exists None; constructor; auto].
  destruct v as [| | | |s| |]; try (right; intros o A; inversion A; congruence).
  destruct (Split ";"%char (str_bytes s)) as [|a [|t [|]]] eqn:S.
  1,2,4: right; intros o A; inversion A as [E|s' a' t' n E F G K L|s' t' n E F G]; subst; try congruence; rewrite H in E; inversion E; subst s';
    rewrite F in S; rewrite split_app in S by (auto; apply enable_nosep); rewrite split_nosep in S by (eapply reads_sep; eauto); inversion S.
  destruct (Atoi t) as [n|] eqn:At; [apply reads_Atoi in At|].
  - apply split_two in S as (S1 & S2 & S3). left. destruct (bytes_eqb a (str_bytes "enable")) eqn:X.
    + apply bytes_eqb_spec in X. subst a. exists (Some n). eapply asks_batch; eauto.
    + exists None. eapply asks_other; eauto. intros ->. assert (Y : bytes_eqb (str_bytes "enable") (str_bytes "enable") = true) by (apply bytes_eqb_spec; auto). congruence.
  - right. intros o A. inversion A as [E|s' a' t' n E F G K L|s' t' n E F G]; subst; try congruence; rewrite H in E; inversion E; subst s';
      rewrite F in S; rewrite split_app in S by (auto; apply enable_nosep); rewrite split_nosep in S by (eapply reads_sep; eauto); inversion S; subst; match goal with R : reads_as _ _ |- _ => apply reads_Atoi in R end; congruence.
Qed.

Lemma isPipe_ok_asks hc b o : isPipe hc (of_bytes b) = Ok o -> exists hd x, HeaderOf hc (of_bytes b) = Ok hd /\ asks hd x.
Proof.
  unfold isPipe. destruct (HeaderOf hc (of_bytes b)) as [hd| |]; try discriminate. cbn [rwrap rbind]. intros H. exists hd.
  destruct (Nat.eqb (hlen hd) 0) eqn:L; [exists None; split; auto; constructor; apply hlen_hget; auto|].
  change PIPED with "[tcpx-buffer-in-serial]"%string in H. destruct (hget "[tcpx-buffer-in-serial]" hd) as [v|] eqn:G; [|exists None; split; auto; constructor; auto].
  destruct v as [| | | |s| |]; try discriminate. destruct (Split ";"%char (str_bytes s)) as [|a [|t [|]]] eqn:S; try discriminate.
  destruct (Atoi t) as [n|] eqn:At; try discriminate. apply reads_Atoi in At. apply split_two in S as (S1 & S2 & S3).
  destruct (bytes_eqb a (str_bytes "enable")) eqn:X.
  + apply bytes_eqb_spec in X. subst a. exists (Some n). split; auto. eapply asks_batch; eauto.
  + exists None. split; auto. eapply asks_other; eauto. intros ->. assert (Y : bytes_eqb (str_bytes "enable") (str_bytes "enable") = true) by (apply bytes_eqb_spec; auto). congruence.
Qed.

Lemma isPipe_fault hc b : is_block b ->
  ((forall hdr hd, header_text b hdr -> hunmarshal hc hdr <> Ok hd) \/ (exists hdr hd, header_text b hdr /\ hunmarshal hc hdr = Ok hd /\ forall o, ~ asks hd o)) ->
  forall x, isPipe hc (of_bytes b) <> Ok x.
Proof.
  intros B [N|(hdr & hd & T & U & N)] x H; apply isPipe_ok_asks in H as (hd' & o & H & A).
  - exact (no_header hc b B N hd' H).
  - rewrite (isPipe_header hc b hdr hd B T U) in H. inversion H; subst. exact (N o A).
Qed.

(* reading one frame *)
Lemma read_frame lim b rest en r : frame lim b -> segmentation (b ++ rest) en r ->
  exists r', FirstBlockOfLimitMaxByte lim r = (RdOk b, r') /\ segmentation rest en r'.
Proof.
  intros (B & W) S. rewrite FirstBlockOfLimit_eq. apply (read_block_ok lim (0 <? lim) b rest en r B); auto.
  intros H. apply W. apply Z.ltb_lt. exact H.
Qed.

Lemma pipe_frames lim : forall l n rest en r, n = Z.of_nat (List.length l) -> Forall (frame lim) l -> segmentation (concat l ++ rest) en r ->
  exists r', pipe_reads lim n r = (l, 0, PDone, r') /\ segmentation rest en r'.
Proof.
  induction l as [|b l IH]; intros n rest en r -> F S; rewrite pipe_reads_step.
  - cbn. exists r. auto.
  - inversion F; subst. cbn [concat] in S. rewrite <- app_assoc in S. destruct (read_frame lim b _ en r H1 S) as (r1 & -> & S1).
    destruct (Z.leb_spec (Z.of_nat (List.length (b :: l))) 0); [cbn [List.length] in *; lia|].
    destruct (IH (Z.of_nat (List.length (b :: l)) - 1) rest en r1) as (r2 & -> & S2); auto; [cbn [List.length]; lia|]. exists r2. auto.
Qed.

(* parts are handled in order, then the rest of the stream *)
Lemma serve_parts hc lim evs : forall bss rest en r, Forall2 (part hc lim) bss evs -> segmentation (concat bss ++ rest) en r ->
  exists r', segmentation rest en r' /\ serve_reads hc lim r = (evs ++ fst (serve_reads hc lim r'), snd (serve_reads hc lim r')).
Proof.
  induction evs as [|e evs IH]; intros bss rest en r F S; inversion F as [|x y bss' evs' P F']; subst.
  - exists r. split; auto. destruct (serve_reads hc lim r); auto.
  - cbn [concat] in S. rewrite <- app_assoc in S. destruct P as [b (Fb & hdr & hd & T & U & A)|b l (Fb & hdr & hd & T & U & A) Fl Le].
    + destruct (read_frame lim b _ en r Fb S) as (r1 & E & S1). rewrite serve_reads_step, E, (isPipe_asks hc b hdr hd None (proj1 Fb) T U A).
      destruct (IH _ rest en r1 F' S1) as (r' & Sr & ->). exists r'. split; auto.
    + rewrite <- app_assoc in S. destruct (read_frame lim b _ en r Fb S) as (r1 & E & S1).
      rewrite serve_reads_step, E, (isPipe_asks hc b hdr hd _ (proj1 Fb) T U A).
      assert (MO : make_ok (1 + Z.of_nat (List.length l) - 1 + 1) = true). { unfold make_ok. apply andb_true_iff. split; [apply Z.ltb_lt|apply Z.leb_le]; lia. }
      rewrite MO. destruct (pipe_frames lim l (1 + Z.of_nat (List.length l) - 1) (concat bss' ++ rest) en r1) as (r2 & -> & S2); auto; [lia|].
      destruct (IH _ rest en r2 F' S2) as (r' & Sr & ->). exists r'. split; auto.
Qed.

Lemma serve_fault hc lim rest en s r : fault hc lim en rest s -> segmentation rest en r ->
  exists s', serve_reads hc lim r = ([], s') /\ fault hc lim en rest s'.
Proof.
  intros F S. rewrite serve_reads_step.
  pose proof S as (Pl & To & En). pose proof (block_reader_spec lim (0 <? lim) r Pl) as Sp. cbv zeta in Sp. rewrite <- FirstBlockOfLimit_eq in Sp. rewrite To, En in Sp. clear En To Pl.
  assert (LB : 0 < lim -> (0 <? lim) = true) by (intros; apply Z.ltb_lt; auto).
  inversion F as [bs H|bs H1 H2 H3 H4|bs H1 H2 H3|bs H1 H2 H3|b rest' s0 Fb N Hs|b rest' hdr hd s0 Fb T U N Hs|b rest' n (Fb & hdr & hd & T & U & A) Hn]; subst.
  - destruct Sp as [(_ & r' & -> & _)|(X & _)]; [|lia]. exists (at_end en). split; [destruct en; auto|auto].
  - destruct Sp as [(X & _)|(_ & r4 & _ & _ & _ & [(L1 & L2 & _)|[(L1 & L2 & _)|[(L1 & L2 & L3 & _)|(L1 & L2 & L3 & r' & -> & _)]]])]; try lia.
    exists (at_end en). split; [destruct en; auto|auto].
  - destruct Sp as [(X & _)|(_ & r4 & _ & _ & _ & [(L1 & L2 & ->)|[(L1 & L2 & _)|[(L1 & L2 & L3 & _)|(L1 & L2 & L3 & _)]]])]; [lia|eauto|..];
      specialize (L1 (LB H2)); lia.
  - destruct Sp as [(X & _)|(_ & r4 & _ & _ & _ & [(L1 & L2 & _)|[(L1 & L2 & ->)|[(L1 & L2 & L3 & _)|(L1 & L2 & L3 & _)]]])]; try lia; eauto.
  - destruct (read_frame lim b rest' _ r Fb S) as (r1 & -> & _). pose proof (isPipe_fault hc b (proj1 Fb) (or_introl N)) as X.
    destruct (isPipe hc (of_bytes b)) as [[x y]|e|]; [destruct (X (x, y) eq_refl)|exists SEnded|exists SPanicked]; (split; [auto|]); apply fault_header; auto.
  - destruct (read_frame lim b rest' _ r Fb S) as (r1 & -> & _).
    assert (X : forall x, isPipe hc (of_bytes b) <> Ok x) by (apply isPipe_fault; [exact (proj1 Fb)|right; eauto]).
    destruct (isPipe hc (of_bytes b)) as [[x y]|e|]; [destruct (X (x, y) eq_refl)|exists SEnded|exists SPanicked]; (split; [auto|]); eapply fault_marker; eauto.
  - destruct (read_frame lim b rest' _ r Fb S) as (r1 & -> & _). rewrite (isPipe_asks hc b hdr hd _ (proj1 Fb) T U A).
    assert (MO : make_ok (n - 1 + 1) = false). { unfold make_ok. apply andb_false_iff. rewrite Z.ltb_ge, Z.leb_gt. lia. }
    rewrite MO. eauto.
Qed.

Lemma p_C56_every_message_once : forall hc lim msgs en r, Forall (plain_message hc lim) msgs -> segmentation (concat msgs) en r ->
  serve_reads hc lim r = (map SDispatch msgs, at_end en).
Proof.
  intros hc lim msgs en r F S. rewrite <- (app_nil_r (concat msgs)) in S.
  assert (P : Forall2 (part hc lim) msgs (map SDispatch msgs)) by (clear S; induction F; constructor; auto; apply part_message; auto).
  destruct (serve_parts hc lim _ msgs [] en r P S) as (r' & Sr & ->).
  destruct (serve_fault hc lim [] en (at_end en) r' (fault_short hc lim en [] eq_refl) Sr) as (s' & -> & Fs). cbn [fst snd]. rewrite app_nil_r. f_equal.
  assert (L : forall b rest : bytes, 4 <= blen b -> b ++ rest <> []) by (intros b rest X E; apply app_eq_nil in E as (-> & ->); cbn in X; lia).
  inversion Fs as [bs H|bs H1|bs H1|bs H1|b rest' s0 (Fb & _) N Hs E|b rest' hdr hd s0 (Fb & _) T U N Hs E|b rest' n ((Fb & _) & _) Hn E]; subst; auto; try (cbn in H1; lia);
    exfalso; apply (L b rest'); auto; apply Fb.
Qed.

Lemma p_C57_contained_partial : forall hc lim parts evs rest en r,
  Forall2 (part hc lim) parts evs -> (exists s, fault hc lim en rest s) -> segmentation (concat parts ++ rest) en r ->
  exists s, serve_reads hc lim r = (evs, s) /\ fault hc lim en rest s.
Proof.
  intros hc lim parts evs rest en r F (s & X) S. destruct (serve_parts hc lim evs parts rest en r F S) as (r' & Sr & ->).
  destruct (serve_fault hc lim rest en s r' X Sr) as (s' & -> & Hs). exists s'. cbn. rewrite app_nil_r. auto.
Qed.

Lemma p_C57_every_stream : forall hc lim bs en, exists parts evs rest,
  bs = concat parts ++ rest /\ Forall2 (part hc lim) parts evs /\
  ((exists s, fault hc lim en rest s) \/
   (exists b more n, rest = b ++ more /\ batch_head hc lim b n /\ 2 <= n <= 2 ^ 45)).
Proof.
  intros hc lim bs en. remember (List.length bs) as k eqn:K. revert bs K. induction k as [k IH] using lt_wf_ind. intros bs ->.
  assert (ST : forall s, fault hc lim en bs s -> exists parts evs rest, bs = concat parts ++ rest /\ Forall2 (part hc lim) parts evs /\
    ((exists s, fault hc lim en rest s) \/ (exists b more n, rest = b ++ more /\ batch_head hc lim b n /\ 2 <= n <= 2 ^ 45))).
  { intros s F. exists [], [], bs. split; [auto|]. split; [constructor|]. left. eauto. }
  destruct (Z.ltb_spec (blen bs) 4) as [L4|L4]; [eapply ST; apply fault_short; auto|].
  destruct (Z.ltb_spec 0 lim) as [Lp|Lp].
  - destruct (Z.ltb_spec (to_int32 lim) (signed (field bs 0))) as [Lb|Lb]; [eapply ST; apply fault_long; auto|].
    destruct (Z.ltb_spec (signed (field bs 0)) 0) as [Ln|Ln]; [eapply ST; apply fault_negative; auto|].
    destruct (Z.ltb_spec (blen bs) (4 + signed (field bs 0))) as [Lc|Lc]; [eapply ST; apply fault_cut; auto|]. shelve.
  - destruct (Z.ltb_spec (signed (field bs 0)) 0) as [Ln|Ln]; [eapply ST; apply fault_negative; auto; lia|].
    destruct (Z.ltb_spec (blen bs) (4 + signed (field bs 0))) as [Lc|Lc]; [eapply ST; apply fault_cut; auto; lia|]. shelve.
  Unshelve.
  all: set (n := signed (field bs 0)) in *; set (b := firstn (Z.to_nat (4 + n)) bs); set (more := skipn (Z.to_nat (4 + n)) bs).
  all: assert (BS : bs = b ++ more) by (symmetry; apply firstn_skipn).
  all: assert (BL : blen b = 4 + n) by (unfold b, blen; rewrite firstn_length; unfold blen in *; lia).
  all: assert (FB : field b 0 = field bs 0) by (rewrite BS; unfold field; rewrite slice_app_l by (unfold blen in BL; lia); reflexivity).
  all: assert (FR : 0 <= field bs 0 < two32) by (apply field_range; unfold blen in L4; lia).
  all: assert (NR : n < 2 ^ 31 /\ n = field bs 0) by (unfold n, signed, two32 in *; destruct (Z.ltb_spec (field bs 0) (2 ^ 31)); lia).
  all: assert (IB : is_block b) by (split; [lia|split; lia]).
  all: assert (FrB : frame lim b) by (split; [auto|unfold within; lia]).
  all: destruct (header_or_not hc b) as [(hdr & hd & T & U)|N]; [|eapply ST; rewrite BS; apply fault_header; eauto].
  all: destruct (asks_nothing_or hd) as [(o & A)|N]; [|eapply ST; rewrite BS; eapply fault_marker; eauto].
  all: assert (ML : (List.length more < List.length bs)%nat) by (pose proof (f_equal (@List.length _) BS) as Q; rewrite app_length in Q; unfold blen in BL; lia).
  all: destruct (IH (List.length more) ML more eq_refl) as (parts & evs & rest & E & F & D).
  all: destruct o as [c|].
  all: try solve [exists (b :: parts), (SDispatch b :: evs), rest; split; [cbn [concat]; rewrite <- app_assoc, <- E; exact BS|]; split; [|exact D]; constructor; [|exact F]; apply part_message; split; [exact FrB|exists hdr, hd; auto]].
  all: assert (BH : batch_head hc lim b c) by (split; [exact FrB|exists hdr, hd; auto]).
  all: destruct (Z.leb_spec c 0); [eapply ST; rewrite BS; eapply fault_count; eauto|].
  all: destruct (Z.ltb_spec (2 ^ 45) c); [eapply ST; rewrite BS; eapply fault_count; eauto|].
  all: destruct (Z.eq_dec c 1) as [->|]; [|exists [], [], bs; split; [auto|]; split; [constructor|]; right; exists b, more, c; split; [exact BS|]; split; [exact BH|lia]].
  all: exists ((b ++ concat []) :: parts), (SPipe [b] 0 :: evs), rest; split; [cbn [concat]; rewrite app_nil_r, <- app_assoc, <- E; exact BS|]; split; [|exact D]; constructor; [|exact F]; apply part_batch; [exact BH|constructor|cbn; lia].
Qed.

Lemma read_stream lim bs en r : segmentation bs en r ->
  (incomplete lim bs /\ exists r', FirstBlockOfLimitMaxByte lim r = (sfail en, r') /\ segmentation [] en r') \/
  (overlong lim bs /\ exists e r', FirstBlockOfLimitMaxByte lim r = (RdErr e, r') /\ segmentation (skipn 4 bs) en r') \/
  (negative lim bs /\ exists r', FirstBlockOfLimitMaxByte lim r = (RdPanic, r')) \/
  (exists b rest r', bs = b ++ rest /\ frame lim b /\ FirstBlockOfLimitMaxByte lim r = (RdOk b, r') /\ segmentation rest en r').
Proof.
  intros S. pose proof S as (Pl & To & En). pose proof (block_reader_spec lim (0 <? lim) r Pl) as Sp. cbv zeta in Sp. rewrite <- FirstBlockOfLimit_eq in Sp. rewrite To, En in Sp.
  assert (LB : 0 < lim -> (0 <? lim) = true) by (intros; apply Z.ltb_lt; auto).
  assert (LT : (0 <? lim) = true -> 0 < lim) by (intros; apply Z.ltb_lt; auto).
  unfold incomplete, overlong, negative.
  destruct Sp as [(X & r' & E & P' & T' & E')|(X & r4 & P4 & T4 & E4 & [(L1 & L2 & E)|[(L1 & L2 & E)|[(L1 & L2 & L3 & r' & E & P' & T' & E')|(L1 & L2 & L3 & r' & E & P' & T' & E')]]])].
  - left. split; [auto|]. exists r'. split; [auto|]. split; auto.
  - right. left. split; [auto|]. exists (EMsg "recv message beyond max byte length limit"), r4. split; [auto|]. split; auto.
  - right. right. left. split; [auto|]. exists r4. auto.
  - right. right. right. set (n := signed (field bs 0)) in *. set (b := firstn (Z.to_nat (4 + n)) bs) in *.
    assert (BS : bs = b ++ skipn (Z.to_nat (4 + n)) bs) by (symmetry; apply firstn_skipn).
    assert (BL : blen b = 4 + n) by (unfold b, blen; rewrite firstn_length; unfold blen in *; lia).
    assert (FB : field b 0 = field bs 0) by (rewrite BS; unfold field; rewrite slice_app_l by (unfold blen in BL; lia); reflexivity).
    assert (FR : 0 <= field bs 0 < two32) by (apply field_range; unfold blen in X; lia).
    assert (NR : n < 2 ^ 31 /\ n = field bs 0) by (unfold n, signed, two32 in *; destruct (Z.ltb_spec (field bs 0) (2 ^ 31)); lia).
    exists b, (skipn (Z.to_nat (4 + n)) bs), r'. split; [exact BS|]. split; [|split; [exact E|split; auto]].
    split; [split; [lia|split; lia]|]. intros Q. specialize (L1 (LB Q)). lia.
  - left. split; [right; split; [exact X|split; [exact L2|split; [intros Q; exact (L1 (LB Q))|exact L3]]]|]. exists r'. split; [auto|]. split; auto.
Qed.

Lemma pipe_stream lim : forall k n bs en r, (List.length bs <= k)%nat -> 0 <= n -> segmentation bs en r ->
  exists l rest, bs = concat l ++ rest /\ Forall (frame lim) l /\ Z.of_nat (List.length l) <= n /\
  ((Z.of_nat (List.length l) = n /\ exists r', pipe_reads lim n r = (l, 0, PDone, r') /\ segmentation rest en r') \/
   (Z.of_nat (List.length l) < n /\
    ((incomplete lim rest /\ exists r', pipe_reads lim n r = (l, n - Z.of_nat (List.length l), match en with StaysOpen => PWaiting | Fails _ => PDone end, r') /\ segmentation [] en r') \/
     (overlong lim rest /\ exists r', pipe_reads lim n r = (l, n - Z.of_nat (List.length l), PDone, r') /\ segmentation (skipn 4 rest) en r') \/
     (negative lim rest /\ exists r', pipe_reads lim n r = (l, n - Z.of_nat (List.length l), PPanicked, r'))))).
Proof.
  induction k as [k IH] using lt_wf_ind. intros n bs en r K Hn S. rewrite pipe_reads_step.
  destruct (Z.leb_spec n 0) as [N|N].
  { exists [], bs. cbn. assert (n = 0) by lia. subst n. split; [auto|]. split; [constructor|]. split; [lia|]. left. split; [auto|]. exists r. auto. }
  destruct (read_stream lim bs en r S) as [(I & r' & E & S')|[(I & e & r' & E & S')|[(I & r' & E)|(b & rest & r' & BS & F & E & S')]]]; rewrite E.
  - exists [], bs. split; [auto|]. split; [constructor|]. cbn [List.length Z.of_nat]. split; [lia|]. right. split; [lia|]. left. split; [auto|].
    exists r'. rewrite Z.sub_0_r. split; [|exact S']. unfold sfail. destruct en; reflexivity.
  - exists [], bs. split; [auto|]. split; [constructor|]. cbn [List.length Z.of_nat]. split; [lia|]. right. split; [lia|]. right. left. split; [auto|].
    exists r'. rewrite Z.sub_0_r. auto.
  - exists [], bs. split; [auto|]. split; [constructor|]. cbn [List.length Z.of_nat]. split; [lia|]. right. split; [lia|]. right. right. split; [auto|].
    exists r'. rewrite Z.sub_0_r. auto.
  - pose proof F as ((B4 & _) & _). assert (RL : (List.length rest < k)%nat) by (rewrite BS, app_length in K; unfold blen in B4; lia).
    destruct (IH (List.length rest) RL (n - 1) rest en r' (le_n _) ltac:(lia) S') as (l & rest' & E1 & F1 & L1 & C).
    exists (b :: l), rest'. split; [cbn [concat]; rewrite <- app_assoc, <- E1; exact BS|]. split; [constructor; auto|].
    replace (Z.of_nat (List.length (b :: l))) with (1 + Z.of_nat (List.length l)) by (cbn [List.length]; lia). split; [lia|].
    replace (n - (1 + Z.of_nat (List.length l))) with (n - 1 - Z.of_nat (List.length l)) by lia.
    destruct C as [(C1 & r2 & -> & S2)|(C1 & [(I & r2 & -> & S2)|[(I & r2 & -> & S2)|(I & r2 & ->)]])].
    + left. split; [lia|]. exists r2. auto.
    + right. split; [lia|]. left. split; [auto|]. exists r2. auto.
    + right. split; [lia|]. right. left. split; [auto|]. exists r2. auto.
    + right. split; [lia|]. right. right. split; [auto|]. exists r2. auto.
Qed.

Lemma p_C57_exact : forall hc lim bs en r, segmentation bs en r ->
  stream_served hc lim en bs (fst (serve_reads hc lim r)) (snd (serve_reads hc lim r)).
Proof.
  intros hc lim bs en r. remember (List.length bs) as k eqn:K. revert bs r K. induction k as [k IH] using lt_wf_ind. intros bs r -> S.
  rewrite serve_reads_step.
  destruct (read_stream lim bs en r S) as [(I & r' & E & S')|[(I & e & r' & E & S')|[(I & r' & E)|(b & rest & r' & BS & F & E & S')]]]; rewrite E.
  - assert (FI : fault hc lim en bs (at_end en)) by (destruct I as [I|(I1 & I2 & I3 & I4)]; [apply fault_short|apply fault_cut]; auto).
    unfold sfail. destruct en; cbn [fst snd]; apply served_fault; exact FI.
  - cbn [fst snd]. apply served_fault. destruct I as (I1 & I2 & I3). apply fault_long; auto.
  - cbn [fst snd]. apply served_fault. destruct I as (I1 & I2 & I3). apply fault_negative; auto.
  - pose proof F as ((B4 & _) & _).
    assert (RL : (List.length rest < List.length bs)%nat) by (rewrite BS, app_length; unfold blen in B4; lia).
    destruct (header_or_not hc b) as [(hdr & hd & T & U)|N].
    2:{ pose proof (isPipe_fault hc b (proj1 F) (or_introl N)) as X. rewrite BS.
        destruct (isPipe hc (of_bytes b)) as [[x y]|e|]; [destruct (X (x, y) eq_refl)|..]; cbn [fst snd]; apply served_fault, fault_header; auto. }
    destruct (asks_nothing_or hd) as [(o & A)|N].
    2:{ assert (X : forall x, isPipe hc (of_bytes b) <> Ok x) by (apply isPipe_fault; [exact (proj1 F)|right; eauto]). rewrite BS.
        destruct (isPipe hc (of_bytes b)) as [[x y]|e|]; [destruct (X (x, y) eq_refl)|..]; cbn [fst snd]; apply served_fault; eapply fault_marker; eauto. }
    rewrite (isPipe_asks hc b hdr hd o (proj1 F) T U A). destruct o as [n|].
    2:{ pose proof (IH _ RL rest r' eq_refl S') as G. destruct (serve_reads hc lim r') as [t s]. cbn [fst snd] in *. rewrite BS.
        apply served_part; [|exact G]. apply part_message. split; [exact F|exists hdr, hd; auto]. }
    assert (BH : batch_head hc lim b n) by (split; [exact F|exists hdr, hd; auto]).
    replace (n - 1 + 1) with n by lia. destruct (make_ok n) eqn:MO.
    2:{ cbn [fst snd]. rewrite BS. apply served_fault. eapply fault_count; [exact BH|].
        unfold make_ok in MO. apply andb_false_iff in MO as [MO|MO]; [apply Z.ltb_ge in MO|apply Z.leb_gt in MO]; lia. }
    unfold make_ok in MO. apply andb_true_iff in MO as (M1 & M2). apply Z.ltb_lt in M1. apply Z.leb_le in M2.
    destruct (pipe_stream lim (List.length rest) (n - 1) rest en r' (le_n _) ltac:(lia) S') as (l & rest' & E1 & F1 & L1 & C).
    destruct C as [(C1 & r2 & -> & S2)|(C1 & C)].
    { assert (R2 : (List.length rest' < List.length bs)%nat) by (rewrite E1, app_length in RL; lia).
      pose proof (IH _ R2 rest' r2 eq_refl S2) as G. destruct (serve_reads hc lim r2) as [t s]. cbn [fst snd] in *. rewrite BS, E1, app_assoc.
      apply served_part; [|exact G]. apply part_batch; [|exact F1|unfold bytes in *; lia]. match goal with |- batch_head _ _ _ ?x => replace x with n by (unfold bytes in *; lia) end. exact BH. }
    assert (BB : broken_batch hc lim b l n) by (split; [exact BH|split; [exact F1|unfold bytes in *; lia]]).
    rewrite BS, E1. destruct C as [(I & r2 & -> & S2)|[(I & r2 & -> & S2)|(I & r2 & ->)]].
    + pose proof (served_cut hc lim en b l n rest' BB I) as G. destruct en; [exact G|].
      rewrite (p_C56_every_message_once hc lim [] (Fails e) r2 (Forall_nil _) S2). exact G.
    + assert (R2 : (List.length (skipn 4 rest') < List.length bs)%nat) by (rewrite E1, app_length in RL; rewrite skipn_length; lia).
      pose proof (IH _ R2 (skipn 4 rest') r2 eq_refl S2) as G. destruct (serve_reads hc lim r2) as [t s]. cbn [fst snd] in *.
      eapply served_long; eauto.
    + cbn [fst snd]. eapply served_negative; eauto.
Qed.

Lemma pipe_det lim : forall k n r1 r2 bs en, (supply r1 < k)%nat -> segmentation bs en r1 -> segmentation bs en r2 ->
  fst (pipe_reads lim n r1) = fst (pipe_reads lim n r2) /\
  exists bs', segmentation bs' en (snd (pipe_reads lim n r1)) /\ segmentation bs' en (snd (pipe_reads lim n r2)).
Proof.
  induction k as [|k IH]; intros n r1 r2 bs en K S1 S2; [lia|]. rewrite !pipe_reads_step. destruct (n <=? 0); [cbn; eauto|].
  destruct (block_reader_det lim (0 <? lim) r1 r2 bs en S1 S2) as (He & bs' & T1 & T2). rewrite <- !FirstBlockOfLimit_eq in *.
  destruct (FirstBlockOfLimitMaxByte lim r1) as [o1 q1] eqn:E1. destruct (FirstBlockOfLimitMaxByte lim r2) as [o2 q2]. cbn [fst snd] in *. subst o2.
  apply read_supply in E1 as (_ & E1). destruct o1 as [b| | |]; try (cbn [fst snd]; eauto). specialize (E1 b eq_refl).
  destruct (IH (n - 1) q1 q2 bs' en ltac:(lia) T1 T2) as (He & bs'' & U1 & U2).
  destruct (pipe_reads lim (n - 1) q1) as [[[l1 k1] p1] x1]. destruct (pipe_reads lim (n - 1) q2) as [[[l2 k2] p2] x2]. cbn [fst snd] in *. inversion He; subst. eauto.
Qed.

Lemma p_C57_segmentation_free : forall hc lim bs en r1 r2, segmentation bs en r1 -> segmentation bs en r2 ->
  serve_reads hc lim r1 = serve_reads hc lim r2.
Proof.
  intros hc lim bs en r1. remember (S (supply r1)) as k eqn:K. assert (H : (supply r1 < k)%nat) by lia. clear K. revert bs r1 H.
  induction k as [|k IH]; intros bs r1 K r2 S1 S2; [lia|]. rewrite !serve_reads_step.
  destruct (block_reader_det lim (0 <? lim) r1 r2 bs en S1 S2) as (He & bs' & T1 & T2). rewrite <- !FirstBlockOfLimit_eq in *.
  destruct (FirstBlockOfLimitMaxByte lim r1) as [o1 q1] eqn:E1. destruct (FirstBlockOfLimitMaxByte lim r2) as [o2 q2]. cbn [fst snd] in *. subst o2.
  apply read_supply in E1 as (_ & E1). destruct o1 as [b| | |]; auto. specialize (E1 b eq_refl).
  destruct (isPipe hc (of_bytes b)) as [[[] n]| |]; auto.
  - destruct (make_ok (n + 1)); auto. destruct (pipe_det lim (S (supply q1)) n q1 q2 bs' en ltac:(lia) T1 T2) as (He & bs'' & U1 & U2).
    destruct (pipe_reads lim n q1) as [[[l1 k1] p1] x1] eqn:P1. destruct (pipe_reads lim n q2) as [[[l2 k2] p2] x2]. cbn [fst snd] in *. inversion He; subst.
    destruct p2; auto. unfold pipe_reads in P1. apply pipe_supply in P1. rewrite (IH bs'' x1 ltac:(lia) x2 U1 U2). reflexivity.
  - rewrite (IH bs' q1 ltac:(lia) q2 T1 T2). reflexivity.
Qed.

Lemma p_C57_malformed_in_batch_refuted : forall hc lim b n pre m en r,
  batch_head hc lim b n -> 2 <= n <= 2 ^ 45 -> 0 < lim -> List.length pre = 4%nat -> to_int32 lim < signed (field pre 0) -> plain_message hc lim m ->
  segmentation (b ++ pre ++ m) en r ->
  serve_reads hc lim r = ([SPipe [b] (n - 1); SDispatch m], at_end en).
Proof.
  intros hc lim b n pre m en r (Fb & hdr & hd & T & U & A) Hn Hl Lp Hp Mm S. destruct (read_frame lim b _ en r Fb S) as (r1 & E & S1).
  rewrite serve_reads_step, E, (isPipe_asks hc b hdr hd _ (proj1 Fb) T U A).
  assert (MO : make_ok (n - 1 + 1) = true). { unfold make_ok. apply andb_true_iff. split; [apply Z.ltb_lt|apply Z.leb_le]; lia. }
  rewrite MO, pipe_reads_step. destruct (Z.leb_spec (n - 1) 0); [lia|].
  pose proof S1 as (Pl & To & En). pose proof (block_reader_spec lim (0 <? lim) r1 Pl) as Sp. cbv zeta in Sp. rewrite <- FirstBlockOfLimit_eq in Sp. rewrite To, En in Sp.
  assert (Fp : field (pre ++ m) 0 = field pre 0) by (unfold field; rewrite slice_app_l by lia; reflexivity).
  rewrite Fp in Sp. destruct Sp as [(X & _)|(_ & r4 & P4 & T4 & E4 & [(L1 & L2 & ->)|[(L1 & _)|[(L1 & _)|(L1 & _)]]])].
  - rewrite blen_app in X. unfold blen in X. lia.
  - assert (S4 : segmentation (concat [m]) en r4).
    { split; [auto|]. split; [|auto]. rewrite T4, <- Lp, skipn_app, skipn_all, Nat.sub_diag. cbn. rewrite app_nil_r. auto. }
    rewrite (p_C56_every_message_once hc lim [m] en r4 (Forall_cons _ Mm (Forall_nil _)) S4). reflexivity.
  - assert (Q : (0 <? lim) = true) by (apply Z.ltb_lt; auto). specialize (L1 Q). lia.
  - assert (Q : (0 <? lim) = true) by (apply Z.ltb_lt; auto). specialize (L1 Q). lia.
  - assert (Q : (0 <? lim) = true) by (apply Z.ltb_lt; auto). specialize (L1 Q). lia.
Qed.

Lemma digits_acc d : forall p, digits (Zpos p) (str_bytes (NilEmpty.string_of_uint d)) = Some (Zpos (Pos.of_uint_acc d p)).
Proof.
  induction d; intros p; [reflexivity|..]; cbn [NilEmpty.string_of_uint str_bytes list_ascii_of_string digits Pos.of_uint_acc];
    match goal with |- context [digit ?c] => let x := eval vm_compute in (digit c) in change (digit c) with x end; cbn iota;
    match goal with |- digits ?a _ = Some (Z.pos (Pos.of_uint_acc d ?q)) => replace a with (Zpos q) by lia end; apply IHd.
Qed.

Lemma digits_zero d : digits 0 (str_bytes (NilEmpty.string_of_uint d)) = Some (Z.of_N (Pos.of_uint d)).
Proof.
  induction d; [reflexivity|..]; cbn [NilEmpty.string_of_uint str_bytes list_ascii_of_string digits Pos.of_uint];
    match goal with |- context [digit ?c] => let x := eval vm_compute in (digit c) in change (digit c) with x end; cbn iota; [exact IHd|..];
    rewrite Z.mul_0_l, Z.add_0_l; apply digits_acc.
Qed.

Lemma Atoi_itoa n : 1 <= n < 2 ^ 63 -> Atoi (str_bytes (itoa n)) = Some n.
Proof.
  intros H. destruct n as [|p|p]; try lia. unfold itoa. cbn [Z.to_int NilZero.string_of_int].
  assert (N : NilZero.string_of_uint (Pos.to_uint p) = NilEmpty.string_of_uint (Pos.to_uint p)).
  { pose proof (DecimalPos.Unsigned.to_uint_nonnil p). destruct (Pos.to_uint p); auto; congruence. }
  rewrite N. pose proof (digits_zero (Pos.to_uint p)) as D. rewrite DecimalPos.Unsigned.of_to in D. cbn [Z.of_N] in D.
  pose proof (DecimalPos.Unsigned.to_uint_nonnil p) as NN.
  assert (IR : int_range (Zpos p) = true) by (unfold int_range; apply andb_true_iff; split; [apply Z.leb_le|apply Z.ltb_lt]; lia).
  unfold Atoi. destruct (Pos.to_uint p); try congruence; cbn [NilEmpty.string_of_uint str_bytes list_ascii_of_string] in D |- *;
    repeat match goal with |- context [Ascii.eqb ?a ?b] => let x := eval vm_compute in (Ascii.eqb a b) in change (Ascii.eqb a b) with x end; cbn iota;
    rewrite D, IR; reflexivity.
Qed.

Lemma layout_header_text id hdr body b : frame_layout id hdr body b -> blen b < 2 ^ 31 -> header_text b hdr.
Proof.
  intros F L. destruct (layout_fields id hdr body b [] F) as (_ & _ & F8 & _ & Hb & Hs & _). rewrite app_nil_r in *.
  pose proof (blen_nonneg body). pose proof (blen_nonneg hdr). unfold header_text. rewrite F8.
  split; [lia|]. split; [lia|]. split; [lia|]. rewrite <- Hs at 1. f_equal. unfold blen. lia.
Qed.

Lemma json_block_frame {V} (E : env V) lim h p b : json_block E h p b -> blen b < 2 ^ 31 -> within lim b ->
  frame lim b /\ exists hb, hmarshal (e_hdr E) h = Ok hb /\ header_text b hb.
Proof.
  intros (hb & bb & Hm & _ & Hl & Hf) L W. pose proof (blen_nonneg bb). pose proof (blen_nonneg hb).
  assert (F : frame_layout (fst p) hb bb b) by (apply Hf; lia). split.
  - split; [|auto]. eapply layout_is_block; eauto. lia.
  - exists hb. split; auto. eapply layout_header_text; eauto.
Qed.

Lemma str_bytes_app a b : str_bytes (String.append a b) = str_bytes a ++ str_bytes b.
Proof. induction a; cbn; [auto|]. unfold str_bytes in *. cbn. congruence. Qed.

Lemma p_C18_batch_received : forall {V} (E : env V) ps blocks lim rest en r, ps <> [] -> Z.of_nat (List.length ps) <= 2 ^ 45 ->
  batch E (Z.of_nat (List.length ps)) ps blocks ->
  hdr_roundtrips (e_hdr E) (Some [("[tcpx-buffer-in-serial]"%string, JStr (String.append "enable;" (itoa (Z.of_nat (List.length ps)))))]) ->
  Forall (fun b => blen b < 2 ^ 31 /\ within lim b) blocks ->
  segmentation (concat blocks ++ rest) en r ->
  List.length blocks = List.length ps /\
  exists r', segmentation rest en r' /\
    serve_reads (e_hdr E) lim r = (SPipe blocks 0 :: fst (serve_reads (e_hdr E) lim r'), snd (serve_reads (e_hdr E) lim r')).
Proof.
  intros V E ps blocks lim rest en r Np Ln B RT W S. destruct ps as [|p ps]; [congruence|]. destruct blocks as [|b blocks]; [destruct B|].
  destruct B as (Jb & Js). inversion W as [|? ? (W1 & W2) W']; subst.
  assert (Lb : List.length blocks = List.length ps) by (clear - Js; induction Js; cbn; congruence).
  split; [cbn [List.length]; congruence|].
  destruct (json_block_frame E lim _ p b Jb W1 W2) as (Fb & hb & Hm & Ht).
  assert (Fs : Forall (frame lim) blocks).
  { clear - Js W'. induction Js; constructor; inversion W' as [|? ? (X1 & X2) X3]; subst; auto. eapply json_block_frame; eauto. }
  assert (BH : batch_head (e_hdr E) lim b (1 + Z.of_nat (List.length blocks))).
  { split; [auto|]. destruct RT as (hb' & h' & R1 & R2 & R3 & R4). rewrite R1 in Hm. inversion Hm; subst hb'. exists hb, h'. split; [auto|]. split; [auto|].
    cbn [List.length] in *. remember (Z.of_nat (Datatypes.S (List.length ps))) as k eqn:K.
    assert (Hg : hget "[tcpx-buffer-in-serial]" h' = Some (JStr (String.append "enable;" (itoa k)))).
    { destruct h' as [m'|]; [|destruct R4]. inversion R4 as [| | | | | |? ? X Y]; subst. destruct (X "[tcpx-buffer-in-serial]"%string _ eq_refl) as (v' & V1 & V2).
      inversion V2; subst. exact V1. }
    eapply asks_batch; [exact Hg|rewrite str_bytes_app; reflexivity|]. apply reads_Atoi. rewrite Atoi_itoa by lia. f_equal. lia. }
  assert (P : Forall2 (part (e_hdr E) lim) [b ++ concat blocks] [SPipe (b :: blocks) 0]).
  { constructor; [|constructor]. apply part_batch; auto. cbn [List.length] in Ln. lia. }
  destruct (serve_parts (e_hdr E) lim _ _ rest en r P) as (r' & Sr & ->); [cbn [concat] in S |- *; rewrite app_nil_r; exact S|]. exists r'. split; auto.
Qed.

Lemma p_C18_piped_arrives : forall {V} (E : env V) args w lim rest en r, PipeJSON E args None = (Ok tt, [w]) -> Z.of_nat (List.length args) <= 2 ^ 45 ->
  hdr_roundtrips (e_hdr E) (Some [("[tcpx-buffer-in-serial]"%string, JStr (String.append "enable;" (itoa (Z.of_nat (List.length args / 2)))))]) ->
  blen w < 2 ^ 31 -> within lim w -> segmentation (w ++ rest) en r ->
  exists ps blocks r', pairing arg_id arg_val ps args /\ batch E (Z.of_nat (List.length ps)) ps blocks /\ List.length blocks = List.length ps /\ concat blocks = w /\
    segmentation rest en r' /\ serve_reads (e_hdr E) lim r = (SPipe blocks 0 :: fst (serve_reads (e_hdr E) lim r'), snd (serve_reads (e_hdr E) lim r')).
Proof.
  intros V E args w lim rest en r H L RT B WI SG. destruct (p_C17_pipejson_all_or_nothing_partial E args None _ _ H) as [(X & _)|(ps & blocks & PA & NE & BA & W & _)]; [discriminate|]. injection W as ->.
  assert (LL : (List.length args = List.length ps * 2)%nat) by (clear -PA; induction PA; cbn; lia). rewrite LL, Nat.div_mul in RT by discriminate.
  assert (LE : forall b, In b blocks -> blen b <= blen (concat blocks)).
  { clear. intros b I. induction blocks as [|c l IH]; [destruct I|]. cbn. unfold blen in *. rewrite app_length. destruct I as [->|I]; [lia|specialize (IH I); lia]. }
  destruct (p_C18_batch_received E ps blocks lim rest en r NE ltac:(lia) BA RT) as (LB & r' & S' & SR).
  - apply Forall_forall. intros b I. specialize (LE b I). split; [lia|]. intros Q. specialize (WI Q). lia.
  - exact SG.
  - exists ps, blocks, r'. auto 10.
Qed.

Lemma p_C18_handled_in_order : forall hc m behave off cs ts,
  Forall2 (fun cw t => handleMiddleware hc m behave off (fst cw) (snd cw) = Some (t, Returned)) cs ts ->
  handlePipe hc m behave off (map Some cs) = Some (concat ts, Returned).
Proof.
  intros hc m behave off cs ts F. induction F as [|(c & w) t cs ts H F IH]; [reflexivity|]. cbn [map handlePipe concat fst snd] in *. rewrite H, IH. reflexivity.
Qed.

Lemma p_C58_empty_header_refuted : forall hc lim id body b rest en r e, hunmarshal hc [] = Err e ->
  frame_layout id [] body b -> blen b < 2 ^ 31 -> within lim b -> segmentation (b ++ rest) en r ->
  serve_reads hc lim r = ([], SEnded).
Proof.
  intros hc lim id body b rest en r e U F L W S.
  assert (Fb : frame lim b) by (split; [eapply layout_is_block; eauto; lia|auto]).
  destruct (read_frame lim b rest en r Fb S) as (r1 & E & _). rewrite serve_reads_step, E.
  assert (IP : exists x, isPipe hc (of_bytes b) = Err x).
  { unfold isPipe, HeaderOf. destruct (layout_fields id [] body b [] F) as (_ & _ & F8 & _ & Hb & _ & _). rewrite app_nil_r in *. change (blen []) with 0 in *.
    pose proof (blen_nonneg body).
    destruct (HeaderBytesOf_cases (of_bytes b) (gwf_of_bytes b)) as [(C1 & _)|[(C1 & C2 & _)|[(C1 & C2 & C3 & r0 & -> & C4 & C5)|(C1 & C2 & C3 & _)]]];
      rewrite ?gbytes_of_bytes in *; rewrite ?F8 in *; unfold glen, of_bytes in *; cbn [gs_len] in *; unfold blen in Hb; change (signed 0) with 0 in *; try lia.
    cbn [rwrap rbind]. rewrite C5. change (Z.to_nat 0) with O. replace (slice b 16 (16 + 0)) with (@nil ascii).
    - rewrite U. cbn. eauto.
    - reflexivity. }
  destruct IP as (x & ->). reflexivity.
Qed.

Lemma p_C58_empty_header_partial : forall hc lim id body b hd, hunmarshal hc [] = Ok hd -> hget "[tcpx-buffer-in-serial]" hd = None ->
  frame_layout id [] body b -> blen b < 2 ^ 31 -> within lim b -> plain_message hc lim b.
Proof.
  intros hc lim id body b hd U G F L W. split; [split; [eapply layout_is_block; eauto; lia|auto]|].
  exists [], hd. split; [eapply layout_header_text; eauto|]. split; auto. apply asks_nothing. auto.
Qed.

Lemma exec_status next acts lo : ~ In APanic acts -> (forall o t s o', lo <= o -> next o = Some (t, s, o') -> s = Returned /\ lo <= o') -> lo <= ABORT ->
  forall off t s o, lo <= off -> exec next acts off = Some (t, s, o) -> s = Returned /\ lo <= o.
Proof.
  intros NP HN HA. induction acts as [|a acts IH]; intros off t s o Ho H; cbn [exec] in H; [inversion H; subst; auto|].
  assert (NP' : ~ In APanic acts) by (intros X; apply NP; right; auto). specialize (IH NP').
  destruct a.
  - destruct (exec next acts off) as [[[t1 s1] o1]|] eqn:E; inversion H; subst. eapply IH; [|eassumption]; first [assumption|unfold ABORT in *; lia].
  - destruct (next off) as [[[t1 s1] o1]|] eqn:E; [|discriminate]. destruct (HN _ _ _ _ Ho E) as (-> & Ho1).
    destruct (exec next acts o1) as [[[t2 s2] o2]|] eqn:E2; inversion H; subst. eapply IH; [|eassumption]; first [assumption|unfold ABORT in *; lia].
  - destruct (next off) as [[[t1 s1] o1]|] eqn:E; [|discriminate]. destruct (HN _ _ _ _ Ho E) as (_ & Ho1).
    destruct (exec next acts o1) as [[[t2 s2] o2]|] eqn:E2; inversion H; subst. eapply IH; [|eassumption]; first [assumption|unfold ABORT in *; lia].
  - destruct (exec next acts ABORT) as [[[t1 s1] o1]|] eqn:E; inversion H; subst. eapply IH; [|eassumption]; first [assumption|unfold ABORT in *; lia].
  - exfalso. apply NP. left. auto.
Qed.

Lemma exec_total next acts : (forall o, exists x, next o = Some x) -> forall off, exists x, exec next acts off = Some x.
Proof.
  intros HN. induction acts as [|a acts IH]; intros off; cbn [exec]; [eauto|]. destruct a.
  - destruct (IH off) as ([[t s] o] & ->). eauto.
  - destruct (HN off) as ([[t s] o] & ->). destruct s; eauto. destruct (IH o) as ([[t2 s2] o2] & ->). eauto.
  - destruct (HN off) as ([[t s] o] & ->). destruct (IH o) as ([[t2 s2] o2] & ->). eauto.
  - destruct (IH ABORT) as ([[t s] o] & ->). eauto.
  - eauto.
Qed.

Lemma loop_status c : (forall h, ~ In APanic (ch_beh c h)) -> forall f off t s o, 0 <= off -> loop c f off = Some (t, s, o) -> s = Returned /\ 0 <= o.
Proof.
  intros NP. induction f as [|f IH]; intros off t s o Ho H; cbn [loop] in H; [discriminate|].
  destruct (Z.ltb_spec off (Z.of_nat (List.length (ch_handlers c)))) as [L|L]; [|inversion H; subst; auto].
  destruct (ABORT <=? off); [inversion H; subst; auto|].
  destruct (nth_error (ch_handlers c) (Z.to_nat off)) as [h|] eqn:E; [|apply nth_error_None in E; lia].
  destruct (exec (fun o => loop c f (o + 1)) (ch_beh c h) off) as [[[t1 s1] o1]|] eqn:X; [|discriminate].
  apply (exec_status _ _ 0) in X as (-> & Ho1); auto; [|intros o' t' s' o'' Q Y; apply IH in Y; [auto|lia]|unfold ABORT; lia].
  destruct (loop c f (o1 + 1)) as [[[t2 s2] o2]|] eqn:Y; inversion H; subst. apply IH in Y; [auto|lia].
Qed.

Lemma run_from_empty behave o : exists x, run_from o (act_chain behave []) = Some x.
Proof. unfold run_from, act_chain. cbn [List.length seq ch_handlers Nat.add loop]. destruct (_ <? _); [destruct (_ <=? _); eauto; destruct (nth_error _ _) eqn:E; [destruct (Z.to_nat (o + 1)); discriminate|eauto]|eauto]. Qed.

Lemma run_plan_total behave off p : -1 <= off -> exists t s, run_plan behave off p = Some (t, s).
Proof.
  intros Ho. destruct p as [|f|l|]; cbn [run_plan]; eauto.
  - destruct (exec_total (fun o => run_from o (act_chain behave [])) (behave f)) with (off := off) as ([[t s] o] & ->); eauto. apply run_from_empty.
  - unfold run_from. destruct (loop_all_ok (act_chain behave l) (List.length (ch_handlers (act_chain behave l)) + 2) (off + 1)) as (t & s & o & -> & _); eauto; lia.
Qed.

Lemma run_plan_returns behave off p : panic_free behave -> -1 <= off -> p <> PlanPanic -> exists t, run_plan behave off p = Some (t, Returned).
Proof.
  intros PF Ho NP. destruct (run_plan_total behave off p Ho) as (t & s & E). exists t. rewrite E. f_equal. f_equal.
  destruct p as [|f|l|]; cbn [run_plan] in E; [inversion E; auto| | |congruence].
  - destruct (exec _ _ _) as [[[t1 s1] o1]|] eqn:X; inversion E; subst. apply (exec_status _ _ (-1)) in X; [tauto|apply PF| |unfold ABORT; lia|auto].
    intros o t' s' o' Q Y. unfold run_from in Y. apply loop_status in Y; [split; [tauto|lia]|intros; apply PF|lia].
  - destruct (run_from off (act_chain behave l)) as [[[t1 s1] o1]|] eqn:X; inversion E; subst. unfold run_from in X. apply loop_status in X; [tauto|intros; apply PF|lia].
Qed.

Lemma route_ok hc c w : gwf (c_stream c) -> HeaderOf hc (c_stream c) <> Panic -> exists rt, fst (route hc c w) = Ok rt.
Proof.
  intros G H.
  assert (R : forall w', exists t w1, RouterType hc c w' = (Ok t, w1)).
  { intros w'. unfold RouterType, routerType. assert (O : exists t, own_router_type hc (c_stream c) = Ok t).
    { unfold own_router_type. destruct (_ =? _); eauto. destruct (HeaderOf hc (c_stream c)) as [hd| |]; eauto; [|congruence].
      destruct (Nat.eqb _ _); eauto. destruct (hget _ hd) as [[]|]; eauto. destruct (String.eqb _ _); eauto. }
    destruct O as (t & ->). destruct (GetCtxPerRequest c k_router w') as [[]|]; cbn [rbind]; eauto. }
  unfold route. destruct (R w) as (t & w1 & ->). destruct (String.eqb t MESSAGEID).
  - rewrite MessageIDOf_spec by auto. destruct (_ <? _); cbn; eauto.
  - destruct (R w1) as (t' & w2 & ->). destruct (String.eqb t' URLPATTERN); cbn; eauto.
    unfold URLPatternOf. destruct (HeaderOf hc (c_stream c)) as [hd| |]; cbn; eauto; [|congruence].
    unfold headerGetString. destruct (Nat.eqb _ _); cbn; eauto. destruct (hget _ hd) as [[]|]; cbn; eauto.
Qed.

Lemma handle_returns hc h behave off c w : panic_free behave -> -1 <= off -> gwf (c_stream c) -> HeaderOf hc (c_stream c) <> Panic ->
  exists t, handleMiddleware hc (api_build h) behave off c w = Some (t, Returned).
Proof.
  intros PF Ho G H. unfold handleMiddleware. destruct (m_onmsg (api_build h)) as [f|] eqn:M; [apply run_plan_returns; auto; discriminate|].
  destruct (route_ok hc c w G H) as (rt & ->). apply run_plan_returns; auto. apply p_C28_no_missing_anchor.
Qed.

Lemma handle_total hc m behave off c w : -1 <= off -> exists t s, handleMiddleware hc m behave off c w = Some (t, s).
Proof.
  intros Ho. unfold handleMiddleware. destruct (m_onmsg m); [apply run_plan_total; auto|]. destruct (fst (route hc c w)); [apply run_plan_total; auto|eauto..].
Qed.

Lemma pipe_returns hc h behave off cs : panic_free behave -> -1 <= off ->
  Forall (fun cw => gwf (c_stream (fst cw)) /\ HeaderOf hc (c_stream (fst cw)) <> Panic) cs ->
  exists t, handlePipe hc (api_build h) behave off (map Some cs) = Some (t, Returned).
Proof.
  intros PF Ho F. induction F as [|(c & w) cs (G & H) F (t & IH)]; cbn [map handlePipe]; [eauto|].
  destruct (handle_returns hc h behave off c w PF Ho G H) as (t0 & ->). rewrite IH. eauto.
Qed.

Lemma sane_no_panic hc s : gwf s -> (forall x, hunmarshal hc x <> Panic) -> sane_header_length (gbytes s) -> HeaderOf hc s <> Panic.
Proof.
  intros G NP S. unfold HeaderOf, sane_header_length, blen in *. rewrite (gbytes_length s G) in S.
  destruct (HeaderBytesOf_cases s G) as [(C1 & ->)|[(C1 & C2 & ->)|[(C1 & C2 & C3 & r & -> & C4 & C5)|(C1 & C2 & C3 & _)]]]; cbn [rwrap rbind]; try discriminate.
  - specialize (NP (gbytes r)). destruct (hunmarshal hc (gbytes r)); cbn; congruence.
  - unfold glen in C1. lia.
Qed.

(* every block handed on had a header that decodes *)
Definition good_event hc (e : sev) : Prop :=
  match e with
  | SDispatch b => exists hd, HeaderOf hc (of_bytes b) = Ok hd
  | SPipe (b :: _) _ => exists hd, HeaderOf hc (of_bytes b) = Ok hd
  | _ => False
  end.

Lemma isPipe_ok_header hc s x : isPipe hc s = Ok x -> exists hd, HeaderOf hc s = Ok hd.
Proof. unfold isPipe. destruct (HeaderOf hc s) as [hd| |]; try discriminate. eauto. Qed.

Lemma serve_good hc lim f : forall r, Forall (good_event hc) (fst (serve hc lim f r)).
Proof.
  induction f as [|f IH]; intros r; cbn [serve]; [constructor|].
  destruct (FirstBlockOfLimitMaxByte lim r) as [[b| | |] r1]; try constructor.
  destruct (isPipe hc (of_bytes b)) as [[[] n]| |] eqn:P; try constructor.
  - destruct (make_ok (n + 1)); [|constructor]. destruct (pipe_rest lim f n r1) as [[[l k] []] r2]; try constructor.
    specialize (IH r2). destruct (serve hc lim f r2). constructor; auto. eapply isPipe_ok_header; eauto.
  - specialize (IH r1). destruct (serve hc lim f r1). constructor; auto. eapply isPipe_ok_header; eauto.
Qed.

Lemma p_C59_survives_partial : forall hc lim r h behave off, panic_free behave -> -1 <= off ->
  (forall b c w, In (SDispatch b) (fst (serve_reads hc lim r)) -> c_stream c = of_bytes b ->
     exists t, handleMiddleware hc (api_build h) behave off c w = Some (t, Returned)) /\
  (forall l cs, In (SPipe l 0) (fst (serve_reads hc lim r)) -> (forall x, hunmarshal hc x <> Panic) -> Forall sane_header_length (tl l) ->
     map (fun cw => c_stream (fst cw)) cs = map of_bytes l ->
     exists t, handlePipe hc (api_build h) behave off (map Some cs) = Some (t, Returned)) /\
  (forall size ds s c w, In s (fst (serve_udp size ds)) -> (forall x, hunmarshal hc x <> Panic) -> sane_header_length (gbytes s) -> c_stream c = s ->
     exists t, handleMiddleware hc (api_build h) behave off c w = Some (t, Returned)).
Proof.
  intros hc lim r h behave off PF Ho. pose proof (serve_good hc lim (S (supply r)) r) as G. change (serve hc lim (S (supply r)) r) with (serve_reads hc lim r) in G.
  rewrite Forall_forall in G. split; [|split].
  - intros b c w Hin Hs. destruct (G _ Hin) as (hd & E). apply handle_returns; auto; rewrite Hs; [apply gwf_of_bytes|congruence].
  - intros l cs Hin NP Fs Hm. specialize (G _ Hin). destruct l as [|b l]; [destruct G|]. destruct G as (hd & E). apply pipe_returns; auto.
    cbn [tl map] in *. destruct cs as [|cw cs]; [discriminate|]. cbn [map] in Hm. inversion Hm as [[H1 H2]].
    constructor; [rewrite H1; split; [apply gwf_of_bytes|congruence]|]. clear - Fs H2 NP. revert cs H2. induction Fs as [|x l Hx Fs IH]; intros [|c cs] H; try discriminate; constructor; inversion H as [[Q1 Q2]].
    + rewrite Q1. split; [apply gwf_of_bytes|]. apply sane_no_panic; auto; [apply gwf_of_bytes|]. rewrite gbytes_of_bytes. auto.
    + apply IH. auto.
  - intros size ds s c w Hin NP Sn Hs. assert (Gs : gwf s).
    { clear - Hin. induction ds as [|d ds IH]; cbn [serve_udp] in Hin; [destruct Hin|].
      assert (Gr : gwf (ReadAllUDP size d)) by (unfold gwf, ReadAllUDP; cbn [gs_arr gs_len]; rewrite app_length, firstn_length, repeat_length; lia).
      destruct (FirstBlockOfBytes_cases _ Gr) as [(_ & e & E)|(L1 & L2 & E)]; rewrite E in Hin; auto.
      destruct (serve_udp size ds) as (l & b). destruct Hin as [<-|Hin]; [|apply IH; auto]. unfold gwf in *. cbn [gs_arr gs_len]. unfold glen in L2. lia. }
    apply handle_returns; auto; rewrite Hs; auto. apply sane_no_panic; auto.
Qed.

Lemma p_C59_truncated_batch_refuted : forall hc lim b n e r m behave off c w,
  batch_head hc lim b n -> 2 <= n <= 2 ^ 45 -> segmentation b (Fails e) r -> -1 <= off ->
  serve_reads hc lim r = ([SPipe [b] (n - 1)], SEnded) /\
  exists t, handlePipe hc m behave off (Some (c, w) :: repeat None (Z.to_nat (n - 1))) = Some (t, Panicked).
Proof.
  intros hc lim b n e r m behave off c w (Fb & hdr & hd & T & U & A) Hn Sg Ho. split.
  - rewrite <- (app_nil_r b) in Sg. destruct (read_frame lim b _ _ r Fb Sg) as (r1 & E & S1). rewrite serve_reads_step, E, (isPipe_asks hc b hdr hd _ (proj1 Fb) T U A).
    assert (MO : make_ok (n - 1 + 1) = true). { unfold make_ok. apply andb_true_iff. split; [apply Z.ltb_lt|apply Z.leb_le]; lia. }
    rewrite MO, pipe_reads_step. destruct (Z.leb_spec (n - 1) 0); [lia|].
    pose proof S1 as (Pl & To & En). pose proof (block_reader_spec lim (0 <? lim) r1 Pl) as Sp. cbv zeta in Sp. rewrite <- FirstBlockOfLimit_eq in Sp. rewrite To, En in Sp.
    destruct Sp as [(_ & r2 & -> & P2 & T2 & E2)|(X & _)]; [|change (blen []) with 0 in X; lia].
    cbn [sfail]. assert (S2 : segmentation (concat []) (Fails e) r2) by (split; auto).
    rewrite (p_C56_every_message_once hc lim [] (Fails e) r2 (Forall_nil _) S2). reflexivity.
  - destruct (handle_total hc m behave off c w Ho) as (t & s & E). cbn [handlePipe]. rewrite E. destruct s; [|eauto].
    destruct (Z.to_nat (n - 1)) as [|k] eqn:K; [lia|]. cbn [repeat handlePipe]. exists (t ++ []). reflexivity.
Qed.

Lemma udp_bytes size d : gwf (ReadAllUDP size d) /\ gbytes (ReadAllUDP size d) = firstn size d /\ glen (ReadAllUDP size d) = blen (firstn size d).
Proof.
  unfold ReadAllUDP. cbv zeta. set (n := Nat.min size (List.length d)).
  assert (Ln : List.length (firstn n d) = n) by (rewrite firstn_length; lia).
  assert (Fn : firstn n d = firstn size d).
  { unfold n. destruct (Nat.le_ge_cases size (List.length d)); [rewrite Nat.min_l by lia; auto|]. rewrite Nat.min_r by lia. rewrite firstn_all, firstn_all2 by lia. auto. }
  split; [unfold gwf; cbn [gs_arr gs_len]; rewrite app_length; lia|]. split.
  - unfold gbytes. cbn [gs_arr gs_len]. rewrite firstn_app, Ln, Nat.sub_diag. cbn [firstn]. rewrite app_nil_r, firstn_all2 by lia. auto.
  - unfold glen, blen. cbn [gs_len]. rewrite <- Fn, Ln. auto.
Qed.

Lemma field_firstn k d off : (off + 4 <= k)%nat -> field (firstn k d) off = field d off.
Proof.
  intros H. destruct (Nat.le_ge_cases (List.length d) k) as [L|L]; [rewrite firstn_all2 by lia; auto|].
  assert (E : d = firstn k d ++ skipn k d) by (symmetry; apply firstn_skipn). rewrite E at 2. unfold field. rewrite slice_app_l; auto. rewrite firstn_length. lia.
Qed.

Lemma udp_one size d : blen d <= Z.of_nat size -> 16 <= blen d -> 4 + field d 0 <= blen d ->
  exists s, FirstBlockOfBytes (ReadAllUDP size d) = Ok s /\ gwf s /\ gbytes s = firstn (Z.to_nat (4 + field d 0)) d.
Proof.
  intros Hs H16 Hf. unfold blen in *.
  destruct (udp_bytes size d) as (Gr & Gb & Gl). rewrite firstn_all2 in Gb, Gl by lia. unfold blen in Gl.
  destruct (FirstBlockOfBytes_cases _ Gr) as [([L|L] & _)|(L1 & L2 & E)]; rewrite ?Gb in *; try lia.
  eexists. split; [exact E|]. rewrite Gl in L2. unfold gwf in *. unfold glen in Gl. split; [cbn [gs_arr gs_len]; lia|].
  unfold gbytes in *. cbn [gs_arr gs_len]. symmetry. transitivity (firstn (Z.to_nat (4 + field d 0)) (firstn (gs_len (ReadAllUDP size d)) (gs_arr (ReadAllUDP size d)))); [rewrite Gb; auto|].
  rewrite firstn_firstn. f_equal. lia.
Qed.

Lemma p_C59_datagram_refuted : forall hc size d m behave off c w,
  m_onmsg m = None -> 16 <= 4 + field d 0 -> 4 + field d 0 <= blen d <= Z.of_nat size -> signed (field d 8) < 0 ->
  (forall t, GetCtxPerRequest c (KStr "router_type") w <> Some (VStr t)) ->
  exists s, serve_udp size [d] = ([s], true) /\ (c_stream c = s -> handleMiddleware hc m behave off c w = Some ([], Panicked)).
Proof.
  intros hc size d m behave off c w M Hf Hl Hn Hr. destruct (udp_one size d) as (s & E & G & Gb); [lia..|]. exists s. cbn [serve_udp]. rewrite E. split; auto.
  intros Hc. assert (GL : List.length (gbytes s) = Z.to_nat (4 + field d 0)) by (rewrite Gb, firstn_length; unfold blen in Hl; lia).
  assert (F8 : field (gbytes s) 8 = field d 8).
  { rewrite Gb. apply field_firstn. lia. }
  rewrite (gbytes_length s G) in GL.
  assert (HP : HeaderOf hc s = Panic).
  { unfold HeaderOf. destruct (HeaderBytesOf_cases s G) as [(C1 & _)|[(C1 & C2 & _)|[(C1 & C2 & _)|(C1 & C2 & C3 & ->)]]]; rewrite ?F8 in *; unfold glen in *; try lia. reflexivity. }
  unfold handleMiddleware. rewrite M. unfold route, RouterType, routerType. change k_router with (KStr "router_type").
  assert (O : own_router_type hc (c_stream c) = Panic). { unfold own_router_type. rewrite Hc, HP. destruct (Z.eqb_spec (glen s) 0); auto. unfold glen in *. lia. }
  rewrite O. destruct (GetCtxPerRequest c (KStr "router_type") w) as [[t| |]|] eqn:Q; [destruct (Hr t eq_refl)|reflexivity..].
Qed.

Lemma p_C58_datagram : forall hc size id body b c w e, hunmarshal hc [] = Err e -> is_int32 id ->
  frame_layout id [] body b -> blen b < 2 ^ 31 -> blen b <= Z.of_nat size ->
  (forall t, GetCtxPerRequest c (KStr "router_type") w <> Some (VStr t)) ->
  exists s, serve_udp size [b] = ([s], true) /\ gbytes s = b /\ (c_stream c = s -> fst (route hc c w) = Ok (ById id)).
Proof.
  intros hc size id body b c w e U Hi F L Hs Hr. destruct (layout_fields id [] body b [] F) as (F0 & _ & _ & _ & Hb & _). rewrite app_nil_r in F0. change (blen []) with 0 in Hb.
  pose proof (blen_nonneg body). destruct (udp_one size b) as (s & E & G & Gb); [lia..|].
  assert (Gb' : gbytes s = b) by (rewrite Gb, firstn_all2; auto; unfold blen in *; lia).
  exists s. cbn [serve_udp]. rewrite E. split; auto. split; auto. intros Hc.
  destruct (p_C03_accessors_agree id [] body b [] s) as (_ & A & _ & _ & (r & B & C) & _); auto; [rewrite app_nil_r; auto|].
  assert (HO : exists x, HeaderOf hc s = Err x). { unfold HeaderOf. rewrite B. cbn [rwrap rbind]. rewrite C, U. cbn. eauto. }
  destruct HO as (x & HO). unfold route, RouterType, routerType. change k_router with (KStr "router_type").
  assert (O : own_router_type hc (c_stream c) = Ok MESSAGEID). { unfold own_router_type. rewrite Hc, HO. destruct (glen s =? 0); auto. }
  rewrite O. destruct (GetCtxPerRequest c (KStr "router_type") w) as [[t| |]|] eqn:Q; [destruct (Hr t eq_refl)|..]; cbn [rbind]; rewrite String.eqb_refl, Hc, A; reflexivity.
Qed.

Lemma p_C60_datagrams_exact : forall size ds,
  snd (serve_udp size ds) = true /\ map gbytes (fst (serve_udp size ds)) = flat_map (fun d => first_frame (firstn size d)) ds.
Proof.
  intros size ds. induction ds as [|d ds (IH1 & IH2)]; [auto|]. cbn [serve_udp flat_map].
  destruct (udp_bytes size d) as (Gr & Gb & Gl).
  unfold first_frame. destruct (FirstBlockOfBytes_cases _ Gr) as [(L & e & E)|(L1 & L2 & E)]; rewrite Gb, Gl in *; rewrite E.
  - split; auto. rewrite IH2. replace ((16 <=? blen (firstn size d)) && (4 + field (firstn size d) 0 <=? blen (firstn size d))) with false; auto.
    symmetry. apply andb_false_iff. rewrite !Z.leb_gt. lia.
  - destruct (serve_udp size ds) as (l & b). cbn [fst snd map] in *. split; auto. rewrite IH2.
    replace ((16 <=? blen (firstn size d)) && (4 + field (firstn size d) 0 <=? blen (firstn size d))) with true by (symmetry; apply andb_true_iff; rewrite !Z.leb_le; lia).
    cbn [app]. f_equal. unfold gbytes in *. cbn [gs_arr gs_len]. symmetry.
    transitivity (firstn (Z.to_nat (4 + field (firstn size d) 0)) (firstn (gs_len (ReadAllUDP size d)) (gs_arr (ReadAllUDP size d)))); [rewrite Gb; auto|].
    rewrite firstn_firstn. f_equal. unfold glen in *. lia.
Qed.

Lemma p_C60_datagrams_partial : forall size ds, Forall (fun d => blen d <= Z.of_nat size) ds ->
  snd (serve_udp size ds) = true /\ map gbytes (fst (serve_udp size ds)) = flat_map first_frame ds.
Proof.
  intros size ds F. destruct (p_C60_datagrams_exact size ds) as (A & B). split; auto. rewrite B. clear - F. induction F as [|d ds H F IH]; auto.
  cbn [flat_map]. rewrite IH, firstn_all2; auto. unfold blen in H. lia.
Qed.

Lemma p_C60_large_datagram_refuted : forall size d, Z.of_nat size < 4 + field d 0 -> 4 + field d 0 <= blen d -> (4 <= size)%nat -> 16 <= blen d ->
  first_frame d <> [] /\ serve_udp size [d] = ([], true).
Proof.
  intros size d H1 H2 H4 H16. split.
  { unfold first_frame. replace ((16 <=? blen d) && (4 + field d 0 <=? blen d)) with true; [discriminate|]. symmetry. apply andb_true_iff. rewrite !Z.leb_le. lia. }
  destruct (p_C60_datagrams_exact size [d]) as (A & B). cbn [flat_map] in B. rewrite app_nil_r in B.
  assert (Z0 : first_frame (firstn size d) = []).
  { unfold first_frame. replace ((16 <=? blen (firstn size d)) && (4 + field (firstn size d) 0 <=? blen (firstn size d))) with false; auto.
    symmetry. apply andb_false_iff. right. apply Z.leb_gt.
    assert (F : field (firstn size d) 0 = field d 0) by (apply field_firstn; lia).
    rewrite F. unfold blen. rewrite firstn_length. lia. }
  rewrite Z0 in B. destruct (serve_udp size [d]) as ([|x l] & b); cbn in *; [congruence|discriminate].
Qed.

Lemma events_handed hc lim r : Forall hands_on (fst (serve_reads hc lim r)).
Proof.
  pose proof (serve_good hc lim (S (supply r)) r) as G. change (serve hc lim (S (supply r)) r) with (serve_reads hc lim r) in G.
  eapply Forall_impl; [|exact G]. intros [|b|[|b l] k| |] X; cbn in *; auto.
Qed.

Lemma read_fails lim r e o r' : plain r -> SpecReader.ends r = Fails e -> FirstBlockOfLimitMaxByte lim r = (o, r') ->
  o <> RdBlocked /\ plain r' /\ SpecReader.ends r' = Fails e.
Proof.
  intros Pl En H. pose proof (block_reader_spec lim (0 <? lim) r Pl) as Sp. cbv zeta in Sp. rewrite <- FirstBlockOfLimit_eq, En in Sp. rewrite H in Sp. cbn [sfail] in Sp.
  destruct Sp as [(_ & x & E & P & _ & N)|(_ & r4 & P4 & _ & N4 & [(_ & _ & E)|[(_ & _ & E)|[(_ & _ & _ & x & E & P & _ & N)|(_ & _ & _ & x & E & P & _ & N)]]])];
    inversion E; subst; (split; [discriminate|auto]).
Qed.

Lemma pipe_fails lim e f : forall n r l k p r', plain r -> SpecReader.ends r = Fails e -> pipe_rest lim f n r = (l, k, p, r') ->
  p <> PWaiting /\ plain r' /\ SpecReader.ends r' = Fails e.
Proof.
  induction f as [|f IH]; intros n r l k p r' Pl En H; cbn [pipe_rest] in H; [inversion H; subst; split; [discriminate|auto]|].
  destruct (n <=? 0); [inversion H; subst; split; [discriminate|auto]|].
  destruct (FirstBlockOfLimitMaxByte lim r) as [o r1] eqn:R. destruct (read_fails lim r e o r1 Pl En R) as (Nb & P1 & E1).
  destruct o as [b| | |]; [|inversion H; subst; split; [discriminate|auto]|inversion H; subst; split; [discriminate|auto]|congruence].
  destruct (pipe_rest lim f (n - 1) r1) as [[[l1 k1] p1] r2] eqn:Q. inversion H; subst. eapply IH; eauto.
Qed.

Lemma serve_fails hc lim e f : forall r, plain r -> SpecReader.ends r = Fails e -> snd (serve hc lim f r) <> SWaiting.
Proof.
  induction f as [|f IH]; intros r Pl En; cbn [serve]; [discriminate|].
  destruct (FirstBlockOfLimitMaxByte lim r) as [o r1] eqn:R. destruct (read_fails lim r e o r1 Pl En R) as (Nb & P1 & E1).
  destruct o as [b| | |]; try discriminate; [|congruence]. destruct (isPipe hc (of_bytes b)) as [[[] n]| |]; try discriminate.
  - destruct (make_ok (n + 1)); [|discriminate]. destruct (pipe_rest lim f n r1) as [[[l k] p] r2] eqn:Q.
    destruct (pipe_fails lim e f n r1 l k p r2 P1 E1 Q) as (Np & P2 & E2). destruct p; try discriminate; [|congruence].
    specialize (IH r2 P2 E2). destruct (serve hc lim f r2). auto.
  - specialize (IH r1 P1 E1). destruct (serve hc lim f r1). auto.
Qed.

Lemma p_C61_callbacks : forall hc lim onConnect onClose rs, onConnect <> Set_ true ->
  exists l, accept_loop hc lim onConnect onClose rs = (l, true) /\
  Forall2 (fun r evs => exists msgs ends, Forall hands_on msgs /\
     evs = (match onConnect with Unset => [] | Set_ _ => [SConnect] end) ++ msgs ++ ends /\
     (ends = [] \/ ends = (match onClose with Unset => [] | Set_ _ => [SOnClose] end) ++ [SCloseConn]) /\
     (forall e, plain r -> SpecReader.ends r = Fails e -> ends <> [])) rs l.
Proof.
  intros hc lim onConnect onClose rs NP. induction rs as [|r rs (l & IH & F)]; cbn [accept_loop]; [exists []; auto|].
  rewrite IH. exists (((match onConnect with Unset => [] | Set_ _ => [SConnect] end) ++ connection hc lim onClose r) :: l).
  split; [destruct onConnect as [|[]]; [auto|congruence|auto]|]. constructor; [|auto].
  unfold connection. pose proof (events_handed hc lim r) as H. pose proof (serve_total hc lim r) as T.
  assert (Fl : forall e, plain r -> SpecReader.ends r = Fails e -> snd (serve_reads hc lim r) <> SWaiting) by (intros e; apply serve_fails).
  destruct (serve_reads hc lim r) as (t & s). cbn [fst snd] in *. destruct s; [| | |congruence].
  - exists t, (on_close onClose ++ [SCloseConn]). split; [auto|]. split; [auto|]. split; [right; destruct onClose; auto|]. destruct onClose; discriminate.
  - exists t, (on_close onClose ++ [SCloseConn]). split; [auto|]. split; [auto|]. split; [right; destruct onClose; auto|]. destruct onClose; discriminate.
  - exists t, []. split; [auto|]. split; [rewrite app_nil_r; auto|]. split; [auto|]. intros e P E. specialize (Fl e P E). congruence.
Qed.

Lemma fault_waiting hc lim en rest s : fault hc lim en rest SWaiting -> fault hc lim en rest s -> s = SWaiting.
Proof.
  intros F G.
  assert (I : at_end en = SWaiting /\ (blen rest < 4 \/ 4 <= blen rest /\ 0 <= signed (field rest 0) /\ (0 < lim -> signed (field rest 0) <= to_int32 lim) /\ blen rest < 4 + signed (field rest 0))).
  { remember SWaiting as w eqn:W. inversion F; subst; try discriminate; auto; try (destruct H1; discriminate); try (destruct H3; discriminate). split; [auto|]. right. auto. }
  destruct I as (E & I).
  assert (Hb : forall b rest', frame lim b -> rest = b ++ rest' -> False).
  { intros b rest' (B & _) ->. destruct (is_block_head b rest' B) as (H1 & H2 & H3 & H4 & _). rewrite H2 in I. lia. }
  inversion G; subst; auto; try lia; exfalso; eapply Hb; eauto; match goal with H : batch_head _ _ _ _ |- _ => apply H end.
Qed.

Lemma p_C61_close_on_fault : forall hc lim panics parts evs rest en s r, Forall2 (part hc lim) parts evs -> fault hc lim en rest s -> s <> SWaiting ->
  segmentation (concat parts ++ rest) en r -> connection hc lim (Set_ panics) r = evs ++ [SOnClose; SCloseConn].
Proof.
  intros hc lim panics parts evs rest en s r F X NW S. destruct (p_C57_contained_partial hc lim parts evs rest en r F (ex_intro _ s X) S) as (s' & E & Fs).
  unfold connection. rewrite E. pose proof (serve_total hc lim r) as T. rewrite E in T. cbn in T. destruct s'; auto; try congruence.
  destruct NW. eapply fault_waiting; eauto.
Qed.

Lemma p_C61_onconnect_panic : forall hc lim onClose r rs, accept_loop hc lim (Set_ true) onClose (r :: rs) = ([[SConnect]], false).
Proof. reflexivity. Qed.

Lemma p_C49_auth_not_consulted_refuted : forall hc m behave off c w on,
  handleMiddleware hc (set_auth on (m_auth_id m) (m_auth_through m) m) behave off c w = handleMiddleware hc m behave off c w.
Proof. intros. reflexivity. Qed.

Lemma packx_block {V} (E : env V) mar id src hs b : PackxPack E mar id src hs = Ok b -> blen b - 4 < 2 ^ 31 -> is_block b.
Proof. intros H L. destruct (proj1 (p_C01_packx_layout V E mar id src [] hs b) H) as (h & hdr & bd & _ & _ & _ & F); [lia|]. eapply layout_is_block; eauto. Qed.

Lemma send_one {V} (E : env V) mar id src hs wrap ws : send None wrap (PackxPack E mar id src hs) = (Ok tt, ws) ->
  exists b, ws = [b] /\ (blen b - 4 < 2 ^ 31 -> is_block b).
Proof.
  intros H. pose proof (send_cases E mar id src hs None wrap) as S. rewrite H in S. destruct ws as [|b [|]]; [destruct (PackxPack E mar id src hs); [destruct S|discriminate S|discriminate S]| |destruct S].
  exists b. split; auto. apply (packx_block E mar id src hs b). apply S.
Qed.

Lemma common_one {V} (E : env V) mar name id src hs ws : commonReply E mar name id src hs None = (Ok tt, ws) ->
  exists b, ws = [b] /\ (blen b - 4 < 2 ^ 31 -> is_block b).
Proof.
  unfold commonReply. destruct (negb _); [|apply send_one]. destruct (GetMarshallerByMarshalName E name); [apply send_one|discriminate..].
Qed.

Lemma url_one {V} (E : env V) m c src w ws w' : reply_url E m c src None w = (Ok tt, ws, w') -> exists b, ws = [b] /\ (blen b - 4 < 2 ^ 31 -> is_block b).
Proof.
  unfold reply_url. destruct (GetURLPattern (e_hdr E) c w) as [[p| |] w1]; try discriminate. unfold send.
  destruct (MessagePack E (NewURLPatternMessage p src) (Some m)) as [b| |] eqn:P; try discriminate. intros H. inversion H; subst. exists b. split; auto. intros L.
  unfold MessagePack in P. destruct (PackWithMarshaller E (NewURLPatternMessage p src) (Some m)) as [b'| |] eqn:Q; try discriminate. inversion P; subst b'.
  destruct (p_C01_pack_layout V E _ _ b Q) as (hdr & bd & _ & _ & F); [lia|]. eapply layout_is_block; eauto.
Qed.

Lemma replying_one {V} (E : env V) ws : replying E ws -> exists b, ws = [b] /\ (blen b - 4 < 2 ^ 31 -> is_block b).
Proof.
  intros H. destruct H as [? ? ? ? ? H|? ? ? ? ? H|? ? ? ? ? H|? ? ? ? ? H|? ? ? ? ? H|? ? ? ? ? H|? ? ? ? ? H|? ? ? ? ? H|? ? ? ? ? H];
    first [eapply send_one; exact H|eapply common_one; exact H|eapply url_one; exact H].
Qed.

Lemma merge_in {A} (ls : list (list A)) w : merge ls w -> forall x, In x w -> exists l, In l ls /\ In x l.
Proof.
  induction 1 as [ls F|ls1 x l ls2 w M IH]; intros y Hy; [destruct Hy|]. destruct Hy as [->|Hy].
  - exists (y :: l). split; [apply in_or_app; right; left; auto|left; auto].
  - destruct (IH y Hy) as (l' & H1 & H2). apply in_app_or in H1 as [H1|[<-|H1]].
    + exists l'. split; auto. apply in_or_app. auto.
    + exists (x :: l). split; [apply in_or_app; right; left; auto|right; auto].
    + exists l'. split; auto. apply in_or_app. right. right. auto.
Qed.

Lemma p_C20_replies_never_mixed : forall {V} (E : env V) handlers w lim rest en r,
  Forall (handler_writes E) handlers -> merge handlers w ->
  Forall (fun b => blen b - 4 < 2 ^ 31 /\ within lim b) w -> segmentation (concat w ++ rest) en r ->
  exists r', recv (FirstBlockOfLimitMaxByte lim) (List.length w) r = (w, RdOk tt, r') /\ segmentation rest en r'.
Proof.
  intros V E handlers w lim rest en r F M W S.
  assert (Fr : Forall (frame lim) w).
  { rewrite Forall_forall in *. intros b Hb. destruct (W b Hb) as (W1 & W2). split; auto. destruct (merge_in _ _ M b Hb) as (l & H1 & H2).
    specialize (F l H1). clear - F H2 W1. induction F as [|ws l R F IH]; [destruct H2|]. destruct (replying_one E ws R) as (x & -> & X).
    destruct H2 as [<-|H2]; auto. }
  clear F M W. revert r S. induction Fr as [|b w Hb Fr IH]; intros r S; cbn [List.length recv concat] in *; [exists r; auto|].
  rewrite <- app_assoc in S. destruct (read_frame lim b _ en r Hb S) as (r1 & -> & S1). destruct (IH r1 S1) as (r' & -> & S'). exists r'. auto.
Qed.
