(* Lemmas about ReaderModel.v *)
From Verif Require Export UnpackFacts SpecReader.

Lemma skipn_skipn {A} : forall a b (l : list A), skipn a (skipn b l) = skipn (b + a) l.
Proof.
  intros a b. induction b as [|b IH]; intros l; [reflexivity|].
  destruct l as [|x l]; [destruct a; reflexivity|]. cbn. apply IH.
Qed.

Definition wrap1 (e : gerr) : gerr := match e with EEOF => EEOF | _ => EWrap e end.

(* what readUntil of k bytes does, in terms of the whole stream *)
Lemma readUntil_loop_spec : forall r fuel need acc,
  plain r -> (1 <= need)%nat -> (List.length r < fuel)%nat ->
  (((need <= List.length (total_bytes r))%nat /\
     exists r', readUntil_loop fuel need acc r = (RdOk (acc ++ firstn need (total_bytes r)), r') /\
       plain r' /\ total_bytes r' = skipn need (total_bytes r) /\ ends r' = ends r) \/
   ((List.length (total_bytes r) < need)%nat /\
     exists o r', readUntil_loop fuel need acc r = (o, r') /\
       o = match ends r with StaysOpen => RdBlocked | Fails e => RdErr (wrap1 e) end /\
       plain r' /\ total_bytes r' = [] /\ ends r' = ends r)).
Proof.
  induction r as [|ev r IH]; intros fuel need acc Hp Hn Hf.
  - right. split; [cbn; lia|]. destruct fuel as [|f]; [lia|].
    exists RdBlocked, []. cbn. repeat split; auto.
  - destruct fuel as [|f]; [cbn in Hf; lia|]. cbn [List.length] in Hf.
    inversion Hp as [|? ? Hev Hp']; subst.
    destruct ev as [bs|e|bs e]; [| |contradiction].
    + cbn [readUntil_loop read_one total_bytes ends].
      destruct (Nat.leb_spec (List.length bs) need) as [Hle|Hgt].
      * destruct (Nat.eqb_spec (need - List.length bs) 0) as [Hz|Hnz].
        -- left. split; [rewrite app_length; lia|]. exists r.
           assert (need = List.length bs) as -> by lia.
           rewrite firstn_app, Nat.sub_diag, firstn_all, firstn_O, app_nil_r.
           rewrite skipn_app, skipn_all, Nat.sub_diag. cbn. auto.
        -- destruct (IH f (need - List.length bs)%nat (acc ++ bs) Hp') as [[H1 (r' & H2 & H3 & H4 & H5)]|[H1 (o & r' & H2 & H3 & H4 & H5 & H6)]]; [lia|lia| |].
           ++ left. split; [rewrite app_length; lia|]. exists r'. rewrite H2.
              split; [|split; [exact H3|split; [|exact H5]]].
              ** rewrite firstn_app. rewrite (firstn_all2 bs) by lia. rewrite <- app_assoc. reflexivity.
              ** rewrite H4, skipn_app. rewrite (skipn_all2 bs) by lia. reflexivity.
           ++ right. split; [rewrite app_length; lia|]. exists o, r'. auto.
      * cbn. rewrite firstn_length.
        replace (need - Nat.min need (List.length bs))%nat with O by lia. cbn [Nat.eqb].
        left. split; [rewrite app_length; lia|].
        exists (RData (skipn need bs) :: r). split; [|split; [|split]].
        -- rewrite firstn_app. replace (need - List.length bs)%nat with O by lia.
           rewrite firstn_O, app_nil_r. reflexivity.
        -- constructor; [exact I|exact Hp'].
        -- cbn [total_bytes]. rewrite skipn_app. replace (need - List.length bs)%nat with O by lia.
           reflexivity.
        -- reflexivity.
    + right. cbn [readUntil_loop read_one total_bytes ends]. split; [cbn; lia|].
      do 2 eexists. split; [reflexivity|]. repeat split. exact Hp.
Qed.

(* the fuel in readUntil is always enough *)
Lemma readUntil_loop_fuel : forall r fuel need acc,
  (1 <= need)%nat -> (List.length r < fuel)%nat ->
  readUntil_loop fuel need acc r = readUntil_loop (S (List.length r)) need acc r.
Proof.
  induction r as [|ev r IH]; intros fuel need acc Hn Hf.
  - destruct fuel; [lia|]. reflexivity.
  - destruct fuel as [|f]; [lia|]. cbn [List.length] in Hf.
    destruct ev as [bs|e|bs e]; cbn [readUntil_loop read_one].
    + destruct (Nat.leb_spec (List.length bs) need); [|cbn; rewrite firstn_length;
        replace (need - Nat.min need (List.length bs))%nat with O by lia; reflexivity].
      destruct (Nat.eqb_spec (need - List.length bs) 0); [reflexivity|].
      rewrite (IH f) by lia. reflexivity.
    + reflexivity.
    + destruct (Nat.leb_spec (List.length bs) need); [reflexivity|].
      cbn. rewrite firstn_length.
      replace (need - Nat.min need (List.length bs))%nat with O by lia. reflexivity.
Qed.

Lemma readUntil_spec k r : plain r ->
  ((k <= List.length (total_bytes r))%nat /\
     exists r', readUntil k r = (RdOk (firstn k (total_bytes r)), r') /\
       plain r' /\ total_bytes r' = skipn k (total_bytes r) /\ ends r' = ends r) \/
  ((List.length (total_bytes r) < k)%nat /\
     exists o r', readUntil k r = (o, r') /\
       o = match ends r with StaysOpen => RdBlocked | Fails e => RdErr (wrap1 e) end /\
       plain r' /\ total_bytes r' = [] /\ ends r' = ends r).
Proof.
  intros Hp. unfold readUntil. destruct (Nat.eqb_spec k 0) as [->|Hk].
  - left. split; [lia|]. exists r. auto.
  - destruct (readUntil_loop_spec r (S (List.length r)) k [] Hp) as [H|H]; [lia|lia|left|right]; exact H.
Qed.

(* ------------------------------------------------------------------ *)
(* block reading against the whole stream *)

Definition sfail (en : ending) : rdres bytes :=
  match en with StaysOpen => RdBlocked | Fails e => RdErr (eof_or_wrap (wrap1 e)) end.

Lemma LengthOf_info info : List.length info = 4%nat ->
  LengthOf (of_bytes info) = Ok (signed (field info 0)).
Proof.
  intros H. rewrite LengthOf_spec by apply gwf_of_bytes.
  rewrite gbytes_of_bytes. unfold glen, of_bytes. cbn [gs_len]. rewrite H. reflexivity.
Qed.

Lemma field0_firstn4 bs : (4 <= List.length bs)%nat -> field (firstn 4 bs) 0 = field bs 0.
Proof.
  intros H. unfold field, slice. cbn [skipn Nat.sub Nat.add]. rewrite firstn_firstn. reflexivity.
Qed.

Lemma read_content_spec info n r : plain r -> 0 <= n ->
  (n <= blen (total_bytes r) /\
     exists r', read_content info n r = (RdOk (info ++ firstn (Z.to_nat n) (total_bytes r)), r') /\
       plain r' /\ total_bytes r' = skipn (Z.to_nat n) (total_bytes r) /\ ends r' = ends r) \/
  (blen (total_bytes r) < n /\
     exists r', read_content info n r = (sfail (ends r), r') /\
       plain r' /\ total_bytes r' = [] /\ ends r' = ends r).
Proof.
  intros Hp Hn. unfold read_content. destruct (Z.ltb_spec n 0); [lia|].
  unfold blen.
  destruct (readUntil_spec (Z.to_nat n) r Hp) as [(H1 & r' & -> & H3 & H4 & H5)|(H1 & o & r' & -> & H3 & H4 & H5 & H6)].
  - left. split; [lia|]. exists r'. auto.
  - right. split; [lia|]. exists r'. unfold sfail. rewrite H3. destruct (ends r); auto.
Qed.

(* the generic block reader: [lim] decides which non-negative lengths are refused *)
Lemma block_reader_spec (lim : Z) (limited : bool) r : plain r ->
  let rd := if limited then UnpackToBlockFromReaderLimit lim r else UnpackToBlockFromReader r in
  let bs := total_bytes r in
  let n := signed (field bs 0) in
  (blen bs < 4 /\ exists r', rd = (sfail (ends r), r') /\ plain r' /\ total_bytes r' = [] /\ ends r' = ends r) \/
  (4 <= blen bs /\ exists r4, plain r4 /\ total_bytes r4 = skipn 4 bs /\ ends r4 = ends r /\
     ((limited = true /\ to_int32 lim < n /\ rd = (RdErr (EMsg "recv message beyond max byte length limit"), r4)) \/
      ((limited = true -> n <= to_int32 lim) /\ n < 0 /\ rd = (RdPanic, r4)) \/
      ((limited = true -> n <= to_int32 lim) /\ 0 <= n /\ 4 + n <= blen bs /\
         exists r', rd = (RdOk (firstn (Z.to_nat (4 + n)) bs), r') /\
           plain r' /\ total_bytes r' = skipn (Z.to_nat (4 + n)) bs /\ ends r' = ends r) \/
      ((limited = true -> n <= to_int32 lim) /\ 0 <= n /\ blen bs < 4 + n /\
         exists r', rd = (sfail (ends r), r') /\ plain r' /\ total_bytes r' = [] /\ ends r' = ends r))).
Proof.
  intros Hp rd bs n.
  destruct (readUntil_spec 4 r Hp) as [(H1 & r4 & E4 & P4 & T4 & N4)|(H1 & o & r4 & E4 & Ho & P4 & T4 & N4)].
  2:{ left. split; [unfold bs, blen; lia|]. exists r4. repeat split; auto.
      unfold rd, UnpackToBlockFromReader, UnpackToBlockFromReaderLimit. rewrite E4, Ho. unfold sfail.
      destruct limited, (ends r); reflexivity. }
  right. split; [unfold bs, blen; lia|]. exists r4. repeat split; auto.
  fold bs in H1, E4, T4.
  assert (Hlen4 : List.length (firstn 4 bs) = 4%nat) by (rewrite firstn_length; lia).
  assert (HL : LengthOf (of_bytes (firstn 4 bs)) = Ok n).
  { rewrite LengthOf_info by exact Hlen4. rewrite field0_firstn4 by exact H1. reflexivity. }
  assert (Hcont : (n < 0 /\ read_content (firstn 4 bs) n r4 = (RdPanic, r4)) \/
    (0 <= n /\ 4 + n <= blen bs /\ exists r', read_content (firstn 4 bs) n r4 = (RdOk (firstn (Z.to_nat (4 + n)) bs), r') /\
           plain r' /\ total_bytes r' = skipn (Z.to_nat (4 + n)) bs /\ ends r' = ends r) \/
    (0 <= n /\ blen bs < 4 + n /\ exists r', read_content (firstn 4 bs) n r4 = (sfail (ends r), r') /\
       plain r' /\ total_bytes r' = [] /\ ends r' = ends r)).
  { destruct (Z.ltb_spec n 0) as [Hneg|Hnn].
    - left. split; [exact Hneg|]. unfold read_content. destruct (Z.ltb_spec n 0); [reflexivity|lia].
    - right. rewrite <- N4.
      destruct (read_content_spec (firstn 4 bs) n r4 P4 Hnn) as [(Ha & r' & Hb & Hc & Hd & He)|(Ha & r' & Hb & Hc & Hd & He)].
      + left. rewrite T4 in *. unfold blen in *. rewrite skipn_length in Ha.
        split; [exact Hnn|]. split; [lia|]. exists r'. rewrite Hb.
        replace (Z.to_nat (4 + n)) with (4 + Z.to_nat n)%nat by lia.
        rewrite Hd, skipn_skipn. split; [|auto].
        f_equal. f_equal.
        rewrite <- (firstn_skipn 4 bs) at 3. rewrite firstn_app, Hlen4.
        rewrite (firstn_all2 (firstn 4 bs)) by lia.
        replace (4 + Z.to_nat n - 4)%nat with (Z.to_nat n) by lia. reflexivity.
      + right. rewrite T4 in *. unfold blen in *. rewrite skipn_length in Ha.
        split; [exact Hnn|]. split; [lia|]. exists r'. auto. }
  unfold rd, UnpackToBlockFromReader, UnpackToBlockFromReaderLimit. rewrite E4, HL.
  destruct limited.
  - destruct (Z.ltb_spec (to_int32 lim) n) as [Hl|Hl]; [left; auto|right].
    destruct Hcont as [(Ha & Hb)|[(Ha & Hb & Hc)|(Ha & Hb & Hc)]]; auto.
    + right; left. auto.
    + right; right. auto.
  - right. destruct Hcont as [(Ha & Hb)|[(Ha & Hb & Hc)|(Ha & Hb & Hc)]].
    + left. repeat split; auto. discriminate.
    + right; left. repeat split; auto. discriminate.
    + right; right. repeat split; auto. discriminate.
Qed.

(* every FirstBlockOfLimitMaxByte call is one of the two *)
Lemma FirstBlockOfLimit_eq m r :
  FirstBlockOfLimitMaxByte m r =
    (if 0 <? m then UnpackToBlockFromReaderLimit m r else UnpackToBlockFromReader r).
Proof.
  unfold FirstBlockOfLimitMaxByte.
  destruct (Z.leb_spec m 0), (Z.ltb_spec 0 m); try lia; reflexivity.
Qed.

(* ------------------------------------------------------------------ *)
(* determinism: the outcome depends on the stream only *)

Lemma block_reader_det (lim : Z) (limited : bool) r1 r2 bs en :
  segmentation bs en r1 -> segmentation bs en r2 ->
  let rd (r : reader) := if limited then UnpackToBlockFromReaderLimit lim r else UnpackToBlockFromReader r in
  fst (rd r1) = fst (rd r2) /\
  exists bs', segmentation bs' en (snd (rd r1)) /\ segmentation bs' en (snd (rd r2)).
Proof.
  intros (P1 & T1 & N1) (P2 & T2 & N2) rd.
  pose proof (block_reader_spec lim limited r1 P1) as H1.
  pose proof (block_reader_spec lim limited r2 P2) as H2.
  cbv zeta in H1, H2. fold (rd r1) in H1. fold (rd r2) in H2. rewrite T1, N1 in H1. rewrite T2, N2 in H2.
  unfold segmentation.
  destruct H1 as [(L1 & r1' & -> & A1 & B1 & C1)|(L1 & r14 & P14 & T14 & N14 & H1)];
  destruct H2 as [(L2 & r2' & -> & A2 & B2 & C2)|(L2 & r24 & P24 & T24 & N24 & H2)]; try lia.
  - cbn. split; [reflexivity|]. exists []. auto.
  - destruct H1 as [(Q1 & R1 & ->)|[(Q1 & R1 & ->)|[(Q1 & R1 & S1 & r1' & -> & A1 & B1 & C1)|(Q1 & R1 & S1 & r1' & -> & A1 & B1 & C1)]]];
    destruct H2 as [(Q2 & R2 & ->)|[(Q2 & R2 & ->)|[(Q2 & R2 & S2 & r2' & -> & A2 & B2 & C2)|(Q2 & R2 & S2 & r2' & -> & A2 & B2 & C2)]]];
    try lia; try (exfalso; specialize (Q1 Q2); lia); try (exfalso; specialize (Q2 Q1); lia);
    cbn [fst snd]; (split; [reflexivity|]).
    + exists (skipn 4 bs). auto.
    + exists (skipn 4 bs). auto.
    + eexists. split; [split; [exact A1|split; [exact B1|exact C1]]|auto].
    + exists []. auto.
Qed.

Lemma recv_det (rd : reader -> rdres bytes * reader) :
  (forall r1 r2 bs en, segmentation bs en r1 -> segmentation bs en r2 ->
     fst (rd r1) = fst (rd r2) /\ exists bs', segmentation bs' en (snd (rd r1)) /\ segmentation bs' en (snd (rd r2))) ->
  forall n r1 r2 bs en, segmentation bs en r1 -> segmentation bs en r2 ->
    fst (recv rd n r1) = fst (recv rd n r2) /\
    exists bs', segmentation bs' en (snd (recv rd n r1)) /\ segmentation bs' en (snd (recv rd n r2)).
Proof.
  intros Hrd. induction n as [|n IH]; intros r1 r2 bs en S1 S2; cbn [recv].
  - split; [reflexivity|]. exists bs. auto.
  - destruct (Hrd r1 r2 bs en S1 S2) as (He & bs' & S1' & S2').
    destruct (rd r1) as [o1 r1']. destruct (rd r2) as [o2 r2']. cbn [fst snd] in *. subst o2.
    destruct o1 as [b|e| |]; cbn [fst snd]; try (split; [reflexivity|exists bs'; auto]).
    destruct (IH r1' r2' bs' en S1' S2') as (He' & bs'' & S1'' & S2'').
    destruct (recv rd n r1') as [[l1 p1] q1]. destruct (recv rd n r2') as [[l2 p2] q2].
    cbn [fst snd] in *. injection He' as -> ->. split; [reflexivity|exists bs''; auto].
Qed.

(* ------------------------------------------------------------------ *)
(* receiving sequences *)

Lemma is_block_head b rest : is_block b ->
  4 <= blen (b ++ rest) /\ signed (field (b ++ rest) 0) = blen b - 4 /\
  0 <= blen b - 4 /\ 4 + (blen b - 4) <= blen (b ++ rest) /\
  firstn (Z.to_nat (4 + (blen b - 4))) (b ++ rest) = b /\
  skipn (Z.to_nat (4 + (blen b - 4))) (b ++ rest) = rest.
Proof.
  intros (H1 & H2 & H3). rewrite blen_app. pose proof (blen_nonneg rest).
  replace (4 + (blen b - 4)) with (blen b) by lia.
  assert (Hz : Z.to_nat (blen b) = List.length b) by (unfold blen; lia). rewrite Hz.
  repeat split; try lia.
  - unfold field. rewrite slice_app_l by (unfold blen in H1; lia). fold (field b 0).
    rewrite H2. unfold signed. destruct (Z.ltb_spec (blen b - 4) (2 ^ 31)); lia.
  - rewrite firstn_app, Nat.sub_diag, firstn_O, firstn_all, app_nil_r. reflexivity.
  - rewrite skipn_app, skipn_all, Nat.sub_diag. reflexivity.
Qed.

Lemma read_block_ok (lim : Z) (limited : bool) b rest en r :
  is_block b -> (limited = true -> blen b - 4 <= to_int32 lim) ->
  segmentation (b ++ rest) en r ->
  let rd := if limited then UnpackToBlockFromReaderLimit lim r else UnpackToBlockFromReader r in
  exists r', rd = (RdOk b, r') /\ segmentation rest en r'.
Proof.
  intros Hb Hlim (P & T & N) rd.
  destruct (is_block_head b rest Hb) as (H1 & H2 & H3 & H4 & H5 & H6).
  pose proof (block_reader_spec lim limited r P) as H. cbv zeta in H. fold rd in H. rewrite T, N, H2 in H.
  destruct H as [(L & _)|(L & r4 & P4 & T4 & N4 & H)]; [lia|].
  destruct H as [(Q & R & _)|[(Q & R & _)|[(Q & R & S & r' & -> & A & B & C)|(Q & R & S & _)]]].
  - specialize (Hlim Q). lia.
  - lia.
  - rewrite H5. rewrite H6 in B. exists r'. split; [reflexivity|]. split; auto.
  - lia.
Qed.

Lemma recv_blocks (lim : Z) (limited : bool) blocks : forall rest en r,
  Forall is_block blocks -> Forall (fun b => limited = true -> blen b - 4 <= to_int32 lim) blocks ->
  segmentation (concat blocks ++ rest) en r ->
  let rd (r : reader) := if limited then UnpackToBlockFromReaderLimit lim r else UnpackToBlockFromReader r in
  exists r', recv rd (List.length blocks) r = (blocks, RdOk tt, r') /\ segmentation rest en r'.
Proof.
  induction blocks as [|b blocks IH]; intros rest en r Hb Hl HS rd; cbn [List.length recv concat] in *.
  - exists r. auto.
  - inversion Hb as [|? ? Hb1 Hb2]; subst. inversion Hl as [|? ? Hl1 Hl2]; subst.
    rewrite <- app_assoc in HS.
    destruct (read_block_ok lim limited b _ en r Hb1 Hl1 HS) as (r' & E & HS').
    fold (rd r) in E. rewrite E.
    destruct (IH rest en r' Hb2 Hl2 HS') as (r'' & E' & HS''). fold rd in E'. rewrite E'.
    exists r''. auto.
Qed.

(* truncation: what remains is a proper prefix of some block *)
Lemma read_partial (lim : Z) (limited : bool) part b en r :
  is_block b -> (limited = true -> blen b - 4 <= to_int32 lim) ->
  prefix_of part b -> part <> b -> segmentation part en r ->
  let rd := if limited then UnpackToBlockFromReaderLimit lim r else UnpackToBlockFromReader r in
  fst rd = sfail en.
Proof.
  intros Hb Hlim (tl & Htl) Hne (P & T & N) rd.
  destruct Hb as (H1 & H2 & H3).
  assert (Hlen : blen part < blen b).
  { rewrite Htl, blen_app. destruct tl; [rewrite app_nil_r in Htl; congruence|].
    unfold blen; cbn [List.length]; lia. }
  pose proof (block_reader_spec lim limited r P) as H. cbv zeta in H. fold rd in H. rewrite T, N in H.
  destruct H as [(L & r' & -> & _)|(L & r4 & P4 & T4 & N4 & H)]; [reflexivity|].
  assert (Hf : field part 0 = blen b - 4).
  { rewrite <- H2, Htl. unfold field. rewrite slice_app_l by (unfold blen in L; lia). reflexivity. }
  assert (Hs : signed (field part 0) = blen b - 4).
  { rewrite Hf. unfold signed. destruct (Z.ltb_spec (blen b - 4) (2 ^ 31)); lia. }
  rewrite Hs in H.
  destruct H as [(Q & R & _)|[(Q & R & _)|[(Q & R & S & r' & -> & A & B & C)|(Q & R & S & r' & -> & _)]]].
  - specialize (Hlim Q). lia.
  - lia.
  - lia.
  - reflexivity.
Qed.

Lemma recv_truncated (lim : Z) (limited : bool) blocks part b en : forall r extra,
  Forall is_block blocks -> Forall (fun b => limited = true -> blen b - 4 <= to_int32 lim) blocks ->
  is_block b -> (limited = true -> blen b - 4 <= to_int32 lim) ->
  prefix_of part b -> part <> b ->
  segmentation (concat blocks ++ part) en r ->
  let rd (r : reader) := if limited then UnpackToBlockFromReaderLimit lim r else UnpackToBlockFromReader r in
  fst (recv rd (List.length blocks + S extra) r) =
    (blocks, match sfail en with RdOk _ => RdOk tt | RdErr e => RdErr e | RdPanic => RdPanic | RdBlocked => RdBlocked end).
Proof.
  intros r extra Hb Hl Hbb Hlb Hpre Hne HS rd.
  revert r HS. induction blocks as [|x blocks IH]; intros r HS.
  - cbn [List.length concat app Nat.add recv] in *.
    pose proof (read_partial lim limited part b en r Hbb Hlb Hpre Hne HS) as H. fold (rd r) in H.
    destruct (rd r) as [o r']. cbn [fst] in H. subst o.
    unfold sfail. destruct en; reflexivity.
  - cbn [List.length concat Nat.add recv] in *.
    inversion Hb as [|? ? Hb1 Hb2]; subst. inversion Hl as [|? ? Hl1 Hl2]; subst.
    rewrite <- app_assoc in HS.
    destruct (read_block_ok lim limited x _ en r Hb1 Hl1 HS) as (r' & E & HS').
    fold (rd r) in E. rewrite E.
    pose proof (IH Hb2 Hl2 r' HS') as H.
    destruct (recv rd (List.length blocks + S extra) r') as [[l o] q]. cbn [fst] in *.
    injection H as -> ->. reflexivity.
Qed.

(* packed messages are blocks *)
Lemma layout_is_block id hdr body b : frame_layout id hdr body b -> blen b - 4 < 2 ^ 31 -> is_block b.
Proof.
  intros H Hlt. destruct (layout_fields id hdr body b [] H) as (F0 & _ & _ & _ & Hbl & _).
  rewrite app_nil_r in F0. unfold is_block. pose proof (blen_nonneg hdr). pose proof (blen_nonneg body).
  repeat split; lia.
Qed.

Lemma assemble_is_block id hdr body : 12 + blen hdr + blen body < 2 ^ 31 -> is_block (assemble id hdr body).
Proof.
  intros H. apply (layout_is_block id hdr body).
  - apply assemble_layout. lia.
  - rewrite assemble_length. lia.
Qed.
