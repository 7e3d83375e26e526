(* Strings: In, ListenAndServe's networks, ClientIP.  NODEMO *)
From Verif Require Export StrModel SpecStr.

Lemma hasPrefix_spec p : forall s, hasPrefix s p = true <-> exists t, s = p ++ t.
Proof.
  induction p as [|x p IH]; intros s; simpl.
  - split; [intros _; exists s; reflexivity|auto].
  - destruct s as [|y s]; [split; [discriminate|intros (t & H); discriminate]|].
    rewrite andb_true_iff, Ascii.eqb_eq, IH. split.
    + intros (-> & t & ->). eauto.
    + intros (t & H). inversion H; subst. eauto.
Qed.

Lemma hasSuffix_spec p s : hasSuffix s p = true <-> exists t, s = t ++ p.
Proof.
  unfold hasSuffix. rewrite hasPrefix_spec. split; intros (t & H).
  - exists (rev t). rewrite <- (rev_involutive s), H, rev_app_distr, rev_involutive. reflexivity.
  - exists (rev t). rewrite H, rev_app_distr. reflexivity.
Qed.

Lemma contains_spec p : forall s, contains s p = true <-> exists a b, s = a ++ p ++ b.
Proof.
  induction s as [|y s IH]; cbn [contains]; rewrite orb_true_iff, hasPrefix_spec.
  - split.
    + intros [(t & H)|H]; [|discriminate]. exists [], t. auto.
    + intros (a & b & H). symmetry in H. apply app_eq_nil in H as (-> & H). left. exists b. auto.
  - rewrite IH. split.
    + intros [(t & H)|(a & b & H)]. exists [], t; auto. exists (y :: a), b. rewrite H. reflexivity.
    + intros ([|z a] & b & H); simpl in H. left; eauto. inversion H; subst. right; eauto.
Qed.

Lemma contains_char c s : contains s [c] = true <-> In c s.
Proof.
  rewrite contains_spec. split.
  - intros (a & b & ->). apply in_or_app. right. left. reflexivity.
  - intros H. apply in_split in H as (a & b & ->). exists a, b. reflexivity.
Qed.

Lemma bytes_eqb_spec s : forall t, bytes_eqb s t = true <-> s = t.
Proof.
  induction s as [|x s IH]; intros [|y t]; simpl; try (split; [discriminate|intros H; discriminate H]).
  - split; auto.
  - rewrite andb_true_iff, Ascii.eqb_eq, IH. split; [intros (-> & ->); auto|intros H; inversion H; auto].
Qed.

Lemma starts_spec v : hasPrefix v percent = true <-> starts pct v.
Proof. rewrite hasPrefix_spec. reflexivity. Qed.

Lemma finishes_spec v : hasSuffix v percent = true <-> finishes pct v.
Proof. rewrite hasSuffix_spec. reflexivity. Qed.

Lemma bool_false b (P : Prop) : (b = true <-> P) -> (b = false <-> ~ P).
Proof. intros H. destruct b; split; intros K; try congruence; try (exfalso; apply K; apply H; auto; fail). intros Q. apply H in Q. discriminate. Qed.

Lemma strsub_ok s lo hi : 0 <= lo <= hi -> hi <= blen s -> strsub s lo hi = Ok (firstn (Z.to_nat (hi - lo)) (skipn (Z.to_nat lo) s)).
Proof.
  intros H1 H2. unfold strsub. replace (0 <=? lo) with true by lia. replace (lo <=? hi) with true by lia.
  replace (hi <=? blen s) with true by lia. reflexivity.
Qed.

Lemma strsub_tail c t : strsub (c :: t) 1 (blen (c :: t)) = Ok t.
Proof.
  rewrite strsub_ok by (unfold blen; simpl List.length; lia).
  f_equal. replace (blen (c :: t) - 1) with (Z.of_nat (List.length t)) by (unfold blen; simpl List.length; lia).
  rewrite Nat2Z.id. change (Z.to_nat 1) with 1%nat. simpl skipn. apply firstn_all.
Qed.

Lemma blen_app a b : blen (a ++ b) = blen a + blen b.
Proof. unfold blen. rewrite app_length. lia. Qed.

Lemma strsub_init t c : strsub (t ++ [c]) 0 (blen (t ++ [c]) - 1) = Ok t.
Proof.
  rewrite blen_app. change (blen [c]) with 1. replace (blen t + 1 - 1) with (blen t) by lia.
  rewrite strsub_ok by (rewrite ?blen_app; unfold blen; simpl List.length; lia).
  f_equal. rewrite Z.sub_0_r. unfold blen. rewrite Nat2Z.id. simpl skipn. rewrite firstn_app, Nat.sub_diag, firstn_all. simpl. apply app_nil_r.
Qed.

Lemma strsub_mid c t d : strsub (c :: t ++ [d]) 1 (blen (c :: t ++ [d]) - 1) = Ok t.
Proof.
  replace (blen (c :: t ++ [d]) - 1) with (blen t + 1) by (unfold blen; simpl List.length; rewrite app_length; simpl List.length; lia).
  rewrite strsub_ok by (unfold blen; simpl List.length; rewrite ?app_length; simpl List.length; lia).
  f_equal. replace (blen t + 1 - 1) with (blen t) by lia. unfold blen. rewrite Nat2Z.id. change (Z.to_nat 1) with 1%nat. simpl skipn.
  rewrite firstn_app, Nat.sub_diag, firstn_all. simpl. apply app_nil_r.
Qed.

Lemma entry_spec s v : v <> percent -> exists b, in_entry s v = Ok b /\ (b = true <-> pattern_matches s v).
Proof.
  intros Hv. unfold in_entry.
  destruct (contains v percent) eqn:C.
  - apply contains_char in C. change "%"%char with pct in C.
    destruct (hasPrefix v percent) eqn:P; destruct (hasSuffix v percent) eqn:S; cbn [andb].
    + apply starts_spec in P as (t & ->). apply finishes_spec in S as (t' & E).
      destruct t' as [|x t']. { exfalso. apply Hv. rewrite E. reflexivity. }
      simpl in E. injection E as <- ->. rewrite strsub_mid. simpl.
      eexists; split; [reflexivity|]. rewrite contains_spec. split.
      * intros (a & b & H). eapply pm_infix; eauto.
      * intros H. remember (pct :: t' ++ [pct]) as v eqn:E. destruct H.
        { exfalso. apply H. rewrite E. left; auto. }
        { exfalso. apply H. rewrite E. eexists; eauto. }
        { exfalso. apply H. rewrite E. exists (pct :: t'). reflexivity. }
        { injection E as E. apply app_inj_tail in E as (-> & _). eauto. }
    + apply starts_spec in P as (t & ->). rewrite strsub_tail. simpl.
      eexists; split; [reflexivity|]. rewrite hasSuffix_spec.
      apply (bool_false _ _ (finishes_spec _)) in S. split.
      * intros (t' & H). eapply pm_suffix; eauto.
      * intros H. remember (pct :: t) as v eqn:E. destruct H.
        { exfalso. apply H. rewrite E. left; auto. }
        { exfalso. apply S. exists p. reflexivity. }
        { injection E as ->. eauto. }
        { exfalso. apply S. exists (pct :: p). reflexivity. }
    + apply finishes_spec in S as (t & ->). rewrite strsub_init. simpl.
      eexists; split; [reflexivity|]. rewrite hasPrefix_spec.
      apply (bool_false _ _ (starts_spec _)) in P. split.
      * intros (t' & H). eapply pm_prefix; eauto.
      * intros H. remember (t ++ [pct]) as v eqn:E. destruct H.
        { exfalso. apply H. rewrite E. apply in_or_app. right; left; auto. }
        { apply app_inj_tail in E as (-> & _). eauto. }
        { exfalso. apply P. eexists; eauto. }
        { exfalso. apply P. eexists; eauto. }
    + eexists; split; [reflexivity|]. split; [discriminate|].
      apply (bool_false _ _ (starts_spec _)) in P. apply (bool_false _ _ (finishes_spec _)) in S.
      intros H. exfalso. destruct H.
      * auto.
      * apply S. exists p. reflexivity.
      * apply P. exists p. reflexivity.
      * apply P. eexists. reflexivity.
  - eexists; split; [reflexivity|]. rewrite bytes_eqb_spec.
    assert (N : ~ In pct v). { intros H. apply contains_char in H. unfold percent in C. unfold pct in H. congruence. }
    split.
    + intros ->. apply pm_plain. exact N.
    + intros H. destruct H; [reflexivity| | |]; exfalso; apply N.
      * apply in_or_app. right; left; auto.
      * left; auto.
      * left; auto.
Qed.

Lemma entry_percent s : in_entry s percent = Panic.
Proof. reflexivity. Qed.

Lemma in_spec s arr : ~ In percent arr -> exists b, In_ s arr = Ok b /\ (b = true <-> exists v, In v arr /\ pattern_matches s v).
Proof.
  induction arr as [|v arr IH]; intros N; simpl.
  - exists false. split; auto. split; [discriminate|intros (v & [] & _)].
  - destruct (entry_spec s v) as (b & Eb & Hb). { intros ->. apply N. left; auto. }
    rewrite Eb. simpl. destruct IH as (b' & Eb' & Hb'). { intros H. apply N. right; auto. }
    destruct b.
    + exists true. split; auto. split; auto. intros _. exists v. split; auto. apply Hb. auto.
    + exists b'. split; auto. rewrite Hb'. split.
      * intros (w & I & M). eauto.
      * intros (w & [->|I] & M). apply Hb in M. discriminate. eauto.
Qed.

Lemma p_C64_in_matches_partial : forall s arr, ~ In [pct] arr ->
  exists b, In_ s arr = Ok b /\ (b = true <-> exists v, In v arr /\ pattern_matches s v).
Proof. exact in_spec. Qed.

Lemma p_C64_in_panics_refuted : exists s arr, In_ s arr = Panic.
Proof. exists [], [percent]. reflexivity. Qed.

Lemma p_C64_in_exact : forall s arr,
  (exists pre post, arr = pre ++ [pct] :: post /\ ~ In [pct] pre /\ (forall v, In v pre -> ~ pattern_matches s v) /\ In_ s arr = Panic) \/
  (exists pre v post, arr = pre ++ v :: post /\ ~ In [pct] (pre ++ [v]) /\ pattern_matches s v /\ In_ s arr = Ok true) \/
  (~ In [pct] arr /\ (forall v, In v arr -> ~ pattern_matches s v) /\ In_ s arr = Ok false).
Proof.
  intros s arr. induction arr as [|v arr IH]; simpl.
  - right; right. split; [auto|]. split; [intros v []|reflexivity].
  - destruct (list_eq_dec ascii_dec v [pct]) as [->|N].
    + left. exists [], arr. split; [reflexivity|]. split; [intros []|]. split; [intros v []|reflexivity].
    + destruct (entry_spec s v N) as (b & Eb & Hb). rewrite Eb. simpl. destruct b.
      * right; left. exists [], v, arr. split; [reflexivity|]. split; [intros [E|[]]; congruence|]. split; [apply Hb; auto|reflexivity].
      * assert (M : ~ pattern_matches s v). { intros H. apply Hb in H. discriminate. }
        destruct IH as [(pre & post & -> & I & A & H)|[(pre & w & post & -> & I & A & H)|(I & A & H)]].
        { left. exists (v :: pre), post. split; [reflexivity|]. split; [intros [E|K]; [congruence|auto]|]. split; [|exact H].
          intros x [<-|K]; auto. }
        { right; left. exists (v :: pre), w, post. split; [reflexivity|]. split; [intros [E|K]; [congruence|auto]|]. auto. }
        { right; right. split; [intros [E|K]; [congruence|auto]|]. split; [|exact H]. intros x [<-|K]; auto. }
Qed.

Lemma p_C64_middle_percent_never_matches : forall s p q, p <> [] -> q <> [] -> ~ starts pct p -> ~ finishes pct q ->
  ~ pattern_matches s (p ++ pct :: q).
Proof.
  intros s p q Hp Hq Sp Fq H. remember (p ++ pct :: q) as v eqn:E.
  assert (X : ~ starts pct v). { rewrite E. destruct p as [|x p]; [congruence|]. intros (t & K). inversion K; subst. apply Sp. eexists; eauto. }
  assert (Y : ~ finishes pct v). { rewrite E. intros (t & K). destruct (@exists_last _ q Hq) as (q' & x & Eq). rewrite Eq in K.
    change (p ++ pct :: q' ++ [x]) with (p ++ (pct :: q') ++ [x]) in K. rewrite app_assoc in K. apply app_inj_tail in K as (_ & ->). apply Fq. exists q'. auto. }
  destruct H.
  - apply H. rewrite E. apply in_or_app. right; left; auto.
  - apply Y. eexists; reflexivity.
  - apply X. eexists; reflexivity.
  - apply X. eexists; eauto.
Qed.

Lemma pm_literal s v : ~ In pct v -> (pattern_matches s v <-> s = v).
Proof.
  intros N. split.
  - intros H. destruct H; auto; exfalso; apply N; try (left; reflexivity). apply in_or_app. right; left; auto.
  - intros ->. apply pm_plain. auto.
Qed.

Lemma pm_ip s : pattern_matches s (str_bytes "ip%") <-> exists t, s = str_bytes "ip" ++ t.
Proof.
  split.
  - intros H. remember (str_bytes "ip%") as v eqn:E. destruct H.
    + exfalso. apply H. rewrite E. simpl. auto.
    + change (str_bytes "ip%") with (str_bytes "ip" ++ [pct]) in E. apply app_inj_tail in E as (-> & _). eauto.
    + discriminate.
    + discriminate.
  - intros (t & ->). change (str_bytes "ip%") with (str_bytes "ip" ++ [pct]). apply pm_prefix with t; [intros (x & H); discriminate|reflexivity].
Qed.

Lemma in_net s l : ~ In [pct] (map str_bytes l) -> exists b, In_ s (map str_bytes l) = Ok b /\
  (b = true <-> exists v, In v (map str_bytes l) /\ pattern_matches s v).
Proof. apply in_spec. Qed.

Definition tcp_net (s : bytes) : Prop := In s (map str_bytes ["tcp"; "tcp4"; "tcp6"; "unix"; "unixpacket"]%string).

Definition udp_net (s : bytes) : Prop := In s (map str_bytes ["udp"; "udp4"; "udp6"; "unixgram"]%string) \/ exists t, s = str_bytes "ip" ++ t.

Lemma lit_ok (x : string) : existsb (Ascii.eqb pct) (str_bytes x) = false -> ~ In pct (str_bytes x).
Proof. intros H K. rewrite <- not_true_iff_false in H. apply H. apply existsb_exists. exists pct. split; [exact K|apply Ascii.eqb_refl]. Qed.

Lemma p_C63_networks : forall network,
  exists r, ListenAndServe_choice network = Ok r /\
    (r = ServeTCP <-> In network (map str_bytes ["tcp"; "tcp4"; "tcp6"; "unix"; "unixpacket"]%string)) /\
    (r = ServeUDP <-> In network (map str_bytes ["udp"; "udp4"; "udp6"; "unixgram"]%string) \/ exists t, network = str_bytes "ip" ++ t) /\
    (r = NoKCP <-> network = str_bytes "kcp").
Proof.
  intros s. unfold ListenAndServe_choice.
  assert (L : forall x : string, existsb (Ascii.eqb pct) (str_bytes x) = false -> (pattern_matches s (str_bytes x) <-> s = str_bytes x)).
  { intros x H. apply pm_literal. apply lit_ok. exact H. }
  destruct (in_spec s (map str_bytes ["tcp"; "tcp4"; "tcp6"; "unix"; "unixpacket"]%string)) as (b1 & E1 & H1).
  { simpl. intuition discriminate. }
  destruct (in_spec s (map str_bytes ["udp"; "udp4"; "udp6"; "unixgram"; "ip%"]%string)) as (b2 & E2 & H2).
  { simpl. intuition discriminate. }
  destruct (in_spec s (map str_bytes ["kcp"]%string)) as (b3 & E3 & H3).
  { simpl. intuition discriminate. }
  assert (T : (exists v, In v (map str_bytes ["tcp"; "tcp4"; "tcp6"; "unix"; "unixpacket"]%string) /\ pattern_matches s v) <-> tcp_net s).
  { unfold tcp_net. split.
    - intros (v & I & M). cbn [map] in I |- *. repeat (destruct I as [<-|I]; [apply L in M; [subst s; cbn [In]; auto 8|reflexivity]|]). destruct I.
    - intros I. exists s. split; auto. cbn [map] in I. repeat (destruct I as [<-|I]; [apply L; reflexivity|]). destruct I. }
  assert (U : (exists v, In v (map str_bytes ["udp"; "udp4"; "udp6"; "unixgram"; "ip%"]%string) /\ pattern_matches s v) <-> udp_net s).
  { unfold udp_net. split.
    - intros (v & I & M). cbn [map] in I |- *. do 4 (destruct I as [<-|I]; [apply L in M; [subst s; cbn [In]; auto 8|reflexivity]|]).
      destruct I as [<-|[]]. apply pm_ip in M. right; auto.
    - intros [I|I].
      + exists s. cbn [map] in I |- *. do 4 (destruct I as [<-|I]; [split; [cbn [In]; auto 8|apply L; reflexivity]|]). destruct I.
      + exists (str_bytes "ip%"). split; [cbn [map In]; auto 8|apply pm_ip; auto]. }
  assert (K : (exists v, In v (map str_bytes ["kcp"]%string) /\ pattern_matches s v) <-> s = str_bytes "kcp").
  { split.
    - intros (v & [<-|[]] & M). apply L in M; auto.
    - intros ->. exists (str_bytes "kcp"). split; [left; auto|apply pm_literal; auto; apply lit_ok; reflexivity]. }
  assert (D1 : tcp_net s -> ~ udp_net s).
  { intros I [J|(t & J)].
    - unfold tcp_net in I. simpl in I, J. intuition congruence.
    - unfold tcp_net in I. rewrite J in I. simpl in I. intuition discriminate. }
  assert (D2 : s = str_bytes "kcp" -> ~ tcp_net s /\ ~ udp_net s).
  { intros ->. split; [unfold tcp_net; simpl; intuition discriminate|]. intros [J|(t & J)]; [simpl in J; intuition discriminate|discriminate]. }
  rewrite T in H1. rewrite U in H2. rewrite K in H3. change (In s (map str_bytes ["tcp"; "tcp4"; "tcp6"; "unix"; "unixpacket"]%string)) with (tcp_net s).
  change (In s (map str_bytes ["udp"; "udp4"; "udp6"; "unixgram"]%string) \/ (exists t, s = str_bytes "ip" ++ t)) with (udp_net s).
  rewrite E1, E2, E3. cbn [rbind]. destruct b1, b2, b3; cbn [rbind];
    try (assert (A1 : tcp_net s) by (apply H1; reflexivity)); try (assert (A1 : ~ tcp_net s) by (intros Q; apply H1 in Q; discriminate));
    try (assert (A2 : udp_net s) by (apply H2; reflexivity)); try (assert (A2 : ~ udp_net s) by (intros Q; apply H2 in Q; discriminate));
    try (assert (A3 : s = str_bytes "kcp") by (apply H3; reflexivity)); try (assert (A3 : s <> str_bytes "kcp") by (intros Q; apply H3 in Q; discriminate));
    eexists; (split; [reflexivity|]); (split; [|split]); split; intros Q; try discriminate; try reflexivity; try tauto; exfalso; tauto.
Qed.

Lemma split_nosep c s : ~ In c s -> Split c s = [s].
Proof.
  induction s as [|x s IH]; intros N; simpl; auto.
  destruct (Ascii.eqb x c) eqn:E. { apply Ascii.eqb_eq in E. exfalso. apply N. left; auto. }
  rewrite IH; auto. intros H. apply N. right; auto.
Qed.

Lemma split_app c a b : ~ In c a -> Split c (a ++ c :: b) = a :: Split c b.
Proof.
  induction a as [|x a IH]; intros N; simpl.
  - rewrite Ascii.eqb_refl. reflexivity.
  - destruct (Ascii.eqb x c) eqn:E. { apply Ascii.eqb_eq in E. exfalso. apply N. left; auto. }
    rewrite IH; auto. intros H. apply N. right; auto.
Qed.

Lemma split_last c a b : ~ In c b -> Split c (a ++ c :: b) = Split c a ++ [b].
Proof.
  intros N. induction a as [|x a IH]; cbn [app Split].
  - rewrite Ascii.eqb_refl, split_nosep by auto. reflexivity.
  - destruct (Ascii.eqb x c); rewrite IH; auto. destruct (Split c a) eqn:E; auto.
    exfalso. clear -E. destruct a as [|y a]; simpl in E; [discriminate|]. destruct (Ascii.eqb y c); [discriminate|]. destruct (Split c a); discriminate.
Qed.

Lemma split_length c s : List.length (Split c s) = S (occurs c s).
Proof.
  induction s as [|x s IH]; simpl; auto. unfold occurs in *. simpl. destruct (ascii_dec x c) as [->|N].
  - rewrite Ascii.eqb_refl. simpl. rewrite IH. reflexivity.
  - replace (Ascii.eqb x c) with false by (symmetry; apply Ascii.eqb_neq; auto).
    destruct (Split c s); simpl in *; [discriminate|exact IH].
Qed.

Lemma join_split c s : Join c (Split c s) = s.
Proof.
  induction s as [|x s IH]; simpl; auto. destruct (Ascii.eqb x c) eqn:E.
  - apply Ascii.eqb_eq in E. subst x. destruct (Split c s) eqn:F; [|simpl; rewrite <- IH; reflexivity].
    pose proof (split_length c s) as L. rewrite F in L. discriminate.
  - destruct (Split c s) as [|h t] eqn:F. { pose proof (split_length c s) as L. rewrite F in L. discriminate. }
    destruct t as [|h' t]; simpl in *; rewrite <- IH; reflexivity.
Qed.

Lemma p_C65_clientip_ipv4_partial : forall host port, ~ In ":"%char host -> ~ In ":"%char port ->
  ClientIP (host ++ ":"%char :: port) = host.
Proof.
  intros h p Hh Hp. unfold ClientIP. rewrite split_app, split_nosep by auto. reflexivity.
Qed.

Lemma p_C65_clientip_ipv6_always_localhost : forall a b port,
  ClientIP ("["%char :: a ++ ":"%char :: b ++ "]"%char :: ":"%char :: port) = str_bytes "127.0.0.1".
Proof.
  intros a b port. unfold ClientIP.
  set (s := "["%char :: a ++ ":"%char :: b ++ "]"%char :: ":"%char :: port).
  assert (O : (2 <= occurs ":"%char s)%nat).
  { unfold s, occurs. change ("["%char :: a ++ ":"%char :: b ++ "]"%char :: ":"%char :: port) with (["["%char] ++ a ++ [":"%char] ++ b ++ ["]"%char; ":"%char] ++ port).
    rewrite !count_occ_app. simpl. lia. }
  assert (L : Nat.eqb (List.length (Split ":"%char s)) 2 = false). { rewrite split_length. apply Nat.eqb_neq. lia. }
  rewrite L.
  replace (contains s ["["%char]) with true by (symmetry; apply contains_char; left; reflexivity).
  replace (contains s ["]"%char]) with true; [reflexivity|].
  symmetry. apply contains_char. unfold s. right. apply in_or_app. right. right. apply in_or_app. right. left. reflexivity.
Qed.

Lemma p_C65_clientip_ipv6_refuted : exists host port, ClientIP ("["%char :: host ++ "]"%char :: ":"%char :: port) <> host.
Proof. exists (str_bytes "2001:db8::1"), (str_bytes "443"). discriminate. Qed.

Lemma p_C65_clientip_other : forall host port, ~ In "["%char (host ++ port) -> ~ In ":"%char port ->
  ClientIP (host ++ ":"%char :: port) = host.
Proof.
  intros h p Hb Hp. unfold ClientIP. rewrite split_last by auto.
  replace (contains (h ++ ":"%char :: p) ["["%char]) with false.
  2:{ symmetry. apply not_true_iff_false. rewrite contains_char. rewrite in_app_iff. intros [H|[H|H]]; [apply Hb; apply in_or_app; auto|discriminate|apply Hb; apply in_or_app; auto]. }
  cbn [andb]. rewrite app_length. simpl List.length. replace (List.length (Split ":"%char h) + 1 - 1)%nat with (List.length (Split ":"%char h)) by lia.
  rewrite firstn_app, Nat.sub_diag, firstn_all. simpl firstn. rewrite app_nil_r, join_split.
  destruct (Nat.eqb (List.length (Split ":"%char h) + 1) 2) eqn:E; auto.
  apply Nat.eqb_eq in E. rewrite split_length in E. assert (O : occurs ":"%char h = 0%nat) by lia. apply count_occ_not_In in O.
  rewrite split_nosep by auto. reflexivity.
Qed.
