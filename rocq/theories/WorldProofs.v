(* C124: the helloworld example. *)
From Verif Require Export SpecWorld EndProofs JsonFacts.

Lemma ind3 {A} (P : list A -> Prop) : P [] -> (forall a, P [a]) -> (forall a b, P [a; b]) -> (forall a b c r, P r -> P (a :: b :: c :: r)) -> forall l, P l.
Proof. intros H0 H1 H2 H3. fix F 1. intros [|a [|b [|c r]]]; [exact H0|apply H1|apply H2|apply H3, F]. Qed.

Lemma code_range a : 0 <= code a < 256.
Proof. unfold code. pose proof (N_ascii_bounded a). lia. Qed.
Lemma byte_code z a : z mod 256 = code a -> byte_of z = a.
Proof. intros H. unfold byte_of. rewrite H. unfold code. rewrite N2Z.id. apply ascii_N_embedding. Qed.

Lemma val_char i : 0 <= i < 64 -> b64_val (b64_char i) = Some i.
Proof.
  intros H. assert (T : forallb (fun n => match b64_val (b64_char (Z.of_nat n)) with Some j => Z.eqb j (Z.of_nat n) | None => false end) (seq 0 64) = true) by (vm_compute; reflexivity).
  rewrite forallb_forall in T. specialize (T (Z.to_nat i)). rewrite in_seq in T. specialize (T ltac:(lia)). rewrite Z2Nat.id in T by lia.
  destruct (b64_val (b64_char i)) as [j|]; [|discriminate]. apply Z.eqb_eq in T. congruence.
Qed.
Lemma val_pad : b64_val "="%char = None.
Proof. vm_compute. reflexivity. Qed.
Lemma mod64 v : 0 <= v mod 64 < 64.
Proof. apply Z.mod_pos_bound. lia. Qed.

Lemma b64_go_four x y z w r : 0 <= x < 64 -> 0 <= y < 64 -> 0 <= z < 64 -> 0 <= w < 64 ->
  b64_go (b64_char x :: b64_char y :: b64_char z :: b64_char w :: r) [] = rbind (b64_go r []) (fun rest => Ok (quantum x y z w ++ rest)).
Proof. intros. cbn [b64_go]. rewrite !val_char by auto. cbn [app]. reflexivity. Qed.
Lemma b64_roundtrip b : b64_decode (b64_encode b) = Ok b.
Proof.
  unfold b64_decode. induction b as [|a|a b|a b c r IH] using ind3; [reflexivity| | |].
  - cbn [b64_encode]. cbv zeta. cbn [b64_go]. rewrite !val_char by apply mod64. cbn [app]. rewrite val_pad.
    change (is_nl "="%char) with false. cbn [Ascii.eqb Bool.eqb b64_pad skip_nl]. change (is_nl "="%char) with false. cbn [Ascii.eqb Bool.eqb skip_nl].
    unfold quantum. cbv zeta. cbn [firstn]. rewrite (byte_code _ a); [reflexivity|]. pose proof (code_range a). Z.to_euclidean_division_equations. lia.
  - cbn [b64_encode]. cbv zeta. cbn [b64_go]. rewrite !val_char by apply mod64. cbn [app]. rewrite val_pad.
    change (is_nl "="%char) with false. cbn [Ascii.eqb Bool.eqb b64_pad skip_nl].
    unfold quantum. cbv zeta. cbn [firstn]. pose proof (code_range a). pose proof (code_range b).
    rewrite (byte_code _ a), (byte_code _ b); [reflexivity| |]; Z.to_euclidean_division_equations; lia.
  - cbn [b64_encode]. cbv zeta. rewrite b64_go_four by apply mod64. rewrite IH. cbn [rbind]. unfold quantum. cbv zeta.
    pose proof (code_range a). pose proof (code_range b). pose proof (code_range c).
    rewrite (byte_code _ a), (byte_code _ b), (byte_code _ c); [reflexivity| | |]; Z.to_euclidean_division_equations; lia.
Qed.

(* the bits *)
Lemma bit_eq x y i j : (x / 2 ^ Z.of_nat i) mod 2 = (y / 2 ^ Z.of_nat j) mod 2 -> bit x i = bit y j.
Proof. intros H. unfold bit. rewrite !Zmod_odd in H. destruct (Z.odd (x / 2 ^ Z.of_nat i)), (Z.odd (y / 2 ^ Z.of_nat j)); auto; discriminate. Qed.
Lemma bit_0 x i : (x / 2 ^ Z.of_nat i) mod 2 = 0 -> bit x i = false.
Proof. intros H. unfold bit. rewrite Zmod_odd in H. destruct (Z.odd (x / 2 ^ Z.of_nat i)); auto; discriminate. Qed.
Ltac bitgoal := first [apply bit_eq | apply bit_0]; cbn [Z.of_nat Pos.of_succ_nat Pos.succ Z.pow Z.pow_pos Pos.iter Z.mul Pos.mul]; Z.to_euclidean_division_equations; lia.

Lemma char_nth v : 0 <= v -> b64_char v = nth (Z.to_nat v) b64_alphabet "="%char.
Proof. reflexivity. Qed.
Lemma bits_three a b c : 0 <= a < 256 -> 0 <= b < 256 -> 0 <= c < 256 -> let val := a * 65536 + b * 256 + c in
  bits 6 (val / 262144 mod 64) ++ bits 6 (val / 4096 mod 64) ++ bits 6 (val / 64 mod 64) ++ bits 6 (val mod 64) = bits 8 a ++ bits 8 b ++ bits 8 c.
Proof. intros A B C val. unfold bits. cbn [seq rev map app]. repeat (match goal with |- _ :: _ = _ :: _ => apply (f_equal2 cons) end); [..|reflexivity]; subst val; bitgoal. Qed.
Lemma bits_two a b : 0 <= a < 256 -> 0 <= b < 256 -> let val := a * 65536 + b * 256 in
  bits 6 (val / 262144 mod 64) ++ bits 6 (val / 4096 mod 64) ++ bits 6 (val / 64 mod 64) = bits 8 a ++ bits 8 b ++ [false; false].
Proof. intros A B val. unfold bits. cbn [seq rev map app]. repeat (match goal with |- _ :: _ = _ :: _ => apply (f_equal2 cons) end); [..|reflexivity]; subst val; bitgoal. Qed.
Lemma bits_one a : 0 <= a < 256 -> let val := a * 65536 in
  bits 6 (val / 262144 mod 64) ++ bits 6 (val / 4096 mod 64) = bits 8 a ++ [false; false; false; false].
Proof. intros A val. unfold bits. cbn [seq rev map app]. repeat (match goal with |- _ :: _ = _ :: _ => apply (f_equal2 cons) end); [..|reflexivity]; subst val; bitgoal. Qed.

Lemma p_C124_base64 : forall b, rfc4648 b (b64_encode b) /\ b64_decode (b64_encode b) = Ok b.
Proof.
  intros b. split; [|apply b64_roundtrip]. unfold rfc4648. change (list_ascii_of_string _) with b64_alphabet.
  induction b as [|a|a b|a b c r IH] using ind3.
  - exists [], 0%nat, 0%nat. repeat split; try lia; [constructor|exists 0%nat; reflexivity].
  - pose proof (bits_one (code a) (code_range a)) as B. cbv zeta in B. cbn [b64_encode]. cbv zeta. set (v := code a * 65536) in *.
    exists [Z.to_nat (v / 262144 mod 64); Z.to_nat (v / 4096 mod 64)], 2%nat, 4%nat. split; [reflexivity|]. split; [|split; [|split; [lia|split; [lia|exists 1%nat; reflexivity]]]].
    + pose proof (mod64 (v / 262144)). pose proof (mod64 (v / 4096)). repeat (constructor; [lia|]); constructor.
    + cbn [flat_map app repeat]. rewrite !Z2Nat.id by apply mod64. rewrite !app_nil_r. exact B.
  - pose proof (bits_two (code a) (code b) (code_range a) (code_range b)) as B. cbv zeta in B. cbn [b64_encode]. cbv zeta. set (v := code a * 65536 + code b * 256) in *.
    exists [Z.to_nat (v / 262144 mod 64); Z.to_nat (v / 4096 mod 64); Z.to_nat (v / 64 mod 64)], 1%nat, 2%nat.
    split; [reflexivity|]. split; [|split; [|split; [lia|split; [lia|exists 1%nat; reflexivity]]]].
    + pose proof (mod64 (v / 262144)). pose proof (mod64 (v / 4096)). pose proof (mod64 (v / 64)). repeat (constructor; [lia|]); constructor.
    + cbn [flat_map repeat]. rewrite !Z2Nat.id by apply mod64. rewrite app_nil_r. rewrite B, <- !app_assoc. reflexivity.
  - destruct IH as (idx & pad & fill & He & F & Bt & Hf & Hp & n & Hn).
    pose proof (bits_three (code a) (code b) (code c) (code_range a) (code_range b) (code_range c)) as B. cbv zeta in B. cbn [b64_encode]. cbv zeta. set (v := code a * 65536 + code b * 256 + code c) in *. rewrite He. rewrite He in Hn.
    exists (Z.to_nat (v / 262144 mod 64) :: Z.to_nat (v / 4096 mod 64) :: Z.to_nat (v / 64 mod 64) :: Z.to_nat (v mod 64) :: idx), pad, fill.
    split; [reflexivity|]. split; [|split; [|split; [lia|split; [lia|exists (S n); cbn [List.length]; rewrite Hn; lia]]]].
    + pose proof (mod64 (v / 262144)). pose proof (mod64 (v / 4096)). pose proof (mod64 (v / 64)). pose proof (mod64 v). repeat (constructor; [lia|]). exact F.
    + cbn [flat_map]. rewrite !Z2Nat.id by apply mod64. rewrite Bt, !app_assoc. rewrite !app_assoc in B. rewrite B. reflexivity.
Qed.

Definition plain_char (c : ascii) : bool := negb (Ascii.eqb c cDQ) && negb (Ascii.eqb c cBS) && negb (N_of_ascii c <? 32)%N.
Lemma char_plain i : plain_char (b64_char i) = true.
Proof.
  unfold b64_char. destruct (Nat.lt_ge_cases (Z.to_nat i) 64) as [H|H]; [|rewrite nth_overflow; [reflexivity|exact H]].
  assert (T : forallb plain_char b64_alphabet = true) by (vm_compute; reflexivity). rewrite forallb_forall in T. apply T. apply nth_In. exact H.
Qed.
Lemma encode_plain b : forallb plain_char (b64_encode b) = true.
Proof.
  induction b as [|a|a b|a b c r IH] using ind3; [reflexivity| | |]; cbn [b64_encode]; cbv zeta; cbn [forallb]; rewrite !char_plain, ?IH; reflexivity.
Qed.
Lemma parse_plain t r : forallb plain_char t = true -> parse_str (t ++ cDQ :: r) = Some (string_of_list_ascii t, r).
Proof.
  induction t as [|c t IH]; intros H; [reflexivity|]. cbn [forallb] in H. apply andb_true_iff in H as (A & B). unfold plain_char in A. apply andb_true_iff in A as (A & A3). apply andb_true_iff in A as (A1 & A2).
  apply negb_true_iff in A1, A2, A3. cbn [app parse_str]. rewrite A1, A2, A3, (IH B). reflexivity.
Qed.
Lemma slice_roundtrip v d bs : json_of_slice v = Ok bs -> slice_of_json bs (Some d) = Ok v.
Proof.
  intros H. injection H as <-. unfold slice_of_json. destruct v as [b|]; [|reflexivity]. cbn [parse_value List.length skip_ws]. change (is_ws cDQ) with false. cbn iota.
  change (Ascii.eqb cDQ cLB) with false. change (Ascii.eqb cDQ cLS) with false. change (Ascii.eqb cDQ cDQ) with true. cbn iota.
  rewrite parse_plain by apply encode_plain. cbn [skip_ws]. unfold str_bytes. rewrite list_ascii_of_string_of_list_ascii, b64_roundtrip. reflexivity.
Qed.

Lemma world_sent v b : world_packs v = Ok b -> blen b < 2 ^ 31 -> sent slice_env 0 (Msg 1 None (Some v), None) b.
Proof.
  intros P L. split; [exact P|]. split; [exact L|]. split; [intros X; lia|]. split; [split; vm_compute; congruence|]. split; [apply json_hdr_roundtrips; reflexivity|reflexivity].
Qed.
Lemma world_received v b : world_packs v = Ok b -> blen b < 2 ^ 31 -> world_line b = Some (slice_text v).
Proof.
  intros P L. pose proof (sent_received slice_env 0 (Msg 1 None (Some v), None) b (Ctx true None 0 (of_bytes b)) (world_sent v b P L) (gwf_of_bytes b) (gbytes_of_bytes b)) as R.
  destruct (R None) as (m & B & _ & _ & Hb).
  { intros v' X bs Y _. injection X as <-. apply slice_roundtrip. exact Y. }
  cbn [fst snd msg_body] in *. unfold BindWithMarshaller in B. cbn [c_stream NewPackx] in B. unfold world_line.
  change (NewPackx slice_env None) with (JsonMarshaller slice_env) in B. rewrite B. destruct Hb as [-> |(_ & C)]; [reflexivity|].
  exfalso. cbn in C. unfold json_of_slice in C. injection C as C. destruct v; discriminate C.
Qed.

Lemma p_C124_prints : forall vs bs en r,
  Forall2 (fun v b => world_packs v = Ok b /\ blen b < 2 ^ 31) vs bs -> segmentation (concat bs) en r ->
  world_prints r = map (fun v => Some (as_line v)) vs /\ snd (serve_reads json_hdr 0 r) = at_end en.
Proof.
  change as_line with slice_text.
  intros vs bs en r F Hs. assert (F' : Forall2 (sent slice_env 0) (map (fun v => (Msg 1 None (Some v), None)) vs) bs).
  { clear Hs. induction F as [|v b vs bs (P & L) _ IH]; constructor; auto. apply world_sent; auto. }
  destruct (p_C69_delivered_as_sent slice_env 0 _ bs en r F' Hs) as (D & _). change (e_hdr slice_env) with json_hdr in D. unfold world_prints. rewrite D. cbn [fst snd]. split; auto.
  clear F' D Hs. induction F as [|v b vs bs (P & L) _ IH]; [reflexivity|]. cbn [map flat_map app]. rewrite (world_received v b P L), IH. reflexivity.
Qed.

Lemma p_C124_packs : forall m, exists b, world_packs (Some m) = Ok b /\ blen b = 22 + 4 * ((blen m + 2) / 3).
Proof.
  intros m. eexists. split; [reflexivity|]. rewrite assemble_length. cbn [blen List.length app]. unfold blen at 2. cbn [List.length]. rewrite app_length. cbn [List.length].
  change (blen (str_bytes "null")) with 4. assert (L : blen (b64_encode m) = 4 * ((blen m + 2) / 3)).
  { clear. induction m as [|a|a b|a b c r IH] using ind3; [reflexivity|reflexivity|reflexivity|]. unfold blen in *. cbn [b64_encode List.length]. cbv zeta. cbn [List.length].
    rewrite !Nat2Z.inj_succ, IH. Z.to_euclidean_division_equations. lia. }
  unfold blen in *. lia.
Qed.

Lemma unjson_no_panic bs d : slice_of_json bs d <> Panic.
Proof.
  unfold slice_of_json. destruct d; [|discriminate]. destruct (parse_value _ bs) as [[v r]|]; [|discriminate]. destruct (skip_ws r); [|destruct v; discriminate].
  destruct v as [| | | |s| |]; try discriminate. assert (G : forall l q, b64_go l q <> Panic).
  { clear. induction l as [|c l IH]; intros q; cbn [b64_go]; [destruct q; discriminate|]. destruct (b64_val c).
    - destruct q as [|x [|y [|w [|]]]]; auto. specialize (IH []). destruct (b64_go l []); cbn [rbind]; congruence.
    - destruct (is_nl c); auto. destruct (Ascii.eqb c "="); [|discriminate]. unfold b64_pad. destruct q as [|x [|y [|w [|]]]]; try discriminate.
      + destruct (skip_nl l) as [|c' l']; [discriminate|]. destruct (Ascii.eqb c' "="); [|discriminate]. destruct (skip_nl l'); discriminate.
      + destruct (skip_nl l); discriminate. }
  unfold b64_decode. specialize (G (str_bytes s) []). destruct (b64_go (str_bytes s) []); cbn [rbind]; congruence.
Qed.
Lemma hdr_no_panic bs : hunmarshal json_hdr bs <> Panic.
Proof. cbn [hunmarshal json_hdr]. destruct (parse_value _ bs) as [[v r]|]; [|discriminate]. destruct (skip_ws r); [destruct v|]; discriminate. Qed.

Lemma p_C124_always_a_line : forall id hdr body b, frame_layout id hdr body b -> blen b < 2 ^ 31 ->
  exists t, world_line b = Some t /\
    ((hdr = [] \/ exists hd, hunmarshal json_hdr hdr = Ok hd) -> body <> [] ->
      (forall v, slice_of_json body (Some None) = Ok v -> t = as_line v)) /\
    ((hdr <> [] /\ forall hd, hunmarshal json_hdr hdr <> Ok hd) \/ body = [] \/ (forall v, slice_of_json body (Some None) <> Ok v) -> t = []).
Proof.
  change as_line with slice_text.
  intros id hdr body b F L. unfold world_line, PackxUnpack.
  rewrite (Unpack_layout slice_env id hdr body b [] (of_bytes b)); [|exact F|lia|cbn; symmetry; apply app_nil_r]. change (e_hdr slice_env) with json_hdr.
  assert (Hh : exists rh, match hdr with [] => Ok None | _ => hunmarshal json_hdr hdr end = rh /\ rh <> Panic /\
    ((hdr = [] \/ exists hd, hunmarshal json_hdr hdr = Ok hd) -> exists hd, rh = Ok hd) /\ ((hdr <> [] /\ forall hd, hunmarshal json_hdr hdr <> Ok hd) -> exists e, rh = Err e)).
  { destruct hdr as [|c hdr]; eexists; (split; [reflexivity|]); [split; [discriminate|split; [eauto|intros (X & _); contradiction]]|].
    pose proof (hdr_no_panic (c :: hdr)) as N. split; [exact N|]. split; [intros [X|X]; [discriminate|exact X]|]. intros (_ & X). destruct (hunmarshal json_hdr (c :: hdr)) as [hd|e|]; [destruct (X hd eq_refl)|eauto|contradiction]. }
  destruct Hh as (rh & -> & Np & H1 & H2). destruct rh as [hd|e|]; [|exists []; cbn [rbind]; split; [reflexivity|split; [intros X; destruct (H1 X); discriminate|auto]]|contradiction].
  cbn [rbind]. change (m_unmarshal (or_json slice_env (Some (JsonMarshaller slice_env)))) with slice_of_json.
  destruct body as [|c body]; [exists []; cbn; split; [reflexivity|split; [contradiction|auto]]|].
  pose proof (unjson_no_panic (c :: body) (Some None)) as Nb. destruct (slice_of_json (c :: body) (Some None)) as [v|e|] eqn:Eb; [| |contradiction].
  - exists (slice_text v). cbn [rbind indirect msg_body]. split; [reflexivity|]. split; [congruence|]. intros [X|[X|X]]; [destruct (H2 X); discriminate|discriminate|destruct (X v eq_refl)].
  - exists []. cbn [rbind]. split; [reflexivity|]. split; [congruence|auto].
Qed.

Lemma marker_valid n : valid_header (Some [("[tcpx-buffer-in-serial]"%string, JStr (String.append "enable;" (itoa n)))]) = true.
Proof.
  cbn [valid_header jvalid nodup_keys forallb fst snd ahas negb andb]. cbn [ascii_str String.append]. rewrite !andb_true_r. change (ascii_str (itoa n) = true).
  assert (U : forall d, ascii_str (DecimalString.NilEmpty.string_of_uint d) = true) by (induction d; cbn; auto). assert (Z0 : forall d, ascii_str (DecimalString.NilZero.string_of_uint d) = true).
  { intros d. destruct (nilzero_uint d) as [-> | ->]; [apply U|reflexivity]. }
  unfold itoa. destruct (Z.to_int n); cbn [DecimalString.NilZero.string_of_int]; [apply Z0|]. cbn [ascii_str]. rewrite Z0. reflexivity.
Qed.
Lemma block_line h p b : hdr_roundtrips json_hdr h -> json_block slice_env h p b -> blen b < 2 ^ 31 ->
  world_line b = Some (match snd p with Some v => slice_text v | None => [] end).
Proof.
  intros (hb' & h' & M & Ne & U & _) (hb & bb & M' & B & L & F) Lb. change (e_hdr slice_env) with json_hdr in M'. rewrite M in M'. injection M' as <-. specialize (F ltac:(lia)).
  destruct (p_C124_always_a_line _ _ _ _ F Lb) as (t & -> & H1 & H2). f_equal. destruct p as [z [v|]]; cbn [snd body_encoding] in *.
  - cbn in B. pose proof (slice_roundtrip v None bb B) as R. assert (bb <> []) by (unfold json_of_slice in B; destruct v; injection B as <-; discriminate). apply H1; eauto.
  - subst bb. apply H2. auto.
Qed.

Lemma p_C124_piped : forall args w rest en r, PipeJSON slice_env args None = (Ok tt, [w]) -> Z.of_nat (List.length args) <= 2 ^ 45 -> blen w < 2 ^ 31 ->
  segmentation (w ++ rest) en r ->
  exists ps r', pairing arg_id arg_val ps args /\ segmentation rest en r' /\
    world_prints r = map (fun p => Some (match snd p with Some v => as_line v | None => [] end)) ps ++ world_prints r'.
Proof.
  change as_line with slice_text.
  intros args w rest en r P La Lw Hs. destruct (p_C18_piped_arrives slice_env args w 0 rest en r P La (json_hdr_roundtrips _ (marker_valid _)) Lw ltac:(intros X; lia) Hs) as (ps & blocks & r' & Pa & B & Lb & Cw & Hs' & E).
  exists ps, r'. split; [exact Pa|]. split; [exact Hs'|]. unfold world_prints. change (e_hdr slice_env) with json_hdr in E. rewrite E. cbn [fst flat_map]. f_equal.
  assert (S : Forall (fun b => blen b < 2 ^ 31) blocks).
  { clear - Cw Lw. revert w Cw Lw. induction blocks as [|b bs IH]; intros w C L; constructor; cbn [concat] in C; subst w; rewrite blen_app in L; pose proof (blen_nonneg b); pose proof (blen_nonneg (concat bs)); [lia|]. apply (IH (concat bs)); auto; lia. }
  clear - B S. unfold batch in B. destruct ps as [|p ps], blocks as [|b bs]; try contradiction; [reflexivity|]. destruct B as (B & F). inversion S as [|? ? S0 S1]; subst. cbn [map].
  rewrite (block_line _ _ _ (json_hdr_roundtrips _ (marker_valid _)) B S0). f_equal. clear - F S1. induction F as [|p b ps bs B F IH]; [reflexivity|]. inversion S1; subst. cbn [map].
  rewrite (block_line _ _ _ (json_hdr_roundtrips None eq_refl) B), IH by auto. reflexivity.
Qed.

Lemma skip_nl_filter l : match skip_nl l with [] => filter (fun c => negb (is_nl c)) l = [] | c :: r => filter (fun c => negb (is_nl c)) l = c :: filter (fun c => negb (is_nl c)) r /\ is_nl c = false end.
Proof. induction l as [|c l IH]; [reflexivity|]. cbn [skip_nl filter]. destruct (is_nl c) eqn:N; cbn [negb]; auto. Qed.
Lemma skip_no_nl c l : is_nl c = false -> skip_nl (c :: l) = c :: l.
Proof. intros H. cbn [skip_nl]. rewrite H. reflexivity. Qed.

Lemma p_C124_line_ends : forall s, b64_decode s = b64_decode (filter (fun c => negb (Ascii.eqb c "010" || Ascii.eqb c "013")) s).
Proof.
  intros s. change (fun c => negb (Ascii.eqb c "010" || Ascii.eqb c "013")) with (fun c => negb (is_nl c)). unfold b64_decode. generalize (@nil Z).
  induction s as [|c s IH]; intros q; [reflexivity|]. cbn [filter]. destruct (is_nl c) eqn:N; cbn [negb].
  - cbn [b64_go]. assert (V : b64_val c = None). { unfold is_nl in N. apply orb_true_iff in N as [N|N]; apply Ascii.eqb_eq in N; subst c; vm_compute; reflexivity. } rewrite V, N. apply IH.
  - cbn [b64_go]. destruct (b64_val c).
    + destruct q as [|x [|y [|w [|]]]]; rewrite IH; reflexivity.
    + rewrite N. destruct (Ascii.eqb c "="); [|reflexivity]. unfold b64_pad. set (f := filter (fun c0 => negb (is_nl c0))) in *.
      assert (K : forall l, skip_nl (f l) = f l). { clear. intros l. pose proof (skip_nl_filter l) as H. destruct (skip_nl l); subst f; cbv beta in *; [rewrite H; reflexivity|]. destruct H as (-> & H). apply skip_no_nl. exact H. }
      rewrite !K. pose proof (skip_nl_filter s) as H. fold f in H. destruct (skip_nl s) as [|c' r'] eqn:Es.
      * rewrite H. reflexivity.
      * destruct H as (-> & H). rewrite K. pose proof (skip_nl_filter r') as H'. fold f in H'. destruct (skip_nl r') as [|c2 r2]; [rewrite H'; reflexivity|]. destruct H' as (-> & _). reflexivity.
Qed.
