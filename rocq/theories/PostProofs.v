(* C136: posts to the stream checker, NODEMO *)
From Verif Require Export SpecPost ToolProofs WorldProofs ProtoProofs JsonFacts.

Fixpoint fold_members (p : param) (m : list (string * jv)) : option param :=
  match m with
  | [] => Some p
  | (k, v) :: m' => match read_member p k v with Some p' => fold_members p' m' | None => None end
  end.

Lemma read_member_jeq p k v v' : jeq v v' -> read_member p k v = read_member p k v'.
Proof.
  intros J. unfold read_member. destruct J as [| | ? ? [-> | ->] | ? ? [-> | ->] | | |]; try reflexivity.
Qed.

Lemma read_members_rt m : Forall (fun kv => ascii_str (fst kv) = true /\ rt (snd kv)) m -> m <> [] ->
  forall f rest p, (List.length (join_comma (map memb m)) < f)%nat ->
  read_members (S f) (join_comma (map memb m) ++ cRB :: rest) p = match fold_members p m with Some p' => Some (p', rest) | None => None end.
Proof.
  induction m as [|[k v] m IH]; intros Hall Hne f rest p Hf; [contradiction|].
  inversion Hall as [|? ? [Hk Hv] Hm]; subst. cbn [fst snd] in *.
  assert (Hstep : forall tail, (List.length (enc v) < f)%nat -> numfree tail ->
     read_members (S f) (memb (k, v) ++ tail) p =
         match read_member p k v, skip_ws tail with
         | Some p', c3 :: r4 => if Ascii.eqb c3 cCO then read_members f r4 p'
                       else if Ascii.eqb c3 cRB then Some (p', r4) else None
         | _, _ => None end).
  { intros tail Hlen Htail. unfold memb, enc_string. cbn [fst snd].
    destruct f as [|f']; [lia|].
    destruct (Hv f' tail) as (v' & Hp & Hj); [lia|exact Htail|].
    rewrite (read_member_jeq p k v v' Hj).
    rewrite <- !app_assoc. cbn [app]. rewrite <- app_assoc. cbn [app].
    cbn [read_members]. rewrite skip_ws_head by reflexivity.
    change (Ascii.eqb cDQ cDQ) with true. cbv iota.
    rewrite parse_enc_string by exact Hk.
    rewrite skip_ws_head by reflexivity. change (Ascii.eqb cCL cCL) with true. cbv iota.
    rewrite Hp. reflexivity. }
  assert (Hlen_memb : (List.length (enc v) < List.length (memb (k, v)))%nat).
  { unfold memb. rewrite app_length. cbn [fst snd List.length]. lia. }
  destruct m as [|kv2 m].
  - cbn [map join_comma] in *. rewrite (Hstep (cRB :: rest)); [|lia|repeat split]. rewrite skip_ws_head by reflexivity.
    change (Ascii.eqb cRB cCO) with false. change (Ascii.eqb cRB cRB) with true. cbv iota. cbn [fold_members]. destruct (read_member p k v); reflexivity.
  - assert (Hjc : join_comma (map memb ((k, v) :: kv2 :: m)) = memb (k, v) ++ cCO :: join_comma (map memb (kv2 :: m))) by reflexivity.
    rewrite Hjc in *. rewrite app_length in Hf. cbn [List.length] in Hf. rewrite <- app_assoc.
    rewrite (Hstep ((cCO :: join_comma (map memb (kv2 :: m))) ++ cRB :: rest)); [|lia|repeat split].
    cbn [app skip_ws]. change (is_ws cCO) with false. change (Ascii.eqb cCO cCO) with true. cbv iota.
    destruct f as [|f']; [lia|]. cbn [fold_members]. destruct (read_member p k v) as [p'|]; [|reflexivity].
    apply (IH Hm ltac:(discriminate) f' rest p'). lia.
Qed.

Lemma memb_starts kv m : exists r, join_comma (map memb (kv :: m)) = cDQ :: r.
Proof. destruct m; unfold memb, enc_string; cbn; eexists; reflexivity. Qed.

Lemma bind_object m : Forall (fun kv => ascii_str (fst kv) = true /\ jvalid (snd kv) = true) m ->
  bind_param (object_text m) = match fold_members param0 m with Some p => Some (p_stream p, p_name p) | None => None end.
Proof.
  intros H. destruct m as [|kv m]; [reflexivity|]. destruct (memb_starts kv m) as (r & E).
  assert (F : Forall (fun kv => ascii_str (fst kv) = true /\ rt (snd kv)) (kv :: m)).
  { eapply Forall_impl; [|exact H]. intros a [A B]. split; [exact A|apply jvalid_rt; exact B]. }
  pose proof (read_members_rt (kv :: m) F ltac:(discriminate) (S (List.length (join_comma (map memb (kv :: m))))) [] param0 ltac:(lia)) as X.
  change (object_text (kv :: m)) with (cLB :: join_comma (map memb (kv :: m)) ++ [cRB]). rewrite E in *.
  unfold bind_param. assert (L : List.length (cLB :: (cDQ :: r) ++ [cRB]) = S (S (List.length (cDQ :: r)))) by (cbn [List.length]; rewrite app_length; cbn [List.length]; lia).
  rewrite L. cbn [app skip_ws] in *. change (is_ws cLB) with false. change (is_ws cDQ) with false. cbn iota. change (Ascii.eqb cLB cLB) with true. cbn iota.
  rewrite (skip_ws_head cDQ) by reflexivity. change (Ascii.eqb cDQ cRB) with false. cbn iota. rewrite X. destruct (fold_members param0 (kv :: m)); reflexivity.
Qed.

Definition safe_char (c : ascii) : bool := bytes_eqb (esc_char c) [c] && (N_of_ascii c <? 128)%N.

Lemma char_safe i : safe_char (b64_char i) = true.
Proof.
  unfold b64_char. destruct (Nat.lt_ge_cases (Z.to_nat i) 64) as [H|H]; [|rewrite nth_overflow; [reflexivity|exact H]].
  assert (T : forallb (fun n => safe_char (nth n b64_alphabet "="%char)) (seq 0 64) = true) by (vm_compute; reflexivity).
  rewrite forallb_forall in T. apply T. apply in_seq. lia.
Qed.

Lemma encode_safe b : forallb safe_char (b64_encode b) = true.
Proof.
  induction b as [|a|a b|a b c r IH] using ind3; [reflexivity| | |]; cbn [b64_encode]; cbv zeta; cbn [forallb]; rewrite !char_safe, ?IH; reflexivity.
Qed.

Lemma esc_plain t : forallb safe_char t = true -> esc_string (string_of_list_ascii t) = t.
Proof.
  induction t as [|c t IH]; intros H; [reflexivity|]. cbn [forallb] in H. apply andb_true_iff in H as (A & B). cbn [string_of_list_ascii esc_string]. rewrite IH by exact B.
  apply andb_true_iff in A as (A & _). apply bytes_eqb_spec in A. rewrite A. reflexivity.
Qed.

Lemma plain_ascii t : forallb safe_char t = true -> ascii_str (string_of_list_ascii t) = true.
Proof.
  induction t as [|c t IH]; intros H; [reflexivity|]. cbn [forallb] in H. apply andb_true_iff in H as (A & B). cbn [string_of_list_ascii ascii_str]. rewrite IH by exact B.
  apply andb_true_iff in A as (_ & A). rewrite A. reflexivity.
Qed.

Definition b64_string (b : bytes) : string := string_of_list_ascii (b64_encode b).

Lemma enc_b64 b : enc_string (b64_string b) = cDQ :: b64_encode b ++ [cDQ].
Proof. unfold enc_string, b64_string. rewrite (esc_plain _ (encode_safe b)). reflexivity. Qed.

Lemma param_object b name : param_json (Some b) name = object_text [("stream", JStr (b64_string b)); ("marshal_name", JStr name)]%string.
Proof.
  unfold param_json, object_text. cbn [map join_comma fst snd enc]. rewrite enc_b64. rewrite <- !app_assoc. cbn [app]. rewrite <- ?app_assoc. cbn [app]. rewrite <- ?app_assoc. reflexivity.
Qed.

Lemma lower_code c : (65 <= code c <= 90 -> code (lower c) = code c + 32) /\ (~ 65 <= code c <= 90 -> lower c = c).
Proof.
  unfold lower. split; intros H.
  - destruct (Z.leb_spec 65 (code c)); [|lia]. destruct (Z.leb_spec (code c) 90); [|lia]. cbn. rewrite code_byte_of. apply Z.mod_small. lia.
  - destruct (Z.leb_spec 65 (code c)), (Z.leb_spec (code c) 90); cbn; auto. lia.
Qed.

Lemma code_inj c d : code c = code d -> c = d.
Proof.
  intros H. transitivity (byte_of (code d)); [symmetry|]; apply byte_code; (rewrite Z.mod_small by apply code_range); auto.
Qed.

Lemma fold_ascii b : Forall (fun c => code c < 128) b -> fold_key b = map lower b.
Proof.
  induction b as [|c r IH]; intros H; [reflexivity|]. inversion H as [|? ? A B]; subst. specialize (IH B). cbn [map]. rewrite <- IH.
  cbn [fold_key]. destruct r as [|d r']; [reflexivity|]. destruct (Z.eqb_spec (code c) 197); [lia|]. reflexivity.
Qed.

(* a name of small letters and '_' *)
Definition small (b : bytes) : Prop := Forall (fun c => ~ 65 <= code c <= 90) b.

Lemma names_spells name key : small (str_bytes name) -> ascii_str key = true -> names_field name key = true <-> spells name key.
Proof.
  intros S A. assert (B : Forall (fun c => code c < 128) (str_bytes key)).
  { clear S. induction key as [|c key IH]; [constructor|]. cbn [ascii_str] in A. apply andb_true_iff in A as (A1 & A2). constructor; [|apply IH; exact A2]. apply N.ltb_lt in A1. unfold code. lia. }
  unfold names_field, spells. rewrite (fold_ascii _ B). rewrite bytes_eqb_spec. clear A B. generalize (str_bytes key). revert S. generalize (str_bytes name). clear.
  induction b as [|c n IH]; intros S k.
  - split; [destruct k; [constructor|discriminate]|intros H; inversion H; reflexivity].
  - inversion S as [|? ? S1 S2]; subst. split.
    + destruct k as [|d k]; [discriminate|]. cbn [map]. intros H. injection H as H1 H2. constructor; [|apply IH; assumption].
      destruct (lower_code d) as [L1 L2]. destruct (Z.leb_spec 65 (code d)), (Z.leb_spec (code d) 90); [|left; rewrite <- H1, L2 by lia; reflexivity..].
      right. rewrite <- H1. rewrite L1 by lia. lia.
    + intros H. inversion H as [|? d ? k' H1 H2]; subst. cbn [map]. f_equal; [|apply IH; assumption]. destruct (lower_code d) as [L1 L2]. apply code_inj.
      destruct H1 as [H1|[H0 H1]]; [rewrite L2 by lia; exact H1|rewrite L1 by lia; lia].
Qed.

Lemma small_names : small (str_bytes "stream") /\ small (str_bytes "marshal_name").
Proof. split; repeat constructor; vm_compute; intros [A B]; auto. Qed.

Lemma f2_len {A B} (R : A -> B -> Prop) l l' : Forall2 R l l' -> List.length l = List.length l'.
Proof. induction 1; cbn; congruence. Qed.

Lemma not_both key : ascii_str key = true -> spells "stream" key -> ~ spells "marshal_name" key.
Proof. intros A S M. apply f2_len in S, M. cbn in S, M. lia. Qed.

Lemma encoded_len b : List.length (b64_encode b) = (4 * ((List.length b + 2) / 3))%nat.
Proof.
  induction b as [|a|a b|a b c r IH] using ind3; [reflexivity..|]. cbn [b64_encode]. cbv zeta. cbn [List.length]. rewrite IH.
  replace (S (S (S (List.length r))) + 2)%nat with (List.length r + 2 + 1 * 3)%nat by lia. rewrite Nat.div_add by lia. lia.
Qed.

Definition spare_of (b : bytes) : nat := ((List.length b + 2) / 3 * 3 - List.length b)%nat.

Lemma read_stream p key b : ascii_str key = true -> spells "stream" key ->
  read_member p key (JStr (b64_string b)) = Some (Param (json_slice b (spare_of b)) (p_name p)).
Proof.
  intros A S. apply (names_spells _ _ (proj1 small_names) A) in S. unfold read_member. rewrite S. unfold b64_string, str_bytes. rewrite list_ascii_of_string_of_list_ascii, b64_roundtrip, encoded_len.
  replace (4 * ((List.length b + 2) / 3))%nat with ((List.length b + 2) / 3 * 4)%nat by lia. rewrite Nat.div_mul by lia. reflexivity.
Qed.

Definition valid_members (m : list (string * jv)) : Prop := Forall (fun kv => ascii_str (fst kv) = true /\ jvalid (snd kv) = true) m.

Lemma spare_le b : (spare_of b <= 2)%nat.
Proof.
  unfold spare_of. pose proof (Nat.div_mod (List.length b + 2) 3 ltac:(lia)) as D. pose proof (Nat.mod_upper_bound (List.length b + 2) 3 ltac:(lia)). lia.
Qed.

Lemma read_name p key s : ascii_str key = true -> spells "marshal_name" key -> read_member p key (JStr s) = Some (Param (p_stream p) s).
Proof.
  intros A S. unfold read_member. destruct (names_field "stream" key) eqn:X.
  - apply (names_spells _ _ (proj1 small_names) A) in X. destruct (not_both key A X S).
  - apply (names_spells _ _ (proj2 small_names) A) in S. rewrite S. reflexivity.
Qed.

Lemma read_other p key v : ascii_str key = true -> ~ spells "stream" key -> ~ spells "marshal_name" key -> read_member p key v = Some p.
Proof.
  intros A S N. unfold read_member. destruct (names_field "stream" key) eqn:X; [apply (names_spells _ _ (proj1 small_names) A) in X; contradiction|].
  destruct (names_field "marshal_name" key) eqn:Y; [apply (names_spells _ _ (proj2 small_names) A) in Y; contradiction|]. reflexivity.
Qed.

Lemma spells_dec name key : small (str_bytes name) -> ascii_str key = true -> {spells name key} + {~ spells name key}.
Proof.
  intros S A. pose proof (names_spells name key S A) as X. destruct (names_field name key); [left; apply X; reflexivity|right; intros Y; apply X in Y; discriminate].
Qed.

Lemma fold_values b name : forall m p, Forall (fun kv => ascii_str (fst kv) = true) m ->
  (forall k v, In (k, v) m -> spells "stream" k -> v = JStr (b64_string b)) ->
  (forall k v, In (k, v) m -> spells "marshal_name" k -> v = JStr name) ->
  exists p', fold_members p m = Some p' /\
    ((p_stream p = json_slice b (spare_of b) \/ exists k v, In (k, v) m /\ spells "stream" k) -> p_stream p' = json_slice b (spare_of b)) /\
    ((p_name p = name \/ exists k v, In (k, v) m /\ spells "marshal_name" k) -> p_name p' = name).
Proof.
  induction m as [|[k v] m IH]; intros p A H1 H2.
  - exists p. split; [reflexivity|]. split; intros [X|(k & v & [] & _)]; exact X.
  - inversion A as [|? ? A1 A2]; subst. cbn [fst] in A1. cbn [fold_members].
    assert (G1 : forall k v, In (k, v) m -> spells "stream" k -> v = JStr (b64_string b)) by (intros; eapply H1; [right; eassumption|assumption]).
    assert (G2 : forall k v, In (k, v) m -> spells "marshal_name" k -> v = JStr name) by (intros; eapply H2; [right; eassumption|assumption]).
    destruct (spells_dec "stream" k (proj1 small_names) A1) as [S|S]; [|destruct (spells_dec "marshal_name" k (proj2 small_names) A1) as [N|N]].
    + rewrite (H1 k v (or_introl eq_refl) S), (read_stream p k b A1 S). destruct (IH (Param (json_slice b (spare_of b)) (p_name p)) A2 G1 G2) as (p' & -> & P1 & P2).
      exists p'. split; [reflexivity|]. split; [intros _; apply P1; left; reflexivity|]. intros [X|(k' & v' & [X|X] & Y)]; [apply P2; left; exact X| |apply P2; right; eauto].
      injection X as <- <-. destruct (not_both k A1 S Y).
    + rewrite (H2 k v (or_introl eq_refl) N), (read_name p k name A1 N). destruct (IH (Param (p_stream p) name) A2 G1 G2) as (p' & -> & P1 & P2).
      exists p'. split; [reflexivity|]. split; [|intros _; apply P2; left; reflexivity]. intros [X|(k' & v' & [X|X] & Y)]; [apply P1; left; exact X| |apply P1; right; eauto].
      injection X as <- <-. contradiction.
    + rewrite (read_other p k v A1 S N). destruct (IH p A2 G1 G2) as (p' & -> & P1 & P2). exists p'. split; [reflexivity|].
      split; intros [X|(k' & v' & [X|X] & Y)]; try (injection X as <- <-; contradiction); first [apply P1|apply P2]; eauto.
Qed.

Lemma p_C136_any_client : forall m b s name, Forall (fun kv => ascii_str (fst kv) = true /\ jvalid (snd kv) = true) m ->
  str_bytes s = b64_encode b -> only_value "stream" m (JStr s) -> only_value "marshal_name" m (JStr name) ->
  exists spare, (spare <= 2)%nat /\ bind_param (object_text m) = Some (json_slice b spare, name).
Proof.
  intros m b s name V S ((k1 & I1 & S1) & O1) ((k2 & I2 & S2) & O2). exists (spare_of b). split; [apply spare_le|]. rewrite (bind_object m V).
  assert (s = b64_string b) as -> by (unfold b64_string; rewrite <- S; unfold str_bytes; rewrite string_of_list_ascii_of_string; reflexivity).
  destruct (fold_values b name m param0) as (p' & -> & P1 & P2).
  - eapply Forall_impl; [|exact V]. intros a [A _]. exact A.
  - intros k v I X. exact (O1 k v I X).
  - intros k v I X. exact (O2 k v I X).
  - rewrite P1, P2 by eauto. reflexivity.
Qed.

Lemma p_C136_posted : forall b name, ascii_str name = true ->
  exists spare, (spare <= 2)%nat /\ bind_param (param_json (Some b) name) = Some (json_slice b spare, name).
Proof.
  intros b name A. rewrite param_object. apply (p_C136_any_client _ b (b64_string b) name).
  - repeat constructor; cbn; auto. apply plain_ascii, encode_safe.
  - unfold b64_string, str_bytes. rewrite list_ascii_of_string_of_list_ascii. reflexivity.
  - split.
    + exists "stream"%string. split; [left; reflexivity|]. apply (names_spells "stream" "stream" (proj1 small_names) eq_refl). reflexivity.
    + intros k v [H|[H|[]]] S; injection H as <- <-; [reflexivity|]. apply f2_len in S. discriminate S.
  - split.
    + exists "marshal_name"%string. split; [right; left; reflexivity|]. apply (names_spells "marshal_name" "marshal_name" (proj2 small_names) eq_refl). reflexivity.
    + intros k v [H|[H|[]]] S; injection H as <- <-; [|reflexivity]. apply f2_len in S. discriminate S.
Qed.

Lemma encoded_longer b : (List.length b <= List.length (b64_encode b))%nat.
Proof. rewrite encoded_len. pose proof (Nat.div_mod (List.length b + 2) 3 ltac:(lia)) as D. pose proof (Nat.mod_upper_bound (List.length b + 2) 3 ltac:(lia)). lia. Qed.

Lemma posted_longer b name : blen b <= blen (param_json (Some b) name).
Proof.
  unfold param_json, blen. cbn [List.length]. rewrite !app_length. cbn [List.length]. rewrite !app_length. cbn [List.length]. rewrite !app_length. pose proof (encoded_longer b). lia.
Qed.

Lemma documented_ascii name f : In (name, f) documented_names -> ascii_str name = true.
Proof.
  intros H. assert (T : forallb (fun x => ascii_str (fst x)) documented_names = true) by reflexivity. rewrite forallb_forall in T. apply (T (name, f) H).
Qed.

Lemma p_C136_passes_partial : forall V (E : env V) u name f user body, In (name, f) documented_names ->
  hdr_roundtrips (e_hdr E) (Some []) -> body_roundtrips (format_marshaller E f) user (Some (user_of u f)) ->
  client_posts E (format_marshaller E f) name user = Ok body -> blen body < 2 ^ 32 ->
  exists m, serves_post E u body = Answers 200 (Some m) /\ msg_id m = 1 /\ header_eq (Some []) (msg_header m) /\
    (msg_body m = Some user \/ (msg_body m = Some (user_of u f) /\ body_encoding E (Some (format_marshaller E f)) (Some user) [])).
Proof.
  intros V E u name f user body N H B C L. unfold client_posts in C. destruct (PackxPack E (format_marshaller E f) 1 (Some user) []) as [buf| |] eqn:P; try discriminate. injection C as <-.
  destruct (p_C136_posted buf name (documented_ascii _ _ N)) as (spare & _ & X). unfold serves_post. rewrite X.
  pose proof (posted_longer buf name) as L2.
  destruct (p_C109_packed_passes_partial V E u name f (Msg 1 (Some []) (Some user)) buf spare N) as (m & M1 & M2 & M3 & M4); cbn [msg_id msg_header msg_body] in *; auto.
  - unfold is_int32, two31. lia.
  - intros v Q. injection Q as <-. exact B.
  - lia.
  - exists m. auto.
Qed.

Lemma posted_len b : blen (param_json (Some b) "protobuf") = 39 + blen (b64_encode b).
Proof.
  assert (E : param_json (Some b) "protobuf" = (cLB :: enc_string "stream" ++ [cCL; cDQ]) ++ b64_encode b ++ (cDQ :: cCO :: enc_string "marshal_name" ++ cCL :: enc_string "protobuf" ++ [cRB])).
  { unfold param_json. rewrite <- ?app_comm_cons, <- ?app_assoc. cbn [app]. rewrite <- ?app_assoc. reflexivity. }
  rewrite E, !blen_app. change (blen (cLB :: enc_string "stream" ++ [cCL; cDQ])) with 11. change (blen (cDQ :: cCO :: enc_string "marshal_name" ++ cCL :: enc_string "protobuf" ++ [cRB])) with 28. lia.
Qed.

Lemma p_C136_protobuf : forall t, utf8_text t -> blen t < 2 ^ 30 -> exists body m,
  client_posts user_env (ProtobufMarshaller user_env) "protobuf" (PbMsg t []) = Ok body /\
  serves_post user_env empty_users body = Answers 200 (Some m) /\ msg_id m = 1 /\ header_eq (Some []) (msg_header m) /\ msg_body m = Some (PbMsg t []).
Proof.
  intros t T L. destruct (p_C134_roundtrip t) as (w & W1 & W2); [lia|exact T|].
  assert (P : exists buf, PackxPack user_env (ProtobufMarshaller user_env) 1 (Some (PbMsg t [])) [] = Ok buf /\ buf = assemble 1 (str_bytes "{}") w).
  { unfold PackxPack, PackWithMarshaller. cbn [or_json msg_header msg_body msg_id]. cbn [m_marshal ProtobufMarshaller e_proto user_env]. rewrite W1. eexists. split; reflexivity. }
  destruct P as (buf & P & Eb). assert (Lw : blen w <= blen t + 11).
  { pose proof (p_C134_writes t [] ltac:(lia)) as (Z1 & Z2 & _). destruct t as [|c t]; [rewrite (Z1 eq_refl) in W1; injection W1 as <-; cbn; lia|].
    destruct (Z2 ltac:(discriminate) T) as (l & Sh & Q). rewrite Q in W1. assert (Ew : w = [byte_of 10] ++ l ++ (c :: t) ++ []) by congruence. rewrite Ew. destruct Sh as ((_ & _ & Sh & _) & _). unfold blen. rewrite !app_length. cbn [List.length]. lia. }
  assert (Lb : blen (param_json (Some buf) "protobuf") < 2 ^ 32).
  { pose proof (assemble_length 1 (str_bytes "{}") w) as A. rewrite <- Eb in A. change (blen (str_bytes "{}")) with 2 in A.
    rewrite posted_len. unfold blen at 1. rewrite encoded_len. unfold blen in A, L, Lw. pose proof (Nat.div_mod (List.length buf + 2) 3 ltac:(lia)) as D. lia. }
  destruct (p_C136_passes_partial pbmsg user_env empty_users "protobuf" FProtobuf (PbMsg t []) (param_json (Some buf) "protobuf")) as (m & M1 & M2 & M3 & M4).
  - cbn. tauto.
  - apply json_hdr_roundtrips. reflexivity.
  - intros bs Q _. cbn [m_unmarshal format_marshaller e_unproto user_env m_marshal e_proto] in *. rewrite W1 in Q. injection Q as <-. exact W2.
  - unfold client_posts. change (format_marshaller user_env FProtobuf) with (ProtobufMarshaller user_env). rewrite P. reflexivity.
  - exact Lb.
  - exists (param_json (Some buf) "protobuf"), m. split; [unfold client_posts; rewrite P; reflexivity|]. split; [exact M1|]. split; [exact M2|]. split; [exact M3|].
    destruct M4 as [M4|[M4 M5]]; [exact M4|]. rewrite M4. f_equal. cbn [body_encoding format_marshaller m_marshal e_proto user_env] in M5. rewrite W1 in M5. injection M5 as ->. symmetry. cbn in W2. injection W2 as <-. reflexivity.
Qed.

Lemma fold_app m : forall p m', fold_members p (m ++ m') = match fold_members p m with Some p' => fold_members p' m' | None => None end.
Proof. induction m as [|[k v] m IH]; intros p m'; [reflexivity|]. cbn [app fold_members]. destruct (read_member p k v); [apply IH|reflexivity]. Qed.

Lemma p_C136_last_counts : forall m k s b st name, Forall (fun kv => ascii_str (fst kv) = true /\ jvalid (snd kv) = true) m -> ascii_str k = true ->
  bind_param (object_text m) = Some (st, name) -> spells "stream" k -> str_bytes s = b64_encode b ->
  exists spare, bind_param (object_text (m ++ [(k, JStr s)])) = Some (json_slice b spare, name).
Proof.
  intros m k s b st name V A H K S. assert (s = b64_string b) as -> by (unfold b64_string; rewrite <- S; unfold str_bytes; rewrite string_of_list_ascii_of_string; reflexivity).
  rewrite (bind_object m V) in H. rewrite bind_object.
  - rewrite fold_app. destruct (fold_members param0 m) as [p|]; [|discriminate]. injection H as <- <-. cbn [fold_members]. rewrite (read_stream p k b A K). eexists. reflexivity.
  - apply Forall_app. split; [exact V|]. repeat constructor; [exact A|]. cbn. apply plain_ascii, encode_safe.
Qed.

Lemma fold_bad k v : ascii_str k = true -> (forall p, read_member p k v = None) -> forall m p, In (k, v) m -> fold_members p m = None.
Proof.
  intros A B. induction m as [|[k' v'] m IH]; intros p I; [destruct I|]. cbn [fold_members]. destruct I as [E|I]; [injection E as -> ->; rewrite B; reflexivity|].
  destruct (read_member p k' v'); [apply IH; exact I|reflexivity].
Qed.

Lemma fold_name : forall m p p', Forall (fun kv => ascii_str (fst kv) = true) m -> (forall k v, In (k, v) m -> ~ spells "marshal_name" k) ->
  fold_members p m = Some p' -> p_name p' = p_name p.
Proof.
  induction m as [|[k v] m IH]; intros p p' A N H; [injection H as <-; reflexivity|]. inversion A as [|? ? A1 A2]; subst. cbn [fst] in A1. cbn [fold_members] in H.
  destruct (read_member p k v) as [q|] eqn:Q; [|discriminate]. rewrite (IH q p' A2) by (auto; intros k' v' I; apply (N k' v'); right; exact I).
  unfold read_member in Q. destruct (names_field "stream" k).
  - destruct v; try discriminate; [injection Q as <-; reflexivity|]. destruct (b64_decode _); try discriminate. injection Q as <-. reflexivity.
  - destruct (names_field "marshal_name" k) eqn:Y; [|injection Q as <-; reflexivity]. apply (names_spells _ _ (proj2 small_names) A1) in Y. destruct (N k v (or_introl eq_refl) Y).
Qed.

Lemma p_C136_rejects : forall V (E : env V) u m, Forall (fun kv => ascii_str (fst kv) = true /\ jvalid (snd kv) = true) m ->
  (exists k v, In (k, v) m /\ (spells "stream" k \/ spells "marshal_name" k) /\ v <> JNull /\ forall s, v <> JStr s) \/
  (exists k s, In (k, JStr s) m /\ spells "stream" k /\ forall b, b64_decode (str_bytes s) <> Ok b) \/
  (forall k v, In (k, v) m -> ~ spells "marshal_name" k) ->
  serves_post E u (object_text m) = Answers 400 None.
Proof.
  intros V E u m W H. assert (A : forall k v, In (k, v) m -> ascii_str k = true) by (intros k v I; rewrite Forall_forall in W; exact (proj1 (W (k, v) I))).
  unfold serves_post. rewrite (bind_object m W). destruct H as [(k & v & I & S & N & T)|[(k & s & I & S & D)|N]].
  - rewrite (fold_bad k v (A k v I)); [reflexivity| |exact I]. intros p. destruct S as [S|S].
    + apply (names_spells _ _ (proj1 small_names) (A k v I)) in S. unfold read_member. rewrite S. destruct v; try reflexivity; [destruct (N eq_refl)|destruct (T s eq_refl)].
    + unfold read_member. destruct (names_field "stream" k) eqn:X; [apply (names_spells _ _ (proj1 small_names) (A k v I)) in X; destruct (not_both k (A k v I) X S)|].
      apply (names_spells _ _ (proj2 small_names) (A k v I)) in S. rewrite S. destruct v; try reflexivity; [destruct (N eq_refl)|destruct (T s eq_refl)].
  - rewrite (fold_bad k (JStr s) (A _ _ I)); [reflexivity| |exact I]. intros p. apply (names_spells _ _ (proj1 small_names) (A _ _ I)) in S. unfold read_member. rewrite S.
    destruct (b64_decode (str_bytes s)) as [b| |]; [destruct (D b eq_refl)|reflexivity..].
  - destruct (fold_members param0 m) as [p|] eqn:F; [|reflexivity]. apply (fold_name m param0 p) in F; [|eapply Forall_impl; [|exact W]; intros a [X _]; exact X|exact N].
    rewrite F. apply (proj1 (proj2 (p_C109_rejects V E u))). intros f [X|[X|[X|[X|[X|[X|[X|[X|[]]]]]]]]]; discriminate X.
Qed.

Lemma ws_code c : is_ws c = true <-> In (code c) [32; 9; 10; 13].
Proof.
  unfold is_ws, code. destruct (N_of_ascii c) as [|p] eqn:E; [split; [discriminate|intros [H|[H|[H|[H|[]]]]]; discriminate H]|].
  cbn [Z.of_N In]. rewrite !orb_true_iff, !N.eqb_eq. split.
  - intros [[[H|H]|H]|H]; inversion H; auto 9.
  - intros [H|[H|[H|[H|[]]]]]; inversion H; auto 9.
Qed.

Lemma blank_skip w t : blank w -> skip_ws (w ++ t) = skip_ws t.
Proof. induction 1 as [|c w H W IH]; cbn [app skip_ws]; auto. rewrite (proj2 (ws_code c) H). exact IH. Qed.

Lemma skip_nil_blank b : skip_ws b = [] <-> blank b.
Proof.
  split; [|intros H; rewrite <- (app_nil_r b), blank_skip by exact H; reflexivity]. induction b as [|c b IH]; cbn [skip_ws]; intros H; [constructor|].
  destruct (is_ws c) eqn:W; [|discriminate H]. constructor; [apply ws_code; exact W|apply IH; exact H].
Qed.

Lemma strip_some p b r : strip p b = Some r <-> b = p ++ r.
Proof.
  revert b. induction p as [|x p IH]; intros b; cbn [strip app]; [split; intros H; [inversion H; reflexivity|subst; reflexivity]|].
  destruct b as [|y b]; [split; discriminate|]. destruct (Ascii.eqb_spec x y) as [->|N]; [rewrite IH; split; intros H; [rewrite H; reflexivity|inversion H; reflexivity]|].
  split; [discriminate|intros H; inversion H; congruence].
Qed.

Lemma p_C136_no_object : forall w t x, blank w -> (forall r, t <> cLB :: r) -> (forall c r, t = c :: r -> ~ In (code c) [32; 9; 10; 13]) ->
  (bind_param (w ++ t) = Some x <-> x = (json_slice [] 0, ""%string) /\ exists w', blank w' /\ t = str_bytes "null" ++ w').
Proof.
  intros w t x W B S. unfold bind_param. rewrite (blank_skip _ _ W). destruct t as [|c t].
  - cbn [skip_ws]. split; [discriminate|]. intros (_ & w' & _ & H). discriminate H.
  - assert (NW : is_ws c = false) by (destruct (is_ws c) eqn:E; auto; apply ws_code in E; destruct (S c t eq_refl E)). cbn [skip_ws]. rewrite NW.
    destruct (Ascii.eqb_spec c cLB) as [->|N]; [destruct (B t eq_refl)|]. destruct (strip (str_bytes "null") (c :: t)) as [rest|] eqn:E.
    + apply strip_some in E. destruct (skip_ws rest) as [|z zs] eqn:R.
      * apply skip_nil_blank in R. split; [intros H; inversion H; subst; split; [reflexivity|exists rest; auto]|intros (-> & _); reflexivity].
      * split; [discriminate|]. intros (_ & w' & Wb & H). rewrite E in H. apply app_inv_head in H. subst w'. apply skip_nil_blank in Wb. congruence.
    + split; [discriminate|]. intros (_ & w' & _ & H). apply strip_some in H. congruence.
Qed.

Lemma small_letter c d : 95 <= code c <= 122 -> code c <> 96 -> (lower d = c <-> code d = code c \/ 97 <= code c <= 122 /\ code d = code c - 32).
Proof.
  intros S S'. destruct (lower_code d) as [L1 L2]. destruct (Z.leb_spec 65 (code d)), (Z.leb_spec (code d) 90).
  - split; [intros <-; rewrite L1 by lia; right; rewrite L1 in S by lia; lia|]. intros [H1|(H1 & H2)]; [lia|]. apply code_inj. rewrite L1 by lia. lia.
  - rewrite L2 by lia. split; [intros ->; auto|]. intros [H1|(H1 & H2)]; [apply code_inj; exact H1|lia].
  - rewrite L2 by lia. split; [intros ->; auto|]. intros [H1|(H1 & H2)]; [apply code_inj; exact H1|lia].
  - rewrite L2 by lia. split; [intros ->; auto|]. intros [H1|(H1 & H2)]; [apply code_inj; exact H1|lia].
Qed.

Lemma fold_counts : forall m k, (List.length k <= m)%nat -> forall n, Forall (fun c => 95 <= code c <= 122 /\ code c <> 96) n -> (fold_key k = n <-> counts_as n k).
Proof.
  induction m as [|m IH]; intros k L n F.
  - destruct k; [|cbn in L; lia]. cbn [fold_key]. split; [intros <-; constructor|intros H; inversion H; reflexivity].
  - destruct k as [|c [|d k]].
    + cbn [fold_key]. split; [intros <-; constructor|intros H; inversion H; reflexivity].
    + cbn [fold_key]. split.
      * intros <-. inversion F as [|? ? (F1 & F2) F3]; subst. apply counts_letter; [apply small_letter; auto|constructor].
      * intros H. inversion H as [|c0 d0 n0 k0 H1 H2|]; subst. inversion H2; subst. inversion F as [|? ? (F1 & F2) F3]; subst. f_equal. apply (small_letter c0 c); auto.
    + cbn [fold_key]. fold (fold_key (d :: k)). destruct (Z.eqb_spec (code c) 197) as [E1|E1]; [destruct (Z.eqb_spec (code d) 191) as [E2|E2]|]; cbn [andb].
      * split.
        -- intros <-. inversion F as [|? ? (F1 & F2) F3]; subst. apply counts_long; auto. apply IH; auto. cbn in L. lia.
        -- intros H. inversion H as [|c0 d0 n0 k0 H1 H2|c0 d0 e0 n0 k0 H1 H2 H3 H4]; subst; inversion F as [|? ? (F1 & F2) F3]; subst; [lia|]. f_equal; [apply code_inj; rewrite H1; reflexivity|]. apply IH; auto. cbn in L. lia.
      * change (match k with [] => [lower d] | d0 :: r' => if (code d =? 197) && (code d0 =? 191) then "s"%char :: fold_key r' else lower d :: fold_key k end) with (fold_key (d :: k)). split.
        -- intros <-. inversion F as [|? ? (F1 & F2) F3]; subst. apply counts_letter; [apply small_letter; auto|]. refine (proj1 (IH (d :: k) _ _ F3) eq_refl). cbn in *. lia.
        -- intros H. inversion H as [|c0 d0 n0 k0 H1 H2|]; subst; [|contradiction]. inversion F as [|? ? (F1 & F2) F3]; subst. f_equal; [apply small_letter; auto|]. refine (proj2 (IH (d :: k) _ n0 F3) H2). cbn in *. lia.
      * change (match k with [] => [lower d] | d0 :: r' => if (code d =? 197) && (code d0 =? 191) then "s"%char :: fold_key r' else lower d :: fold_key k end) with (fold_key (d :: k)). split.
        -- intros <-. inversion F as [|? ? (F1 & F2) F3]; subst. apply counts_letter; [apply small_letter; auto|]. refine (proj1 (IH (d :: k) _ _ F3) eq_refl). cbn in *. lia.
        -- intros H. inversion H as [|c0 d0 n0 k0 H1 H2|]; subst; [|contradiction]. inversion F as [|? ? (F1 & F2) F3]; subst. f_equal; [apply small_letter; auto|]. refine (proj2 (IH (d :: k) _ n0 F3) H2). cbn in *. lia.
Qed.

Lemma p_C136_keys : forall p key v,
  (names_field "stream" key = true <-> counts_as (str_bytes "stream") (str_bytes key)) /\
  (names_field "marshal_name" key = true <-> counts_as (str_bytes "marshal_name") (str_bytes key)) /\
  (~ counts_as (str_bytes "stream") (str_bytes key) -> ~ counts_as (str_bytes "marshal_name") (str_bytes key) -> read_member p key v = Some p).
Proof.
  intros p key v. assert (X : forall name, Forall (fun c => 95 <= code c <= 122 /\ code c <> 96) (str_bytes name) -> (names_field name key = true <-> counts_as (str_bytes name) (str_bytes key))).
  { intros name F. unfold names_field. rewrite bytes_eqb_spec. apply (fold_counts (List.length (str_bytes key))); auto. }
  assert (A : names_field "stream" key = true <-> counts_as (str_bytes "stream") (str_bytes key)) by (apply X; repeat constructor; vm_compute; congruence).
  assert (B : names_field "marshal_name" key = true <-> counts_as (str_bytes "marshal_name") (str_bytes key)) by (apply X; repeat constructor; vm_compute; congruence).
  split; [exact A|]. split; [exact B|]. intros N1 N2. unfold read_member. destruct (names_field "stream" key); [destruct N1; apply A; reflexivity|]. destruct (names_field "marshal_name" key); [destruct N2; apply B; reflexivity|]. reflexivity.
Qed.
