(* C135: the say-hello server and its clients, NODEMO *)
From Verif Require Export SpecSay HelloProofs ProtoProofs PyProofs EndProofs.

Lemma reply_bytes : hello_reply 1002 = [assemble 2 (str_bytes "{}") (cDQ :: str_bytes "hello" ++ [cDQ])] /\
  hello_reply 1004 = [assemble 4 (str_bytes "{}") (cDQ :: str_bytes "bye" ++ [cDQ])] /\
  hello_reply 1006 = [assemble 6 (str_bytes "{}") (cDQ :: str_bytes "my name is tcpx" ++ [cDQ])] /\
  hello_reply 1012 = [assemble 12 (str_bytes "{}") (byte_of 10 :: byte_of 15 :: str_bytes "hello,I am tcpx")].
Proof. repeat split; vm_compute; reflexivity. Qed.

Lemma say_binds (mo : option (marshaller hv)) id hdr hd body s d0 : gwf s -> is_int32 id -> frame_layout id hdr body (gbytes s) -> blen (gbytes s) < 2 ^ 31 ->
  hunmarshal json_hdr hdr = Ok hd ->
  ((exists m, UnpackWithMarshaller say_env s (Some d0) mo = Ok m) <->
   body = [] \/ exists v, m_unmarshal (match mo with Some x => x | None => JsonMarshaller say_env end) body (Some d0) = Ok v).
Proof.
  intros W I F L Hu. assert (Ga : gs_arr s = gbytes s ++ skipn (gs_len s) (gs_arr s)) by (unfold gbytes; symmetry; apply firstn_skipn).
  assert (L' : blen (gbytes s) < 2 ^ 32) by lia. split.
  - intros (m & H). apply (p_C07_unpack_frame_partial _ say_env id hdr body _ _ s d0 _ m I F L' Ga) in H as (_ & _ & [(B & _)|(_ & v & B & _)]); eauto.
  - intros H. set (hm := match hdr with [] => None | _ => hd end).
    assert (Hh : hdr = [] /\ hm = None \/ hdr <> [] /\ hunmarshal (e_hdr say_env) hdr = Ok hm) by (destruct hdr; [left; auto|right; split; [discriminate|exact Hu]]).
    destruct body as [|a body].
    + exists (Msg id hm (Some d0)). apply (p_C07_unpack_frame_partial _ say_env id hdr [] _ _ s d0 _ _ I F L' Ga). cbn [msg_id msg_header msg_body]. auto.
    + destruct H as [H|(v & H)]; [discriminate|]. exists (Msg id hm (Some v)). apply (p_C07_unpack_frame_partial _ say_env id hdr (a :: body) _ _ s d0 _ _ I F L' Ga). cbn [msg_id msg_header msg_body].
      split; [reflexivity|]. split; [exact Hh|]. right. split; [discriminate|]. exists v. auto.
Qed.

Lemma say_bind_json id hdr hd body cx : gwf (c_stream cx) -> is_int32 id -> frame_layout id hdr body (gbytes (c_stream cx)) -> blen (gbytes (c_stream cx)) < 2 ^ 31 ->
  hunmarshal json_hdr hdr = Ok hd -> id <> 11 ->
  (acceptable id body <-> exists m, Bind say_env (JsonMarshaller say_env) cx (Some (HStr "")) = Ok m).
Proof.
  intros W I F L Hu N. unfold Bind, PackxUnpack. rewrite (say_binds _ id hdr hd body _ _ W I F L Hu). unfold acceptable. apply Z.eqb_neq in N. rewrite N. reflexivity.
Qed.

Lemma say_bind_proto hdr hd body cx : gwf (c_stream cx) -> frame_layout 11 hdr body (gbytes (c_stream cx)) -> blen (gbytes (c_stream cx)) < 2 ^ 31 ->
  hunmarshal json_hdr hdr = Ok hd ->
  (acceptable 11 body <-> exists m, BindWithMarshaller say_env cx (Some (HPb (PbMsg [] []))) (Some (ProtobufMarshaller say_env)) = Ok m).
Proof.
  intros W F L Hu. unfold BindWithMarshaller, PackxUnpack, NewPackx, or_json. rewrite (say_binds _ 11 hdr hd body _ _ W ltac:(unfold is_int32, two31; lia) F L Hu). unfold acceptable. cbn [Z.eqb Pos.eqb].
  cbn [ProtobufMarshaller m_unmarshal say_env e_unproto say_proto_dec]. split; (intros [H|H]; [left; exact H|right]).
  - destruct H as (m & H). apply p_C134_reads in H. rewrite H. cbn [rbind]. eauto.
  - destruct H as (v & H). destruct (pb_unmarshal body) as [m| |] eqn:E; cbn [rbind] in H; try discriminate H. exists m. apply p_C134_reads. exact E.
Qed.

Lemma say_routed h c cx id body : message_on h c cx -> request (c_stream cx) id body -> fst (route json_hdr cx (crun json_hdr h)) = Ok (ById id).
Proof.
  intros (x & Nx & Bx & Rx & Lx & Ux) (W & I & L & hdr & hd & F & Hu & T).
  assert (Hst : c_stream cx = stream_of h x) by apply (stores_exact json_hdr h x cx k_router Nx).
  assert (M : is_message json_hdr (stream_of h x) id hd) by (rewrite <- Hst; unfold is_message; eauto 8).
  rewrite (p_C70_routed_by_own_header json_hdr h x c cx "MESSAGE_ID" id hd Nx Bx Rx) by
    (first [exact Lx|exact M|intros s R; destruct (Ux s R) as (id' & body' & W' & I' & L' & hdr' & hd' & F' & Hu' & T'); exists id', hd'; split; [unfold is_message; eauto 8|exact T']]).
  f_equal. unfold asked_routing. unfold asked_type in T. destruct (hget "Router-Type" hd) as [[]|]; try reflexivity. rewrite T. reflexivity.
Qed.

Lemma p_C135_answered : forall h c cx id body, message_on h c cx -> request (c_stream cx) id body ->
  exists tr st, say_handles cx (crun json_hdr h) = Some (tr, st) /\
  match answer_to id with
  | Some (rid, rbody) =>
      (acceptable id body -> st = Returned /\ exists b, hello_writes tr = [b] /\ frame_layout rid (str_bytes "{}") rbody b) /\
      (~ acceptable id body -> hello_writes tr = [] /\ (id <> 11 -> st = Panicked))
  | None => hello_writes tr = [] /\ st = Returned
  end.
Proof.
  intros h c cx id body M R. pose proof (say_routed h c cx id body M R) as Hr. destruct R as (W & I & L & hdr & hd & F & Hu & _).
  destruct reply_bytes as (R1 & R3 & R5 & R11).
  unfold say_handles. rewrite hello_eq. cbn [say_env e_hdr]. fold say_env. rewrite Hr, hello_plan. unfold answer_to.
  destruct (Z.eqb_spec id 1) as [->|N1]; [|destruct (Z.eqb_spec id 3) as [->|N3]; [|destruct (Z.eqb_spec id 5) as [->|N5]; [|destruct (Z.eqb_spec id 11) as [->|N11]]]].
  - rewrite hello_run1. pose proof (say_bind_json 1 hdr hd body cx W I F L Hu ltac:(lia)) as A. eexists _, _. split; [rewrite <- surjective_pairing; reflexivity|].
    rewrite A. destruct (Bind say_env (JsonMarshaller say_env) cx (Some (HStr ""))) as [m|e|]; cbn [fst snd].
    + split; [|intros X; destruct X; eauto]. intros _. split; [reflexivity|]. eexists. split; [cbn [hello_writes flat_map app]; rewrite R1; reflexivity|]. apply assemble_layout. vm_compute. reflexivity.
    + split; [intros (m & X); discriminate X|]. intros _. split; [reflexivity|auto].
    + split; [intros (m & X); discriminate X|]. intros _. split; [reflexivity|auto].
  - rewrite hello_run3. pose proof (say_bind_json 3 hdr hd body cx W I F L Hu ltac:(lia)) as A. eexists _, _. split; [rewrite <- surjective_pairing; reflexivity|].
    rewrite A. destruct (Bind say_env (JsonMarshaller say_env) cx (Some (HStr ""))) as [m|e|]; cbn [fst snd].
    + split; [|intros X; destruct X; eauto]. intros _. split; [reflexivity|]. eexists. split; [cbn [hello_writes flat_map app]; rewrite R3; reflexivity|]. apply assemble_layout. vm_compute. reflexivity.
    + split; [intros (m & X); discriminate X|]. intros _. split; [reflexivity|auto].
    + split; [intros (m & X); discriminate X|]. intros _. split; [reflexivity|auto].
  - rewrite hello_run5. pose proof (say_bind_json 5 hdr hd body cx W I F L Hu ltac:(lia)) as A. eexists _, _. split; [rewrite <- surjective_pairing; reflexivity|].
    rewrite A. destruct (Bind say_env (JsonMarshaller say_env) cx (Some (HStr ""))) as [m|e|]; cbn [fst snd].
    + split; [|intros X; destruct X; eauto]. intros _. split; [reflexivity|]. eexists. split; [cbn [hello_writes flat_map app]; rewrite R5; reflexivity|]. apply assemble_layout. vm_compute. reflexivity.
    + split; [intros (m & X); discriminate X|]. intros _. split; [reflexivity|auto].
    + split; [intros (m & X); discriminate X|]. intros _. split; [reflexivity|auto].
  - rewrite hello_run11. pose proof (say_bind_proto hdr hd body cx W F L Hu) as A. eexists _, _. split; [rewrite <- surjective_pairing; reflexivity|].
    rewrite A. destruct (BindWithMarshaller say_env cx (Some (HPb (PbMsg [] []))) (Some (ProtobufMarshaller say_env))) as [m|e|]; cbn [fst snd].
    + split; [|intros X; destruct X; eauto]. intros _. split; [reflexivity|]. eexists. split; [cbn [hello_writes flat_map app]; rewrite R11; reflexivity|]. apply assemble_layout. vm_compute. reflexivity.
    + split; [intros (m & X); discriminate X|]. intros _. split; [reflexivity|intros X; destruct X; reflexivity].
    + split; [intros (m & X); discriminate X|]. intros _. split; [reflexivity|intros X; destruct X; reflexivity].
  - destruct (Z.eqb_spec id 20) as [->|N20]; (eexists _, _; split; [reflexivity|split; reflexivity]).
Qed.

Lemma py_plain_str t r : forallb py_plain (str_bytes t) = true -> parse_str (str_bytes t ++ cDQ :: r) = Some (t, r).
Proof.
  induction t as [|c t IH]; intros H; [reflexivity|]. cbn [str_bytes list_ascii_of_string forallb app] in *. apply andb_true_iff in H as [Hc Ht].
  unfold py_plain in Hc. apply andb_true_iff in Hc as [Hc B]. apply andb_true_iff in Hc as [Hc D]. apply andb_true_iff in Hc as [Hl _].
  apply negb_true_iff in B, D. cbn [parse_str]. rewrite D, B.
  replace (N_of_ascii c <? 32)%N with false by (symmetry; apply N.ltb_ge; unfold code in Hl; apply Z.ltb_lt in Hl; lia).
  unfold str_bytes in IH. rewrite (IH Ht). reflexivity.
Qed.
Lemma say_unjson_plain t old : forallb py_plain (str_bytes t) = true -> say_unjson (cDQ :: str_bytes t ++ [cDQ]) (Some (HStr old)) = Ok (HStr t).
Proof.
  intros H. unfold say_unjson. cbn [parse_value skip_ws]. change (is_ws cDQ) with false. cbv iota.
  change (Ascii.eqb cDQ cLB) with false. change (Ascii.eqb cDQ cLS) with false. change (Ascii.eqb cDQ cDQ) with true. cbv iota.
  rewrite (py_plain_str t [] H). reflexivity.
Qed.

Lemma ascii_text_str t : ascii_text t -> ascii_str t = true.
Proof.
  unfold ascii_text. induction t as [|c t IH]; intros H; [reflexivity|]. cbn [str_bytes list_ascii_of_string] in H. inversion H as [|? ? Hc Ht]; subst.
  cbn [ascii_str]. rewrite (IH Ht), andb_true_r. apply N.ltb_lt. unfold code in Hc. lia.
Qed.
Lemma say_unjson_enc t old : ascii_text t -> say_unjson (enc (JStr t)) (Some (HStr old)) = Ok (HStr t).
Proof.
  intros H. unfold say_unjson. cbn [enc]. unfold enc_string. cbn [parse_value skip_ws List.length]. change (is_ws cDQ) with false. cbv iota.
  change (Ascii.eqb cDQ cLB) with false. change (Ascii.eqb cDQ cLS) with false. change (Ascii.eqb cDQ cDQ) with true. cbv iota.
  rewrite (parse_enc_string t [] (ascii_text_str t H)). reflexivity.
Qed.

Lemma says_unpack b id t : says b id t -> PackxUnpack say_env say_mar (of_bytes b) (Some (HStr "")) = Ok (Msg id (Some []) (Some (HStr t))).
Proof.
  intros (I & L & P & F). unfold PackxUnpack.
  apply (p_C07_unpack_frame_partial _ say_env id (str_bytes "{}") _ b [] (of_bytes b) (HStr "") (Some say_mar) _ I F ltac:(lia)); [cbn; symmetry; apply app_nil_r|].
  cbn [msg_id msg_header msg_body]. split; [reflexivity|]. split; [right; split; [discriminate|vm_compute; reflexivity]|]. right. split; [discriminate|]. exists (HStr t). split; [|reflexivity].
  exact (say_unjson_plain t "" P).
Qed.

Lemma p_C135_received : forall bs ms rest en r n, Forall2 (fun b m => says b (fst m) (snd m)) bs ms ->
  segmentation (concat bs ++ rest) en r ->
  exists r', segmentation rest en r' /\
  say_shows (List.length bs + n) r =
    (map (fun m => Msg (fst m) (Some []) (Some (HStr (snd m)))) ms ++ fst (say_shows n r'), snd (say_shows n r')).
Proof.
  intros bs ms rest en r n F S. revert r S. induction F as [|b m bs ms H F IH]; intros r S.
  - exists r. split; [exact S|]. cbn [List.length Nat.add map app]. apply surjective_pairing.
  - cbn [concat] in S. rewrite <- app_assoc in S. pose proof H as (I & L & P & Lay).
    assert (Hblk : is_block b) by (apply (layout_is_block (fst m) (str_bytes "{}") (cDQ :: str_bytes (snd m) ++ [cDQ])); [exact Lay|lia]).
    destruct (read_block_ok 0 false b _ en r Hblk ltac:(discriminate) S) as (r1 & E & S1). cbn in E.
    destruct (IH r1 S1) as (r' & S' & E'). exists r'. split; [exact S'|]. cbn [List.length Nat.add say_shows]. unfold FirstBlockOf. rewrite E, (says_unpack _ _ _ H), E'. reflexivity.
Qed.

Lemma p_C135_outlives_refuted : forall bs ms en r n, Forall2 (fun b m => says b (fst m) (snd m)) bs ms -> segmentation (concat bs) en r -> (List.length bs < n)%nat ->
  say_shows n r = (map (fun m => Msg (fst m) (Some []) (Some (HStr (snd m)))) ms, match en with StaysOpen => Waiting | Fails _ => Crashed end).
Proof.
  intros bs ms en r n F S L. rewrite <- (app_nil_r (concat bs)) in S. destruct (p_C135_received bs ms [] en r (n - List.length bs) F S) as (r' & S' & E).
  replace (List.length bs + (n - List.length bs))%nat with n in E by lia. rewrite E. destruct (n - List.length bs)%nat as [|k] eqn:K; [lia|]. clear E.
  cbn [say_shows]. unfold FirstBlockOf. destruct en as [|e].
  - pose proof (p_C14_silence [] 0 r' 1 (Forall_nil _) S' ltac:(cbn; lia)) as X. cbn [recv whole fst] in X. unfold FirstBlockOf in X.
    destruct (UnpackToBlockFromReader r') as [[buf|e'| |] r'']; try discriminate X. cbn [fst snd]. rewrite app_nil_r. reflexivity.
  - destruct (p_C14_truncation [] 0 e r' 1 (Forall_nil _) S' ltac:(cbn; lia)) as (seen & X & _). cbn [recv whole fst] in X. unfold FirstBlockOf in X.
    destruct (UnpackToBlockFromReader r') as [[buf|e'| |] r'']; try discriminate X. cbn [fst snd]. rewrite app_nil_r. reflexivity.
Qed.

Lemma say_esc_len c : blen (esc_char c) <= 6.
Proof. destruct c as [[] [] [] [] [] [] [] []]; vm_compute; discriminate. Qed.
Lemma say_enc_len t : blen (enc (JStr t)) <= 6 * blen (str_bytes t) + 2.
Proof.
  cbn [enc]. unfold enc_string. assert (X : blen (esc_string t) <= 6 * blen (str_bytes t)).
  { induction t as [|c t IH]; [vm_compute; discriminate|]. cbn [esc_string str_bytes list_ascii_of_string]. fold (str_bytes t). rewrite blen_app. change (blen (c :: str_bytes t)) with (blen ([c] ++ str_bytes t)). rewrite blen_app. change (blen [c]) with 1. pose proof (say_esc_len c). lia. }
  change (blen (cDQ :: esc_string t ++ [cDQ])) with (blen ([cDQ] ++ esc_string t ++ [cDQ])). rewrite !blen_app. change (blen [cDQ]) with 1. lia.
Qed.

Lemma say_packs_eq t : say_packs t = Ok (assemble 5 (enc (JObj [("api"%string, JStr "/tcpx/client1/")])) (enc (JStr t))).
Proof. reflexivity. Qed.

Lemma p_C135_sent : forall t, ascii_text t -> 6 * blen (str_bytes t) < 2 ^ 31 - 1000 -> exists b body, say_packs t = Ok b /\
  (forall s, gwf s -> gbytes s = b -> request s 5 body) /\ acceptable 5 body /\
  forall n en r, segmentation (concat (repeat b n)) en r -> serve_reads json_hdr 0 r = (map SDispatch (repeat b n), at_end en).
Proof.
  intros t A L. set (hb := enc (JObj [("api"%string, JStr "/tcpx/client1/")])). rewrite say_packs_eq. fold hb. exists (assemble 5 hb (enc (JStr t))), (enc (JStr t)). split; [reflexivity|].
  assert (Lb : blen (enc (JStr t)) <= 6 * blen (str_bytes t) + 2) by apply say_enc_len.
  assert (Lh : blen hb = 24) by (vm_compute; reflexivity). pose proof (blen_nonneg (enc (JStr t))).
  assert (F : frame_layout 5 hb (enc (JStr t)) (assemble 5 hb (enc (JStr t)))) by (apply assemble_layout; lia).
  assert (La : blen (assemble 5 hb (enc (JStr t))) = 16 + blen hb + blen (enc (JStr t))) by (destruct (layout_fields 5 hb (enc (JStr t)) _ [] F) as (_ & _ & _ & _ & X & _); lia).
  assert (U : hunmarshal json_hdr hb = Ok say_header) by (vm_compute; reflexivity).
  split; [|split].
  - intros s W G. unfold request. rewrite G. split; [exact W|]. split; [unfold is_int32, two31; lia|]. split; [lia|]. exists hb, say_header. auto.
  - right. cbn [Z.eqb Pos.eqb]. eexists. apply say_unjson_enc. exact A.
  - intros n en r S. apply p_C56_every_message_once; [|exact S]. apply Forall_forall. intros b I. apply repeat_spec in I. subst b.
    split; [split; [eapply layout_is_block; [exact F|lia]|]|].
    + unfold within. lia.
    + exists hb, say_header. split; [eapply layout_header_text; [exact F|lia]|]. split; [exact U|]. apply asks_nothing. reflexivity.
Qed.

Lemma acceptable_dec5 h c cx id body tr st rid rbody : message_on h c cx -> request (c_stream cx) id body -> acceptable id body -> answer_to id = Some (rid, rbody) ->
  say_handles cx (crun json_hdr h) = Some (tr, st) -> st = Returned /\ exists b, hello_writes tr = [b] /\ frame_layout rid (str_bytes "{}") rbody b.
Proof.
  intros M R A T H. destruct (p_C135_answered h c cx id body M R) as (tr' & st' & H' & X). rewrite H in H'. injection H' as <- <-. rewrite T in X. apply X. exact A.
Qed.

Lemma layout_len id hdr body b : frame_layout id hdr body b -> blen b = 16 + blen hdr + blen body.
Proof. intros F. destruct (layout_fields id hdr body b [] F) as (_ & _ & _ & _ & X & _). lia. Qed.

Lemma p_C135_exchange : forall t b (handled : list (list cop * nat * ctx)) trs r, ascii_text t -> 6 * blen (str_bytes t) < 2 ^ 31 - 1000 -> say_packs t = Ok b ->
  Forall2 (fun k tr => let '(h, c, cx) := k in message_on h c cx /\ gwf (c_stream cx) /\ gbytes (c_stream cx) = b /\ exists st, say_handles cx (crun json_hdr h) = Some (tr, st)) handled trs ->
  segmentation (concat (flat_map hello_writes trs)) StaysOpen r ->
  say_shows (S (List.length handled)) r = (repeat (Msg 6 (Some []) (Some (HStr "my name is tcpx"))) (List.length handled), Waiting).
Proof.
  intros t b handled trs r A L P F S. destruct (p_C135_sent t A L) as (b' & body & P' & R & Ac & _). rewrite P in P'. injection P' as <-.
  assert (X : exists bs, flat_map hello_writes trs = bs /\ List.length bs = List.length handled /\ Forall2 (fun b m => says b (fst m) (snd m)) bs (repeat (6, "my name is tcpx"%string) (List.length handled))).
  { clear S. induction F as [|[[h c] cx] tr hs trs (M & W & G & st & H) F IH]; [exists []; repeat split; constructor|].
    destruct IH as (bs & E & Ln & Fs). destruct (acceptable_dec5 h c cx 5 body tr st 6 _ M (R _ W G) Ac eq_refl H) as (_ & rb & Wr & Lay).
    exists (rb :: bs). cbn [flat_map List.length repeat]. rewrite Wr, E. split; [reflexivity|]. split; [cbn; congruence|]. constructor; [|exact Fs].
    cbn [fst snd]. split; [unfold is_int32, two31; lia|]. split; [rewrite (layout_len _ _ _ _ Lay); vm_compute; reflexivity|]. split; [vm_compute; reflexivity|exact Lay]. }
  destruct X as (bs & E & Ln & Fs). rewrite E in S. rewrite (p_C135_outlives_refuted bs _ StaysOpen r _ Fs S) by lia. f_equal.
  clear. induction (List.length handled) as [|n IH]; [reflexivity|]. cbn [repeat map]. rewrite IH. reflexivity.
Qed.

Lemma py_header_ok : hunmarshal json_hdr py_header = Ok (Some [("header"%string, JStr "/tcpx/client1")]) /\ blen py_header = 27.
Proof. split; vm_compute; reflexivity. Qed.

Lemma py_request s m d body id : PyModel.py_pack say_py s m = Ok d -> ym_id m = Some id -> 0 <= id < 2 ^ 31 -> SpecPy.writes say_py s (ym_body m) body -> blen body < 2 ^ 31 - 1000 ->
  forall g, gwf g -> gbytes g = d -> request g id body.
Proof.
  intros P I R W L g Wg G. destruct (p_C133_pack _ _ say_py s m) as [X _]. destruct (X d P) as (id' & hb & bb & I' & Hh & Wb & _ & F).
  rewrite I in I'. injection I' as <-. cbn [say_py y_header] in Hh. injection Hh as <-. assert (bb = body) as -> by (destruct Wb as [[-> Wb]|[-> Wb]], W as [[Es W]|[Es W]]; try discriminate Es; congruence).
  destruct py_header_ok as [U Lh]. unfold request. rewrite G. split; [exact Wg|]. split; [unfold is_int32, two31; lia|]. split; [rewrite (layout_len _ _ _ _ F), Lh; lia|].
  exists py_header, (Some [("header"%string, JStr "/tcpx/client1")]). auto.
Qed.

Lemma p_C135_python_json_partial : forall t, forallb py_plain (str_bytes t) = true -> blen (str_bytes t) < 2 ^ 31 - 2000 ->
  exists d, PyModel.py_pack say_py "json" (py_json_msg t) = Ok d /\
  forall h c cx tr st, message_on h c cx -> gwf (c_stream cx) -> gbytes (c_stream cx) = d -> say_handles cx (crun json_hdr h) = Some (tr, st) ->
  exists b, hello_writes tr = [b] /\ forall n extra r, (List.length d <= n)%nat ->
  PyModel.py_exchange say_py "json" n (py_json_msg t) (RData (b ++ extra) :: r) = (d, RdOk (PyMsg (Some 6) (str_bytes "{}") (HStr "my name is tcpx"))).
Proof.
  intros t Pt L. set (body := cDQ :: str_bytes t ++ [cDQ]).
  assert (Lb : blen body = blen (str_bytes t) + 2) by (unfold body; change (blen (cDQ :: str_bytes t ++ [cDQ])) with (blen ([cDQ] ++ str_bytes t ++ [cDQ])); rewrite !blen_app; change (blen [cDQ]) with 1; lia).
  assert (W : SpecPy.writes say_py "json" (ym_body (py_json_msg t)) body) by (left; split; [reflexivity|]; cbn [py_json_msg ym_body say_py y_dumps]; rewrite Pt; reflexivity).
  destruct (p_C133_pack _ _ say_py "json" (py_json_msg t)) as [_ X]. pose proof (blen_nonneg (str_bytes t)). destruct py_header_ok as [_ Lh].
  destruct (proj2 (X 5 py_header body eq_refl eq_refl W)) as (d & P); [rewrite Lh; lia|]. exists d. split; [exact P|].
  intros h c cx tr st M Wg G H0. pose proof (py_request "json" _ d body 5 P eq_refl ltac:(lia) W ltac:(lia) _ Wg G) as R.
  assert (Ac : acceptable 5 body) by (right; cbn [Z.eqb Pos.eqb]; eexists; apply say_unjson_plain; exact Pt).
  destruct (acceptable_dec5 h c cx 5 body tr st 6 _ M R Ac eq_refl H0) as (_ & b & Wr & Lay).
  exists b. split; [exact Wr|]. intros n extra r Ln.
  apply (p_C133_exchange_partial _ _ say_py "json" n _ d 6 _ _ b extra r (HStr "my name is tcpx") P Ln Lay).
  - pose proof (layout_len _ _ _ _ Lay) as X1. unfold blen in X1. vm_compute (List.length (str_bytes "{}")) in X1. cbn in X1. lia.
  - left. split; [reflexivity|vm_compute; reflexivity].
Qed.

Lemma p_C135_python_protobuf_partial : forall name, utf8_text name -> blen name < 2 ^ 31 - 2000 ->
  exists d, PyModel.py_pack say_py "protobuf" (py_proto_msg name) = Ok d /\
  forall h c cx tr st, message_on h c cx -> gwf (c_stream cx) -> gbytes (c_stream cx) = d -> say_handles cx (crun json_hdr h) = Some (tr, st) ->
  exists b, hello_writes tr = [b] /\ forall n extra r, (List.length d <= n)%nat ->
  PyModel.py_exchange say_py "protobuf" n (py_proto_msg name) (RData (b ++ extra) :: r) = (d, RdOk (PyMsg (Some 12) (str_bytes "{}") (HPb (PbMsg (str_bytes "hello,I am tcpx") [])))).
Proof.
  intros name Un L. destruct (p_C134_roundtrip name ltac:(lia) Un) as (body & Pm & Pu).
  assert (Lb : blen body <= blen name + 11).
  { destruct (p_C134_writes name [] ltac:(lia)) as (W0 & W1 & _). assert (D : name = [] \/ name <> []) by (destruct name; [left; reflexivity|right; discriminate]). destruct D as [D|D].
    - rewrite (W0 D) in Pm. injection Pm as <-. pose proof (blen_nonneg name). change (blen []) with 0. lia.
    - destruct (W1 D Un) as (l & ((_ & _ & Ll & _) & _) & Wm). rewrite Pm in Wm. assert (body = [byte_of 10] ++ l ++ name ++ []) as -> by congruence.
      rewrite !blen_app. unfold blen. cbn [List.length]. lia. }
  assert (W : SpecPy.writes say_py "protobuf" (ym_body (py_proto_msg name)) body) by (right; split; [reflexivity|]; cbn [py_proto_msg ym_body say_py y_ser]; rewrite Pm; reflexivity).
  destruct (p_C133_pack _ _ say_py "protobuf" (py_proto_msg name)) as [_ X]. pose proof (blen_nonneg body). destruct py_header_ok as [_ Lh].
  destruct (proj2 (X 11 py_header body eq_refl eq_refl W)) as (d & P); [rewrite Lh; lia|]. exists d. split; [exact P|].
  intros h c cx tr st M Wg G H0. pose proof (py_request "protobuf" _ d body 11 P eq_refl ltac:(lia) W ltac:(lia) _ Wg G) as R.
  assert (Ac : acceptable 11 body) by (right; cbn [Z.eqb Pos.eqb]; exists (PbMsg name []); apply p_C134_reads; exact Pu).
  destruct (acceptable_dec5 h c cx 11 body tr st 12 _ M R Ac eq_refl H0) as (_ & b & Wr & Lay).
  exists b. split; [exact Wr|]. intros n extra r Ln.
  apply (p_C133_exchange_partial _ _ say_py "protobuf" n _ d 12 _ _ b extra r (HPb (PbMsg (str_bytes "hello,I am tcpx") [])) P Ln Lay).
  - pose proof (layout_len _ _ _ _ Lay) as X1. unfold blen in X1. cbn in X1. lia.
  - right. split; [reflexivity|vm_compute; reflexivity].
Qed.

Lemma say_case_msg b : say_packs "hi" = Ok b -> request (of_bytes b) 5 (enc (JStr "hi")).
Proof.
  intros E. rewrite say_packs_eq in E. injection E as <-. set (hb := enc (JObj [("api"%string, JStr "/tcpx/client1/")])).
  split; [apply gwf_of_bytes|]. rewrite gbytes_of_bytes. split; [unfold is_int32, two31; lia|]. split; [vm_compute; reflexivity|].
  exists hb, say_header. split; [apply assemble_layout; vm_compute; reflexivity|]. split; [vm_compute; reflexivity|reflexivity].
Qed.
Lemma say_read_on b s : read_on [CRead 0 (of_bytes b); CRead 0 (of_bytes b); CAccept] 0 s -> s = of_bytes b.
Proof.
  intros (later & earlier & x & E & _). assert (I : In (CRead x s) [CRead 0 (of_bytes b); CRead 0 (of_bytes b); CAccept]) by (rewrite E; apply in_or_app; right; left; reflexivity).
  destruct I as [I|[I|[I|[]]]]; try discriminate I; congruence.
Qed.

Lemma say_ws c : is_ws c = true <-> In (code c) [32; 9; 10; 13].
Proof.
  unfold is_ws, code. destruct (N_of_ascii c) as [|p] eqn:E; [split; [discriminate|intros [H|[H|[H|[H|[]]]]]; discriminate H]|].
  cbn [Z.of_N In]. rewrite !orb_true_iff, !N.eqb_eq. split.
  - intros [[[H|H]|H]|H]; inversion H; auto 9.
  - intros [H|[H|[H|[H|[]]]]]; inversion H; auto 9.
Qed.

Lemma spaces_skip w t : spaces w -> skip_ws (w ++ t) = skip_ws t.
Proof. induction 1 as [|c w H W IH]; cbn [app skip_ws]; auto. rewrite (proj2 (say_ws c) H). exact IH. Qed.

Lemma skip_nil_spaces b : skip_ws b = [] <-> spaces b.
Proof.
  split; [|intros H; rewrite <- (app_nil_r b), spaces_skip by exact H; reflexivity]. induction b as [|c b IH]; cbn [skip_ws]; intros H; [constructor|].
  destruct (is_ws c) eqn:W; [|discriminate H]. constructor; [apply say_ws; exact W|apply IH; exact H].
Qed.

Lemma members_object f : forall b acc v r, parse_members f b acc = Some (v, r) -> exists m, v = JObj m.
Proof.
  induction f as [|f IH]; intros b acc v r H; cbn [parse_members] in H; [discriminate|].
  repeat match type of H with
  | parse_members f _ _ = _ => exact (IH _ _ _ _ H)
  | Some _ = Some _ => inversion H; subst; eexists; reflexivity
  | None = Some _ => discriminate H
  | (match ?x with _ => _ end) = _ => destruct x
  end.
Qed.

Lemma elems_array f : forall b acc v r, parse_elems f b acc = Some (v, r) -> exists m, v = JArr m.
Proof.
  induction f as [|f IH]; intros b acc v r H; cbn [parse_elems] in H; [discriminate|].
  repeat match type of H with
  | parse_elems f _ _ = _ => exact (IH _ _ _ _ H)
  | Some _ = Some _ => inversion H; subst; eexists; reflexivity
  | None = Some _ => discriminate H
  | (match ?x with _ => _ end) = _ => destruct x
  end.
Qed.

Lemma p_C135_text : forall w w' old v, spaces w ->
  (forall t, ascii_text t -> (say_unjson (w ++ enc (JStr t) ++ w') (Some (HStr old)) = Ok v <-> v = HStr t /\ spaces w')) /\
  (say_unjson (w ++ str_bytes "null" ++ w') (Some (HStr old)) = Ok v <-> v = HStr old /\ spaces w') /\
  (forall c r, ~ In (code c) [32; 9; 10; 13] -> c <> cDQ -> c <> "n"%char -> exists e, say_unjson (w ++ c :: r) (Some (HStr old)) = Err e) /\
  (exists e, say_unjson w (Some (HStr old)) = Err e).
Proof.
  intros w w' old v W. split; [|split; [|split]].
  - intros t T. unfold say_unjson. cbn [parse_value]. rewrite (spaces_skip _ _ W). cbn [enc]. unfold enc_string. cbn [app skip_ws]. change (is_ws cDQ) with false. cbn match.
    change (Ascii.eqb cDQ cLB) with false. change (Ascii.eqb cDQ cLS) with false. rewrite Ascii.eqb_refl. cbn match. rewrite <- app_assoc. cbn [app]. rewrite (parse_enc_string t w' (ascii_text_str t T)).
    pose proof (skip_nil_spaces w') as X. destruct (skip_ws w') as [|c b].
    + split; [intros H; inversion H; split; [reflexivity|apply X; reflexivity]|intros (-> & _); reflexivity].
    + split; [discriminate|]. intros (_ & H). apply X in H. discriminate H.
  - unfold say_unjson. cbn [parse_value]. rewrite (spaces_skip _ _ W). cbn [str_bytes list_ascii_of_string app skip_ws]. change (is_ws "n"%char) with false. cbn match.
    change (Ascii.eqb "n"%char cLB) with false. change (Ascii.eqb "n"%char cLS) with false. change (Ascii.eqb "n"%char cDQ) with false. cbn match. cbn [strip Ascii.eqb Bool.eqb].
    pose proof (skip_nil_spaces w') as X. destruct (skip_ws w') as [|c b].
    + split; [intros H; inversion H; split; [reflexivity|apply X; reflexivity]|intros (-> & _); reflexivity].
    + split; [discriminate|]. intros (_ & H). apply X in H. discriminate H.
  - intros c r Ws Q Nn. unfold say_unjson. destruct (parse_value (S (List.length (w ++ c :: r))) (w ++ c :: r)) as [[x rest]|] eqn:P; [|eexists; reflexivity].
    assert (K : match x with JNull | JStr _ => False | _ => True end).
    { cbn [parse_value] in P. rewrite (spaces_skip _ _ W) in P. cbn [skip_ws] in P. destruct (is_ws c) eqn:Y; [exfalso; apply Ws, say_ws; exact Y|].
      destruct (Ascii.eqb_spec c cLB); [destruct (skip_ws r) as [|c2 r2]; [discriminate P|]; destruct (Ascii.eqb c2 cRB); [inversion P; exact I|apply members_object in P as (m & ->); exact I]|].
      destruct (Ascii.eqb_spec c cLS); [destruct (skip_ws r) as [|c2 r2]; [discriminate P|]; destruct (Ascii.eqb c2 cRS); [inversion P; exact I|apply elems_array in P as (m & ->); exact I]|].
      destruct (Ascii.eqb_spec c cDQ); [contradiction|]. replace (strip (str_bytes "null") (c :: r)) with (@None bytes) in P
        by (cbn [str_bytes list_ascii_of_string strip]; destruct (Ascii.eqb_spec "n"%char c); [congruence|reflexivity]).
      destruct (strip (str_bytes "true") (c :: r)); [inversion P; exact I|]. destruct (strip (str_bytes "false") (c :: r)); [inversion P; exact I|].
      destruct (parse_num (c :: r)) as [[z q]|]; [inversion P; exact I|discriminate P]. }
    destruct (skip_ws rest); destruct x; try contradiction; eexists; reflexivity.
  - unfold say_unjson. cbn [parse_value]. rewrite (proj2 (skip_nil_spaces w) W). eexists. reflexivity.
Qed.
