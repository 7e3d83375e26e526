(* Small clients: one-shot calls, and reading replies (C92, C93). *)
From Verif Require Export SpecTalk EndProofs.

Lemma pack_message {V} (E : env V) id data :
  match PackWithMarshaller E (Msg id None data) (Some (JsonMarshaller E)) with
  | Ok b => one_message E id data b
  | _ => cannot_encode E data
  end.
Proof.
  destruct (PackWithMarshaller E (Msg id None data) (Some (JsonMarshaller E))) as [b|e|] eqn:P.
  - unfold PackWithMarshaller in P. destruct (hmarshal (e_hdr E) (msg_header (Msg id None data))) as [hdr| |] eqn:H; try discriminate P.
    unfold one_message. cbn [msg_header] in H. exists hdr.
    destruct data as [v|]; cbn in P.
    + destruct (e_json E v) as [bd| |] eqn:J; try discriminate P. exists bd. split; auto. split; [exact J|]. intros L.
      destruct (p_C01_pack_layout V E (Msg id None (Some v)) (Some (JsonMarshaller E)) b) as (h' & b' & A & B & C); auto.
      { unfold PackWithMarshaller. cbn. rewrite H. cbn. rewrite J. exact P. }
      cbn in A, B. rewrite H in A. injection A as <-. unfold JsonMarshaller in B. cbn in B. rewrite J in B. injection B as <-. exact C.
    + exists []. split; auto. split; [reflexivity|]. intros L.
      destruct (p_C01_pack_layout V E (Msg id None None) (Some (JsonMarshaller E)) b) as (h' & b' & A & B & C); auto.
      { unfold PackWithMarshaller. cbn. rewrite H. cbn. exact P. }
      cbn in A, B. rewrite H in A. injection A as <-. subst b'. exact C.
  - intros (hdr & body & A & B). unfold PackWithMarshaller in P. cbn in P. rewrite A in P. cbn in P.
    destruct data as [v|]; cbn in *; [rewrite B in P|]; discriminate P.
  - intros (hdr & body & A & B). unfold PackWithMarshaller in P. cbn in P. rewrite A in P. cbn in P.
    destruct data as [v|]; cbn in *; [rewrite B in P|]; discriminate P.
Qed.

Lemma pack_failed {V} (E : env V) id data : match PackWithMarshaller E (Msg id None data) (Some (JsonMarshaller E)) with
  | Ok _ => True | Err e => encoding_failed E data (Err (EWrap e)) | Panic => encoding_failed E data Panic end.
Proof.
  unfold PackWithMarshaller, encoding_failed. cbn [msg_header msg_body msg_id or_json JsonMarshaller m_marshal]. destruct (hmarshal (e_hdr E) None); cbn [rbind]; auto.
  destruct data as [v|]; cbn [rbind]; auto. destruct (e_json E v); cbn [rbind]; auto.
Qed.

Lemma p_C92_call_once_partial : forall {V} (E : env V) id data derr werr, is_int32 id ->
  match TCPCallOnceJSON E id data derr werr with
  | (r, [NDial]) => exists e, derr = Some e /\ r = Err (EWrap e)
  | (r, [NDial; NClose]) => derr = None /\ cannot_encode E data /\ encoding_failed E data r
  | (r, [NDial; NWrite b; NClose]) => derr = None /\ one_message E id data b /\ r = match werr with None => Ok tt | Some e => Err (EWrap e) end
  | _ => False
  end.
Proof.
  intros V E id data derr werr I. unfold TCPCallOnceJSON. destruct derr as [e|]; [exists e; auto|].
  rewrite to_int32_id by exact I. pose proof (pack_message E id data) as P. pose proof (pack_failed E id data) as F.
  destruct (PackWithMarshaller E (Msg id None data) (Some (JsonMarshaller E))); auto.
Qed.

Lemma p_C92_write_json : forall {V} (E : env V) id data werr, is_int32 id ->
  match WriteJSON E id data werr with
  | (r, []) => cannot_encode E data /\ encoding_failed E data r
  | (r, [b]) => one_message E id data b /\ r = match werr with None => Ok tt | Some e => Err (EWrap e) end
  | _ => False
  end.
Proof.
  intros V E id data werr I. unfold WriteJSON. pose proof (pack_message E id data) as P. pose proof (pack_failed E id data) as F.
  destruct (PackWithMarshaller E (Msg id None data) (Some (JsonMarshaller E))); auto.
Qed.

Lemma p_C92_server_dispatches_one : forall {V} (E : env V) lim id data b en r hb, is_int32 id ->
  TCPCallOnceJSON E id data None None = (Ok tt, [NDial; NWrite b; NClose]) ->
  blen b < 2 ^ 31 -> within lim b -> hmarshal (e_hdr E) None = Ok hb -> hb <> [] -> hunmarshal (e_hdr E) hb = Ok None ->
  segmentation b en r ->
  serve_reads (e_hdr E) lim r = ([SDispatch b], at_end en) /\
  forall c, c_stream c = of_bytes b -> received E (Msg id None data, Some (JsonMarshaller E)) c.
Proof.
  intros V E lim id data b en r hb I T L W H1 H2 H3 S. unfold TCPCallOnceJSON in T. rewrite to_int32_id in T by exact I.
  destruct (PackWithMarshaller E (Msg id None data) (Some (JsonMarshaller E))) as [b'| |] eqn:P; try discriminate T. injection T as ->.
  assert (Hs : sent E lim (Msg id None data, Some (JsonMarshaller E)) b).
  { split; [exact P|]. split; auto. split; auto. split; auto. split; [|reflexivity]. cbn [fst msg_header]. exists hb, None. repeat split; auto. }
  destruct (p_C69_delivered_as_sent E lim [(Msg id None data, Some (JsonMarshaller E))] [b] en r) as (A & B).
  - constructor; [exact Hs|constructor].
  - cbn [concat]. rewrite app_nil_r. exact S.
  - split; [exact A|]. inversion B; auto.
Qed.

Lemma p_C92_wide_id_refuted : forall {V} (E : env V) id data b werr, ~ is_int32 id ->
  TCPCallOnceJSON E id data None werr = (Ok tt, [NDial; NWrite b; NClose]) -> blen b < 2 ^ 31 ->
  exists other, other <> id /\ is_int32 other /\ one_message E other data b /\ MessageIDOf (of_bytes b) = Ok other.
Proof.
  intros V E id data b werr N T L. exists (to_int32 id).
  assert (J : is_int32 (to_int32 id)) by apply to_int32_range.
  split; [intros X; apply N; rewrite <- X; exact J|]. split; [exact J|].
  unfold TCPCallOnceJSON in T. pose proof (pack_message E (to_int32 id) data) as P.
  destruct (PackWithMarshaller E (Msg (to_int32 id) None data) (Some (JsonMarshaller E))) as [b'| |]; try (destruct werr; discriminate T).
  assert (b' = b) as -> by congruence. split; auto.
  destruct P as (hdr & body & _ & _ & F).
  destruct (p_C03_accessors_agree (to_int32 id) hdr body b [] (of_bytes b) J (F ltac:(lia)) L) as (_ & M & _); auto.
  - unfold gwf. cbn. lia.
  - rewrite app_nil_r. unfold gbytes, of_bytes. cbn. apply firstn_all.
Qed.

Lemma gbytes_of b : gbytes (of_bytes b) = b.
Proof. unfold gbytes, of_bytes. cbn. apply firstn_all. Qed.

Lemma gwf_of b : gwf (of_bytes b).
Proof. unfold gwf. cbn. lia. Qed.

Lemma replied_layout {V} (E : env V) p b : replied E p b ->
  exists m hdr body, carries m (rp_hs (fst p)) /\ hmarshal (e_hdr E) (Some m) = Ok hdr /\
    body_encoding E (Some (format_marshaller E (rp_fmt (fst p)))) (snd p) body /\ frame_layout (rp_id (fst p)) hdr body b /\
    blen b < 2 ^ 31 /\ is_int32 (rp_id (fst p)).
Proof.
  intros [mar f name helper id src hs b' Hin Hm Hr L I].
  pose proof (p_C68_reply_helpers E mar f name helper id src hs None Hin) as C. cbv zeta in C. rewrite Hr in C.
  destruct C as (C & _). destruct (C ltac:(lia)) as (h & hdr & body & A & B & D & F). exists h, hdr, body.
  replace (if String.eqb (m_name mar) name then mar else format_marshaller E f) with (format_marshaller E f) in D; auto.
  - repeat (split; auto).
  - destruct (String.eqb_spec (m_name mar) name); auto. symmetry. auto.
Qed.

Lemma p_C93_replies_read_back_partial : forall {V} (E : env V) ps bs rest en r, Forall2 (replied E) ps bs ->
  segmentation (concat bs ++ rest) en r ->
  (exists r', recv FirstBlockOf (List.length ps) r = (bs, RdOk tt, r') /\ segmentation rest en r') /\ Forall2 (reads_back E) ps bs.
Proof.
  intros V E ps bs rest en r H S. split.
  - assert (B : Forall is_block bs).
    { clear S. induction H as [|p b ps bs X Y IH]; constructor; auto. destruct (replied_layout E p b X) as (m & hdr & body & _ & _ & _ & F & L & _).
      eapply layout_is_block; eauto. lia. }
    destruct (p_C13_blocks_received bs rest en r B S) as (r' & R & S'). exists r'. split; auto.
    replace (List.length ps) with (List.length bs) by (clear -H; induction H; cbn; congruence). exact R.
  - clear S. induction H as [|p b ps bs X Y IH]; constructor; auto.
    destruct (replied_layout E p b X) as (m & hdr & body & C & Hh & Hb & F & L & I).
    destruct (p_C03_accessors_agree _ hdr body b [] (of_bytes b) I F L (gwf_of b)) as (_ & M & _ & _ & (r1 & R1 & R1') & (r2 & R2 & R2')).
    { rewrite app_nil_r. apply gbytes_of. }
    split; [unfold PackTypeMessageID; rewrite M; reflexivity|]. split.
    + intros v d0 bs' Ev Em Eu. unfold PackTypeBind. rewrite R2. cbn [rwrap rbind]. rewrite R2'. unfold decoder.
      rewrite Ev in Hb. cbn [body_encoding] in Hb. assert (bs' = body) by congruence. subst bs'. rewrite Eu. reflexivity.
    + exists m. split; auto. intros (hb & h' & A1 & A2 & A3 & A4). exists h'. split; auto.
      unfold HeaderOf. rewrite R1. cbn. rewrite R1'. assert (hb = hdr) as <- by congruence. rewrite A3. reflexivity.
Qed.

Lemma p_C93_no_value_refuted : forall {V} (E : env V) p b d0 e, replied E (p, None) b ->
  decoder E (rp_fmt p) [] d0 = Err e -> PackTypeBind (decoder E (rp_fmt p)) (of_bytes b) d0 = Err (EWrap e).
Proof.
  intros V E p b d0 e X D. destruct (replied_layout E (p, None) b X) as (m & hdr & body & C & Hh & Hb & F & L & I). cbn in *. subst body.
  destruct (p_C03_accessors_agree _ hdr [] b [] (of_bytes b) I F L (gwf_of b)) as (_ & _ & _ & _ & _ & (r2 & R2 & R2')).
  { rewrite app_nil_r. apply gbytes_of. }
  unfold PackTypeBind. rewrite R2. cbn [rwrap rbind]. rewrite R2', D. reflexivity.
Qed.

Lemma p_C93_pattern_replies : forall {V} (E : env V) f helper c src w w' b p,
  (f = FJson /\ helper = JSONURLPattern E) \/ (f = FProtobuf /\ helper = ProtobufURLPattern E) ->
  fst (GetURLPattern (e_hdr E) c w) = Ok p -> helper c src None w = ((Ok tt, [b]), w') -> blen b < 2 ^ 31 ->
  hdr_roundtrips (e_hdr E) (Some [("Router-Type"%string, JStr "URL_PATTERN"); ("Router-Pattern-Value"%string, JStr p)]) ->
  PackTypeURLPattern E (of_bytes b) = Ok p /\
  forall v d0 bs, src = Some v -> m_marshal (format_marshaller E f) v = Ok bs -> decoder E f bs (Some d0) = Ok v ->
    PackTypeBind (decoder E f) (of_bytes b) (Some d0) = Ok v.
Proof.
  intros V E f helper c src w w' b p Hf G Hh L (hb & h' & A1 & A2 & A3 & A4).
  pose proof (p_C35_reply_carries_reported_pattern E c src None w f helper Hf) as C. rewrite G, Hh in C. cbn [fst] in C.
  destruct C as (C & _). destruct (C ltac:(lia)) as (hdr & body & B1 & B2 & F).
  assert (I : is_int32 0) by (split; vm_compute; congruence).
  destruct (p_C03_accessors_agree 0 hdr body b [] (of_bytes b) I F L (gwf_of b)) as (_ & M & _ & _ & (r1 & R1 & R1') & (r2 & R2 & R2')).
  { rewrite app_nil_r. apply gbytes_of. }
  assert (hb = hdr) as -> by congruence. split.
  - unfold PackTypeURLPattern, URLPatternOf, HeaderOf. rewrite R1. cbn [rwrap rbind]. rewrite R1', A3. cbn [rwrap rbind].
    pose proof (heq_get _ _ "Router-Pattern-Value" A4) as X. cbn in X. destruct X as (v' & X & J). inversion J as [| |? ? [->| ->]| | | |]; subst; unfold headerGetString, HEADER_ROUTER_VALUE; cbn.
    all: destruct h' as [hm|]; cbn in *; [|discriminate X]. all: destruct hm; [discriminate X|]; cbn in *; rewrite X; reflexivity.
  - intros v d0 bs -> Em Eu. cbn [body_encoding] in B2. assert (bs = body) as -> by congruence.
    unfold PackTypeBind. rewrite R2. cbn [rwrap rbind]. rewrite R2', Eu. reflexivity.
Qed.
