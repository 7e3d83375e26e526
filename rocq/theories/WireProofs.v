(* C01-C11: wire format, accessors, unpacking, header merge, marshaller names *)
From Verif Require Export JsonFacts ReaderFacts.

Lemma pack_body_encoding {V} (E : env V) (mo : option (marshaller V)) v body :
  match v with None => body = [] | Some x => m_marshal (or_json E mo) x = Ok body end <-> body_encoding E mo v body.
Proof. destruct v, mo; reflexivity. Qed.

Lemma withbody_ok {V} (E : env V) (m : message V) body b :
  PackWithMarshallerAndBody E m body = Ok b <->
  exists hdr, hmarshal (e_hdr E) (msg_header m) = Ok hdr /\ b = assemble (msg_id m) hdr body.
Proof.
  unfold PackWithMarshallerAndBody. destruct (hmarshal (e_hdr E) (msg_header m)) as [hdr| |]; cbn [rbind].
  - split; [intros H; injection H as <-; eauto|]. intros (h & H & ->). injection H as ->. reflexivity.
  - split; [discriminate|intros (h & H & _); discriminate].
  - split; [discriminate|intros (h & H & _); discriminate].
Qed.

Lemma rdok_inj {A} (x y : A) (r1 r2 : reader) : (RdOk x, r1) = (RdOk y, r2) -> x = y.
Proof. congruence. Qed.

Lemma p_C01_pack_layout : forall V (E : env V) (m : message V) mo b,
  PackWithMarshaller E m mo = Ok b -> blen b - 4 < 2 ^ 32 ->
  exists hdr body,
    hmarshal (e_hdr E) (msg_header m) = Ok hdr /\
    body_encoding E mo (msg_body m) body /\
    frame_layout (msg_id m) hdr body b.
Proof.
  intros V E m mo b Hp Hl. apply PackWithMarshaller_ok in Hp. destruct Hp as (hdr & body & H1 & H2 & ->).
  exists hdr, body. split; [exact H1|]. split; [apply pack_body_encoding; exact H2|].
  apply assemble_layout. rewrite assemble_length in Hl. lia.
Qed.

Lemma p_C01_pack : forall V (E : env V) id h src mo b, Pack E id h src mo = Ok b -> blen b - 4 < 2 ^ 32 ->
  exists hdr body, hmarshal (e_hdr E) h = Ok hdr /\ body_encoding E mo src body /\ frame_layout id hdr body b.
Proof. intros V E id h src mo b H L. exact (p_C01_pack_layout V E (Msg id h src) mo b H L). Qed.

Lemma p_C01_pack_with_body_layout : forall V (E : env V) (m : message V) body b,
  PackWithMarshallerAndBody E m body = Ok b -> blen b - 4 < 2 ^ 32 ->
  exists hdr, hmarshal (e_hdr E) (msg_header m) = Ok hdr /\ frame_layout (msg_id m) hdr body b.
Proof.
  intros V E m body b Hp Hl. apply withbody_ok in Hp. destruct Hp as (hdr & H1 & ->).
  exists hdr. split; [exact H1|]. apply assemble_layout. rewrite assemble_length in Hl. lia.
Qed.

Lemma p_C01_pack_succeeds_iff : forall V (E : env V) (m : message V) mo,
  (exists b, PackWithMarshaller E m mo = Ok b) <->
  (exists hdr body, hmarshal (e_hdr E) (msg_header m) = Ok hdr /\ body_encoding E mo (msg_body m) body).
Proof.
  intros V E m mo. split.
  - intros (b & Hp). apply PackWithMarshaller_ok in Hp. destruct Hp as (hdr & body & H1 & H2 & ->).
    exists hdr, body. split; [exact H1|]. apply pack_body_encoding; exact H2.
  - intros (hdr & body & H1 & H2). exists (assemble (msg_id m) hdr body). apply PackWithMarshaller_ok.
    exists hdr, body. split; [exact H1|]. split; [|reflexivity]. apply pack_body_encoding; exact H2.
Qed.

Lemma p_C01_packx_layout : forall V (E : env V) mar id src body hs b,
  (PackxPack E mar id src hs = Ok b -> blen b - 4 < 2 ^ 32 ->
     exists h hdr bd, carries h hs /\ hmarshal (e_hdr E) (Some h) = Ok hdr /\ body_encoding E (Some mar) src bd /\ frame_layout id hdr bd b) /\
  (PackxPackWithBody E id body hs = Ok b -> blen b - 4 < 2 ^ 32 ->
     exists h hdr, carries h hs /\ hmarshal (e_hdr E) (Some h) = Ok hdr /\ frame_layout id hdr body b) /\
  (PackHeartbeat E = Ok b -> blen b - 4 < 2 ^ 32 ->
     exists hdr, hmarshal (e_hdr E) None = Ok hdr /\ frame_layout 1392 hdr [] b) /\
  (PackStuff E id = Ok b -> blen b - 4 < 2 ^ 32 ->
     exists hdr, hmarshal (e_hdr E) None = Ok hdr /\ frame_layout id hdr [] b).
Proof.
  intros V E mar id src body hs b.
  assert (C : carries (merge_headers hs) hs) by (intros N k; apply merge_headers_get; exact N).
  assert (St : forall i, PackStuff E i = Ok b -> blen b - 4 < 2 ^ 32 -> exists hdr, hmarshal (e_hdr E) None = Ok hdr /\ frame_layout i hdr [] b).
  { intros i Hp Hl. unfold PackStuff in Hp. destruct (PackWithMarshallerAndBody E _ []) as [b'| |] eqn:Hp'; try discriminate. injection Hp as ->.
    destruct (p_C01_pack_with_body_layout V E _ _ b Hp' Hl) as (hdr & H1 & H2). exists hdr. auto. }
  split; [|split; [|split]]; intros Hp Hl.
  - assert (Hp' : PackWithMarshaller E (Msg id (Some (merge_headers hs)) src) (Some mar) = Ok b) by (unfold PackxPack in Hp; destruct hs; exact Hp).
    destruct (p_C01_pack_layout V E _ _ b Hp' Hl) as (hdr & bd & H1 & H2 & H3). exists (merge_headers hs), hdr, bd. auto.
  - assert (Hp' : PackWithMarshallerAndBody E (Msg id (Some (merge_headers hs)) None) body = Ok b) by (unfold PackxPackWithBody in Hp; destruct hs; exact Hp).
    destruct (p_C01_pack_with_body_layout V E _ _ b Hp' Hl) as (hdr & H1 & H2). exists (merge_headers hs), hdr. auto.
  - exact (St _ Hp Hl).
  - exact (St _ Hp Hl).
Qed.

Lemma p_C02_unpack_inverts_pack : forall V (E : env V) (m : message V) mo b extra s d0,
  is_int32 (msg_id m) ->
  hdr_roundtrips (e_hdr E) (msg_header m) ->
  (forall v, msg_body m = Some v ->
     body_roundtrips (match mo with Some x => x | None => JsonMarshaller E end) v (Some d0)) ->
  PackWithMarshaller E m mo = Ok b -> blen b < 2 ^ 32 -> gs_arr s = b ++ extra ->
  exists m', UnpackWithMarshaller E s (Some d0) mo = Ok m' /\
    msg_id m' = msg_id m /\ header_eq (msg_header m) (msg_header m') /\
    (msg_body m' = msg_body m \/
     (msg_body m' = Some d0 /\ body_encoding E mo (msg_body m) [])).
Proof.
  intros V E m mo b extra s d0 H1 H2 H3 H4 H5 H6.
  destruct (unpack_pack E m mo b extra s d0 H1 H2 H3 H4 H5 H6) as (m' & A & B & C & D).
  exists m'. repeat split; auto. destruct D as [D|[D1 D2]]; [auto|right]. split; [exact D1|].
  apply pack_body_encoding. destruct D2 as [->|(v & -> & D2)]; [reflexivity|exact D2].
Qed.

Lemma p_C02_unpack_inverts_pack_json_header : forall V (E : env V) (m : message V) mo b extra s d0,
  e_hdr E = json_hdr -> is_int32 (msg_id m) -> valid_header (msg_header m) = true ->
  (forall v, msg_body m = Some v ->
     body_roundtrips (match mo with Some x => x | None => JsonMarshaller E end) v (Some d0)) ->
  PackWithMarshaller E m mo = Ok b -> blen b < 2 ^ 32 -> gs_arr s = b ++ extra ->
  exists m', UnpackWithMarshaller E s (Some d0) mo = Ok m' /\
    msg_id m' = msg_id m /\ header_eq (msg_header m) (msg_header m') /\
    (msg_body m' = msg_body m \/
     (msg_body m' = Some d0 /\ body_encoding E mo (msg_body m) [])).
Proof.
  intros V E m mo b extra s d0 He H1 H2. apply p_C02_unpack_inverts_pack; [exact H1|].
  rewrite He. apply json_hdr_roundtrips. exact H2.
Qed.

Lemma p_C03_accessors_agree : forall id hdr body b extra s,
  is_int32 id -> frame_layout id hdr body b -> blen b < 2 ^ 31 ->
  gwf s -> gbytes s = b ++ extra ->
  LengthOf s = Ok (blen b - 4) /\ MessageIDOf s = Ok id /\
  HeaderLengthOf s = Ok (blen hdr) /\ BodyLengthOf s = Ok (blen body) /\
  (exists r, HeaderBytesOf s = Ok r /\ gbytes r = hdr) /\
  (exists r, BodyBytesOf s = Ok r /\ gbytes r = body).
Proof.
  intros id hdr body b extra s Hid Hlay Hlt Hwf Hg.
  destruct (layout_fields id hdr body b extra Hlay) as (F0 & F4 & F8 & F12 & Hbl & Sh & Sb).
  rewrite <- Hg in F0, F4, F8, F12, Sh, Sb.
  pose proof (blen_nonneg hdr) as Ph. pose proof (blen_nonneg body) as Pb.
  assert (HL : blen b <= glen s).
  { unfold glen. rewrite <- (gbytes_length s Hwf), Hg. fold (blen (b ++ extra)). rewrite blen_app.
    pose proof (blen_nonneg extra). lia. }
  assert (Sg : forall z, 0 <= z < 2 ^ 31 -> signed z = z).
  { intros z Hz. unfold signed. destruct (Z.ltb_spec z (2 ^ 31)); lia. }
  rewrite LengthOf_spec, MessageIDOf_spec, HeaderLengthOf_spec, BodyLengthOf_spec by exact Hwf.
  rewrite F0, F4, F8, F12.
  destruct (Z.ltb_spec (glen s) 4); [lia|]. destruct (Z.ltb_spec (glen s) 8); [lia|].
  destruct (Z.ltb_spec (glen s) 12); [lia|]. destruct (Z.ltb_spec (glen s) 16); [lia|].
  rewrite (Sg (blen b - 4)), (Sg (blen hdr)), (Sg (blen body)) by lia.
  split; [reflexivity|]. split; [|split; [reflexivity|split; [reflexivity|split]]].
  - f_equal. unfold signed. unfold is_int32, two31 in Hid. change (2 ^ 32) with 4294967296. change (2 ^ 31) with 2147483648.
    destruct (Z.ltb_spec (id mod 4294967296) 2147483648); lia.
  - pose proof (HeaderBytesOf_cases s Hwf) as HC. cbv zeta in HC. rewrite F8, Sg in HC by lia.
    destruct HC as [(HC & _)|[(_ & HC & _)|[(_ & _ & _ & r & HC & _ & HC')|(_ & HC & _)]]]; try lia.
    exists r. split; [exact HC|]. rewrite HC'. etransitivity; [|exact Sh]. f_equal. unfold blen. lia.
  - pose proof (BodyBytesOf_cases s Hwf) as HC. cbv zeta in HC. rewrite F8, F12, !Sg in HC by lia.
    destruct HC as [(HC & _)|[(_ & HC & _)|[(_ & _ & _ & _ & _ & r & HC & _ & HC')|(_ & _ & HC & _)]]]; try lia.
    exists r. split; [exact HC|]. rewrite HC'. etransitivity; [|exact Sb]. f_equal; unfold blen; lia.
Qed.

Lemma p_C03_of_packed : forall V (E : env V) (m : message V) mo b extra s,
  is_int32 (msg_id m) -> PackWithMarshaller E m mo = Ok b -> blen b < 2 ^ 31 ->
  gwf s -> gbytes s = b ++ extra ->
  exists hdr body,
    hmarshal (e_hdr E) (msg_header m) = Ok hdr /\ body_encoding E mo (msg_body m) body /\
    LengthOf s = Ok (blen b - 4) /\ MessageIDOf s = Ok (msg_id m) /\
    HeaderLengthOf s = Ok (blen hdr) /\ BodyLengthOf s = Ok (blen body) /\
    (exists r, HeaderBytesOf s = Ok r /\ gbytes r = hdr) /\
    (exists r, BodyBytesOf s = Ok r /\ gbytes r = body).
Proof.
  intros V E m mo b extra s Hi Hp Hl Hw Hg.
  destruct (p_C01_pack_layout V E m mo b Hp) as (hdr & body & A & B & C). { lia. }
  exists hdr, body. split; [exact A|]. split; [exact B|].
  apply (p_C03_accessors_agree (msg_id m) hdr body b extra s); auto.
Qed.

Lemma p_C03_unpack_from_reader : forall hc id hdr body b h rest en r,
  is_int32 id -> frame_layout id hdr body b -> blen b < 2 ^ 31 -> hunmarshal hc hdr = Ok h ->
  segmentation (b ++ rest) en r ->
  exists r', UnPackFromReader hc r = (RdOk (id, h, body), r') /\ segmentation rest en r'.
Proof.
  intros hc id hdr body b h rest en r Hid Hlay Hlt Hu HS.
  assert (Hblk : is_block b) by (apply (layout_is_block id hdr body); [exact Hlay|lia]).
  destruct (read_block_ok 0 false b rest en r Hblk ltac:(discriminate) HS) as (r' & E & HS').
  exists r'. split; [|exact HS'].
  unfold UnPackFromReader. rewrite E.
  destruct (p_C03_accessors_agree id hdr body b [] (of_bytes b) Hid Hlay Hlt (gwf_of_bytes b)) as (_ & A2 & _ & _ & (rh & A5 & A5') & (rb & A6 & A6')).
  { rewrite gbytes_of_bytes, app_nil_r. reflexivity. }
  rewrite A2. unfold HeaderOf. rewrite A5, A6. cbn [rwrap rbind]. rewrite A5', Hu. cbn [rwrap rbind rd_of_res].
  rewrite A6'. reflexivity.
Qed.

Lemma p_C04_accessors_never_panic_refuted : exists bs1 bs2,
  HeaderBytesOf (of_bytes bs1) = Panic /\ (forall hc, HeaderOf hc (of_bytes bs1) = Panic) /\
  (forall hc, URLPatternOf hc (of_bytes bs1) = Panic) /\ (forall hc, RouteTypeOf hc (of_bytes bs1) = Panic) /\
  BodyBytesOf (of_bytes bs2) = Panic /\ (forall V (u : bytes -> option V -> res V) d, PackTypeBind u (of_bytes bs2) d = Panic).
Proof.
  set (z4 := ["000"; "000"; "000"; "000"]%char). set (f4 := ["255"; "255"; "255"; "255"]%char).
  exists (z4 ++ z4 ++ f4 ++ z4), (z4 ++ z4 ++ z4 ++ f4).
  repeat split; intros; vm_compute; reflexivity.
Qed.

Lemma p_C04_accessors_panic_iff_partial : forall s, gwf s ->
  let L := blen (gbytes s) in
  let h := signed (field (gbytes s) 8) in
  let b := signed (field (gbytes s) 12) in
  LengthOf s <> Panic /\ MessageIDOf s <> Panic /\ HeaderLengthOf s <> Panic /\ BodyLengthOf s <> Panic /\
  FirstBlockOfBytes s <> Panic /\
  (HeaderBytesOf s = Panic <-> 12 <= L /\ 16 + h <= L /\ (h < 0 \/ 2 ^ 31 - 16 <= h)) /\
  (BodyBytesOf s = Panic <-> 16 <= L /\ 16 + h + b <= L /\ (h < -16 \/ b < 0 \/ 2 ^ 31 <= 16 + h + b)).
Proof.
  intros s Hwf L h b.
  assert (HL : L = glen s) by (unfold L, glen, blen; rewrite gbytes_length by exact Hwf; reflexivity).
  rewrite HL. clear HL L.
  rewrite LengthOf_spec, MessageIDOf_spec, HeaderLengthOf_spec, BodyLengthOf_spec by exact Hwf.
  do 4 (split; [destruct (_ <? _); discriminate|]). split; [|split; split].
  - destruct (FirstBlockOfBytes_cases s Hwf) as [(_ & e & ->)|(_ & _ & ->)]; discriminate.
  - intros HP. destruct (HeaderBytesOf_cases s Hwf) as [(_ & E)|[(_ & _ & E)|[(_ & _ & _ & r & E & _)|(A & B & C & E)]]];
      rewrite E in HP; try discriminate. fold h in B, C. auto.
  - intros (A & B & C). destruct (HeaderBytesOf_cases s Hwf) as [(A' & E)|[(_ & A' & E)|[(_ & A' & _ & r & E & _)|(_ & _ & _ & E)]]];
      [| | |exact E]; fold h in A'; exfalso; lia.
  - intros HP. destruct (BodyBytesOf_cases s Hwf) as [(_ & e & E)|[(_ & _ & e & E)|[(_ & _ & _ & _ & _ & r & E & _)|(A & B & C & E)]]];
      rewrite E in HP; try discriminate. fold h b in B, C. auto.
  - intros (A & B & C). destruct (BodyBytesOf_cases s Hwf) as [(A' & E)|[(_ & A' & E)|[(_ & A' & B' & C' & _ & r & E & _)|(_ & _ & _ & E)]]];
      [| | |exact E]; try fold h in A'; try fold b in A'; try fold b in B'; try fold h in C'; try fold b in C'; exfalso; lia.
Qed.

Lemma p_C04_derived_panic_iff_partial : forall hc s, gwf s -> (forall bs, hunmarshal hc bs <> Panic) ->
  let L := blen (gbytes s) in
  let h := signed (field (gbytes s) 8) in
  let b := signed (field (gbytes s) 12) in
  let bad_header := 12 <= L /\ 16 + h <= L /\ (h < 0 \/ 2 ^ 31 - 16 <= h) in
  (HeaderOf hc s = Panic <-> bad_header) /\ (URLPatternOf hc s = Panic <-> bad_header) /\ (RouteTypeOf hc s = Panic <-> bad_header) /\
  (forall V (u : bytes -> option V -> res V) d, (forall bs, u bs d <> Panic) ->
     (PackTypeBind u s d = Panic <-> 16 <= L /\ 16 + h + b <= L /\ (h < -16 \/ b < 0 \/ 2 ^ 31 <= 16 + h + b))).
Proof.
  intros hc s W Hu L h b bad. pose proof (p_C04_accessors_panic_iff_partial s W) as (_ & _ & _ & _ & _ & A & B).
  fold L h b in A, B. fold bad in A.
  assert (H : HeaderOf hc s = Panic <-> HeaderBytesOf s = Panic).
  { unfold HeaderOf. destruct (HeaderBytesOf s) as [x|e|]; cbn [rwrap rbind]; [|split; discriminate|tauto].
    specialize (Hu (gbytes x)). destruct (hunmarshal hc (gbytes x)); cbn [rwrap]; split; intros X; try discriminate; congruence. }
  assert (G : forall hd k, headerGetString hd k <> Panic).
  { intros hd k. unfold headerGetString. destruct (Nat.eqb _ _); [discriminate|]. destruct (hget k hd) as [[]|]; discriminate. }
  assert (K : forall k, (rbind (rwrap (HeaderOf hc s)) (fun hd => rbind (rwrap (headerGetString hd k)) (fun sv => Ok (fst sv)))) = Panic <-> HeaderOf hc s = Panic).
  { intros k. destruct (HeaderOf hc s) as [hd|e|]; cbn [rwrap rbind]; [|split; discriminate|tauto].
    specialize (G hd k). destruct (headerGetString hd k); cbn [rwrap rbind]; split; intros X; try discriminate; congruence. }
  split; [rewrite H; exact A|]. split; [unfold URLPatternOf; rewrite K, H; exact A|]. split; [unfold RouteTypeOf; rewrite K, H; exact A|].
  intros V u d Nu. rewrite <- B. unfold PackTypeBind. destruct (BodyBytesOf s) as [x|e|]; cbn [rwrap rbind]; [|split; discriminate|tauto].
  specialize (Nu (gbytes x)). destruct (u (gbytes x) d); cbn [rwrap]; split; intros X; try discriminate; congruence.
Qed.

Lemma p_C05_body_region_refuted : exists bs r,
  BodyBytesOf (of_bytes bs) = Ok r /\ blen bs = 16 /\ gbytes r = firstn 16 bs /\ signed (field bs 12) = 16.
Proof.
  exists (["000"; "000"; "000"; "000";  "000"; "000"; "000"; "000";  "255"; "255"; "255"; "240";  "000"; "000"; "000"; "016"]%char).
  eexists. split; [vm_compute; reflexivity|]. vm_compute. repeat split.
Qed.

Lemma p_C05_body_region_partial : forall s r, gwf s ->
  let bs := gbytes s in
  let h := signed (field bs 8) in
  let b := signed (field bs 12) in
  (HeaderBytesOf s = Ok r -> 0 <= h /\ 16 + h <= blen bs /\ gbytes r = slice bs 16 (16 + Z.to_nat h)) /\
  (BodyBytesOf s = Ok r ->
     -16 <= h /\ 0 <= b /\ 16 + h + b <= blen bs /\ blen (gbytes r) = b /\
     gbytes r = slice bs (Z.to_nat (16 + h)) (Z.to_nat (16 + h + b)) /\
     (0 <= h -> gbytes r = slice bs (16 + Z.to_nat h) (16 + Z.to_nat h + Z.to_nat b))).
Proof.
  intros s r Hwf bs h b.
  assert (HL : blen bs = glen s) by (unfold bs, glen, blen; rewrite gbytes_length by exact Hwf; reflexivity).
  rewrite HL. split; intros HP.
  - destruct (HeaderBytesOf_cases s Hwf) as [(_ & E)|[(_ & _ & E)|[(_ & A & B & r' & E & _ & G)|(A & B & C & E)]]];
      rewrite E in HP; try discriminate. injection HP as ->. fold bs h in A, B, G. repeat split; try lia. exact G.
  - destruct (BodyBytesOf_cases s Hwf) as [(_ & e & E)|[(_ & _ & e & E)|[(_ & A & B & C & D & r' & E & _ & G)|(A & B & C & E)]]];
      rewrite E in HP; try discriminate. injection HP as ->. fold bs h b in A, B, C, D, G.
    split; [lia|]. split; [lia|]. split; [lia|]. split; [|split].
    + rewrite G. unfold blen. rewrite slice_length; [lia|lia|]. unfold blen in HL. lia.
    + exact G.
    + intros Hh. rewrite G. f_equal; lia.
Qed.

Lemma p_C06_first_block_of_bytes : forall s, gwf s ->
  let bs := gbytes s in
  let n := field bs 0 in
  FirstBlockOfBytes s <> Panic /\
  (16 <= blen bs -> 4 + n <= blen bs ->
     exists r, FirstBlockOfBytes s = Ok r /\ gbytes r = firstn (Z.to_nat (4 + n)) bs) /\
  (blen bs < 16 \/ blen bs < 4 + n -> exists e, FirstBlockOfBytes s = Err e).
Proof.
  intros s Hwf bs n.
  assert (HL : blen bs = glen s) by (unfold bs, glen, blen; rewrite gbytes_length by exact Hwf; reflexivity).
  rewrite HL.
  destruct (FirstBlockOfBytes_cases s Hwf) as [(A & e & E)|(A & B & E)]; fold bs n in A; rewrite E.
  - split; [discriminate|]. split; [intros; lia|]. intros _. exists e. reflexivity.
  - fold bs n in B. split; [discriminate|]. split; [|intros; lia]. intros _ _.
    eexists. split; [reflexivity|].
    assert (Hk : forall k, (k <= gs_len s)%nat -> firstn k (gs_arr s) = firstn k bs).
    { intros k Hk. unfold bs, gbytes. rewrite firstn_firstn. f_equal. lia. }
    unfold gbytes. cbn [gs_arr gs_len]. apply Hk. unfold glen in B. lia.
Qed.

Lemma p_C07_unpack_total_refuted : forall V (E : env V) mo,
  (forall d, UnpackWithMarshaller E (of_bytes []) d mo = Panic) /\
  (exists bs, frame_layout 7 [] [] bs /\ UnpackWithMarshaller E (of_bytes bs) None mo = Panic) /\
  (exists s, gwf s /\ gbytes s = [] /\ forall v, UnpackWithMarshaller E s (Some v) mo = Ok (Msg 7 None (Some v))).
Proof.
  intros V E mo. split; [reflexivity|].
  set (bs := assemble 7 [] []).
  assert (Hl : frame_layout 7 [] [] bs) by (apply assemble_layout; vm_compute; reflexivity).
  split.
  - exists bs. split; [exact Hl|]. reflexivity.
  - exists (GS bs 0). split; [unfold gwf; cbn; lia|]. split; [reflexivity|]. intros v. reflexivity.
Qed.

Lemma p_C07_unpack_frame_partial : forall V (E : env V) id hdr body b extra s d0 mo m,
  is_int32 id -> frame_layout id hdr body b -> blen b < 2 ^ 32 -> gs_arr s = b ++ extra ->
  (UnpackWithMarshaller E s (Some d0) mo = Ok m <->
    msg_id m = id /\
    (hdr = [] /\ msg_header m = None \/ hdr <> [] /\ hunmarshal (e_hdr E) hdr = Ok (msg_header m)) /\
    (body = [] /\ msg_body m = Some d0 \/
     body <> [] /\ exists v, m_unmarshal (match mo with Some x => x | None => JsonMarshaller E end) body (Some d0) = Ok v /\ msg_body m = Some v)).
Proof.
  intros V E id hdr body b extra s d0 mo m Hid HL Hlen Harr. rewrite (Unpack_layout E id hdr body b extra s (Some d0) mo HL Hlen Harr).
  rewrite (to_int32_id id Hid). unfold or_json.
  set (um := m_unmarshal (match mo with Some x => x | None => JsonMarshaller E end)).
  assert (Q : forall h : header, (d <- match body with [] => Ok (Some d0) | _ => v <- um body (Some d0) ;; Ok (Some v) end ;; x <- indirect d ;; Ok (Msg id h x)) = Ok m <->
    (msg_id m = id /\ h = msg_header m) /\ (body = [] /\ msg_body m = Some d0 \/ body <> [] /\ exists v, um body (Some d0) = Ok v /\ msg_body m = Some v)).
  { intros h. destruct m as [i h' x]. cbn [msg_id msg_header msg_body]. destruct body as [|a body].
    - cbn [rbind indirect]. split; [intros X; injection X as <- <- <-; auto|]. intros ((-> & ->) & [(_ & ->)|(X & _)]); [reflexivity|contradiction].
    - destruct (um (a :: body) (Some d0)) as [v|e|] eqn:Eu; cbn [rbind indirect].
      + split; [intros X; injection X as <- <- <-; split; auto; right; split; [discriminate|eauto]|]. intros ((-> & ->) & [(X & _)|(_ & v' & X & ->)]); [discriminate|injection X as ->; reflexivity].
      + split; [discriminate|]. intros (_ & [(X & _)|(_ & v' & X & _)]); discriminate.
      + split; [discriminate|]. intros (_ & [(X & _)|(_ & v' & X & _)]); discriminate. }
  destruct hdr as [|a hdr].
  - cbn [rbind]. rewrite Q. split; [intros ((A & B) & C); repeat split; auto|]. intros (A & [(_ & B)|(B & _)] & C); [|contradiction]. auto.
  - destruct (hunmarshal (e_hdr E) (a :: hdr)) as [h|e|] eqn:Eh; cbn [rbind].
    + rewrite Q. split; [intros ((A & B) & C); subst; repeat split; auto; right; split; [discriminate|reflexivity]|]. intros (A & [(B & _)|(_ & B)] & C); [discriminate|]. injection B as B. auto.
    + split; [discriminate|]. intros (_ & [(X & _)|(_ & X)] & _); discriminate.
    + split; [discriminate|]. intros (_ & [(X & _)|(_ & X)] & _); discriminate.
Qed.

Lemma p_C07_unpack_panic_iff_partial : forall V (E : env V) s d0 mo,
  (forall bs, hunmarshal (e_hdr E) bs <> Panic) ->
  (forall bs d, m_unmarshal (match mo with Some x => x | None => JsonMarshaller E end) bs d <> Panic) ->
  let a := gs_arr s in
  let h := field a 8 in
  let b := field a 12 in
  let lo := (16 + h) mod 2 ^ 32 in
  let hi := (16 + h + b) mod 2 ^ 32 in
  UnpackWithMarshaller E s (Some d0) mo = Panic <->
    gcap s < 16 \/
    gcap s < (field a 0 + 4) mod 2 ^ 32 \/
    (h <> 0 /\ (lo < 16 \/ gcap s < lo)) \/
    ((h = 0 \/ exists hd, hunmarshal (e_hdr E) (slice a 16 (Z.to_nat lo)) = Ok hd) /\
     b <> 0 /\ (hi < lo \/ gcap s < hi)).
Proof. exact (@Unpack_panic_iff). Qed.

Lemma p_C07_unpack_confined_partial : forall V (E : env V) s d0 mo m,
  gwf s -> gs_len s = List.length (gs_arr s) ->
  UnpackWithMarshaller E s (Some d0) mo = Ok m ->
  let bs := gbytes s in
  let h := field bs 8 in
  let b := field bs 12 in
  msg_id m = signed (field bs 4) /\
  (h = 0 /\ msg_header m = None \/
   exists hi, (hi <= List.length bs)%nat /\ hunmarshal (e_hdr E) (slice bs 16 hi) = Ok (msg_header m)) /\
  (b = 0 /\ msg_body m = Some d0 \/
   exists lo hi v, (lo <= hi <= List.length bs)%nat /\
     m_unmarshal (match mo with Some x => x | None => JsonMarshaller E end) (slice bs lo hi) (Some d0) = Ok v /\
     msg_body m = Some v).
Proof.
  intros V E s d0 mo m Hwf Hfull HU bs h b.
  assert (Hbs : bs = gs_arr s) by (unfold bs, gbytes; rewrite Hfull; apply firstn_all).
  unfold h, b. rewrite Hbs. clear h b. clearbody bs. subst bs.
  destruct (Z.ltb_spec (gcap s) 16) as [Hc|Hc].
  { rewrite (Unpack_small_cap E) in HU by exact Hc. discriminate. }
  rewrite (Unpack_eq E) in HU by exact Hc. cbv zeta in HU.
  assert (Hr4 : 0 <= field (gs_arr s) 4 < two32) by (apply field_range; unfold gcap in Hc; lia).
  destruct (_ <=? gcap s); [|discriminate].
  destruct (Z.eqb_spec (field (gs_arr s) 8) 0) as [Hh|Hh]; cbn [rbind] in HU.
  - assert (Hgoal : forall d, (body <- indirect d ;; Ok (Msg (to_int32 (field (gs_arr s) 4)) None body)) = Ok m ->
       msg_id m = signed (field (gs_arr s) 4) /\ msg_header m = None /\ msg_body m = d).
    { intros [d|] H; [|discriminate]. injection H as <-. cbn. rewrite signed_to_int32 by exact Hr4. auto. }
    destruct (Z.eqb_spec (field (gs_arr s) 12) 0) as [Hb|Hb]; cbn [rbind] in HU.
    + apply Hgoal in HU. destruct HU as (A & B & C). auto.
    + destruct (_ <=? _) eqn:L1; cbn [andb] in HU; [|discriminate].
      destruct (_ <=? gcap s) eqn:L2; [|discriminate].
      destruct (m_unmarshal _ _ _) as [v| |] eqn:Hm; try discriminate. cbn [rbind] in HU.
      apply (Hgoal (Some v)) in HU. destruct HU as (A & B & C). repeat split; auto.
      right. do 3 eexists. split; [|split; [exact Hm|exact C]]. unfold gcap in L2.
      apply Z.leb_le in L1. apply Z.leb_le in L2. lia.
  - destruct (16 <=? _) eqn:L1; cbn [andb] in HU; [|discriminate].
    destruct (to_uint32 (16 + field (gs_arr s) 8) <=? gcap s) eqn:L2; [|discriminate].
    destruct (hunmarshal _ _) as [hd| |] eqn:Hu; try discriminate. cbn [rbind] in HU.
    apply Z.leb_le in L1. apply Z.leb_le in L2. unfold gcap in L2.
    assert (Hgoal : forall d, (body <- indirect d ;; Ok (Msg (to_int32 (field (gs_arr s) 4)) hd body)) = Ok m ->
       msg_id m = signed (field (gs_arr s) 4) /\ msg_header m = hd /\ msg_body m = d).
    { intros [d|] H; [|discriminate]. injection H as <-. cbn. rewrite signed_to_int32 by exact Hr4. auto. }
    destruct (Z.eqb_spec (field (gs_arr s) 12) 0) as [Hb|Hb]; cbn [rbind] in HU.
    + apply Hgoal in HU. destruct HU as (A & B & C). repeat split; auto.
      right. eexists. split; [|rewrite B; exact Hu]. lia.
    + destruct (_ <=? to_uint32 _) eqn:L3; cbn [andb] in HU; [|discriminate].
      destruct (_ <=? gcap s) eqn:L4; [|discriminate].
      destruct (m_unmarshal _ _ _) as [v| |] eqn:Hm; try discriminate. cbn [rbind] in HU.
      apply (Hgoal (Some v)) in HU. destruct HU as (A & B & C). repeat split; auto.
      * right. eexists. split; [|rewrite B; exact Hu]. lia.
      * right. do 3 eexists. split; [|split; [exact Hm|exact C]]. unfold gcap in L4.
        apply Z.leb_le in L3. apply Z.leb_le in L4. lia.
Qed.

Lemma p_C08_receivable_iff_partial : forall V (E : env V) (m : message V) mo b rest en r,
  PackWithMarshaller E m mo = Ok b -> segmentation (b ++ rest) en r ->
  (fst (FirstBlockOf r) = RdOk b <-> blen b - 4 < 2 ^ 31).
Proof.
  intros V E m mo b rest en r Hp HS. apply PackWithMarshaller_ok in Hp. destruct Hp as (hdr & body & _ & _ & ->).
  set (b := assemble (msg_id m) hdr body) in *.
  assert (Hbl : blen b = 16 + blen hdr + blen body) by (unfold b; apply assemble_length).
  pose proof (blen_nonneg hdr). pose proof (blen_nonneg body).
  split.
  - intros HR. destruct (Z.ltb_spec (blen b - 4) (2 ^ 31)) as [|Hge]; [assumption|exfalso].
    destruct HS as (P & T & N).
    pose proof (block_reader_spec 0 false r P) as HB. cbv zeta in HB.
    unfold FirstBlockOf in HR. destruct (UnpackToBlockFromReader r) as [o r']. cbn [fst] in HR. subst o.
    assert (Hb4 : (4 <= List.length b)%nat) by (unfold blen in *; lia).
    assert (Hf : 0 <= field (total_bytes r) 0 < two32).
    { apply field_range. rewrite T, app_length. lia. }
    destruct HB as [(_ & r1 & HB & _)|(_ & r4 & _ & _ & _ & [(HB & _)|[(_ & _ & HB)|[(_ & Hn & _ & r1 & HB & _)|(_ & _ & _ & r1 & HB & _)]]])].
    + destruct (ends r); discriminate.
    + discriminate.
    + discriminate.
    + apply rdok_inj in HB. apply (f_equal blen) in HB. unfold blen at 2 in HB. rewrite firstn_length in HB.
      unfold signed, two32 in *. change (2 ^ 31) with 2147483648 in *. change (2 ^ 32) with 4294967296 in *.
      destruct (Z.ltb_spec (field (total_bytes r) 0) 2147483648); lia.
    + destruct (ends r); discriminate.
  - intros Hlt. assert (Hblk : is_block b) by (apply assemble_is_block; lia).
    destruct (read_block_ok 0 false b rest en r Hblk ltac:(discriminate) HS) as (r' & E' & _).
    unfold FirstBlockOf. rewrite E'. reflexivity.
Qed.

Lemma p_C08_oversize_pack_refuted :
  (forall id hdr body rest en r, 2 ^ 31 <= 12 + blen hdr + blen body < 2 ^ 32 ->
     segmentation (assemble id hdr body ++ rest) en r -> fst (FirstBlockOf r) = RdPanic) /\
  exists V (E : env V) m b, PackWithMarshaller E m None = Ok b /\ fst (FirstBlockOf [RData b]) = RdPanic.
Proof.
  assert (H : forall id hdr body rest en r, 2 ^ 31 <= 12 + blen hdr + blen body < 2 ^ 32 ->
     segmentation (assemble id hdr body ++ rest) en r -> fst (FirstBlockOf r) = RdPanic).
  { intros id hdr body rest en r Hs (P & T & N).
    destruct (layout_fields id hdr body _ rest (assemble_layout id hdr body ltac:(lia))) as (F0 & _ & _ & _ & Hbl & _).
    pose proof (block_reader_spec 0 false r P) as HB. cbv zeta in HB. rewrite T in HB. rewrite F0 in HB.
    assert (Hsg : signed (blen (assemble id hdr body) - 4) < 0).
    { unfold signed. destruct (Z.ltb_spec (blen (assemble id hdr body) - 4) (2 ^ 31)); lia. }
    unfold FirstBlockOf.
    destruct HB as [(HB & _)|(_ & r4 & _ & _ & _ & [(HB & _)|[(_ & _ & HB)|[(_ & Hn & _)|(_ & Hn & _)]]])].
    - rewrite blen_app in HB. pose proof (blen_nonneg rest). pose proof (blen_nonneg hdr). pose proof (blen_nonneg body). lia.
    - discriminate.
    - rewrite HB. reflexivity.
    - lia.
    - lia. }
  split; [exact H|].
  assert (Hbig : exists l : bytes, blen l = 2 ^ 31).
  { exists (repeat "a"%char (Z.to_nat (2 ^ 31))). unfold blen. rewrite repeat_length. apply Z2Nat.id. apply Z.pow_nonneg. lia. }
  destruct Hbig as (l & Hl).
  set (E := Env json_hdr (fun _ => Ok l) (fun _ _ => Err EEOF)
     (fun _ => Err EEOF) (fun _ _ => Err EEOF) (fun _ => Err EEOF) (fun _ _ => Err EEOF)
     (fun _ => Err EEOF) (fun _ _ => Err EEOF) (fun _ => Err EEOF) (fun _ _ => Err (A := unit) EEOF)).
  exists unit, E, (Msg 1 None (Some tt)).
  exists (assemble 1 (str_bytes "null") l). split.
  - apply PackWithMarshaller_ok. exists (str_bytes "null"), l. repeat split.
  - apply (H 1 (str_bytes "null") l [] StaysOpen).
    + rewrite Hl. vm_compute. split; [discriminate|reflexivity].
    + split; [constructor; [exact I|constructor]|]. split; [cbn [total_bytes]; reflexivity|reflexivity].
Qed.

Lemma p_C09_injective_and_prefix_free : forall V (E : env V) (m1 m2 : message V) mo1 mo2 b1 b2 x y,
  is_int32 (msg_id m1) -> is_int32 (msg_id m2) ->
  PackWithMarshaller E m1 mo1 = Ok b1 -> PackWithMarshaller E m2 mo2 = Ok b2 ->
  blen b1 - 4 < 2 ^ 32 -> blen b2 - 4 < 2 ^ 32 ->
  b1 ++ x = b2 ++ y ->
  b1 = b2 /\ x = y /\ msg_id m1 = msg_id m2 /\
  exists hdr body, hmarshal (e_hdr E) (msg_header m1) = Ok hdr /\ hmarshal (e_hdr E) (msg_header m2) = Ok hdr /\
    body_encoding E mo1 (msg_body m1) body /\ body_encoding E mo2 (msg_body m2) body.
Proof.
  intros V E m1 m2 mo1 mo2 b1 b2 x y I1 I2 P1 P2 L1 L2 He.
  apply PackWithMarshaller_ok in P1. destruct P1 as (h1 & d1 & A1 & B1 & ->).
  apply PackWithMarshaller_ok in P2. destruct P2 as (h2 & d2 & A2 & B2 & ->).
  rewrite assemble_length in L1, L2.
  destruct (assemble_inj (msg_id m1) h1 d1 (msg_id m2) h2 d2 x y ltac:(lia) ltac:(lia) He) as (Hid & <- & <- & <-).
  assert (Hid' : msg_id m1 = msg_id m2).
  { unfold is_int32, two31 in *. change (2 ^ 32) with 4294967296 in Hid. lia. }
  rewrite Hid'. repeat split. exists h1, d1. repeat split; auto; apply pack_body_encoding; assumption.
Qed.

Lemma p_C10_header_merge_last_wins : forall V (E : env V) mar id src body hs,
  Forall (fun h => NoDup (map fst (entries_of h))) hs ->
  exists m,
    (forall k, aget k m = last_mention k (map entries_of hs)) /\ (hs = [] -> m = []) /\
    PackxPack E mar id src hs = PackWithMarshaller E (Msg id (Some m) src) (Some mar) /\
    PackxPackWithBody E id body hs = PackWithMarshallerAndBody E (Msg id (Some m) None) body.
Proof.
  intros V E mar id src body hs Hnd. exists (merge_headers hs).
  split; [intros k; apply merge_headers_get; exact Hnd|].
  split; [intros ->; reflexivity|]. destruct hs; split; reflexivity.
Qed.

Lemma p_C11_marshaller_names : forall V (E : env V) n m s d,
  match aget n documented_names with
  | Some f =>
      GetMarshallerByMarshalName E n = Ok (format_marshaller E f) /\
      PackWithMarshallerName E m n = PackWithMarshaller E m (Some (format_marshaller E f)) /\
      UnpackWithMarshallerName E s d n = UnpackWithMarshaller E s d (Some (format_marshaller E f))
  | None =>
      (exists e, GetMarshallerByMarshalName E n = Err e) /\ (exists e, PackWithMarshallerName E m n = Err e) /\
      (exists e, UnpackWithMarshallerName E s d n = Err e)
  end.
Proof.
  intros V E n m s d. unfold documented_names.
  cbn [aget keqb EqK_string].
  unfold GetMarshallerByMarshalName, PackWithMarshallerName, UnpackWithMarshallerName.
  destruct (String.eqb n "json"); [repeat split|].
  destruct (String.eqb n "xml"); [repeat split|].
  destruct (String.eqb n "toml"); [repeat split|]. destruct (String.eqb n "tml"); [repeat split|].
  destruct (String.eqb n "yaml"); [repeat split|]. destruct (String.eqb n "yml"); [repeat split|].
  destruct (String.eqb n "protobuf"); [repeat split|]. destruct (String.eqb n "proto"); [repeat split|].
  cbn [orb]. repeat split; eexists; reflexivity.
Qed.
