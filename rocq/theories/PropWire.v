(* Property theorems: C01-C11: wire format, accessors, unpacking, header merge, marshaller names.
   Each is closed by the lemma of the same name in WireProofs.v. *)
From Verif Require Export WireProofs.
From Verif Require Import Demo.

(* C01.  Whatever PackWithMarshaller (also Message.Pack, which is the same call)
   returns is the documented layout of the encoded header and body.
   Example: C01_case. *)
Theorem C01_pack_layout : forall V (E : env V) (m : message V) mo b,
  PackWithMarshaller E m mo = Ok b -> blen b - 4 < 2 ^ 32 ->
  exists hdr body,
    hmarshal (e_hdr E) (msg_header m) = Ok hdr /\
    body_encoding E mo (msg_body m) body /\
    frame_layout (msg_id m) hdr body b.
Proof. exact p_C01_pack_layout. Qed.
Print Assumptions C01_pack_layout.

(* C01 for Pack, whose arguments are the parts of the message.
   Example: C01_case. *)
Theorem C01_pack : forall V (E : env V) id h src mo b, Pack E id h src mo = Ok b -> blen b - 4 < 2 ^ 32 ->
  exists hdr body, hmarshal (e_hdr E) h = Ok hdr /\ body_encoding E mo src body /\ frame_layout id hdr body b.
Proof. exact p_C01_pack. Qed.
Print Assumptions C01_pack.

(* C01 for the entry points that take an already encoded body.
   Example: C01_case. *)
Theorem C01_pack_with_body_layout : forall V (E : env V) (m : message V) body b,
  PackWithMarshallerAndBody E m body = Ok b -> blen b - 4 < 2 ^ 32 ->
  exists hdr, hmarshal (e_hdr E) (msg_header m) = Ok hdr /\ frame_layout (msg_id m) hdr body b.
Proof. exact p_C01_pack_with_body_layout. Qed.
Print Assumptions C01_pack_with_body_layout.

(* C01: packing succeeds exactly when the two encoders do; it adds no failure of its own. *)
Theorem C01_pack_succeeds_iff : forall V (E : env V) (m : message V) mo,
  (exists b, PackWithMarshaller E m mo = Ok b) <->
  (exists hdr body, hmarshal (e_hdr E) (msg_header m) = Ok hdr /\ body_encoding E mo (msg_body m) body).
Proof. exact p_C01_pack_succeeds_iff. Qed.
Print Assumptions C01_pack_succeeds_iff.

(* C01 for Packx.Pack / Packx.PackWithBody (variadic headers), PackHeartbeat and PackStuff.
   Example: C01_case. *)
Theorem C01_packx_layout : forall V (E : env V) mar id src body hs b,
  (PackxPack E mar id src hs = Ok b -> blen b - 4 < 2 ^ 32 ->
     exists h hdr bd, carries h hs /\ hmarshal (e_hdr E) (Some h) = Ok hdr /\ body_encoding E (Some mar) src bd /\ frame_layout id hdr bd b) /\
  (PackxPackWithBody E id body hs = Ok b -> blen b - 4 < 2 ^ 32 ->
     exists h hdr, carries h hs /\ hmarshal (e_hdr E) (Some h) = Ok hdr /\ frame_layout id hdr body b) /\
  (PackHeartbeat E = Ok b -> blen b - 4 < 2 ^ 32 ->
     exists hdr, hmarshal (e_hdr E) None = Ok hdr /\ frame_layout 1392 hdr [] b) /\
  (PackStuff E id = Ok b -> blen b - 4 < 2 ^ 32 ->
     exists hdr, hmarshal (e_hdr E) None = Ok hdr /\ frame_layout id hdr [] b).
Proof. exact p_C01_packx_layout. Qed.
Print Assumptions C01_packx_layout.

(* a real message: negative id, non-empty header and body *)
Example C01_case : exists b, PackWithMarshaller demo_env (demo_msg (-7) "hello") None = Ok b /\ blen b = 50 /\
  firstn 16 b = be4 46 ++ be4 (2 ^ 32 - 7) ++ be4 28 ++ be4 6.
Proof. eexists. split; [vm_compute; reflexivity|]. split; vm_compute; reflexivity. Qed.

(* C02.  Unpack of a packed message, in any slice whose array starts with it, gives back the
   message.  Laws assumed: the header codec and the marshaller round-trip on the two values.
   Example: C02_case. *)
Theorem C02_unpack_inverts_pack : forall V (E : env V) (m : message V) mo b extra s d0,
  is_int32 (msg_id m) ->
  hdr_roundtrips (e_hdr E) (msg_header m) ->
  (forall v, msg_body m = Some v ->
     body_roundtrips (match mo with Some x => x | None => JsonMarshaller E end) v (Some d0)) ->
  PackWithMarshaller E m mo = Ok b -> blen b < 2 ^ 32 -> gs_arr s = b ++ extra ->
  exists m', UnpackWithMarshaller E s (Some d0) mo = Ok m' /\
    msg_id m' = msg_id m /\ header_eq (msg_header m) (msg_header m') /\
    (msg_body m' = msg_body m \/
     (msg_body m' = Some d0 /\ body_encoding E mo (msg_body m) [])).
Proof. exact p_C02_unpack_inverts_pack. Qed.
Print Assumptions C02_unpack_inverts_pack.

(* C02 with the concrete JSON header codec: no law about headers is assumed.
   Example: C02_case. *)
Theorem C02_unpack_inverts_pack_json_header : forall V (E : env V) (m : message V) mo b extra s d0,
  e_hdr E = json_hdr -> is_int32 (msg_id m) -> valid_header (msg_header m) = true ->
  (forall v, msg_body m = Some v ->
     body_roundtrips (match mo with Some x => x | None => JsonMarshaller E end) v (Some d0)) ->
  PackWithMarshaller E m mo = Ok b -> blen b < 2 ^ 32 -> gs_arr s = b ++ extra ->
  exists m', UnpackWithMarshaller E s (Some d0) mo = Ok m' /\
    msg_id m' = msg_id m /\ header_eq (msg_header m) (msg_header m') /\
    (msg_body m' = msg_body m \/
     (msg_body m' = Some d0 /\ body_encoding E mo (msg_body m) [])).
Proof. exact p_C02_unpack_inverts_pack_json_header. Qed.
Print Assumptions C02_unpack_inverts_pack_json_header.

Example C02_case :
  exists b, PackWithMarshaller demo_env (Msg (-7) sample_header (Some "body"%string)) None = Ok b /\
  valid_header sample_header = true /\
  (forall v d0, body_roundtrips (JsonMarshaller demo_env) v (Some d0)) /\
  exists m', UnpackWithMarshaller demo_env (GS (b ++ str_bytes "tail") 5) (Some EmptyString) None = Ok m' /\
    msg_id m' = -7 /\ msg_body m' = Some "body"%string.
Proof.
  eexists. split; [vm_compute; reflexivity|]. split; [vm_compute; reflexivity|]. split.
  - intros v d0 bs H _. injection H as <-. unfold JsonMarshaller, demo_env, tag_dec, m_unmarshal, e_unjson, str_bytes.
    rewrite Ascii.eqb_refl, string_of_list_ascii_of_string. reflexivity.
  - eexists. split; [vm_compute; reflexivity|]. split; reflexivity.
Qed.

(* C03.  Accessors on a packed block followed by anything.
   Example: C03_case. *)
Theorem C03_accessors_agree : forall id hdr body b extra s,
  is_int32 id -> frame_layout id hdr body b -> blen b < 2 ^ 31 ->
  gwf s -> gbytes s = b ++ extra ->
  LengthOf s = Ok (blen b - 4) /\ MessageIDOf s = Ok id /\
  HeaderLengthOf s = Ok (blen hdr) /\ BodyLengthOf s = Ok (blen body) /\
  (exists r, HeaderBytesOf s = Ok r /\ gbytes r = hdr) /\
  (exists r, BodyBytesOf s = Ok r /\ gbytes r = body).
Proof. exact p_C03_accessors_agree. Qed.
Print Assumptions C03_accessors_agree.

(* C03 for what the packing function really produced.
   Example: C03_packed_case. *)
Theorem C03_of_packed : forall V (E : env V) (m : message V) mo b extra s,
  is_int32 (msg_id m) -> PackWithMarshaller E m mo = Ok b -> blen b < 2 ^ 31 ->
  gwf s -> gbytes s = b ++ extra ->
  exists hdr body,
    hmarshal (e_hdr E) (msg_header m) = Ok hdr /\ body_encoding E mo (msg_body m) body /\
    LengthOf s = Ok (blen b - 4) /\ MessageIDOf s = Ok (msg_id m) /\
    HeaderLengthOf s = Ok (blen hdr) /\ BodyLengthOf s = Ok (blen body) /\
    (exists r, HeaderBytesOf s = Ok r /\ gbytes r = hdr) /\
    (exists r, BodyBytesOf s = Ok r /\ gbytes r = body).
Proof. exact p_C03_of_packed. Qed.
Print Assumptions C03_of_packed.

Example C03_packed_case : exists b s,
  PackWithMarshaller demo_env (Msg (-7) sample_header (Some "body"%string)) None = Ok b /\ blen b < 2 ^ 31 /\
  gwf s /\ gbytes s = b ++ str_bytes "tail" /\ MessageIDOf s = Ok (-7).
Proof.
  eexists. eexists (of_bytes (_ ++ str_bytes "tail")). split; [vm_compute; reflexivity|].
  split; [vm_compute; reflexivity|]. split; [apply gwf_of_bytes|]. split; [apply gbytes_of_bytes|vm_compute; reflexivity].
Qed.

(* C03 through the io.Reader entry point: UnPackFromReader returns id, header and body.
   Example: C03_case. *)
Theorem C03_unpack_from_reader : forall hc id hdr body b h rest en r,
  is_int32 id -> frame_layout id hdr body b -> blen b < 2 ^ 31 -> hunmarshal hc hdr = Ok h ->
  segmentation (b ++ rest) en r ->
  exists r', UnPackFromReader hc r = (RdOk (id, h, body), r') /\ segmentation rest en r'.
Proof. exact p_C03_unpack_from_reader. Qed.
Print Assumptions C03_unpack_from_reader.

Example C03_case : exists hdr body, frame_layout (-7) hdr body (demo_block (-7) "hello") /\ is_int32 (-7) /\
  blen (demo_block (-7) "hello") < 2 ^ 31 /\ hdr <> [] /\ body <> [].
Proof.
  destruct (C01_pack_layout _ demo_env (demo_msg (-7) "hello") None (demo_block (-7) "hello")) as (hdr & body & H1 & H2 & H3).
  - vm_compute. reflexivity.
  - vm_compute. reflexivity.
  - exists hdr, body. split; [exact H3|]. split; [unfold is_int32; vm_compute; split; [discriminate|reflexivity]|].
    split; [vm_compute; reflexivity|].
    split; intros ->; vm_compute in H1, H2; discriminate.
Qed.

(* C04 is false of the code: a stream of 16 bytes whose header length field is -1 panics in
   HeaderBytesOf (and in everything built on it), one of 16 bytes in BodyBytesOf. *)
Theorem C04_accessors_never_panic_refuted : exists bs1 bs2,
  HeaderBytesOf (of_bytes bs1) = Panic /\ (forall hc, HeaderOf hc (of_bytes bs1) = Panic) /\
  (forall hc, URLPatternOf hc (of_bytes bs1) = Panic) /\ (forall hc, RouteTypeOf hc (of_bytes bs1) = Panic) /\
  BodyBytesOf (of_bytes bs2) = Panic /\ (forall V (u : bytes -> option V -> res V) d, PackTypeBind u (of_bytes bs2) d = Panic).
Proof. exact p_C04_accessors_never_panic_refuted. Qed.
Print Assumptions C04_accessors_never_panic_refuted.

(* C04, the part that holds: the four fixed-offset accessors and FirstBlockOfBytes never panic;
   the other two panic exactly under the stated condition on the length fields.
   Missing for the full claim: those conditions are reachable.
   Example: C04_case. *)
Theorem C04_accessors_panic_iff_partial : forall s, gwf s ->
  let L := blen (gbytes s) in
  let h := signed (field (gbytes s) 8) in
  let b := signed (field (gbytes s) 12) in
  LengthOf s <> Panic /\ MessageIDOf s <> Panic /\ HeaderLengthOf s <> Panic /\ BodyLengthOf s <> Panic /\
  FirstBlockOfBytes s <> Panic /\
  (HeaderBytesOf s = Panic <-> 12 <= L /\ 16 + h <= L /\ (h < 0 \/ 2 ^ 31 - 16 <= h)) /\
  (BodyBytesOf s = Panic <-> 16 <= L /\ 16 + h + b <= L /\ (h < -16 \/ b < 0 \/ 2 ^ 31 <= 16 + h + b)).
Proof. exact p_C04_accessors_panic_iff_partial. Qed.
Print Assumptions C04_accessors_panic_iff_partial.

(* C04, the accessors built on those two: with a header decoder that does not panic, HeaderOf,
   URLPatternOf and RouteTypeOf panic exactly when HeaderBytesOf does; with a body decoder that does not
   panic, PackType's Bind exactly when BodyBytesOf does.
   Example: C04_case. *)
Theorem C04_derived_panic_iff_partial : forall hc s, gwf s -> (forall bs, hunmarshal hc bs <> Panic) ->
  let L := blen (gbytes s) in
  let h := signed (field (gbytes s) 8) in
  let b := signed (field (gbytes s) 12) in
  let bad_header := 12 <= L /\ 16 + h <= L /\ (h < 0 \/ 2 ^ 31 - 16 <= h) in
  (HeaderOf hc s = Panic <-> bad_header) /\ (URLPatternOf hc s = Panic <-> bad_header) /\ (RouteTypeOf hc s = Panic <-> bad_header) /\
  (forall V (u : bytes -> option V -> res V) d, (forall bs, u bs d <> Panic) ->
     (PackTypeBind u s d = Panic <-> 16 <= L /\ 16 + h + b <= L /\ (h < -16 \/ b < 0 \/ 2 ^ 31 <= 16 + h + b))).
Proof. exact p_C04_derived_panic_iff_partial. Qed.
Print Assumptions C04_derived_panic_iff_partial.

(* all three outcomes of HeaderBytesOf occur *)
Example C04_case : HeaderBytesOf (of_bytes (be4 0 ++ be4 0 ++ be4 (2 ^ 32 - 1) ++ be4 0)) = Panic /\
  is_ok (HeaderBytesOf (of_bytes (demo_block 5 "x"))) = true /\ is_ok (HeaderBytesOf (of_bytes (be4 9))) = false.
Proof. vm_compute. repeat split. Qed.

(* C05 is false: with header length -16 and body length 16 BodyBytesOf "succeeds" and returns the
   16-byte prefix itself as the body. *)
Theorem C05_body_region_refuted : exists bs r,
  BodyBytesOf (of_bytes bs) = Ok r /\ blen bs = 16 /\ gbytes r = firstn 16 bs /\ signed (field bs 12) = 16.
Proof. exact p_C05_body_region_refuted. Qed.
Print Assumptions C05_body_region_refuted.

(* C05, the part that holds: HeaderBytesOf always; BodyBytesOf whenever the header length field is
   not negative; and in every case the result has bodyLength bytes inside the stream.
   Example: C05_case. *)
Theorem C05_body_region_partial : forall s r, gwf s ->
  let bs := gbytes s in
  let h := signed (field bs 8) in
  let b := signed (field bs 12) in
  (HeaderBytesOf s = Ok r -> 0 <= h /\ 16 + h <= blen bs /\ gbytes r = slice bs 16 (16 + Z.to_nat h)) /\
  (BodyBytesOf s = Ok r ->
     -16 <= h /\ 0 <= b /\ 16 + h + b <= blen bs /\ blen (gbytes r) = b /\
     gbytes r = slice bs (Z.to_nat (16 + h)) (Z.to_nat (16 + h + b)) /\
     (0 <= h -> gbytes r = slice bs (16 + Z.to_nat h) (16 + Z.to_nat h + Z.to_nat b))).
Proof. exact p_C05_body_region_partial. Qed.
Print Assumptions C05_body_region_partial.

Example C05_case : exists r, BodyBytesOf (of_bytes (demo_block 5 "hello" ++ str_bytes "next")) = Ok r /\
  0 <= signed (field (demo_block 5 "hello") 8) /\ gbytes r = str_bytes "jhello".
Proof. eexists. split; [vm_compute; reflexivity|]. vm_compute. split; [discriminate|reflexivity]. Qed.

(* C06. *)
Theorem C06_first_block_of_bytes : forall s, gwf s ->
  let bs := gbytes s in
  let n := field bs 0 in
  FirstBlockOfBytes s <> Panic /\
  (16 <= blen bs -> 4 + n <= blen bs ->
     exists r, FirstBlockOfBytes s = Ok r /\ gbytes r = firstn (Z.to_nat (4 + n)) bs) /\
  (blen bs < 16 \/ blen bs < 4 + n -> exists e, FirstBlockOfBytes s = Err e).
Proof. exact p_C06_first_block_of_bytes. Qed.
Print Assumptions C06_first_block_of_bytes.

Example C06_case : let two := demo_block 5 "hello" ++ demo_block 6 "x" in
  16 <= blen two /\ 4 + field two 0 <= blen two /\ 4 + field two 0 = blen (demo_block 5 "hello").
Proof. vm_compute. repeat split; discriminate. Qed.

(* C07 is false three times: a short stream panics; a nil dest panics on a message without body;
   and a slice of length 0 over a larger array is decoded from bytes beyond its length. *)
Theorem C07_unpack_total_refuted : forall V (E : env V) mo,
  (forall d, UnpackWithMarshaller E (of_bytes []) d mo = Panic) /\
  (exists bs, frame_layout 7 [] [] bs /\ UnpackWithMarshaller E (of_bytes bs) None mo = Panic) /\
  (exists s, gwf s /\ gbytes s = [] /\ forall v, UnpackWithMarshaller E s (Some v) mo = Ok (Msg 7 None (Some v))).
Proof. exact p_C07_unpack_total_refuted. Qed.
Print Assumptions C07_unpack_total_refuted.

(* C07, the part that holds: of a well-formed message Unpack decodes exactly the header and the body that
   are laid out in it, whatever follows it, and succeeds exactly when both decoders do; an empty header or
   body is not decoded.
   Example: C07_case. *)
Theorem C07_unpack_frame_partial : forall V (E : env V) id hdr body b extra s d0 mo m,
  is_int32 id -> frame_layout id hdr body b -> blen b < 2 ^ 32 -> gs_arr s = b ++ extra ->
  (UnpackWithMarshaller E s (Some d0) mo = Ok m <->
    msg_id m = id /\
    (hdr = [] /\ msg_header m = None \/ hdr <> [] /\ hunmarshal (e_hdr E) hdr = Ok (msg_header m)) /\
    (body = [] /\ msg_body m = Some d0 \/
     body <> [] /\ exists v, m_unmarshal (match mo with Some x => x | None => JsonMarshaller E end) body (Some d0) = Ok v /\ msg_body m = Some v)).
Proof. exact p_C07_unpack_frame_partial. Qed.
Print Assumptions C07_unpack_frame_partial.

(* C07, the part that holds.  With a non-nil dest and decoders that do not panic, Unpack panics
   exactly under the stated condition (arithmetic is modulo 2^32).
   Example: C07_case. *)
Theorem C07_unpack_panic_iff_partial : forall V (E : env V) s d0 mo,
  (forall bs, hunmarshal (e_hdr E) bs <> Panic) ->
  (forall bs d, m_unmarshal (match mo with Some x => x | None => JsonMarshaller E end) bs d <> Panic) ->
  let a := gs_arr s in
  let h := field a 8 in
  let b := field a 12 in
  let lo := (16 + h) mod 2 ^ 32 in
  let hi := (16 + h + b) mod 2 ^ 32 in
  UnpackWithMarshaller E s (Some d0) mo = Panic <->
    gcap s < 16 \/
    gcap s < (field a 0 + 4) mod 2 ^ 32 \/
    (h <> 0 /\ (lo < 16 \/ gcap s < lo)) \/
    ((h = 0 \/ exists hd, hunmarshal (e_hdr E) (slice a 16 (Z.to_nat lo)) = Ok hd) /\
     b <> 0 /\ (hi < lo \/ gcap s < hi)).
Proof. exact p_C07_unpack_panic_iff_partial. Qed.
Print Assumptions C07_unpack_panic_iff_partial.

(* C07: when the slice has no capacity beyond its length, everything decoded lies inside it:
   the result is a function of two slices of the visible bytes.
   Example: C07_case. *)
Theorem C07_unpack_confined_partial : forall V (E : env V) s d0 mo m,
  gwf s -> gs_len s = List.length (gs_arr s) ->
  UnpackWithMarshaller E s (Some d0) mo = Ok m ->
  let bs := gbytes s in
  let h := field bs 8 in
  let b := field bs 12 in
  msg_id m = signed (field bs 4) /\
  (h = 0 /\ msg_header m = None \/
   exists hi, (hi <= List.length bs)%nat /\ hunmarshal (e_hdr E) (slice bs 16 hi) = Ok (msg_header m)) /\
  (b = 0 /\ msg_body m = Some d0 \/
   exists lo hi v, (lo <= hi <= List.length bs)%nat /\
     m_unmarshal (match mo with Some x => x | None => JsonMarshaller E end) (slice bs lo hi) (Some d0) = Ok v /\
     msg_body m = Some v).
Proof. exact p_C07_unpack_confined_partial. Qed.
Print Assumptions C07_unpack_confined_partial.

(* the hypotheses on decoders hold of the concrete ones; both outcomes occur *)
Example C07_case : (forall bs, hunmarshal (e_hdr demo_env) bs <> Panic) /\
  (forall bs d, m_unmarshal (JsonMarshaller demo_env) bs d <> Panic) /\
  is_ok (UnpackWithMarshaller demo_env (of_bytes (demo_block 7 "hello")) (Some EmptyString) None) = true /\
  UnpackWithMarshaller demo_env (of_bytes (be4 12 ++ be4 7 ++ be4 (2 ^ 32 - 1) ++ be4 0)) (Some EmptyString) None = Panic.
Proof.
  split; [exact json_hunmarshal_no_panic|]. split.
  - intros bs [d|]; [|discriminate]. cbn. destruct bs as [|c bs]; [discriminate|]. destruct (Ascii.eqb c "j"); discriminate.
  - vm_compute. split; reflexivity.
Qed.

(* C08, the receivability half: a packed message is returned by the block reader exactly when its
   content (everything after the length field) is shorter than 2^31 bytes.
   Example: C08_case. *)
Theorem C08_receivable_iff_partial : forall V (E : env V) (m : message V) mo b rest en r,
  PackWithMarshaller E m mo = Ok b -> segmentation (b ++ rest) en r ->
  (fst (FirstBlockOf r) = RdOk b <-> blen b - 4 < 2 ^ 31).
Proof. exact p_C08_receivable_iff_partial. Qed.
Print Assumptions C08_receivable_iff_partial.

(* C08, the packing half is false: a message of 2^31 content bytes or more (below 2^32) is packed
   without error and then panics the receiver. *)
Theorem C08_oversize_pack_refuted :
  (forall id hdr body rest en r, 2 ^ 31 <= 12 + blen hdr + blen body < 2 ^ 32 ->
     segmentation (assemble id hdr body ++ rest) en r -> fst (FirstBlockOf r) = RdPanic) /\
  exists V (E : env V) m b, PackWithMarshaller E m None = Ok b /\ fst (FirstBlockOf [RData b]) = RdPanic.
Proof. exact p_C08_oversize_pack_refuted. Qed.
Print Assumptions C08_oversize_pack_refuted.

Example C08_case : segmentation (demo_block 3 "hello" ++ str_bytes "zz") (Fails EEOF)
    [RData (firstn 2 (demo_block 3 "hello")); RData []; RData (skipn 2 (demo_block 3 "hello") ++ str_bytes "zz"); RFail EEOF] /\
  blen (demo_block 3 "hello") - 4 < 2 ^ 31.
Proof.
  split; [split; [unfold plain; repeat constructor|split; vm_compute; reflexivity]|vm_compute; reflexivity].
Qed.

(* C09. *)
Theorem C09_injective_and_prefix_free : forall V (E : env V) (m1 m2 : message V) mo1 mo2 b1 b2 x y,
  is_int32 (msg_id m1) -> is_int32 (msg_id m2) ->
  PackWithMarshaller E m1 mo1 = Ok b1 -> PackWithMarshaller E m2 mo2 = Ok b2 ->
  blen b1 - 4 < 2 ^ 32 -> blen b2 - 4 < 2 ^ 32 ->
  b1 ++ x = b2 ++ y ->
  b1 = b2 /\ x = y /\ msg_id m1 = msg_id m2 /\
  exists hdr body, hmarshal (e_hdr E) (msg_header m1) = Ok hdr /\ hmarshal (e_hdr E) (msg_header m2) = Ok hdr /\
    body_encoding E mo1 (msg_body m1) body /\ body_encoding E mo2 (msg_body m2) body.
Proof. exact p_C09_injective_and_prefix_free. Qed.
Print Assumptions C09_injective_and_prefix_free.

Example C09_case : exists x y, demo_block 1 "a" ++ x = demo_block 1 "a" ++ y /\
  demo_block 1 "a" <> demo_block 2 "a" /\ demo_block 1 "a" <> demo_block 1 "b" /\ x <> [].
Proof.
  exists (str_bytes "k"), (str_bytes "k"). split; [reflexivity|]. split; [|split]; intros H; vm_compute in H; discriminate.
Qed.

(* C10.  Each header argument is a Go map, hence without duplicate keys. *)
Theorem C10_header_merge_last_wins : forall V (E : env V) mar id src body hs,
  Forall (fun h => NoDup (map fst (entries_of h))) hs ->
  exists m,
    (forall k, aget k m = last_mention k (map entries_of hs)) /\ (hs = [] -> m = []) /\
    PackxPack E mar id src hs = PackWithMarshaller E (Msg id (Some m) src) (Some mar) /\
    PackxPackWithBody E id body hs = PackWithMarshallerAndBody E (Msg id (Some m) None) body.
Proof. exact p_C10_header_merge_last_wins. Qed.
Print Assumptions C10_header_merge_last_wins.

Example C10_case :
  let hs := [Some [("a", JInt 1); ("b", JInt 2)]; None; Some [("b", JInt 3); ("c", JNull)]]%string in
  Forall (fun h => NoDup (map fst (entries_of h))) hs /\
  last_mention "b" (map entries_of hs) = Some (JInt 3) /\ last_mention "a" (map entries_of hs) = Some (JInt 1) /\
  last_mention "z" (map entries_of hs) = None.
Proof.
  split; [|vm_compute; repeat split].
  repeat constructor; cbn; intuition discriminate.
Qed.

(* C11. *)
Theorem C11_marshaller_names : forall V (E : env V) n m s d,
  match aget n documented_names with
  | Some f =>
      GetMarshallerByMarshalName E n = Ok (format_marshaller E f) /\
      PackWithMarshallerName E m n = PackWithMarshaller E m (Some (format_marshaller E f)) /\
      UnpackWithMarshallerName E s d n = UnpackWithMarshaller E s d (Some (format_marshaller E f))
  | None =>
      (exists e, GetMarshallerByMarshalName E n = Err e) /\ (exists e, PackWithMarshallerName E m n = Err e) /\
      (exists e, UnpackWithMarshallerName E s d n = Err e)
  end.
Proof. exact p_C11_marshaller_names. Qed.
Print Assumptions C11_marshaller_names.

Example C11_case : aget "yml"%string documented_names = Some FYaml /\ aget "JSON"%string documented_names = None /\
  is_ok (PackWithMarshallerName demo_env (demo_msg 1 "x") "yml") = true.
Proof. vm_compute. repeat split. Qed.
