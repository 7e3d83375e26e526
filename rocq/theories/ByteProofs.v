(* C114: the my-marshal example *)
From Verif Require Export ByteModel UnpackFacts JsonFacts Demo.

Lemma byte_plan n : n = 22 \/ n = 23 \/ n = 24 -> plan_of (ById n) byte_server = RunChain [User (Z.to_nat n)].
Proof. intros [->|[->| ->]]; vm_compute; reflexivity. Qed.

Lemma handlers_22_23 E c : handler22 E c = handler23 E c.
Proof. reflexivity. Qed.

(* the ByteMarshaller's values are the bytes themselves *)
Lemma handler23_eq E c : 16 <= gcap (c_stream c) ->
  let s := c_stream c in let a := gs_arr s in
  let h := field a 8 in let b := field a 12 in
  handler23 E c =
    if to_uint32 (field a 0 + 4) <=? gcap s then
      match (if h =? 0 then Ok None
             else if (16 <=? to_uint32 (16 + h)) && (to_uint32 (16 + h) <=? gcap s) then hunmarshal (e_hdr E) (slice a 16 (Z.to_nat (to_uint32 (16 + h)))) else Panic) with
      | Ok _ =>
          if b =? 0 then Said (to_int32 (field a 4)) []
          else let lo := to_uint32 (16 + h) in let hi := to_uint32 (lo + b) in
            if (lo <=? hi) && (hi <=? gcap s) then Said (to_int32 (field a 4)) (slice a (Z.to_nat lo) (Z.to_nat hi)) else Died
      | Err _ => SaidError
      | Panic => Died
      end
    else Died.
Proof.
  intros Hc s a h b. unfold handler23, PackxUnpack, NewPackx. rewrite Unpack_eq by exact Hc. fold s. cbv zeta. fold a. fold h b.
  destruct (_ <=? gcap s); [|reflexivity].
  destruct (if h =? 0 then _ else _) as [hd|e|]; cbn [rbind says]; [|reflexivity|reflexivity].
  destruct (b =? 0); [reflexivity|]. destruct (_ && _); reflexivity.
Qed.

Lemma p_C114_received : forall E id payload block c, is_int32 id -> hdr_roundtrips (e_hdr E) None ->
  client_packs E id (BBytes payload) = Ok block -> blen block < 2 ^ 31 -> gwf (c_stream c) -> gbytes (c_stream c) = block ->
  handler22 E c = Said id payload /\ handler23 E c = Said id payload /\ handler24 c = Said id payload.
Proof.
  intros E id payload block c Hid (hb & h' & Hm & Hne & Hu & Heq) P Hb Hw Hg.
  apply PackWithMarshaller_ok in P. destruct P as (hdr & body & Hm' & Hbody & ->). cbn [msg_header msg_body msg_id] in *.
  rewrite Hm in Hm'. injection Hm' as <-. cbn in Hbody. injection Hbody as <-. rewrite assemble_length in Hb.
  pose proof (blen_nonneg hb). pose proof (blen_nonneg payload).
  pose proof (assemble_layout id hb payload ltac:(lia)) as HL.
  assert (H23 : handler23 E c = Said id payload).
  { unfold handler23, PackxUnpack, NewPackx.
    rewrite (Unpack_layout _ id hb payload _ (skipn (gs_len (c_stream c)) (gs_arr (c_stream c))) _ _ _ HL).
    - destruct hb as [|x hb]; [contradiction|]. rewrite Hu. cbn [rbind]. rewrite to_int32_id by exact Hid.
      destruct payload; reflexivity.
    - rewrite assemble_length. lia.
    - rewrite <- Hg. unfold gbytes. symmetry. apply firstn_skipn. }
  split; [exact H23|]. split; [exact H23|].
  destruct (layout_fields id hb payload _ [] HL) as (F0 & F4 & F8 & F12 & Hbl & Sh & Sb). rewrite app_nil_r in *.
  assert (GL : glen (c_stream c) = 16 + blen hb + blen payload).
  { unfold glen. rewrite <- gbytes_length by exact Hw. rewrite Hg. exact Hbl. }
  unfold handler24. rewrite MessageIDOf_spec by exact Hw. rewrite GL, Hg, F4.
  destruct (Z.ltb_spec (16 + blen hb + blen payload) 8); [lia|].
  assert (SI : signed (id mod 2 ^ 32) = id).
  { rewrite <- signed_to_int32 by (unfold two32; apply Z.mod_pos_bound; lia). rewrite to_int32_mod. apply to_int32_id. exact Hid. }
  rewrite SI.
  assert (S1 : signed (blen hb) = blen hb) by (unfold signed; destruct (Z.ltb_spec (blen hb) (2 ^ 31)); lia).
  assert (S2 : signed (blen payload) = blen payload) by (unfold signed; destruct (Z.ltb_spec (blen payload) (2 ^ 31)); lia).
  pose proof (BodyBytesOf_cases _ Hw) as BC. cbv zeta in BC. rewrite Hg, F8, F12, GL, S1, S2 in BC.
  destruct BC as [(A & _)|[(_ & A & _)|[(_ & _ & _ & _ & _ & r & -> & _ & A)|(_ & _ & A & _)]]]; try lia.
  rewrite A. cbn [byte_unmarshal bytes_in].
  replace (Z.to_nat (16 + blen hb)) with (16 + List.length hb)%nat by (unfold blen; lia).
  replace (Z.to_nat (16 + blen hb + blen payload)) with (16 + List.length hb + List.length payload)%nat by (unfold blen; lia).
  rewrite Sb. reflexivity.
Qed.

Lemma p_C114_agree : forall E c id p, gwf (c_stream c) -> gcap (c_stream c) = glen (c_stream c) -> glen (c_stream c) < 2 ^ 31 ->
  handler22 E c = handler23 E c /\
  (handler23 E c = Said id p -> handler24 c = Said id p) /\
  (handler24 c = Said id p -> field (gbytes (c_stream c)) 0 + 4 <= glen (c_stream c) -> 0 <= signed (field (gbytes (c_stream c)) 8) ->
     (forall hb, HeaderBytesOf (c_stream c) = Ok hb -> gbytes hb <> [] -> exists hd, hunmarshal (e_hdr E) (gbytes hb) = Ok hd) ->
     handler23 E c = Said id p).
Proof.
  intros E c id p Hw Hc Hl. split; [reflexivity|].
  assert (Ga : gbytes (c_stream c) = gs_arr (c_stream c)).
  { unfold gbytes. apply firstn_all2. unfold gcap, glen in Hc. lia. }
  set (s := c_stream c) in *. set (a := gs_arr s) in *.
  assert (LA : List.length a = gs_len s) by (unfold gcap, glen in Hc; fold a in Hc; lia).
  destruct (Z.lt_ge_cases (gcap s) 16) as [Sm|Hg].
  { split.
    - unfold handler23, PackxUnpack. rewrite Unpack_small_cap by exact Sm. discriminate.
    - unfold handler24. fold s. destruct (MessageIDOf s); try discriminate.
      destruct (BodyBytesOf_cases _ Hw) as [(_ & e & ->)|[(A & _)|[(A & _)|(A & _)]]]; try lia. discriminate. }
  assert (R4 : 0 <= field a 4 < 2 ^ 32) by (apply field_range; unfold gcap in Hg; fold a in Hg; lia).
  assert (R8 : 0 <= field a 8 < 2 ^ 32) by (apply field_range; unfold gcap in Hg; fold a in Hg; lia).
  assert (R12 : 0 <= field a 12 < 2 ^ 32) by (apply field_range; unfold gcap in Hg; fold a in Hg; lia).
  assert (R0 : 0 <= field a 0 < 2 ^ 32) by (apply field_range; unfold gcap in Hg; fold a in Hg; lia).
  assert (S4 : to_int32 (field a 4) = signed (field a 4)) by (apply signed_to_int32; unfold two32; lia).
  assert (W : forall x, 0 <= x < 2 ^ 33 -> to_uint32 x = if x <? 2 ^ 32 then x else x - 2 ^ 32).
  { intros x Hx. unfold to_uint32, two32. destruct (Z.ltb_spec x (2 ^ 32)); [apply Z.mod_small; lia|].
    replace x with (x - 2 ^ 32 + 1 * 2 ^ 32) at 1 by lia. rewrite Z_mod_plus_full. apply Z.mod_small. lia. }
  assert (H24 : handler24 c = match BodyBytesOf s with Ok raw => Said (signed (field a 4)) (gbytes raw) | Err _ => SaidError | Panic => Died end).
  { unfold handler24. fold s. rewrite MessageIDOf_spec by exact Hw. destruct (Z.ltb_spec (glen s) 8); [lia|]. rewrite Ga. reflexivity. }
  pose proof (BodyBytesOf_cases _ Hw) as BC. cbv zeta in BC. rewrite Ga in BC. fold a in BC.
  pose proof (handler23_eq E c Hg) as H23. cbv zeta in H23. fold s in H23. fold a in H23. rewrite S4 in H23.
  split.
  - intros X. rewrite X in H23. clear X.
    destruct (_ <=? gcap s) in H23; [|discriminate].
    assert (Hh : field a 8 <= gcap s - 16 \/ field a 8 = 0).
    { destruct (Z.eqb_spec (field a 8) 0) as [Z0|Z0]; [auto|]. left. rewrite W in H23 by lia.
      destruct (Z.ltb_spec (16 + field a 8) (2 ^ 32)).
      - destruct (Z.leb_spec 16 (16 + field a 8)); [|lia]. destruct (Z.leb_spec (16 + field a 8) (gcap s)); [lia|]. discriminate.
      - destruct (Z.leb_spec 16 (16 + field a 8 - 2 ^ 32)); [lia|]. discriminate. }
    assert (Hh' : 0 <= field a 8 <= gcap s - 16) by (destruct Hh; lia). clear Hh.
    assert (Wh : to_uint32 (16 + field a 8) = 16 + field a 8).
    { rewrite W by lia. destruct (Z.ltb_spec (16 + field a 8) (2 ^ 32)); lia. }
    rewrite Wh in H23. destruct (if field a 8 =? 0 then _ else _) in H23; try discriminate.
    assert (Sh : signed (field a 8) = field a 8) by (unfold signed; destruct (Z.ltb_spec (field a 8) (2 ^ 31)); lia).
    assert (Q : field a 12 <= gcap s - 16 - field a 8 /\ Said id p = Said (signed (field a 4)) (slice a (Z.to_nat (16 + field a 8)) (Z.to_nat (16 + field a 8 + field a 12)))).
    { destruct (Z.eqb_spec (field a 12) 0) as [Z0|Z0].
      - rewrite Z0. split; [lia|]. rewrite H23. f_equal. rewrite Z.add_0_r. unfold slice. rewrite Nat.sub_diag. reflexivity.
      - rewrite W in H23 by lia. destruct (Z.ltb_spec (16 + field a 8 + field a 12) (2 ^ 32)).
        + destruct (Z.leb_spec (16 + field a 8) (16 + field a 8 + field a 12)); [|lia].
          destruct (Z.leb_spec (16 + field a 8 + field a 12) (gcap s)); [|discriminate]. split; [lia|exact H23].
        + destruct (Z.leb_spec (16 + field a 8) (16 + field a 8 + field a 12 - 2 ^ 32)); [lia|discriminate]. }
    destruct Q as (Q1 & Q2). rewrite Q2, H24.
    assert (Sb : signed (field a 12) = field a 12) by (unfold signed; destruct (Z.ltb_spec (field a 12) (2 ^ 31)); lia).
    rewrite Sh, Sb in BC.
    destruct BC as [(A & _)|[(_ & A & _)|[(_ & _ & _ & _ & _ & r & -> & _ & A)|(_ & _ & A & _)]]]; try lia. rewrite A. reflexivity.
  - rewrite H24. rewrite Ga. intros X U0 P8 Hd.
    destruct BC as [(A & e & B)|[(_ & A & e & B)|[(_ & A1 & A2 & A3 & A4 & r & B & _ & A)|(_ & _ & _ & B)]]]; rewrite B in X; try discriminate.
    injection X as X1 X2. rewrite A in X2.
    assert (Sh : signed (field a 8) = field a 8) by (unfold signed in *; destruct (Z.ltb_spec (field a 8) (2 ^ 31)); lia).
    assert (Sb : signed (field a 12) = field a 12) by (unfold signed in *; destruct (Z.ltb_spec (field a 12) (2 ^ 31)); lia).
    rewrite Sh, Sb in *. rewrite H23.
    rewrite (W (field a 0 + 4)) by lia. destruct (Z.ltb_spec (field a 0 + 4) (2 ^ 32)); [|lia].
    destruct (Z.leb_spec (field a 0 + 4) (gcap s)); [|lia].
    assert (Wh : to_uint32 (16 + field a 8) = 16 + field a 8).
    { rewrite W by lia. destruct (Z.ltb_spec (16 + field a 8) (2 ^ 32)); lia. }
    rewrite Wh.
    assert (Hok : exists o, (if field a 8 =? 0 then Ok None
             else if (16 <=? 16 + field a 8) && (16 + field a 8 <=? gcap s) then hunmarshal (e_hdr E) (slice a 16 (Z.to_nat (16 + field a 8))) else Panic) = Ok o).
    { destruct (Z.eqb_spec (field a 8) 0) as [Z0|Z0]; [eauto|].
      destruct (Z.leb_spec 16 (16 + field a 8)); [|lia]. destruct (Z.leb_spec (16 + field a 8) (gcap s)); [|lia]. cbn [andb].
      pose proof (HeaderBytesOf_cases _ Hw) as HC. cbv zeta in HC. rewrite Ga in HC. fold a in HC. rewrite Sh in HC.
      destruct HC as [(C & _)|[(_ & C & _)|[(_ & _ & _ & q & HB & _ & C)|(_ & C & _)]]]; try lia.
      replace (16 + Z.to_nat (field a 8))%nat with (Z.to_nat (16 + field a 8)) in C by lia.
      specialize (Hd q HB). rewrite C in Hd. apply Hd. intros Y. apply (f_equal (@List.length ascii)) in Y. revert Y.
      unfold slice. rewrite firstn_length, skipn_length. cbn [List.length]. assert (LG : gcap s = Z.of_nat (List.length a)) by reflexivity. lia. }
    destruct Hok as (o & ->).
    rewrite <- X1, <- X2. destruct (Z.eqb_spec (field a 12) 0) as [Z0|Z0].
    + f_equal. rewrite Z0, Z.add_0_r. unfold slice. rewrite Nat.sub_diag. reflexivity.
    + cbv zeta. rewrite W by lia. destruct (Z.ltb_spec (16 + field a 8 + field a 12) (2 ^ 32)); [|lia].
      destruct (Z.leb_spec (16 + field a 8) (16 + field a 8 + field a 12)); [|lia].
      destruct (Z.leb_spec (16 + field a 8 + field a 12) (gcap s)); [|lia]. reflexivity.
Qed.

Lemma p_C114_server : forall E id payload block c, id = 22 \/ id = 23 \/ id = 24 -> hdr_roundtrips (e_hdr E) None ->
  client_packs E id (BBytes payload) = Ok block -> blen block < 2 ^ 31 -> gwf (c_stream c) -> gbytes (c_stream c) = block ->
  exists f, plan_of (ById id) byte_server = RunChain [f] /\ byte_handler E f c = Some (Said id payload).
Proof.
  intros E id payload block c Hid Hh P Hb Hw Hg. exists (User (Z.to_nat id)). split; [apply byte_plan, Hid|].
  assert (I : is_int32 id) by (unfold is_int32, two31; destruct Hid as [->|[->| ->]]; lia).
  destruct (p_C114_received E id payload block c I Hh P Hb Hw Hg) as (A & B & C).
  destruct Hid as [->|[->| ->]]; [change (Some (handler22 E c) = Some (Said 22 payload))|change (Some (handler23 E c) = Some (Said 23 payload))|change (Some (handler24 c) = Some (Said 24 payload))]; congruence.
Qed.

Lemma p_C114_packs : forall E id payload hb, hmarshal (e_hdr E) None = Ok hb -> blen hb + blen payload + 12 < 2 ^ 32 ->
  exists block, client_packs E id (BBytes payload) = Ok block /\ frame_layout id hb payload block.
Proof.
  intros E id payload hb Hm Hl. exists (assemble id hb payload). split.
  - apply PackWithMarshaller_ok. exists hb, payload. cbn. auto.
  - apply assemble_layout. lia.
Qed.

Lemma p_C114_not_bytes : forall E id hb, hmarshal (e_hdr E) None = Ok hb -> client_packs E id BOther = Panic.
Proof. intros E id hb Hm. unfold client_packs, PackWithMarshaller. cbn [msg_header]. rewrite Hm. reflexivity. Qed.

(* the client's hello and an empty payload *)
Definition byte_env : env bval := Env json_hdr (fun _ => Panic) (fun _ _ => Panic) (fun _ => Panic) (fun _ _ => Panic)
  (fun _ => Panic) (fun _ _ => Panic) (fun _ => Panic) (fun _ _ => Panic) (fun _ => Panic) (fun _ _ => Panic).
