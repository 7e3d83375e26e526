(* Lemmas about WireModel.v *)
From Verif Require Export BaseFacts SpecWire WireModel.

(* ------------------------------------------------------------------ *)
(* be_val and the shift-based codecs *)

Lemma be_val_4 a b c d :
  be_val [a; b; c; d] = ((code a * 256 + code b) * 256 + code c) * 256 + code d.
Proof. unfold be_val; simpl. lia. Qed.

Lemma be_val_app_aux bs : forall acc, fold_left (fun a b => a * 256 + code b) bs acc
   = acc * 256 ^ (blen bs) + be_val bs.
Proof.
  unfold be_val, blen. induction bs as [|x bs IH]; intros acc.
  - simpl. lia.
  - cbn [fold_left List.length]. rewrite IH, (IH (0 * 256 + code x)).
    replace (Z.of_nat (S (List.length bs))) with (Z.of_nat (List.length bs) + 1) by lia.
    rewrite Z.pow_add_r by lia. lia.
Qed.

Lemma be_val_range bs : 0 <= be_val bs < 256 ^ (blen bs).
Proof.
  induction bs as [|x bs IH].
  - unfold be_val, blen; simpl. lia.
  - unfold be_val. cbn [fold_left]. rewrite be_val_app_aux.
    pose proof (code_range x).
    replace (blen (x :: bs)) with (blen bs + 1) by (unfold blen; cbn [List.length]; lia).
    rewrite Z.pow_add_r by (unfold blen; lia).
    assert (0 < 256 ^ blen bs) by (apply Z.pow_pos_nonneg; unfold blen; lia).
    nia.
Qed.

Lemma be_val_4_range bs : List.length bs = 4%nat -> 0 <= be_val bs < two32.
Proof.
  intros H. pose proof (be_val_range bs) as Hr. unfold blen in Hr. rewrite H in Hr.
  exact Hr.
Qed.

Lemma be_val_inj a : forall b, List.length a = List.length b -> be_val a = be_val b -> a = b.
Proof.
  induction a as [|x a IH]; intros [|y b] Hl Hv; try discriminate; [reflexivity|].
  cbn [List.length] in Hl. injection Hl as Hl.
  unfold be_val in Hv. cbn [fold_left] in Hv. rewrite !be_val_app_aux in Hv.
  pose proof (be_val_range a) as Ha. pose proof (be_val_range b) as Hb.
  assert (Hlen : blen a = blen b) by (unfold blen; lia).
  rewrite Hlen in *.
  pose proof (code_range x). pose proof (code_range y).
  assert (0 < 256 ^ blen b) by (apply Z.pow_pos_nonneg; unfold blen; lia).
  assert (code x = code y) by nia.
  f_equal; [apply code_inj; assumption|].
  apply IH; [exact Hl|]. nia.
Qed.

Lemma put_uint32_length v : List.length (put_uint32 v) = 4%nat.
Proof. reflexivity. Qed.

Lemma blen_put v : blen (put_uint32 v) = 4.
Proof. reflexivity. Qed.

Lemma be_val_put v : be_val (put_uint32 v) = v mod two32.
Proof.
  unfold put_uint32. rewrite be_val_4, !code_byte_of.
  rewrite !Z.shiftr_div_pow2 by lia.
  change (2 ^ 24) with 16777216. change (2 ^ 16) with 65536. change (2 ^ 8) with 256.
  unfold two32. lia.
Qed.

Lemma lor_shiftl_add a b n : 0 <= n -> 0 <= a < 2 ^ n -> Z.lor a (Z.shiftl b n) = a + b * 2 ^ n.
Proof.
  intros Hn Ha.
  rewrite <- (Z.shiftl_mul_pow2 b n Hn).
  assert (Hland : Z.land a (Z.shiftl b n) = 0).
  { apply Z.bits_inj'. intros i Hi. rewrite Z.land_spec, Z.bits_0.
    destruct (Z.ltb_spec i n) as [Hlt|Hge].
    - rewrite Z.shiftl_spec_low by exact Hlt. apply andb_false_r.
    - destruct (Z.eq_dec a 0) as [->|Hnz]; [rewrite Z.bits_0; reflexivity|].
      rewrite Z.bits_above_log2; [reflexivity|lia|].
      assert (Z.log2 a < n) by (apply Z.log2_lt_pow2; lia). lia. }
  rewrite Z.add_nocarry_lxor by exact Hland.
  rewrite Z.lxor_lor by exact Hland. reflexivity.
Qed.

Lemma uint32_of_spec s b0 b1 b2 b3 rest :
  gbytes s = b0 :: b1 :: b2 :: b3 :: rest -> uint32_of s = Ok (be_val [b0; b1; b2; b3]).
Proof.
  intros H. unfold uint32_of. rewrite H. f_equal.
  rewrite be_val_4.
  pose proof (code_range b0); pose proof (code_range b1);
  pose proof (code_range b2); pose proof (code_range b3).
  rewrite Z.lor_assoc.
  rewrite (lor_shiftl_add (code b3) (code b2) 8) by (change (2 ^ 8) with 256; lia).
  change (2 ^ 8) with 256.
  rewrite Z.lor_assoc.
  rewrite (lor_shiftl_add _ (code b1) 16) by (change (2 ^ 16) with 65536; lia).
  change (2 ^ 16) with 65536.
  rewrite (lor_shiftl_add _ (code b0) 24) by (change (2 ^ 24) with 16777216; lia).
  change (2 ^ 24) with 16777216. lia.
Qed.

(* ------------------------------------------------------------------ *)
(* slices *)

Lemma slice_length bs lo hi : (lo <= hi)%nat -> (hi <= List.length bs)%nat ->
  List.length (slice bs lo hi) = (hi - lo)%nat.
Proof. intros. unfold slice. rewrite firstn_length, skipn_length. lia. Qed.

Lemma length4 (l : bytes) : List.length l = 4%nat ->
  exists a b c d, l = [a; b; c; d].
Proof.
  destruct l as [|a [|b [|c [|d [|]]]]]; try discriminate. intros _. eauto.
Qed.

Lemma gsub_ok s lo hi : 0 <= lo <= hi -> hi <= gcap s ->
  gsub s lo hi = Ok (GS (skipn (Z.to_nat lo) (gs_arr s)) (Z.to_nat (hi - lo))).
Proof.
  intros H1 H2. unfold gsub.
  destruct (Z.leb_spec 0 lo); [|lia]. destruct (Z.leb_spec lo hi); [|lia].
  destruct (Z.leb_spec hi (gcap s)); [|lia]. reflexivity.
Qed.

Lemma gsub_panic s lo hi : ~ (0 <= lo <= hi /\ hi <= gcap s) -> gsub s lo hi = Panic.
Proof.
  intros H. unfold gsub.
  destruct (Z.leb_spec 0 lo); [|reflexivity]. destruct (Z.leb_spec lo hi); [|reflexivity].
  destruct (Z.leb_spec hi (gcap s)); [lia|reflexivity].
Qed.

Lemma gsub_cases s lo hi :
  (0 <= lo <= hi /\ hi <= gcap s /\ gsub s lo hi = Ok (GS (skipn (Z.to_nat lo) (gs_arr s)) (Z.to_nat (hi - lo)))) \/
  (~ (0 <= lo <= hi /\ hi <= gcap s) /\ gsub s lo hi = Panic).
Proof.
  destruct (Z.leb_spec 0 lo) as [H1|H1]; [destruct (Z.leb_spec lo hi) as [H2|H2]; [destruct (Z.leb_spec hi (gcap s)) as [H3|H3]|]|].
  - left. repeat split; try lia. apply gsub_ok; lia.
  - right. split; [lia|apply gsub_panic; lia].
  - right. split; [lia|apply gsub_panic; lia].
  - right. split; [lia|apply gsub_panic; lia].
Qed.

(* result of slicing as bytes of the backing array *)
Lemma gbytes_sub arr lo hi : 0 <= lo <= hi ->
  gbytes (GS (skipn (Z.to_nat lo) arr) (Z.to_nat (hi - lo))) = slice arr (Z.to_nat lo) (Z.to_nat hi).
Proof.
  intros H. unfold gbytes, slice. cbn [gs_arr gs_len].
  replace (Z.to_nat (hi - lo)) with (Z.to_nat hi - Z.to_nat lo)%nat by lia. reflexivity.
Qed.

(* inside len(s) the backing array and the visible bytes agree *)
Lemma slice_gbytes s lo hi : (hi <= gs_len s)%nat -> slice (gs_arr s) lo hi = slice (gbytes s) lo hi.
Proof.
  intros Hhi. unfold slice, gbytes.
  rewrite skipn_firstn_comm, firstn_firstn.
  f_equal. lia.
Qed.

Lemma gbytes_length s : gwf s -> List.length (gbytes s) = gs_len s.
Proof. unfold gwf, gbytes. intros H. rewrite firstn_length. lia. Qed.

Lemma gbytes_of_bytes b : gbytes (of_bytes b) = b.
Proof. unfold gbytes, of_bytes. cbn [gs_arr gs_len]. apply firstn_all. Qed.

Lemma gwf_of_bytes b : gwf (of_bytes b).
Proof. unfold gwf, of_bytes. cbn. lia. Qed.

(* the field-reading idiom  binary.BigEndian.Uint32(stream[off:off+4]) *)
Lemma field_read s off : 0 <= off -> off + 4 <= gcap s ->
  (sub <- gsub s off (off + 4) ;; uint32_of sub) = Ok (field (gs_arr s) (Z.to_nat off)).
Proof.
  intros H0 H1. rewrite gsub_ok by lia. cbn [rbind].
  unfold field.
  assert (Hg : gbytes (GS (skipn (Z.to_nat off) (gs_arr s)) (Z.to_nat (off + 4 - off)))
               = slice (gs_arr s) (Z.to_nat off) (Z.to_nat off + 4)).
  { rewrite gbytes_sub by lia. f_equal. lia. }
  assert (Hl : List.length (slice (gs_arr s) (Z.to_nat off) (Z.to_nat off + 4)) = 4%nat).
  { unfold gcap in H1. rewrite slice_length; lia. }
  destruct (length4 _ Hl) as (a & b & c & d & He).
  rewrite He in *. apply uint32_of_spec with (rest := []). exact Hg.
Qed.

Lemma field_gbytes s off : (off + 4 <= gs_len s)%nat -> field (gs_arr s) off = field (gbytes s) off.
Proof. intros H. unfold field. rewrite slice_gbytes by lia. reflexivity. Qed.

Lemma field_range bs off : (off + 4 <= List.length bs)%nat -> 0 <= field bs off < two32.
Proof.
  intros H. unfold field. apply be_val_4_range. rewrite slice_length; lia.
Qed.

Lemma signed_to_int32 u : 0 <= u < two32 -> to_int32 u = signed u.
Proof.
  intros H. unfold to_int32, signed. rewrite Z.mod_small by exact H. reflexivity.
Qed.

Lemma field_read_k {A} s off off4 (k : Z -> res A) : off4 = off + 4 -> 0 <= off -> off + 4 <= gcap s ->
  (sub <- gsub s off off4 ;; v <- uint32_of sub ;; k v) = k (field (gs_arr s) (Z.to_nat off)).
Proof.
  intros -> H0 H1. pose proof (field_read s off H0 H1) as H.
  destruct (gsub s off (off + 4)) as [sub|e|]; cbn [rbind] in *; try discriminate.
  rewrite H. reflexivity.
Qed.

(* ------------------------------------------------------------------ *)
(* accessors as functions of the visible bytes *)

Lemma accessor_spec s off (n : Z) msg : gwf s -> 0 <= off -> n = off + 4 ->
  (if glen s <? n then Err msg else
     sub <- gsub s off n ;; v <- uint32_of sub ;; Ok (to_int32 v))
  = (if glen s <? n then Err msg else Ok (signed (field (gbytes s) (Z.to_nat off)))).
Proof.
  intros Hwf H0 Hn. destruct (Z.ltb_spec (glen s) n) as [Hlt|Hge]; [reflexivity|].
  unfold gwf, glen in *.
  rewrite field_read_k by (unfold gcap; lia).
  rewrite field_gbytes by lia.
  rewrite signed_to_int32; [reflexivity|].
  apply field_range. rewrite gbytes_length by exact Hwf. lia.
Qed.

Lemma LengthOf_spec s : gwf s ->
  LengthOf s = if glen s <? 4 then Err (EMsg "stream < 4") else Ok (signed (field (gbytes s) 0)).
Proof. intros H. apply (accessor_spec s 0 4); auto; lia. Qed.

Lemma MessageIDOf_spec s : gwf s ->
  MessageIDOf s = if glen s <? 8 then Err (EMsg "stream < 8") else Ok (signed (field (gbytes s) 4)).
Proof. intros H. apply (accessor_spec s 4 8); auto; lia. Qed.

Lemma HeaderLengthOf_spec s : gwf s ->
  HeaderLengthOf s = if glen s <? 12 then Err (EMsg "stream < 12") else Ok (signed (field (gbytes s) 8)).
Proof. intros H. apply (accessor_spec s 8 12); auto; lia. Qed.

Lemma BodyLengthOf_spec s : gwf s ->
  BodyLengthOf s = if glen s <? 16 then Err (EMsg "stream < 16") else Ok (signed (field (gbytes s) 12)).
Proof. intros H. apply (accessor_spec s 12 16); auto; lia. Qed.

Lemma signed_range u : 0 <= u < two32 -> - 2 ^ 31 <= signed u < 2 ^ 31.
Proof. unfold signed, two32. intros H. destruct (Z.ltb_spec u (2 ^ 31)); lia. Qed.

(* HeaderBytesOf: full characterisation *)
Lemma HeaderBytesOf_cases s : gwf s ->
  let L := glen s in
  let h := signed (field (gbytes s) 8) in
  (L < 12 /\ HeaderBytesOf s = Err (EMsg "stream < 12")) \/
  (12 <= L /\ L < 16 + h /\ HeaderBytesOf s = Err (EMsg "stream < 16+headerLen")) \/
  (12 <= L /\ 0 <= h < 2 ^ 31 - 16 /\ 16 + h <= L /\
     exists r, HeaderBytesOf s = Ok r /\ gwf r /\ gbytes r = slice (gbytes s) 16 (16 + Z.to_nat h)) \/
  (12 <= L /\ (h < 0 \/ 2 ^ 31 - 16 <= h) /\ 16 + h <= L /\ HeaderBytesOf s = Panic).
Proof.
  intros Hwf L h. unfold HeaderBytesOf. rewrite HeaderLengthOf_spec by exact Hwf.
  destruct (Z.ltb_spec (glen s) 12) as [Hl|Hl].
  { left. split; [exact Hl|reflexivity]. }
  cbn [rbind]. fold h.
  assert (Hr : - 2 ^ 31 <= h < 2 ^ 31).
  { apply signed_range, field_range. rewrite gbytes_length by exact Hwf. unfold glen in Hl. lia. }
  destruct (Z.ltb_spec (glen s) (16 + h)) as [Hc|Hc].
  { right; left. auto. }
  right; right.
  destruct (Z.ltb_spec h 0) as [Hneg|Hnn].
  { right. repeat split; auto.
    rewrite to_int32_id by (unfold is_int32, two31; lia).
    apply gsub_panic. lia. }
  destruct (Z.ltb_spec h (2 ^ 31 - 16)) as [Hs|Hb].
  - left. repeat split; auto; try lia.
    rewrite to_int32_id by (unfold is_int32, two31; lia).
    eexists. split; [apply gsub_ok|].
    + lia.
    + unfold gcap. unfold glen in Hc. unfold gwf in Hwf. lia.
    + split.
      * unfold gwf in *. cbn [gs_arr gs_len]. rewrite skipn_length. unfold glen in Hc. lia.
      * rewrite gbytes_sub by lia. rewrite slice_gbytes by (unfold glen in Hc; lia).
        f_equal; lia.
  - right. repeat split; auto.
    apply gsub_panic.
    assert (to_int32 (16 + h) < 0); [|lia].
    unfold to_int32, two31, two32.
    destruct (Z.ltb_spec ((16 + h) mod 4294967296) 2147483648); lia.
Qed.

(* BodyBytesOf: full characterisation *)
Lemma BodyBytesOf_cases s : gwf s ->
  let L := glen s in
  let h := signed (field (gbytes s) 8) in
  let b := signed (field (gbytes s) 12) in
  (L < 16 /\ exists e, BodyBytesOf s = Err e) \/
  (16 <= L /\ L < 16 + h + b /\ exists e, BodyBytesOf s = Err e) \/
  (16 <= L /\ -16 <= h /\ 0 <= b /\ 16 + h + b < 2 ^ 31 /\ 16 + h + b <= L /\
     exists r, BodyBytesOf s = Ok r /\ gwf r /\
       gbytes r = slice (gbytes s) (Z.to_nat (16 + h)) (Z.to_nat (16 + h + b))) \/
  (16 <= L /\ 16 + h + b <= L /\ (h < -16 \/ b < 0 \/ 2 ^ 31 <= 16 + h + b) /\ BodyBytesOf s = Panic).
Proof.
  intros Hwf L h b. unfold BodyBytesOf.
  rewrite HeaderLengthOf_spec, BodyLengthOf_spec by exact Hwf.
  destruct (Z.ltb_spec (glen s) 12) as [H12|H12].
  { left. split; [unfold L; lia|]. eexists; reflexivity. }
  cbn [rbind].
  destruct (Z.ltb_spec (glen s) 16) as [H16|H16].
  { left. split; [exact H16|]. eexists; reflexivity. }
  cbn [rbind]. fold h b.
  assert (Hlen : List.length (gbytes s) = gs_len s) by (apply gbytes_length; exact Hwf).
  assert (Hh : - 2 ^ 31 <= h < 2 ^ 31).
  { apply signed_range, field_range. unfold glen in H16. lia. }
  assert (Hb : - 2 ^ 31 <= b < 2 ^ 31).
  { apply signed_range, field_range. unfold glen in H16. lia. }
  destruct (Z.ltb_spec (glen s) (16 + h + b)) as [Hc|Hc].
  { right; left. repeat split; auto. eexists; reflexivity. }
  right; right.
  assert (Hcap : glen s <= gcap s) by (unfold glen, gcap; unfold gwf in Hwf; lia).
  set (lo := to_int32 (16 + h)). set (hi := to_int32 (lo + b)).
  assert (Hlo : lo = if 16 + h <? 2 ^ 31 then 16 + h else 16 + h - 2 ^ 32).
  { unfold lo, to_int32, two31, two32.
    destruct (Z.ltb_spec ((16 + h) mod 4294967296) 2147483648);
    destruct (Z.ltb_spec (16 + h) (2 ^ 31)); lia. }
  destruct (Z.ltb_spec h (-16)) as [Hhn|Hhn].
  { right. repeat split; auto. apply gsub_panic.
    destruct (Z.ltb_spec (16 + h) (2 ^ 31)); lia. }
  destruct (Z.ltb_spec (16 + h) (2 ^ 31)) as [Hho|Hho].
  2:{ right. destruct (Z.ltb_spec (16 + h + b) (2 ^ 31)).
      - repeat split; auto; [lia|]. apply gsub_panic. lia.
      - repeat split; auto. apply gsub_panic. lia. }
  assert (Hhi : hi = if 16 + h + b <? 2 ^ 31 then 16 + h + b else 16 + h + b - 2 ^ 32).
  { unfold hi. rewrite Hlo. unfold to_int32, two31, two32.
    destruct (Z.ltb_spec ((16 + h + b) mod 4294967296) 2147483648);
    destruct (Z.ltb_spec (16 + h + b) (2 ^ 31)); lia. }
  destruct (Z.ltb_spec b 0) as [Hbn|Hbn].
  { right. repeat split; auto. apply gsub_panic.
    destruct (Z.ltb_spec (16 + h + b) (2 ^ 31)); lia. }
  destruct (Z.ltb_spec (16 + h + b) (2 ^ 31)) as [Hbo|Hbo].
  - left. repeat split; auto.
    rewrite Hlo, Hhi. eexists. split; [apply gsub_ok; lia|]. split.
    + unfold gwf. cbn [gs_arr gs_len]. rewrite skipn_length.
      unfold gcap, glen in *. lia.
    + rewrite gbytes_sub by lia. apply slice_gbytes. unfold glen in *. lia.
  - right. repeat split; auto. apply gsub_panic. lia.
Qed.

(* FirstBlockOfBytes: full characterisation, never panics *)
Lemma FirstBlockOfBytes_cases s : gwf s ->
  let L := glen s in
  let n := field (gbytes s) 0 in
  ((L < 16 \/ L < 4 + n) /\ exists e, FirstBlockOfBytes s = Err e) \/
  (16 <= L /\ 4 + n <= L /\
     FirstBlockOfBytes s = Ok (GS (gs_arr s) (Z.to_nat (4 + n)))).
Proof.
  intros Hwf L n. unfold FirstBlockOfBytes.
  destruct (Z.ltb_spec (glen s) 16) as [H16|H16].
  { left. split; [left; exact H16|]. eexists; reflexivity. }
  assert (Hcap : glen s <= gcap s) by (unfold glen, gcap; unfold gwf in Hwf; lia).
  rewrite field_read_k by lia.
  rewrite field_gbytes by (unfold glen in H16; lia).
  change (Z.to_nat 0) with O. fold n.
  assert (Hn : 0 <= n < two32).
  { apply field_range. rewrite gbytes_length by exact Hwf. unfold glen in H16. lia. }
  destruct (Z.ltb_spec (glen s) (4 + n)) as [Hc|Hc].
  { left. split; [right; exact Hc|]. eexists; reflexivity. }
  right. repeat split; auto.
  rewrite gsub_ok by lia. rewrite Z.sub_0_r. reflexivity.
Qed.

(* ------------------------------------------------------------------ *)
(* packing *)

Lemma assemble_length id hdr body :
  blen (assemble id hdr body) = 16 + blen hdr + blen body.
Proof.
  unfold assemble. rewrite !blen_app, !blen_put. lia.
Qed.

Lemma assemble_layout id hdr body :
  12 + blen hdr + blen body < 2 ^ 32 ->
  frame_layout id hdr body (assemble id hdr body).
Proof.
  intros H.
  pose proof (blen_nonneg hdr). pose proof (blen_nonneg body).
  pose proof (assemble_length id hdr body) as Hlen.
  unfold frame_layout. rewrite Hlen. unfold assemble.
  do 4 eexists.
  repeat split; try reflexivity.
  - rewrite be_val_put.
    match goal with |- context [blen ?c] => assert (Hc : blen c = 12 + blen hdr + blen body) end.
    { rewrite !blen_app, !blen_put. lia. }
    rewrite Hc. rewrite to_uint32_small by (unfold two32; lia).
    rewrite Z.mod_small by (unfold two32; lia). lia.
  - rewrite be_val_put. unfold to_uint32. rewrite Z.mod_mod by (unfold two32; lia). reflexivity.
  - rewrite be_val_put, to_uint32_small by (unfold two32; lia). apply Z.mod_small. unfold two32; lia.
  - rewrite be_val_put, to_uint32_small by (unfold two32; lia). apply Z.mod_small. unfold two32; lia.
Qed.

(* fields of a laid-out block followed by anything *)
Lemma slice_app_l (a b : bytes) lo hi : (hi <= List.length a)%nat -> slice (a ++ b) lo hi = slice a lo hi.
Proof.
  intros H. unfold slice.
  destruct (le_lt_dec lo (List.length a)) as [Hlo|Hlo].
  - rewrite skipn_app. replace (lo - List.length a)%nat with O by lia. cbn [skipn].
    rewrite firstn_app, skipn_length.
    replace (hi - lo - (List.length a - lo))%nat with O by lia.
    cbn [firstn]. rewrite app_nil_r. reflexivity.
  - replace (hi - lo)%nat with O by lia. reflexivity.
Qed.

Lemma slice_app_r (a b : bytes) lo hi : (List.length a <= lo)%nat ->
  slice (a ++ b) lo hi = slice b (lo - List.length a) (hi - List.length a).
Proof.
  intros H. unfold slice. rewrite skipn_app.
  rewrite (skipn_all2 a) by lia. cbn [app]. f_equal. lia.
Qed.

Lemma slice_all (a : bytes) : slice a 0 (List.length a) = a.
Proof. unfold slice. rewrite Nat.sub_0_r. cbn [skipn]. apply firstn_all. Qed.

Lemma layout_fields id hdr body block extra :
  frame_layout id hdr body block ->
  field (block ++ extra) 0 = blen block - 4 /\
  field (block ++ extra) 4 = id mod 2 ^ 32 /\
  field (block ++ extra) 8 = blen hdr /\
  field (block ++ extra) 12 = blen body /\
  blen block = 16 + blen hdr + blen body /\
  slice (block ++ extra) 16 (16 + List.length hdr) = hdr /\
  slice (block ++ extra) (16 + List.length hdr) (16 + List.length hdr + List.length body) = body.
Proof.
  intros (l & i & h & b & Hl & Hi & Hh & Hb & Hblk & El & Ei & Eh & Eb).
  assert (Hbl : blen block = 16 + blen hdr + blen body).
  { rewrite Hblk, !blen_app. unfold blen. lia. }
  rewrite <- El, <- Ei, <- Eh, <- Eb. subst block. unfold field.
  rewrite <- !app_assoc.
  repeat split.
  - rewrite slice_app_l by lia. rewrite <- Hl at 1. rewrite slice_all. reflexivity.
  - rewrite (slice_app_r l) by lia. rewrite Hl. cbn [Nat.sub Nat.add].
    rewrite slice_app_l by lia. rewrite <- Hi at 1. rewrite slice_all. reflexivity.
  - rewrite (slice_app_r l) by lia. rewrite Hl. cbn [Nat.sub Nat.add].
    rewrite (slice_app_r i) by lia. rewrite Hi. cbn [Nat.sub Nat.add].
    rewrite slice_app_l by lia. rewrite <- Hh at 1. rewrite slice_all. reflexivity.
  - rewrite (slice_app_r l) by lia. rewrite Hl. cbn [Nat.sub Nat.add].
    rewrite (slice_app_r i) by lia. rewrite Hi. cbn [Nat.sub Nat.add].
    rewrite (slice_app_r h) by lia. rewrite Hh. cbn [Nat.sub Nat.add].
    rewrite slice_app_l by lia. rewrite <- Hb at 1. rewrite slice_all. reflexivity.
  - rewrite !blen_app in Hbl. rewrite !blen_app. lia.
  - rewrite (app_assoc h), (app_assoc i), (app_assoc l).
    rewrite slice_app_r by (rewrite !app_length; lia).
    rewrite !app_length.
    replace (16 - (List.length l + (List.length i + (List.length h + List.length b))))%nat with O by lia.
    replace (16 + List.length hdr - (List.length l + (List.length i + (List.length h + List.length b))))%nat
      with (List.length hdr) by lia.
    rewrite slice_app_l by lia. apply slice_all.
  - rewrite (app_assoc b), (app_assoc h), (app_assoc i), (app_assoc l).
    rewrite slice_app_r by (rewrite !app_length; lia).
    rewrite !app_length.
    match goal with |- slice _ ?x ?y = _ =>
      replace x with O by lia; replace y with (List.length body) by lia end.
    rewrite slice_app_l by lia. apply slice_all.
Qed.
