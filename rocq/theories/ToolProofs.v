(* C109, C110: the stream checker and the pack-detail programs *)
From Verif Require Export SpecTool UnpackFacts JsonFacts Demo.

Lemma json_slice_arr b n : gs_arr (json_slice b n) = b ++ repeat (byte_of 0) n.
Proof. reflexivity. Qed.

Lemma check_named {V} (E : env V) u s name f : In (name, f) documented_names ->
  stream_check E u (Some (s, name)) =
  match UnpackWithMarshaller E s (Some (user_of u f)) (Some (format_marshaller E f)) with
  | Ok m => Answers 200 (Some m) | Err _ => Answers 400 None | Panic => NoAnswer end.
Proof.
  intros H. cbn in H. repeat (destruct H as [H|H]; [injection H as <- <-; reflexivity|]). contradiction.
Qed.

Lemma user_for_none {V} (u : users (V := V)) name : (forall f, ~ In (name, f) documented_names) -> user_for u name = None.
Proof.
  intros H. unfold user_for.
  destruct (String.eqb_spec name "json") as [->|]; [destruct (H FJson); cbn; tauto|].
  destruct (String.eqb_spec name "xml") as [->|]; [destruct (H FXml); cbn; tauto|].
  destruct (String.eqb_spec name "toml") as [->|]; [destruct (H FToml); cbn; tauto|].
  destruct (String.eqb_spec name "tml") as [->|]; [destruct (H FToml); cbn; tauto|].
  destruct (String.eqb_spec name "yaml") as [->|]; [destruct (H FYaml); cbn; tauto|].
  destruct (String.eqb_spec name "yml") as [->|]; [destruct (H FYaml); cbn; tauto|].
  destruct (String.eqb_spec name "protobuf") as [->|]; [destruct (H FProtobuf); cbn; tauto|].
  destruct (String.eqb_spec name "proto") as [->|]; [destruct (H FProtobuf); cbn; tauto|].
  reflexivity.
Qed.

Lemma skipn_twice {A} a b (l : list A) : skipn a (skipn b l) = skipn (a + b) l.
Proof.
  revert l. induction b as [|b IH]; intros l; [rewrite Nat.add_0_r; reflexivity|].
  rewrite Nat.add_succ_r. destruct l as [|x l]; [rewrite !skipn_nil; reflexivity|]. cbn. apply IH.
Qed.

Lemma field_bounds bs off : 0 <= field bs off < 2 ^ 32.
Proof.
  unfold field. pose proof (be_val_range (slice bs off (off + 4))) as H.
  assert (Hl : (List.length (slice bs off (off + 4)) <= 4)%nat) by (unfold slice; rewrite firstn_length; lia).
  split; [apply H|]. eapply Z.lt_le_trans; [apply H|]. change (2 ^ 32) with (256 ^ Z.of_nat 4).
  apply Z.pow_le_mono_r; [lia|]. unfold blen. lia.
Qed.

Lemma unpack_loose {V} (E : env V) s f user m : blen (gs_arr s) < 2 ^ 32 ->
  UnpackWithMarshaller E s (Some user) (Some (format_marshaller E f)) = Ok m <-> loose E f user (gs_arr s) m.
Proof.
  intros Hlt. unfold loose. set (a := gs_arr s) in *. change (gcap s) with (blen a).
  destruct (Z.ltb_spec (blen a) 16) as [Hc|Hc].
  { rewrite Unpack_small_cap by exact Hc. split; [discriminate|lia]. }
  rewrite Unpack_eq by exact Hc. fold a. change (gcap s) with (blen a). cbv zeta. cbn [or_json].
  change (to_uint32 (field a 0 + 4)) with ((field a 0 + 4) mod 2 ^ 32).
  pose proof (field_bounds a 8) as B8. pose proof (field_bounds a 12) as B12.
  set (h := field a 8) in *. set (b := field a 12) in *.
  destruct (Z.leb_spec ((field a 0 + 4) mod 2 ^ 32) (blen a)) as [HU|HU].
  2:{ split; [discriminate|]. intros (_ & H & _). lia. }
  assert (Hid : to_int32 (field a 4) = signed (field a 4)) by (apply signed_to_int32; apply field_bounds).
  split.
  - destruct (Z.leb_spec (16 + h) (blen a)) as [Hlo|Hlo].
    2:{ intros H. exfalso. destruct (Z.eqb_spec h 0); [lia|].
        destruct (Z.ltb_spec (16 + h) (2 ^ 32)).
        - rewrite to_uint32_small in H by (unfold two32; lia).
          destruct (Z.leb_spec (16 + h) (blen a)); [lia|]. rewrite andb_false_r in H. discriminate H.
        - assert (Hx : to_uint32 (16 + h) = 16 + h - 2 ^ 32).
          { unfold to_uint32, two32. change (2 ^ 32) with 4294967296 in *. symmetry. apply (Zmod_unique _ _ 1); lia. }
          rewrite Hx in H. destruct (Z.leb_spec 16 (16 + h - 2 ^ 32)); [lia|]. discriminate H. }
    rewrite to_uint32_small by (unfold two32; lia).
    destruct (Z.leb_spec (16 + h + b) (blen a)) as [Hhi|Hhi].
    2:{ intros H. exfalso. destruct (if h =? 0 then Ok None else _) as [hd|e|] in H; try discriminate H. cbn [rbind] in H.
        destruct (Z.eqb_spec b 0); [lia|].
        destruct (Z.ltb_spec (16 + h + b) (2 ^ 32)).
        - rewrite to_uint32_small in H by (unfold two32; lia).
          destruct (Z.leb_spec (16 + h + b) (blen a)); [lia|]. rewrite andb_false_r in H. discriminate H.
        - assert (Hx : to_uint32 (16 + h + b) = 16 + h + b - 2 ^ 32).
          { unfold to_uint32, two32. change (2 ^ 32) with 4294967296 in *. symmetry. apply (Zmod_unique _ _ 1); lia. }
          rewrite Hx in H. destruct (Z.leb_spec (16 + h) (16 + h + b - 2 ^ 32)); [lia|]. discriminate H. }
    rewrite to_uint32_small by (unfold two32; lia).
    destruct (Z.leb_spec 16 (16 + h)); [|lia]. destruct (Z.leb_spec (16 + h) (16 + h + b)); [|lia].
    destruct (Z.leb_spec (16 + h) (blen a)); [|lia]. destruct (Z.leb_spec (16 + h + b) (blen a)); [|lia]. cbn [andb].
    intros Hok. split; [exact Hc|]. split; [exact HU|].
    destruct (if h =? 0 then Ok None else _) as [hd|e|] eqn:Eh in Hok; try  discriminate Hok. cbn [rbind] in Hok.
    destruct (if b =? 0 then Ok (Some user) else _) as [d|e|] eqn:Eb in Hok; try  discriminate Hok. cbn [rbind] in Hok.
    destruct d as [d|]; [|discriminate Hok]. cbn [indirect rbind] in Hok. injection Hok as <-. cbn [msg_id msg_header msg_body].
    split; [exact Hid|].
    exists (slice a 16 (Z.to_nat (16 + h))), (slice a (Z.to_nat (16 + h)) (Z.to_nat (16 + h + b))), (skipn (Z.to_nat (16 + h + b)) a).
    assert (L1 : blen (slice a 16 (Z.to_nat (16 + h))) = h).
    { unfold slice, blen in *. rewrite firstn_length, skipn_length. lia. }
    assert (L2 : blen (slice a (Z.to_nat (16 + h)) (Z.to_nat (16 + h + b))) = b).
    { unfold slice, blen in *. rewrite firstn_length, skipn_length. lia. }
    split.
    { unfold slice. replace (Z.to_nat (16 + h + b)) with (Z.to_nat b + Z.to_nat (16 + h))%nat by lia.
      rewrite <- skipn_twice.
      replace (Z.to_nat b + Z.to_nat (16 + h) - Z.to_nat (16 + h))%nat with (Z.to_nat b) by lia. rewrite firstn_skipn.
      replace (Z.to_nat (16 + h)) with (Z.to_nat h + 16)%nat by lia.
      rewrite <- skipn_twice. replace (Z.to_nat h + 16 - 16)%nat with (Z.to_nat h) by lia.
      symmetry. apply firstn_skipn. }
    split; [exact L1|]. split; [exact L2|]. rewrite L1, L2. split.
    + destruct (h =? 0); [injection Eh as <-; reflexivity|exact Eh].
    + destruct (b =? 0); [injection Eb as <-; reflexivity|].
      destruct (m_unmarshal _ _ _) as [v|e|] eqn:Em in Eb; try discriminate Eb. injection Eb as <-. eauto.
  - intros (_ & _ & Hm & hdr & body & rest & Hs & L1 & L2 & Hh & Hb).
    pose proof (blen_nonneg rest) as Hr.
    assert (Hlen : blen a = 16 + h + b + blen rest).
    { assert (Hx : List.length (skipn 16 a) = List.length (hdr ++ body ++ rest)) by (rewrite Hs; reflexivity).
      rewrite skipn_length, !app_length in Hx. unfold blen in *. lia. }
    rewrite (to_uint32_small (16 + h)) by (unfold two32; lia).
    rewrite to_uint32_small by (unfold two32; lia).
    destruct (Z.leb_spec 16 (16 + h)); [|lia]. destruct (Z.leb_spec (16 + h) (16 + h + b)); [|lia].
    destruct (Z.leb_spec (16 + h) (blen a)); [|lia]. destruct (Z.leb_spec (16 + h + b) (blen a)); [|lia]. cbn [andb].
    assert (S1 : slice a 16 (Z.to_nat (16 + h)) = hdr).
    { unfold slice. rewrite Hs. replace (Z.to_nat (16 + h) - 16)%nat with (List.length hdr) by (unfold blen in L1; lia).
      rewrite firstn_app, Nat.sub_diag, firstn_all. cbn. apply app_nil_r. }
    assert (S2 : slice a (Z.to_nat (16 + h)) (Z.to_nat (16 + h + b)) = body).
    { unfold slice. replace (Z.to_nat (16 + h)) with (List.length hdr + 16)%nat by (unfold blen in L1; lia).
      rewrite <- skipn_twice, Hs, skipn_app, Nat.sub_diag, skipn_all. cbn [app skipn].
      replace (Z.to_nat (16 + h + b) - (List.length hdr + 16))%nat with (List.length body) by (unfold blen in *; lia).
      rewrite firstn_app, Nat.sub_diag, firstn_all. cbn. apply app_nil_r. }
    rewrite S1, S2. rewrite L1, L2 in *. rewrite Hid, <- Hm. destruct m as [mid mh mb]. cbn [msg_id msg_header msg_body] in *.
    destruct (h =? 0).
    + subst mh. cbn [rbind]. destruct (b =? 0); [subst mb; reflexivity|]. destruct Hb as (v & -> & ->). reflexivity.
    + rewrite Hh. cbn [rbind]. destruct (b =? 0); [subst mb; reflexivity|]. destruct Hb as (v & -> & ->). reflexivity.
Qed.

Lemma p_C109_packed_passes_partial : forall V (E : env V) u name f (m : message V) bs spare,
  In (name, f) documented_names -> is_int32 (msg_id m) -> hdr_roundtrips (e_hdr E) (msg_header m) ->
  (forall v, msg_body m = Some v -> body_roundtrips (format_marshaller E f) v (Some (user_of u f))) ->
  PackWithMarshaller E m (Some (format_marshaller E f)) = Ok bs -> blen bs < 2 ^ 32 ->
  exists m', stream_check E u (Some (json_slice bs spare, name)) = Answers 200 (Some m') /\
    msg_id m' = msg_id m /\ header_eq (msg_header m) (msg_header m') /\
    (msg_body m' = msg_body m \/ (msg_body m' = Some (user_of u f) /\ body_encoding E (Some (format_marshaller E f)) (msg_body m) [])).
Proof.
  intros V E u name f m bs spare Hn Hid Hh Hb Hp Hl. rewrite (check_named E u _ name f Hn).
  destruct (unpack_pack E m (Some (format_marshaller E f)) bs (repeat (byte_of 0) spare) (json_slice bs spare) (user_of u f)
              Hid Hh Hb Hp Hl eq_refl) as (m' & -> & H1 & H2 & H3).
  exists m'. split; [reflexivity|]. split; [exact H1|]. split; [exact H2|].
  destruct H3 as [H3|[H3 H4]]; [left; exact H3|]. right. split; [exact H3|].
  destruct H4 as [->|(v & -> & Hv)]; [reflexivity|exact Hv].
Qed.

Lemma p_C109_wellformed_passes_partial : forall V (E : env V) u name f (m : message V) bs spare,
  In (name, f) documented_names -> is_packed E f (user_of u f) bs m -> blen bs < 2 ^ 32 ->
  (forall h, hunmarshal (e_hdr E) [] <> Ok h) ->
  (forall v, m_unmarshal (format_marshaller E f) [] (Some (user_of u f)) = Ok v -> v = user_of u f) ->
  stream_check E u (Some (json_slice bs spare, name)) = Answers 200 (Some m).
Proof.
  intros V E u name f m bs spare Hn (hdr & body & v & HL & Hid & Hh & Hb & Hv) Hl He Hz.
  rewrite (check_named E u _ name f Hn).
  rewrite (Unpack_layout E (msg_id m) hdr body bs (repeat (byte_of 0) spare)); [|exact HL|exact Hl|reflexivity].
  destruct hdr as [|c hdr]; [exfalso; exact (He _ Hh)|]. rewrite Hh. cbn [rbind or_json].
  rewrite to_int32_id by exact Hid. destruct m as [mid mh mb]. cbn [msg_id msg_header msg_body] in *. subst mb.
  destruct body as [|c' body].
  - cbn [rbind indirect]. rewrite (Hz v Hb). reflexivity.
  - rewrite Hb. reflexivity.
Qed.

Lemma p_C109_passes_iff_partial : forall V (E : env V) u name f bs spare (m : message V),
  In (name, f) documented_names -> blen bs + Z.of_nat spare < 2 ^ 32 ->
  (stream_check E u (Some (json_slice bs spare, name)) = Answers 200 (Some m) <->
   loose E f (user_of u f) (bs ++ repeat (byte_of 0) spare) m).
Proof.
  intros V E u name f bs spare m Hn Hl. rewrite (check_named E u _ name f Hn).
  assert (Hl' : blen (gs_arr (json_slice bs spare)) < 2 ^ 32).
  { cbn [gs_arr json_slice]. unfold blen in *. rewrite app_length, repeat_length. lia. }
  rewrite <- (unpack_loose E (json_slice bs spare) f (user_of u f) m Hl').
  destruct (UnpackWithMarshaller _ _ _ _); split; congruence.
Qed.

Lemma p_C109_no_answer_iff_partial : forall V (E : env V) u name f bs spare,
  In (name, f) documented_names -> blen bs + Z.of_nat spare < 2 ^ 32 ->
  (forall x, hunmarshal (e_hdr E) x <> Panic) -> (forall x d, m_unmarshal (format_marshaller E f) x d <> Panic) ->
  let a := bs ++ repeat (byte_of 0) spare in
  (stream_check E u (Some (json_slice bs spare, name)) = NoAnswer <->
   blen a < 16 \/ blen a < (field a 0 + 4) mod 2 ^ 32 \/ blen a < 16 + field a 8 \/
   (blen a < 16 + field a 8 + field a 12 /\
    (field a 8 = 0 \/ exists h, hunmarshal (e_hdr E) (slice a 16 (Z.to_nat (16 + field a 8))) = Ok h))).
Proof.
  intros V E u name f bs spare Hn Hl P1 P2 a. rewrite (check_named E u _ name f Hn).
  pose proof (Unpack_panic_iff E (json_slice bs spare) (user_of u f) (Some (format_marshaller E f)) P1 P2) as H.
  cbv zeta in H. change (gs_arr (json_slice bs spare)) with a in H. change (gcap (json_slice bs spare)) with (blen a) in H.
  assert (Ha : blen a < 2 ^ 32) by (unfold a, blen in *; rewrite app_length, repeat_length; lia).
  pose proof (blen_nonneg a). pose proof (field_bounds a 8). pose proof (field_bounds a 12).
  transitivity (UnpackWithMarshaller E (json_slice bs spare) (Some (user_of u f)) (Some (format_marshaller E f)) = Panic).
  { destruct (UnpackWithMarshaller _ _ _ _); split; congruence. }
  rewrite H. clear H.
  assert (Hsm : 16 + field a 8 < 2 ^ 32 -> (16 + field a 8) mod 2 ^ 32 = 16 + field a 8) by (intros; apply Z.mod_small; lia).
  assert (Hbig : 2 ^ 32 <= 16 + field a 8 -> (16 + field a 8) mod 2 ^ 32 = 16 + field a 8 - 2 ^ 32).
  { intros. symmetry. apply (Zmod_unique _ _ 1); lia. }
  assert (Hsm' : 16 + field a 8 + field a 12 < 2 ^ 32 -> (16 + field a 8 + field a 12) mod 2 ^ 32 = 16 + field a 8 + field a 12) by (intros; apply Z.mod_small; lia).
  assert (Hbig' : 16 + field a 8 < 2 ^ 32 -> 2 ^ 32 <= 16 + field a 8 + field a 12 -> (16 + field a 8 + field a 12) mod 2 ^ 32 = 16 + field a 8 + field a 12 - 2 ^ 32).
  { intros. symmetry. apply (Zmod_unique _ _ 1); lia. }
  destruct (Z.ltb_spec (blen a) 16); [tauto|].
  destruct (Z.ltb_spec (blen a) ((field a 0 + 4) mod 2 ^ 32)); [tauto|].
  destruct (Z.ltb_spec (16 + field a 8) (2 ^ 32)) as [H8|H8].
  - rewrite (Hsm H8). destruct (Z.ltb_spec (blen a) (16 + field a 8)).
    + split; intros _; right; right; left; lia.
    + destruct (Z.ltb_spec (16 + field a 8 + field a 12) (2 ^ 32)) as [H12|H12].
      * rewrite (Hsm' H12). split.
        -- intros [?|[?|[[? [?|?]]|(Hd & ? & [?|?])]]]; try lia. right; right; right. split; [lia|exact Hd].
        -- intros [?|[?|[?|[? Hd]]]]; try lia. right; right; right. split; [exact Hd|]. split; lia.
      * rewrite (Hbig' H8 H12). split.
        -- intros [?|[?|[[? [?|?]]|(Hd & ? & _)]]]; try lia. right; right; right. split; [lia|exact Hd].
        -- intros [?|[?|[?|[? Hd]]]]; try lia. right; right; right. split; [exact Hd|]. split; lia.
  - rewrite (Hbig H8). split; intros _; [right; right; left; lia|]. right; right; left. split; [lia|left; lia].
Qed.

Lemma p_C109_rejects : forall V (E : env V) u,
  stream_check E u None = Answers 400 None /\
  (forall s name, (forall f, ~ In (name, f) documented_names) -> stream_check E u (Some (s, name)) = Answers 400 None) /\
  (forall p, stream_check E u p = NoAnswer \/ stream_check E u p = Answers 400 None \/ exists m, stream_check E u p = Answers 200 (Some m)).
Proof.
  intros V E u. split; [reflexivity|]. split.
  - intros s name H. cbn. rewrite (user_for_none u name H). reflexivity.
  - intros [[s name]|]; [|right; left; reflexivity]. cbn. destruct (user_for u name); [|right; left; reflexivity].
    destruct (UnpackWithMarshallerName E s (Some v) name); eauto.
Qed.

(* three streams that are no message: one byte too many, a length field that is too small, and a last
   byte missing that the slice's spare capacity stands in for *)
Definition demo_users : users := Users ""%string ""%string ""%string ""%string ""%string.
Definition junk_stream : bytes := demo_block 7 "hi" ++ [byte_of 1].
Definition lying_stream : bytes := be4 12 ++ skipn 4 (demo_block 7 "hi").
Definition cut_stream : bytes := removelast (demo_block 7 (String zero EmptyString)).

Lemma layout_total id hdr body bs : frame_layout id hdr body bs -> blen bs = field bs 0 + 4.
Proof. intros H. destruct (layout_fields id hdr body bs [] H) as (F & _). rewrite app_nil_r in F. lia. Qed.

Lemma demo_layout : exists hdr body, frame_layout 7 hdr body (demo_block 7 "hi") /\
  hunmarshal (e_hdr demo_env) hdr = Ok (msg_header (demo_msg 7 "hi")) /\ m_unmarshal (format_marshaller demo_env FJson) body (Some ""%string) = Ok "hi"%string.
Proof.
  assert (Hp : PackWithMarshaller demo_env (demo_msg 7 "hi") None = Ok (demo_block 7 "hi")) by (vm_compute; reflexivity).
  apply PackWithMarshaller_ok in Hp. destruct Hp as (hdr & body & H1 & H2 & Hb). cbn [msg_id demo_msg msg_body] in *.
  vm_compute in H1. injection H1 as <-. vm_compute in H2. injection H2 as <-.
  eexists _, _. split; [rewrite Hb; apply assemble_layout; vm_compute; reflexivity|]. split; vm_compute; reflexivity.
Qed.

Lemma p_C109_checks_refuted : exists (E : env string) u,
  (forall m, ~ is_packed E FJson (u_json u) junk_stream m) /\
  (exists m, stream_check E u (Some (json_slice junk_stream 0, "json"%string)) = Answers 200 (Some m)) /\
  (forall m, ~ is_packed E FJson (u_json u) lying_stream m) /\
  (exists m, stream_check E u (Some (json_slice lying_stream 0, "json"%string)) = Answers 200 (Some m)) /\
  (forall m, ~ is_packed E FJson (u_json u) cut_stream m) /\
  (exists m, stream_check E u (Some (json_slice cut_stream 1, "json"%string)) = Answers 200 (Some m)) /\
  (forall bs name f, (List.length bs < 16)%nat -> In (name, f) documented_names -> stream_check E u (Some (json_slice bs 0, name)) = NoAnswer) /\
  stream_check E u (Some (json_slice (be4 100 ++ skipn 4 (demo_block 7 "hi")) 0, "json"%string)) = NoAnswer.
Proof.
  exists demo_env, demo_users.
  split; [intros m (hdr & body & v & HL & _); apply layout_total in HL; vm_compute in HL; discriminate HL|].
  split; [eexists; vm_compute; reflexivity|].
  split; [intros m (hdr & body & v & HL & _); apply layout_total in HL; vm_compute in HL; discriminate HL|].
  split; [eexists; vm_compute; reflexivity|].
  split; [intros m (hdr & body & v & HL & _); apply layout_total in HL; vm_compute in HL; discriminate HL|].
  split; [eexists; vm_compute; reflexivity|].
  split; [|vm_compute; reflexivity].
  intros bs name f Hl Hn. rewrite (check_named demo_env demo_users _ name f Hn).
  rewrite Unpack_small_cap; [reflexivity|]. unfold gcap. cbn [gs_arr json_slice repeat]. rewrite app_nil_r. lia.
Qed.

Lemma detail_encode_eq {V} (E : env V) enc id hdr payload b :
  detail_encode E enc id hdr payload = Ok b <->
  exists hb bb, hmarshal (e_hdr E) hdr = Ok hb /\ match payload with None => bb = [] | Some v => enc v = Ok bb end /\ b = assemble id hb bb.
Proof.
  unfold detail_encode, assemble. destruct (hmarshal (e_hdr E) hdr) as [hb|e|].
  2,3: split; [discriminate|intros (?&?&?&_); discriminate].
  destruct payload as [v|]; [destruct (enc v) as [bb|e|]|].
  2,3: split; [discriminate|intros (?&?&_&?&_); discriminate].
  - split; [intros H; injection H as <-; eauto|]. intros (h & x & H1 & H2 & ->). injection H1 as <-. injection H2 as <-. reflexivity.
  - split; [intros H; injection H as <-; eauto|]. intros (h & x & H1 & -> & ->). injection H1 as <-. reflexivity.
Qed.

Lemma p_C110_encode_is_pack : forall V (E : env V) f id hdr payload b,
  (detail_encode E (m_marshal (format_marshaller E f)) id hdr payload = Ok b <->
   PackWithMarshaller E (Msg id hdr payload) (Some (format_marshaller E f)) = Ok b) /\
  (detail_encode E (m_marshal (format_marshaller E f)) id hdr payload = Ok b -> blen b < 2 ^ 32 ->
   exists hb bb, hmarshal (e_hdr E) hdr = Ok hb /\ body_encoding E (Some (format_marshaller E f)) payload bb /\ frame_layout id hb bb b).
Proof.
  intros V E f id hdr payload b. split.
  - rewrite detail_encode_eq, PackWithMarshaller_ok. cbn [msg_id msg_header msg_body or_json]. reflexivity.
  - intros H Hl. apply detail_encode_eq in H. destruct H as (hb & bb & H1 & H2 & ->). exists hb, bb.
    split; [exact H1|]. split; [destruct payload; exact H2|]. apply assemble_layout. rewrite assemble_length in Hl. lia.
Qed.

Lemma p_C110_decode_inverts_partial : forall V (E : env V) f (zero : V) id hdr body bs extra s,
  frame_layout id hdr body bs -> blen bs < 2 ^ 32 -> gs_arr s = bs ++ extra ->
  hunmarshal (e_hdr E) hdr <> Panic -> m_unmarshal (format_marshaller E f) body (Some zero) <> Panic ->
  exists d, detail_decode E (m_unmarshal (format_marshaller E f)) zero s = Ok d /\
    d_length d = blen bs - 4 /\ d_id d = id mod 2 ^ 32 /\ d_headerLength d = blen hdr /\ d_bodyLength d = blen body /\
    (forall h, hunmarshal (e_hdr E) hdr = Ok h -> d_header d = h) /\
    (forall v, m_unmarshal (format_marshaller E f) body (Some zero) = Ok v -> d_body d = v) /\
    (forall e, hunmarshal (e_hdr E) hdr = Err e -> d_header d = None) /\
    (forall e, m_unmarshal (format_marshaller E f) body (Some zero) = Err e -> d_body d = zero).
Proof.
  intros V E f zero id hdr body bs extra s HL Hlen Harr Hp1 Hp2.
  destruct (layout_fields id hdr body bs extra HL) as (F0 & F4 & F8 & F12 & Hbl & Sh & Sb).
  pose proof (blen_nonneg hdr). pose proof (blen_nonneg body). pose proof (blen_nonneg extra).
  assert (Hcap : gcap s = blen bs + blen extra) by (unfold gcap; rewrite Harr, app_length; unfold blen; lia).
  unfold detail_decode. change (gsub s 0 4) with (gsub s 0 (0 + 4)).
  rewrite !field_read_k by lia.
  change (Z.to_nat 0) with 0%nat. change (Z.to_nat 4) with 4%nat. change (Z.to_nat 8) with 8%nat. change (Z.to_nat 12) with 12%nat.
  rewrite Harr, F0, F4, F8, F12.
  rewrite (to_uint32_small (16 + blen hdr)) by (unfold two32; lia).
  rewrite (to_uint32_small (16 + blen hdr + blen body)) by (unfold two32; lia).
  rewrite gsub_ok by lia. cbn [rbind].
  rewrite gbytes_sub by lia. rewrite Harr.
  change (Z.to_nat 16) with 16%nat.
  replace (Z.to_nat (16 + blen hdr)) with (16 + List.length hdr)%nat by (unfold blen; lia). rewrite Sh.
  rewrite gsub_ok by lia.
  destruct (hunmarshal (e_hdr E) hdr) as [h|e|] eqn:Eh; [| |contradiction]; cbn [rbind]; rewrite gbytes_sub by lia; rewrite Harr;
    replace (Z.to_nat (16 + blen hdr)) with (16 + List.length hdr)%nat by (unfold blen; lia);
    replace (Z.to_nat (16 + blen hdr + blen body)) with (16 + List.length hdr + List.length body)%nat by (unfold blen; lia); rewrite Sb;
    destruct (m_unmarshal (format_marshaller E f) body (Some zero)) as [v|e'|] eqn:Ev; try contradiction; cbn [rbind];
    eexists; (split; [reflexivity|]); cbn [d_length d_id d_headerLength d_bodyLength d_header d_body];
    repeat split; congruence.
Qed.

Lemma p_C110_documented_bytes : forall f bs, In (f, bs) detail_docs ->
  exists V (E : env V) v, e_hdr E = json_hdr /\ m_marshal (format_marshaller E f) v = Ok (detail_body f) /\
    detail_encode E (m_marshal (format_marshaller E f)) 1 (Some [("auth"%string, JStr "abc")]) (Some v) = Ok (map byte_of bs).
Proof.
  intros f bs H. exists bytes.
  exists (let e := fun v : bytes => Ok v in let d := fun (b : bytes) (_ : option bytes) => Ok b in Env json_hdr e d e d e d e d e d).
  exists (detail_body f). split; [reflexivity|]. split; [destruct f; reflexivity|].
  cbn in H. repeat (destruct H as [H|H]; [injection H as <- <-; vm_compute; reflexivity|]). contradiction.
Qed.

Lemma p_C110_decode_refuted :
  (exists bs d, PackWithMarshaller demo_env (demo_msg (-1) "hi") None = Ok bs /\
     detail_decode demo_env (tag_dec "j") ""%string (of_bytes bs) = Ok d /\ d_id d = 4294967295) /\
  (exists bs d, PackWithMarshaller demo_env (demo_msg 1 "hi") (Some (XmlMarshaller demo_env)) = Ok bs /\
     detail_decode demo_env (tag_dec "j") ""%string (of_bytes bs) = Ok d /\ d_body d = ""%string).
Proof. split; eexists _, _; (split; [vm_compute; reflexivity|]); split; vm_compute; reflexivity. Qed.
