(* Unpack and Pack together *)
From Verif Require Export WireFacts SpecHeader.

Section Unpack.
  Context {V : Type} (E : env V).

  Lemma Unpack_eq s dest mo :
    16 <= gcap s ->
    let a := gs_arr s in
    let U := to_uint32 (field a 0 + 4) in
    let h := field a 8 in
    let b := field a 12 in
    UnpackWithMarshaller E s dest mo =
      (if U <=? gcap s then
         hdr <- (if h =? 0 then Ok None
                 else let hi := to_uint32 (16 + h) in
                      if (16 <=? hi) && (hi <=? gcap s)
                      then hunmarshal (e_hdr E) (slice a 16 (Z.to_nat hi)) else Panic) ;;
         d <- (if b =? 0 then Ok dest
               else let lo := to_uint32 (16 + h) in let hi := to_uint32 (lo + b) in
                    if (lo <=? hi) && (hi <=? gcap s)
                    then v <- m_unmarshal (or_json E mo) (slice a (Z.to_nat lo) (Z.to_nat hi)) dest ;; Ok (Some v)
                    else Panic) ;;
         body <- indirect d ;;
         Ok (Msg (to_int32 (field a 4)) hdr body)
       else Panic).
  Proof.
    intros Hcap a U h b. unfold UnpackWithMarshaller.
    rewrite field_read_k by lia. change (Z.to_nat 0) with O. fold a. fold U.
    assert (HU : 0 <= U) by (pose proof (to_uint32_range (field a 0 + 4)); unfold U; lia).
    destruct (Z.leb_spec U (gcap s)) as [HUc|HUc].
    2:{ rewrite gsub_panic by lia. reflexivity. }
    rewrite gsub_ok by lia. cbn [rbind]. change (Z.to_nat 0) with O. cbn [skipn]. fold a.
    set (s' := GS a (Z.to_nat (U - 0))).
    assert (Hc' : gcap s' = gcap s) by reflexivity.
    rewrite (field_read_k s' 4 8) by lia.
    rewrite (field_read_k s' 8 12) by lia.
    rewrite (field_read_k s' 12 16) by lia.
    change (gs_arr s') with a.
    change (Z.to_nat 4) with 4%nat. change (Z.to_nat 8) with 8%nat. change (Z.to_nat 12) with 12%nat.
    fold h b.
    pose proof (to_uint32_range (16 + h)) as Hlo.
    assert (Hh : forall (k : header -> res (message V)),
      (hdr <- (if h =? 0 then Ok None
              else sh <- gsub s' 16 (to_uint32 (16 + h)) ;; hunmarshal (e_hdr E) (gbytes sh)) ;; k hdr)
      = (hdr <- (if h =? 0 then Ok None
                 else let hi := to_uint32 (16 + h) in
                      if (16 <=? hi) && (hi <=? gcap s)
                      then hunmarshal (e_hdr E) (slice a 16 (Z.to_nat hi)) else Panic) ;; k hdr)).
    { intros k. destruct (h =? 0); [reflexivity|]. cbv zeta.
      destruct (Z.leb_spec 16 (to_uint32 (16 + h))) as [H1|H1]; cbn [andb].
      - destruct (Z.leb_spec (to_uint32 (16 + h)) (gcap s)) as [H2|H2].
        + rewrite gsub_ok by lia. cbn [rbind].
          rewrite gbytes_sub by lia. change (gs_arr s') with a.
          change (Z.to_nat 16) with 16%nat. reflexivity.
        + rewrite gsub_panic by lia. reflexivity.
      - rewrite gsub_panic by lia. reflexivity. }
    rewrite Hh. clear Hh.
    destruct (if h =? 0 then Ok None else _) as [hdr|e|]; cbn [rbind]; try reflexivity.
    destruct (b =? 0); [reflexivity|]. cbv zeta.
    pose proof (to_uint32_range (to_uint32 (16 + h) + b)) as Hhi.
    destruct (Z.leb_spec (to_uint32 (16 + h)) (to_uint32 (to_uint32 (16 + h) + b))) as [H1|H1]; cbn [andb].
    - destruct (Z.leb_spec (to_uint32 (to_uint32 (16 + h) + b)) (gcap s)) as [H2|H2].
      + rewrite gsub_ok by lia. cbn [rbind]. rewrite gbytes_sub by lia.
        change (gs_arr s') with a. reflexivity.
      + rewrite gsub_panic by lia. reflexivity.
    - rewrite gsub_panic by lia. reflexivity.
  Qed.

  Lemma Unpack_small_cap s dest mo : gcap s < 16 -> UnpackWithMarshaller E s dest mo = Panic.
  Proof.
    intros Hc. unfold UnpackWithMarshaller.
    destruct (gsub_cases s 0 4) as [(_ & H4 & Hs)|[_ ->]]; [|reflexivity].
    clear Hs.
    rewrite field_read_k by lia.
    destruct (gsub_cases s 0 (to_uint32 (field (gs_arr s) (Z.to_nat 0) + 4))) as [(_ & _ & ->)|[_ ->]]; [|reflexivity].
    cbn [rbind]. cbn [skipn Z.to_nat].
    set (s' := GS (gs_arr s) _).
    assert (Hc' : gcap s' = gcap s) by reflexivity.
    destruct (gsub_cases s' 4 8) as [(_ & H8 & Hs)|[_ ->]]; [|reflexivity]. clear Hs.
    rewrite field_read_k by lia.
    destruct (gsub_cases s' 8 12) as [(_ & H12 & Hs)|[_ ->]]; [|reflexivity]. clear Hs.
    rewrite field_read_k by lia.
    rewrite (gsub_panic s' 12 16) by lia. reflexivity.
  Qed.

  (* on a laid-out block the fields are decoded where they are *)
  Lemma Unpack_layout id hdr body b extra s dest mo :
    frame_layout id hdr body b -> blen b < 2 ^ 32 -> gs_arr s = b ++ extra ->
    UnpackWithMarshaller E s dest mo =
      (h <- match hdr with [] => Ok None | _ => hunmarshal (e_hdr E) hdr end ;;
       d <- match body with [] => Ok dest
            | _ => v <- m_unmarshal (or_json E mo) body dest ;; Ok (Some v) end ;;
       x <- indirect d ;;
       Ok (Msg (to_int32 id) h x)).
  Proof.
    intros HL Hlen Harr.
    destruct (layout_fields id hdr body b extra HL) as (F0 & F4 & F8 & F12 & Hbl & Sh & Sb).
    pose proof (blen_nonneg hdr). pose proof (blen_nonneg body). pose proof (blen_nonneg extra).
    assert (Hcap : gcap s = blen b + blen extra) by (unfold gcap; rewrite Harr, app_length; unfold blen; lia).
    rewrite Unpack_eq by lia. cbv zeta. rewrite Harr, F0, F4, F8, F12.
    replace (blen b - 4 + 4) with (blen b) by lia.
    rewrite (to_uint32_small (blen b)) by (unfold two32; lia).
    destruct (Z.leb_spec (blen b) (gcap s)); [|lia].
    rewrite (to_uint32_small (16 + blen hdr)) by (unfold two32; lia).
    rewrite (to_uint32_small (16 + blen hdr + blen body)) by (unfold two32; lia).
    destruct (Z.leb_spec 16 (16 + blen hdr)); [|lia].
    destruct (Z.leb_spec (16 + blen hdr) (gcap s)); [|lia].
    destruct (Z.leb_spec (16 + blen hdr) (16 + blen hdr + blen body)); [|lia].
    destruct (Z.leb_spec (16 + blen hdr + blen body) (gcap s)); [|lia].
    cbn [andb].
    replace (Z.to_nat (16 + blen hdr)) with (16 + List.length hdr)%nat by (unfold blen; lia).
    replace (Z.to_nat (16 + blen hdr + blen body)) with (16 + List.length hdr + List.length body)%nat
      by (unfold blen; lia).
    rewrite Sh, Sb.
    replace (to_int32 (id mod 2 ^ 32)) with (to_int32 id) by (symmetry; apply to_int32_mod).
    assert (Hz : (blen hdr =? 0) = match hdr with [] => true | _ => false end)
      by (destruct hdr; reflexivity).
    assert (Hz' : (blen body =? 0) = match body with [] => true | _ => false end)
      by (destruct body; reflexivity).
    rewrite Hz, Hz'. destruct hdr, body; reflexivity.
  Qed.

  Lemma PackWithMarshaller_ok m mo b :
    PackWithMarshaller E m mo = Ok b <->
    exists hdr body,
      hmarshal (e_hdr E) (msg_header m) = Ok hdr /\
      (match msg_body m with None => body = [] | Some v => m_marshal (or_json E mo) v = Ok body end) /\
      b = assemble (msg_id m) hdr body.
  Proof.
    unfold PackWithMarshaller. destruct (hmarshal (e_hdr E) (msg_header m)) as [hdr|e|]; cbn [rbind].
    2,3: split; [discriminate|intros (?&?&?&_); discriminate].
    destruct (msg_body m) as [v|]; [destruct (m_marshal (or_json E mo) v) as [bs|e|]|]; cbn [rbind].
    2,3: split; [discriminate|intros (?&?&_&?&_); discriminate].
    - split.
      + intros H; injection H as <-. exists hdr, bs. auto.
      + intros (h' & b' & H1 & H2 & ->). injection H1 as ->. injection H2 as ->. reflexivity.
    - split.
      + intros H; injection H as <-. exists hdr, []. auto.
      + intros (h' & b' & H1 & H2 & ->). injection H1 as ->. rewrite H2. reflexivity.
  Qed.

  Lemma unpack_pack m mo b extra s d0 :
    is_int32 (msg_id m) ->
    hdr_roundtrips (e_hdr E) (msg_header m) ->
    (forall v, msg_body m = Some v -> body_roundtrips (or_json E mo) v (Some d0)) ->
    PackWithMarshaller E m mo = Ok b -> blen b < 2 ^ 32 -> gs_arr s = b ++ extra ->
    exists m', UnpackWithMarshaller E s (Some d0) mo = Ok m' /\
      msg_id m' = msg_id m /\ header_eq (msg_header m) (msg_header m') /\
      (msg_body m' = msg_body m \/
       (msg_body m' = Some d0 /\
        (msg_body m = None \/ exists v, msg_body m = Some v /\ m_marshal (or_json E mo) v = Ok []))).
  Proof.
    intros Hid (hb & h' & Hm & Hne & Hu & Heq) Hbody Hpack Hlen Harr.
    apply PackWithMarshaller_ok in Hpack. destruct Hpack as (hdr & body & Hm' & Hbody' & ->).
    rewrite Hm in Hm'. injection Hm' as <-.
    rewrite assemble_length in Hlen.
    pose proof (blen_nonneg hb). pose proof (blen_nonneg body).
    rewrite (Unpack_layout (msg_id m) hb body (assemble (msg_id m) hb body) extra);
      [|apply assemble_layout; lia|rewrite assemble_length; lia|exact Harr].
    assert (Hh : match hb with [] => Ok None | _ => hunmarshal (e_hdr E) hb end = Ok h').
    { destruct hb; [contradiction|exact Hu]. }
    rewrite Hh. cbn [rbind]. rewrite to_int32_id by exact Hid.
    destruct body as [|x body].
    - cbn [rbind indirect]. eexists; split; [reflexivity|]. cbn [msg_id msg_header msg_body].
      repeat split; auto. right. split; [reflexivity|].
      destruct (msg_body m) as [v|]; [right; exists v; auto|left; reflexivity].
    - destruct (msg_body m) as [v|]; [|discriminate Hbody'].
      rewrite (Hbody v eq_refl _ Hbody') by discriminate.
      cbn [rbind indirect]. eexists; split; [reflexivity|]. cbn [msg_id msg_header msg_body].
      repeat split; auto.
  Qed.

  (* exact panic condition of Unpack, given decoders that do not panic *)
  Lemma Unpack_panic_iff s d0 mo :
    (forall bs, hunmarshal (e_hdr E) bs <> Panic) ->
    (forall bs d, m_unmarshal (or_json E mo) bs d <> Panic) ->
    let a := gs_arr s in
    let h := field a 8 in
    let b := field a 12 in
    let lo := (16 + h) mod 2 ^ 32 in
    let hi := (16 + h + b) mod 2 ^ 32 in
    UnpackWithMarshaller E s (Some d0) mo = Panic <->
      gcap s < 16 \/
      gcap s < (field a 0 + 4) mod 2 ^ 32 \/
      (h <> 0 /\ (lo < 16 \/ gcap s < lo)) \/
      ((h = 0 \/ exists hd, hunmarshal (e_hdr E) (slice a 16 (Z.to_nat lo)) = Ok hd) /\
       b <> 0 /\ (hi < lo \/ gcap s < hi)).
  Proof.
    intros Hnp1 Hnp2 a h b lo hi.
    destruct (Z.ltb_spec (gcap s) 16) as [Hc|Hc].
    { rewrite Unpack_small_cap by exact Hc. split; auto. }
    rewrite Unpack_eq by exact Hc. cbv zeta. fold a h b.
    change (to_uint32 (field a 0 + 4)) with ((field a 0 + 4) mod 2 ^ 32).
    change (to_uint32 (16 + h)) with lo.
    replace (to_uint32 (lo + b)) with hi.
    2:{ unfold hi, lo, to_uint32, two32. change (2 ^ 32) with 4294967296.
        rewrite Zplus_mod_idemp_l. reflexivity. }
    destruct (Z.leb_spec ((field a 0 + 4) mod 2 ^ 32) (gcap s)) as [HU|HU].
    2:{ split; auto. }
    assert (Hfin : forall d : option V, forall hd, d <> None ->
      (body <- indirect d ;; Ok (Msg (to_int32 (field a 4)) hd body)) <> Panic).
    { intros [d|] hd Hd; [discriminate|contradiction]. }
    destruct (Z.eqb_spec h 0) as [Hh|Hh].
    - cbn [rbind].
      destruct (Z.eqb_spec b 0) as [Hb|Hb]; cbn [rbind].
      + split; [intros H; exfalso; revert H; apply Hfin; discriminate|].
        intros [H|[H|[[H _]|[_ [H _]]]]]; exfalso; lia.
      + destruct (Z.leb_spec lo hi) as [H1|H1]; cbn [andb].
        * destruct (Z.leb_spec hi (gcap s)) as [H2|H2].
          -- destruct (m_unmarshal _ _ _) as [v|e|] eqn:Hm; cbn [rbind].
             ++ split; [intros H; discriminate H|]. intros [H|[H|[[H _]|[_ [_ H]]]]]; exfalso; lia.
             ++ split; [intros H; discriminate H|]. intros [H|[H|[[H _]|[_ [_ H]]]]]; exfalso; lia.
             ++ exfalso; exact (Hnp2 _ _ Hm).
          -- cbn [rbind]. split; [|reflexivity]. intros _. right; right; right. repeat split; auto.
        * cbn [rbind]. split; [|reflexivity]. intros _. right; right; right. repeat split; auto.
    - destruct (Z.leb_spec 16 lo) as [Hl1|Hl1]; cbn [andb].
      2:{ cbn [rbind]. split; [|reflexivity]. intros _. right; right; left. auto. }
      destruct (Z.leb_spec lo (gcap s)) as [Hl2|Hl2].
      2:{ cbn [rbind]. split; [|reflexivity]. intros _. right; right; left. auto. }
      destruct (hunmarshal (e_hdr E) (slice a 16 (Z.to_nat lo))) as [hd|e|] eqn:Hu.
      3:{ exfalso; exact (Hnp1 _ Hu). }
      2:{ cbn [rbind]. split; [discriminate|].
          intros [H|[H|[[_ H]|[[H|[hd H]] _]]]]; try (exfalso; lia). discriminate H. }
      cbn [rbind].
      destruct (Z.eqb_spec b 0) as [Hb|Hb]; cbn [rbind].
      + split; [intros H; exfalso; revert H; apply Hfin; discriminate|].
        intros [H|[H|[[_ H]|[_ [H _]]]]]; exfalso; lia.
      + destruct (Z.leb_spec lo hi) as [H1|H1]; cbn [andb].
        * destruct (Z.leb_spec hi (gcap s)) as [H2|H2].
          -- destruct (m_unmarshal _ _ _) as [v|e|] eqn:Hm; cbn [rbind].
             ++ split; [intros H; discriminate H|]. intros [H|[H|[[_ H]|[_ [_ H]]]]]; exfalso; lia.
             ++ split; [intros H; discriminate H|]. intros [H|[H|[[_ H]|[_ [_ H]]]]]; exfalso; lia.
             ++ exfalso; exact (Hnp2 _ _ Hm).
          -- cbn [rbind]. split; [|reflexivity]. intros _. right; right; right.
             repeat split; auto. right. exists hd; reflexivity.
        * cbn [rbind]. split; [|reflexivity]. intros _. right; right; right.
          repeat split; auto. right. exists hd; reflexivity.
  Qed.
End Unpack.

(* ------------------------------------------------------------------ *)
(* injectivity and prefix-freeness *)

Lemma app_eq_len {A} (a b c d : list A) : List.length a = List.length c -> a ++ b = c ++ d -> a = c /\ b = d.
Proof.
  revert c. induction a as [|x a IH]; intros [|y c] Hl He; try discriminate; [split; auto|].
  cbn in *. injection He as -> He. injection Hl as Hl. destruct (IH c Hl He) as [-> ->]. auto.
Qed.

Lemma assemble_inj id h b id' h' b' x y :
  12 + blen h + blen b < 2 ^ 32 -> 12 + blen h' + blen b' < 2 ^ 32 ->
  assemble id h b ++ x = assemble id' h' b' ++ y ->
  id mod 2 ^ 32 = id' mod 2 ^ 32 /\ h = h' /\ b = b' /\ x = y.
Proof.
  intros H1 H2 He.
  destruct (layout_fields id h b _ x (assemble_layout id h b H1)) as (F0 & F4 & F8 & F12 & _ & Sh & Sb).
  destruct (layout_fields id' h' b' _ y (assemble_layout id' h' b' H2)) as (G0 & G4 & G8 & G12 & _ & Sh' & Sb').
  rewrite He in *.
  assert (Hh : List.length h = List.length h') by (unfold blen in *; lia).
  assert (Hb : List.length b = List.length b') by (unfold blen in *; lia).
  rewrite Hh in *. rewrite Hb in *.
  repeat split; try congruence.
  assert (Hl : List.length (assemble id h b) = List.length (assemble id' h' b')).
  { pose proof (assemble_length id h b). pose proof (assemble_length id' h' b'). unfold blen in *. lia. }
  exact (proj2 (app_eq_len _ _ _ _ Hl He)).
Qed.

(* ------------------------------------------------------------------ *)
(* header merging *)

Lemma merge_one_get (k : string) m acc : NoDup (map fst m) ->
  aget k (fold_left (fun a kv => aset (fst kv) (snd kv) a) m acc) =
  match aget k m with Some v => Some v | None => aget (V := jv) k acc end.
Proof.
  revert acc. induction m as [|[k1 v1] m IH]; intros acc Hnd; cbn [fold_left aget fst snd]; [reflexivity|].
  cbn [map fst] in Hnd. inversion Hnd as [|? ? Hnotin Hnd']; subst.
  rewrite IH by exact Hnd'. rewrite aget_aset.
  destruct (aget k m) as [v|] eqn:Hg.
  - destruct (keqb_spec k k1) as [->|Hk]; [|reflexivity].
    exfalso. apply Hnotin. apply aget_In in Hg. apply (in_map fst) in Hg. exact Hg.
  - destruct (keqb k k1); reflexivity.
Qed.

Definition hmap (h : header) : list (string * jv) := match h with Some m => m | None => [] end.

Lemma merge_headers_get k hs : Forall (fun h => NoDup (map fst (hmap h))) hs ->
  aget k (merge_headers hs) = last_mention k (map hmap hs).
Proof.
  intros Hnd. unfold merge_headers.
  assert (H : forall acc, aget k (fold_left merge_one hs acc)
            = match last_mention k (map hmap hs) with Some v => Some v | None => aget k acc end).
  { induction Hnd as [|h hs Hh Hhs IH]; intros acc; cbn [fold_left map last_mention]; [reflexivity|].
    rewrite IH. destruct (last_mention k (map hmap hs)); [reflexivity|].
    unfold merge_one. fold (hmap h). apply merge_one_get. exact Hh. }
  rewrite H. destruct (last_mention k (map hmap hs)); reflexivity.
Qed.
