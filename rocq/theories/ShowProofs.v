(* C117: what the example clients show *)
From Verif Require Export SpecShow ReaderFacts WireProofs Demo.

Lemma filled_length buf bs : (List.length bs <= List.length buf)%nat -> List.length (filled buf bs) = List.length buf.
Proof. intros H. unfold filled. rewrite app_length, skipn_length. lia. Qed.
Lemma filled_wf buf bs : gwf (GS (filled buf bs) (List.length bs)).
Proof. unfold gwf, filled. cbn [gs_len gs_arr]. rewrite app_length. lia. Qed.
Lemma filled_bytes buf bs : gbytes (GS (filled buf bs) (List.length bs)) = bs.
Proof. unfold gbytes, filled. cbn [gs_len gs_arr]. rewrite firstn_app, Nat.sub_diag, firstn_all. cbn. apply app_nil_r. Qed.

Lemma read_chunk k bs r : (List.length bs <= k)%nat -> read_one k (RData bs :: r) = Some (bs, None, r).
Proof. intros H. unfold read_one. destruct (Nat.leb_spec (List.length bs) k); [reflexivity|lia]. Qed.
Lemma read_at_most k r bs e r' : read_one k r = Some (bs, e, r') -> (List.length bs <= k)%nat.
Proof.
  unfold read_one. destruct r as [|[b|x|b x] r]; intros H; [discriminate| | |].
  - destruct (Nat.leb_spec (List.length b) k); injection H as <- <- <-; [lia|]. rewrite firstn_length. lia.
  - injection H as <- <- <-. cbn. lia.
  - destruct (Nat.leb_spec (List.length b) k); injection H as <- <- <-; [lia|]. rewrite firstn_length. lia.
Qed.

Lemma show_frame n buf id hdr body b extra r : is_int32 id -> frame_layout id hdr body b -> blen b < 2 ^ 31 ->
  (List.length (b ++ extra) <= List.length buf)%nat ->
  show_reads (S n) buf (RData (b ++ extra) :: r) =
    (body :: fst (show_reads n (filled buf (b ++ extra)) r), snd (show_reads n (filled buf (b ++ extra)) r)).
Proof.
  intros Hid HL Hb Hk. cbn [show_reads]. rewrite read_chunk by exact Hk.
  destruct (p_C03_accessors_agree id hdr body b extra _ Hid HL Hb (filled_wf buf (b ++ extra)) (filled_bytes buf (b ++ extra)))
    as (_ & _ & _ & _ & _ & (bf & -> & ->)).
  destruct (show_reads n _ r). reflexivity.
Qed.

Lemma p_C117_reads_partial : forall ms blocks extras r,
  holds ms blocks -> List.length extras = List.length blocks ->
  Forall (fun c => (List.length c <= 500)%nat) (map (fun p => fst p ++ snd p) (combine blocks extras)) ->
  fst (read_client (List.length ms) (map (fun p => RData (fst p ++ snd p)) (combine blocks extras) ++ r)) = map snd ms.
Proof.
  intros ms blocks extras r H He Hf. unfold read_client.
  assert (Hbuf : List.length (repeat zero 500) = 500%nat) by apply repeat_length.
  revert Hbuf. generalize (repeat zero 500). revert extras He Hf.
  induction H as [|(id, body) b ms blocks (hdr & HL & Hid & Hb) _ IH]; intros extras He Hf buf Hbuf; [reflexivity|].
  destruct extras as [|x extras]; [discriminate|]. cbn [combine map] in *. inversion Hf as [|? ? Hk Hf']; subst.
  cbn [List.length map app]. cbn [fst snd] in *.
  rewrite (show_frame (List.length ms) buf id hdr body b x) by (try assumption; rewrite Hbuf; exact Hk).
  cbn [fst]. f_equal. apply IH; [cbn in He; lia|exact Hf'|]. rewrite filled_length; [exact Hbuf|rewrite Hbuf; exact Hk].
Qed.

Lemma p_C117_blocks : forall drop ms blocks rest en r,
  holds ms blocks -> segmentation (concat blocks ++ rest) en r ->
  exists r', segmentation rest en r' /\
    forall k, show_blocks drop (List.length ms + k) r = (ms ++ fst (show_blocks drop k r'), snd (show_blocks drop k r')).
Proof.
  intros drop ms blocks rest en r H. revert r.
  induction H as [|(id, body) b ms blocks (hdr & HL & Hid & Hb) _ IH]; intros r HS.
  - exists r. split; [exact HS|]. intros k. cbn [List.length Nat.add app]. apply surjective_pairing.
  - cbn [concat] in HS. rewrite <- app_assoc in HS. cbn [fst snd] in *.
    destruct (read_block_ok 0 false b (concat blocks ++ rest) en r) as (r1 & E1 & S1);
      [apply (layout_is_block id hdr body); [exact HL|lia]|discriminate|exact HS|].
    destruct (IH r1 S1) as (r' & S' & Hr). exists r'. split; [exact S'|]. intros k.
    cbn [List.length Nat.add show_blocks]. unfold FirstBlockOf. cbn [negb] in E1. rewrite E1.
    destruct (p_C03_accessors_agree id hdr body b [] (of_bytes b) Hid HL Hb (gwf_of_bytes b)) as (_ & M & _ & _ & _ & (bf & B & Hbf));
      [rewrite gbytes_of_bytes, app_nil_r; reflexivity|].
    rewrite B, M, Hbf, Hr. reflexivity.
Qed.

Lemma p_C117_stream_ends : forall drop ms blocks part b en r k,
  holds ms blocks -> is_block b -> prefix_of part b -> part <> b -> segmentation (concat blocks ++ part) en r ->
  show_blocks drop (List.length ms + S k) r = (ms, match en with StaysOpen => Waiting | Fails _ => LeftLoop end).
Proof.
  intros drop ms blocks part b en r k H Hb Hp Hn HS. destruct (p_C117_blocks drop ms blocks part en r H HS) as (r' & HS' & E). rewrite E.
  pose proof (read_partial 0 false part b en r' Hb ltac:(discriminate) Hp Hn HS') as F. cbv zeta in F. cbn [show_blocks]. unfold FirstBlockOf.
  destruct (UnpackToBlockFromReader r') as [o q]. cbn [fst] in F. subst o. unfold sfail. destruct en; cbn; rewrite app_nil_r; reflexivity.
Qed.

Lemma p_C117_short_block : forall ms blocks b rest en r,
  holds ms blocks -> is_block b -> blen b < 16 -> segmentation (concat blocks ++ b ++ rest) en r ->
  (forall k, show_blocks false (List.length ms + S k) r = (ms, LeftLoop)) /\
  exists r', segmentation rest en r' /\ forall k, show_blocks true (List.length ms + S k) r =
    (ms ++ (if blen b <? 8 then 0 else signed (field b 4), []) :: fst (show_blocks true k r'), snd (show_blocks true k r')).
Proof.
  intros ms blocks b rest en r H Hb Hs HS.
  assert (BB : exists e, BodyBytesOf (of_bytes b) = Err e).
  { pose proof (BodyBytesOf_cases _ (gwf_of_bytes b)) as BC. cbv zeta in BC.
    assert (GL : glen (of_bytes b) = blen b) by reflexivity. rewrite GL in BC.
    destruct BC as [(_ & e & E)|[(A & _)|[(A & _)|(A & _)]]]; [eauto|lia|lia|lia]. }
  destruct BB as (e & BB).
  assert (MI : MessageIDOf (of_bytes b) = if blen b <? 8 then Err (EMsg "stream < 8") else Ok (signed (field b 4))).
  { rewrite MessageIDOf_spec by apply gwf_of_bytes. rewrite gbytes_of_bytes. reflexivity. }
  split.
  - intros k. destruct (p_C117_blocks false ms blocks (b ++ rest) en r H HS) as (r1 & S1 & E). rewrite E.
    destruct (read_block_ok 0 false b rest en r1 Hb ltac:(discriminate) S1) as (r2 & E2 & S2). cbn [show_blocks]. unfold FirstBlockOf. cbn [negb] in E2. rewrite E2, BB, MI.
    destruct (blen b <? 8); cbn [fst snd]; rewrite app_nil_r; reflexivity.
  - destruct (p_C117_blocks true ms blocks (b ++ rest) en r H HS) as (r1 & S1 & E).
    destruct (read_block_ok 0 false b rest en r1 Hb ltac:(discriminate) S1) as (r2 & E2 & S2). exists r2. split; [exact S2|]. intros k. rewrite E.
    cbn [show_blocks]. unfold FirstBlockOf. cbn [negb] in E2. rewrite E2, BB, MI. destruct (blen b <? 8); destruct (show_blocks true k r2); reflexivity.
Qed.

Lemma p_C117_chat_panel : forall dec enc l,
  (forall m, In m l -> (cm_id m = 6 \/ cm_id m = 200) /\ dec (enc m) = Some (cm_message m, cm_from m)) ->
  panels dec (map (fun m => (cm_id m, enc m)) l) = (map chat_text l, true).
Proof.
  intros dec enc l. induction l as [|m l IH]; intros H; [reflexivity|].
  cbn [map panels]. destruct (H m (or_introl eq_refl)) as (Hid & Hd). unfold panel, chat_text.
  rewrite IH by (intros m' Hm; apply H; right; exact Hm). rewrite Hd.
  destruct Hid as [-> | ->]; reflexivity.
Qed.

Lemma p_C117_chat_stops : forall dec l1 m l2 ts, panels dec l1 = (ts, true) ->
  (In (fst m) [6; 200; 400; 500] -> dec (snd m) = None -> panels dec (l1 ++ m :: l2) = (ts, false)) /\
  (~ In (fst m) [6; 200; 400; 500] -> panels dec (l1 ++ m :: l2) = (ts ++ fst (panels dec l2), snd (panels dec l2))).
Proof.
  intros dec l1 (id, bf) l2 ts H. cbn [fst snd].
  assert (G : forall t ok, panels dec ((id, bf) :: l2) = (t, ok) -> panels dec (l1 ++ (id, bf) :: l2) = (ts ++ t, ok)).
  { revert ts H. induction l1 as [|x l1 IH]; intros ts H t ok E; cbn [app].
    - inversion H. exact E.
    - cbn [panels] in H |- *. destruct (panel dec x) as [tx|]; [|discriminate]. destruct (panels dec l1) as [ts' ok']. inversion H; subst.
      rewrite (IH ts' eq_refl t ok E). rewrite app_assoc. reflexivity. }
  split.
  - intros I D. rewrite (G [] false); [rewrite app_nil_r; reflexivity|]. cbn [panels]. unfold panel. rewrite D.
    destruct I as [<-|[<-|[<-|[<-|[]]]]]; reflexivity.
  - intros N. rewrite (G (fst (panels dec l2)) (snd (panels dec l2))); [reflexivity|]. cbn [panels]. unfold panel.
    destruct (Z.eqb_spec id 400); [destruct N; cbn; auto|]. destruct (Z.eqb_spec id 200); [destruct N; cbn; auto|]. destruct (Z.eqb_spec id 500); [destruct N; cbn; auto|].
    destruct (Z.eqb_spec id 6); [destruct N; cbn; auto|]. cbn [orb]. destruct (panels dec l2). reflexivity.
Qed.

Lemma p_C117_long_refuted : forall r line, shows r line -> blen line <= 500.
Proof.
  intros r line (n & Hin). unfold read_client in Hin.
  assert (Hbuf : List.length (repeat zero 500) = 500%nat) by apply repeat_length.
  revert Hbuf Hin. generalize (repeat zero 500). revert r.
  induction n as [|n IH]; intros r buf Hbuf Hin; [contradiction|].
  cbn [show_reads] in Hin. destruct (read_one (List.length buf) r) as [((bs, [e|]), r')|] eqn:ER; [contradiction| |contradiction].
  apply read_at_most in ER. rewrite Hbuf in ER.
  assert (HF : List.length (filled buf bs) = 500%nat) by (rewrite filled_length; [exact Hbuf|lia]).
  destruct (BodyBytesOf _) as [bf|e|] eqn:EB; [| |contradiction].
  - specialize (IH r' (filled buf bs) HF).
    destruct (show_reads n (filled buf bs) r') as (l, s). cbn [fst] in *. destruct Hin as [<-|Hin]; [|exact (IH Hin)].
    pose proof (BodyBytesOf_cases _ (filled_wf buf bs)) as BC. cbv zeta in BC. rewrite EB in BC.
    destruct BC as [(_ & ? & D)|[(_ & _ & ? & D)|[(_ & A & B & C & D & r2 & E & _ & G)|(_ & _ & _ & D)]]]; try discriminate.
    injection E as <-. rewrite G. unfold blen, slice. rewrite firstn_length. unfold glen in D. cbn [gs_len] in D. lia.
  - specialize (IH r' (filled buf bs) HF).
    destruct (show_reads n (filled buf bs) r') as (l, s). cbn [fst] in *. destruct Hin as [<-|Hin]; [cbn; lia|exact (IH Hin)].
Qed.

Lemma p_C117_together_refuted : forall id1 hdr1 body1 b1 b2,
  is_int32 id1 -> frame_layout id1 hdr1 body1 b1 -> (List.length (b1 ++ b2) <= 500)%nat ->
  forall n, read_client (S (S n)) [RData (b1 ++ b2)] = ([body1], Waiting).
Proof.
  intros id1 hdr1 body1 b1 b2 Hid HL Hk n. unfold read_client.
  rewrite (show_frame (S n) (repeat zero 500) id1 hdr1 body1 b1 b2).
  - reflexivity.
  - exact Hid.
  - exact HL.
  - rewrite app_length in Hk. unfold blen. lia.
  - rewrite repeat_length. exact Hk.
Qed.

Lemma p_C117_split_refuted : forall id hdr body b part tail r,
  frame_layout id hdr body b -> blen b < 2 ^ 31 -> b = part ++ tail -> tail <> [] -> (List.length part <= 500)%nat ->
  fst (read_client 1 (RData part :: r)) = [[]].
Proof.
  intros id hdr body b part tail r HL Hb -> Ht Hk. unfold read_client. cbn [show_reads].
  rewrite read_chunk by (rewrite repeat_length; exact Hk).
  set (buf := repeat zero 500).
  pose proof (BodyBytesOf_cases _ (filled_wf buf part)) as BC. cbv zeta in BC. rewrite filled_bytes in BC.
  destruct (layout_fields id hdr body _ [] HL) as (F0 & F4 & F8 & F12 & Hbl & Sh & Sb). rewrite app_nil_r in F8, F12.
  assert (HT : 1 <= blen tail) by (destruct tail; [contradiction|unfold blen; cbn; lia]).
  rewrite blen_app in Hbl, Hb. pose proof (blen_nonneg hdr). pose proof (blen_nonneg body).
  assert (GL : glen (GS (filled buf part) (List.length part)) = blen part) by reflexivity.
  assert (HE : exists e, BodyBytesOf (GS (filled buf part) (List.length part)) = Err e).
  { rewrite GL in BC. destruct (Z.ltb_spec (blen part) 16) as [Hs|Hs].
    - destruct BC as [(_ & ? & ->)|[(A & _)|[(A & _)|(A & _)]]]; [eexists; reflexivity|lia|lia|lia].
    - assert (Q8 : field part 8 = blen hdr).
      { rewrite <- F8. unfold field. rewrite slice_app_l by (unfold blen in Hs; lia). reflexivity. }
      assert (Q12 : field part 12 = blen body).
      { rewrite <- F12. unfold field. rewrite slice_app_l by (unfold blen in Hs; lia). reflexivity. }
      pose proof (blen_nonneg part).
      rewrite Q8, Q12 in BC.
      assert (S8 : signed (blen hdr) = blen hdr) by (unfold signed; destruct (Z.ltb_spec (blen hdr) (2 ^ 31)); lia).
      assert (S12 : signed (blen body) = blen body) by (unfold signed; destruct (Z.ltb_spec (blen body) (2 ^ 31)); lia).
      rewrite S8, S12 in BC.
      destruct BC as [(A & _)|[(_ & _ & ? & ->)|[(_ & _ & _ & _ & A & _)|(_ & A & _)]]]; [lia|eexists; reflexivity|lia|lia]. }
  destruct HE as (e & ->). reflexivity.
Qed.

Lemma p_C117_crash_refuted : exists id hdr body b part tail, is_int32 id /\ frame_layout id hdr body b /\ b = part ++ tail /\
  List.length b = 36%nat /\ read_client 2 [RData part; RData tail] = ([[]], Crashed).
Proof.
  set (body := repeat (byte_of 0) 12 ++ repeat (byte_of 255) 4).
  exists 1, (list_ascii_of_string "null"), body, (assemble 1 (list_ascii_of_string "null") body),
    (firstn 20 (assemble 1 (list_ascii_of_string "null") body)), (skipn 20 (assemble 1 (list_ascii_of_string "null") body)).
  split; [unfold is_int32, two31; lia|]. split; [apply assemble_layout; vm_compute; reflexivity|].
  split; [symmetry; apply firstn_skipn|]. split; vm_compute; reflexivity.
Qed.
