(* The Python client against the Go side (C133). NODEMO *)
From Verif Require Export SpecPy WireProofs ReaderFacts.
From Verif Require ClientModel.

Lemma to_bytes4_ok x : 0 <= x < 2 ^ 32 -> to_bytes4 x = Ok (put_uint32 x).
Proof.
  intros Hx. unfold to_bytes4. destruct (Z.leb_spec 0 x); [|lia]. destruct (Z.ltb_spec x two32); [|unfold two32 in *; lia]. cbn [andb map].
  unfold put_uint32. rewrite !Z.shiftr_div_pow2 by lia. change (256 ^ 3) with (2 ^ 24). change (256 ^ 2) with (2 ^ 16). change (256 ^ 1) with (2 ^ 8). change (256 ^ 0) with 1. rewrite Z.div_1_r. reflexivity.
Qed.

Lemma to_bytes4_bad x : ~ (0 <= x < 2 ^ 32) -> to_bytes4 x = Err (EMsg "OverflowError").
Proof. intros Hx. unfold to_bytes4. destruct (Z.leb_spec 0 x); [|reflexivity]. destruct (Z.ltb_spec x two32); [unfold two32 in *; lia|reflexivity]. Qed.

Lemma to_bytes4_inv x b : to_bytes4 x = Ok b -> 0 <= x < 2 ^ 32 /\ b = put_uint32 x.
Proof.
  intros E. assert (D : 0 <= x < 2 ^ 32 \/ ~ (0 <= x < 2 ^ 32)) by lia. destruct D as [D|D].
  - rewrite (to_bytes4_ok x D) in E. injection E as <-. auto.
  - rewrite (to_bytes4_bad x D) in E. discriminate.
Qed.

Lemma from_bytes_be b : from_bytes b = be_val b.
Proof.
  unfold from_bytes, be_val. generalize 0. induction b as [|c b IH]; intros a; cbn [fold_left]; [reflexivity|]. rewrite IH. f_equal. lia.
Qed.

Lemma pyslice_slice b lo hi : (lo <= hi)%nat -> pyslice b (Z.of_nat lo) (Z.of_nat hi) = slice b lo hi.
Proof.
  intros L. unfold pyslice, slice, blen.
  assert (D : (hi <= List.length b)%nat \/ (List.length b < hi)%nat) by lia. destruct D as [D|D].
  - rewrite !Z.min_l by lia. rewrite !Nat2Z.id. reflexivity.
  - rewrite (Z.min_r (Z.of_nat hi)) by lia. rewrite Nat2Z.id.
    assert (D2 : (lo <= List.length b)%nat \/ (List.length b < lo)%nat) by lia. destruct D2 as [D2|D2].
    + rewrite Z.min_l by lia. rewrite Nat2Z.id. rewrite (firstn_all2 (n := hi - lo)) by (rewrite skipn_length; lia). apply firstn_all2. rewrite skipn_length. lia.
    + rewrite Z.min_r by lia. rewrite Nat2Z.id. rewrite (skipn_all2 b) by lia. rewrite (skipn_all2 b) by lia. rewrite !firstn_nil. reflexivity.
Qed.

Lemma slice_skip4 (b : bytes) lo hi : slice (skipn 4 b) lo hi = slice b (4 + lo) (4 + hi).
Proof.
  unfold slice. replace (4 + hi - (4 + lo))%nat with (hi - lo)%nat by lia.
  assert (K : forall n (c : bytes), skipn lo (skipn n c) = skipn (n + lo) c).
  { induction n as [|n IH]; intros c; [reflexivity|]. destruct c; cbn [skipn Nat.add]; [apply skipn_nil|apply IH]. }
  rewrite K. reflexivity.
Qed.

Lemma py_body_iff {H B} (E : pyenv H B) s b bs : py_body E s b = Ok bs <-> writes E s b bs.
Proof.
  unfold py_body, writes. destruct (String.eqb_spec s "json") as [->|N1].
  - split; [destruct (y_dumps E b); cbn; [intros [= <-]; auto|discriminate]|]. intros [[_ ->]|[X _]]; [reflexivity|discriminate].
  - destruct (String.eqb_spec s "protobuf") as [->|N2].
    + split; [destruct (y_ser E b); cbn; [intros [= <-]; auto|discriminate]|]. intros [[X _]|[_ ->]]; [discriminate|reflexivity].
    + split; [discriminate|]. intros [[X _]|[X _]]; contradiction.
Qed.

Lemma py_load_iff {H B} (E : pyenv H B) s b bs : py_load E s bs = Ok b <-> reads E s bs b.
Proof.
  unfold py_load, reads. destruct (String.eqb_spec s "json") as [->|N1].
  - split; [destruct (y_loads E bs); cbn; [intros [= <-]; auto|discriminate]|]. intros [[_ ->]|[X _]]; [reflexivity|discriminate].
  - destruct (String.eqb_spec s "protobuf") as [->|N2].
    + split; [destruct (y_parse E bs); cbn; [intros [= <-]; auto|discriminate]|]. intros [[X _]|[_ ->]]; [discriminate|reflexivity].
    + split; [discriminate|]. intros [[X _]|[X _]]; contradiction.
Qed.

Lemma py_load_cases {H B} (E : pyenv H B) s bs : (exists b, py_load E s bs = Ok b) \/ (exists e, py_load E s bs = Err e).
Proof.
  unfold py_load. destruct (String.eqb s "json"); [destruct (y_loads E bs); cbn; eauto|]. destruct (String.eqb s "protobuf"); [destruct (y_parse E bs); cbn; eauto|eauto].
Qed.

Lemma to_uint32_small z : 0 <= z < 2 ^ 32 -> to_uint32 z = z.
Proof. intros Hz. unfold to_uint32, two32. apply Z.mod_small. lia. Qed.

Lemma packed_eq id hb bb : 0 <= id < 2 ^ 32 -> 12 + blen hb + blen bb < 2 ^ 32 ->
  put_uint32 (blen (put_uint32 id ++ put_uint32 (blen hb) ++ put_uint32 (blen bb) ++ hb ++ bb)) ++ put_uint32 id ++ put_uint32 (blen hb) ++ put_uint32 (blen bb) ++ hb ++ bb = assemble id hb bb.
Proof.
  intros Hi Hl. pose proof (blen_nonneg hb). pose proof (blen_nonneg bb). unfold assemble. cbv zeta.
  rewrite (to_uint32_small id), (to_uint32_small (blen hb)), (to_uint32_small (blen bb)) by lia.
  rewrite (to_uint32_small (blen _)); [reflexivity|]. rewrite !blen_app, !blen_put. lia.
Qed.

Lemma py_pack_iff {H B} (E : pyenv H B) s m d : py_pack E s m = Ok d <->
  exists id hb bb, ym_id m = Some id /\ y_header E (ym_header m) = Some hb /\ writes E s (ym_body m) bb /\ 0 <= id < 2 ^ 32 /\ 12 + blen hb + blen bb < 2 ^ 32 /\ d = assemble id hb bb.
Proof.
  unfold py_pack. split.
  - destruct (py_body E s (ym_body m)) as [bb|e|] eqn:EB; cbn [rbind]; [|discriminate|discriminate]. apply py_body_iff in EB.
    destruct (ym_id m) as [id|]; cbn [rbind raised]; [|discriminate].
    destruct (to_bytes4 id) as [ib|e|] eqn:E1; cbn [rbind]; [|discriminate|discriminate]. apply to_bytes4_inv in E1. destruct E1 as [Hi ->].
    destruct (y_header E (ym_header m)) as [hb|] eqn:EH; cbn [rbind raised]; [|discriminate].
    destruct (to_bytes4 (blen hb)) as [lb|e|] eqn:E2; cbn [rbind]; [|discriminate|discriminate]. apply to_bytes4_inv in E2. destruct E2 as [Hh ->].
    destruct (to_bytes4 (blen bb)) as [lb|e|] eqn:E3; cbn [rbind]; [|discriminate|discriminate]. apply to_bytes4_inv in E3. destruct E3 as [Hb ->].
    destruct (to_bytes4 (blen (put_uint32 id ++ put_uint32 (blen hb) ++ put_uint32 (blen bb) ++ hb ++ bb))) as [lb|e|] eqn:E4; cbn [rbind]; [|discriminate|discriminate]. apply to_bytes4_inv in E4. destruct E4 as [Hl ->].
    intros [= <-]. exists id, hb, bb. assert (L : 12 + blen hb + blen bb < 2 ^ 32) by (rewrite !blen_app, !blen_put in Hl; lia).
    repeat (split; [auto|]). exact (packed_eq id hb bb Hi L).
  - intros (id & hb & bb & E1 & E2 & E3 & Hi & L & ->). apply py_body_iff in E3. rewrite E3, E1. cbn [rbind raised]. rewrite to_bytes4_ok by exact Hi. cbn [rbind]. rewrite E2. cbn [rbind raised].
    pose proof (blen_nonneg hb). pose proof (blen_nonneg bb). rewrite (to_bytes4_ok (blen hb)), (to_bytes4_ok (blen bb)) by lia. cbn [rbind].
    rewrite to_bytes4_ok; [|rewrite !blen_app, !blen_put; lia]. cbn [rbind]. f_equal. exact (packed_eq id hb bb Hi L).
Qed.

(* unpack in terms of the fields *)
Lemma py_unpack_eq {H B} (E : pyenv H B) s d : py_unpack E s d =
  let hl := Z.to_nat (field d 8) in let bl := Z.to_nat (field d 12) in
  rbind (py_load E s (slice d (16 + hl) (16 + hl + bl))) (fun v => Ok (PyMsg (Some (field d 4)) (slice d 16 (16 + hl)) v)).
Proof.
  assert (K : forall (c : bytes) lo hi, 0 <= lo <= hi -> pyslice c lo hi = slice c (Z.to_nat lo) (Z.to_nat hi)).
  { intros c lo hi Hlh. rewrite <- pyslice_slice by lia. rewrite !Z2Nat.id by lia. reflexivity. }
  assert (P : forall off, 0 <= field d off) by (intros; unfold field; apply be_val_range). pose proof (P 8%nat). pose proof (P 12%nat).
  unfold py_unpack. cbv zeta. rewrite !from_bytes_be. rewrite (K _ 4 8), (K _ 8 12), (K _ 0 4) by lia. rewrite !slice_skip4.
  change (be_val (slice d (4 + Z.to_nat 0) (4 + Z.to_nat 4))) with (field d 4). change (be_val (slice d (4 + Z.to_nat 4) (4 + Z.to_nat 8))) with (field d 8). change (be_val (slice d (4 + Z.to_nat 8) (4 + Z.to_nat 12))) with (field d 12).
  rewrite !K by lia. rewrite !Z2Nat.inj_add by lia. reflexivity.
Qed.

Lemma slice_firstn (b : bytes) n lo hi : slice (firstn n b) lo hi = slice b lo (Nat.min hi n).
Proof. unfold slice. rewrite skipn_firstn_comm, firstn_firstn. f_equal. lia. Qed.

Lemma slice_slice_min (b x : bytes) lo hi n : (lo <= hi)%nat -> slice b lo hi = x -> slice b lo (Nat.min hi n) = firstn (n - lo) x.
Proof. intros L <-. unfold slice. rewrite firstn_firstn. f_equal. lia. Qed.

Lemma p_C133_pack : forall H B (E : pyenv H B) s m,
  (forall d, py_pack E s m = Ok d -> exists id hb bb, ym_id m = Some id /\ y_header E (ym_header m) = Some hb /\ writes E s (ym_body m) bb /\ 0 <= id < 2 ^ 32 /\ frame_layout id hb bb d) /\
  (forall id hb bb, ym_id m = Some id -> y_header E (ym_header m) = Some hb -> writes E s (ym_body m) bb ->
     ((exists d, py_pack E s m = Ok d) <-> 0 <= id < 2 ^ 32 /\ 12 + blen hb + blen bb < 2 ^ 32)).
Proof.
  intros H B E s m. split.
  - intros d Hd. apply py_pack_iff in Hd. destruct Hd as (id & hb & bb & E1 & E2 & E3 & Hi & L & ->). exists id, hb, bb. repeat (split; [auto; lia|]). apply assemble_layout. exact L.
  - intros id hb bb E1 E2 E3. split.
    + intros [d Hd]. apply py_pack_iff in Hd. destruct Hd as (id' & hb' & bb' & F1 & F2 & F3 & Hi & L & _). rewrite E1 in F1. injection F1 as <-. rewrite E2 in F2. injection F2 as <-.
      apply py_body_iff in E3. apply py_body_iff in F3. rewrite E3 in F3. injection F3 as <-. auto.
    + intros [Hi L]. exists (assemble id hb bb). apply py_pack_iff. exists id, hb, bb. auto 10.
Qed.

Lemma p_C133_received_partial : forall H B (E : pyenv H B) s m d id hb bb hc h rest en r,
  py_pack E s m = Ok d -> ym_id m = Some id -> y_header E (ym_header m) = Some hb -> writes E s (ym_body m) bb ->
  id < 2 ^ 31 -> blen d < 2 ^ 31 -> hunmarshal hc hb = Ok h -> segmentation (d ++ rest) en r ->
  exists r', UnPackFromReader hc r = (RdOk (id, h, bb), r') /\ segmentation rest en r'.
Proof.
  intros H B E s m d id hb bb hc h rest en r Hd E1 E2 E3 Hi Hl Hu HS. apply py_pack_iff in Hd. destruct Hd as (id' & hb' & bb' & F1 & F2 & F3 & Hi' & L & ->).
  rewrite E1 in F1. injection F1 as <-. rewrite E2 in F2. injection F2 as <-. apply py_body_iff in E3. apply py_body_iff in F3. rewrite E3 in F3. injection F3 as <-.
  apply (p_C03_unpack_from_reader hc id hb bb (assemble id hb bb)); auto.
  - unfold is_int32, two31. lia.
  - apply assemble_layout. exact L.
Qed.

Lemma p_C133_high_id_refuted : (forall H B (E : pyenv H B) s m d id, py_pack E s m = Ok d -> ym_id m = Some id -> 2 ^ 31 <= id -> MessageIDOf (of_bytes d) = Ok (id - 2 ^ 32)) /\
  exists m d, py_pack digits_env "json" m = Ok d /\ ym_id m = Some (2 ^ 31) /\ MessageIDOf (of_bytes d) = Ok (- 2 ^ 31).
Proof.
  assert (G : forall H B (E : pyenv H B) s m d id, py_pack E s m = Ok d -> ym_id m = Some id -> 2 ^ 31 <= id -> MessageIDOf (of_bytes d) = Ok (id - 2 ^ 32)).
  { intros H B E s m d id Hd E1 Hi. apply py_pack_iff in Hd. destruct Hd as (id' & hb & bb & F1 & F2 & F3 & Hi' & L & ->). rewrite E1 in F1. injection F1 as <-.
    pose proof (assemble_layout id hb bb L) as Lay. destruct (layout_fields _ _ _ _ [] Lay) as (_ & F4 & _). rewrite app_nil_r in F4.
    pose proof (assemble_length id hb bb) as AL. pose proof (blen_nonneg hb). pose proof (blen_nonneg bb).
    rewrite MessageIDOf_spec by apply gwf_of_bytes. unfold glen. cbn [of_bytes gs_len]. fold (blen (assemble id hb bb)). destruct (Z.ltb_spec (blen (assemble id hb bb)) 8); [lia|].
    rewrite gbytes_of_bytes, F4. rewrite Z.mod_small by lia. unfold signed. destruct (Z.ltb_spec id (2 ^ 31)); [lia|reflexivity]. }
  split; [exact G|]. exists (PyMsg (Some (2 ^ 31)) (str_bytes "null") (str_bytes "12")). eexists. split; [vm_compute; reflexivity|]. split; [reflexivity|vm_compute; reflexivity].
Qed.

Lemma p_C133_negative_refuted : (forall H B (E : pyenv H B) s m id, ym_id m = Some id -> id < 0 -> exists e, py_pack E s m = Err e) /\
  (forall V (G : env V) id h src mo, is_int32 id -> forall b, Pack G id h src mo = Ok b -> blen b < 2 ^ 31 -> MessageIDOf (of_bytes b) = Ok id).
Proof.
  split.
  - intros H B E s m id E1 Hi. destruct (py_pack E s m) as [d|e|] eqn:P; [|eauto|].
    + apply py_pack_iff in P. destruct P as (id' & hb & bb & F1 & _ & _ & Hi' & _). rewrite E1 in F1. injection F1 as <-. lia.
    + exfalso. unfold py_pack in P. rewrite E1 in P. unfold py_body in P.
      assert (K : forall bs : bytes, to_bytes4 id = Err (EMsg "OverflowError")) by (intros; apply to_bytes4_bad; lia).
      destruct (String.eqb s "json"); [destruct (y_dumps E (ym_body m))|destruct (String.eqb s "protobuf"); [destruct (y_ser E (ym_body m))|]]; cbn [rbind raised] in P; try discriminate; rewrite (K []) in P; discriminate.
  - intros V G id h src mo Hi b Hp Hl. destruct (p_C03_of_packed V G (Msg id h src) mo b [] (of_bytes b) Hi Hp Hl (gwf_of_bytes b)) as (hdr & body & _ & _ & _ & X & _); [|exact X].
    rewrite gbytes_of_bytes, app_nil_r. reflexivity.
Qed.

Lemma p_C133_unpack : forall H B (E : pyenv H B) s id hdr body b extra, frame_layout id hdr body b ->
  (forall v, reads E s body v -> py_unpack E s (b ++ extra) = Ok (PyMsg (Some (id mod 2 ^ 32)) hdr v)) /\
  ((forall v, ~ reads E s body v) -> exists e, py_unpack E s (b ++ extra) = Err e).
Proof.
  intros H B E s id hdr body b extra Lay. destruct (layout_fields id hdr body b extra Lay) as (_ & F4 & F8 & F12 & _ & Sh & Sb). rewrite py_unpack_eq. cbv zeta. rewrite F4, F8, F12. unfold blen. rewrite !Nat2Z.id, Sh, Sb. split.
  - intros v Hv. apply py_load_iff in Hv. rewrite Hv. reflexivity.
  - intros N. destruct (py_load_cases E s body) as [[v Hv]|[e He]]; [apply py_load_iff in Hv; destruct (N v Hv)|]. rewrite He. exists e. reflexivity.
Qed.

Lemma p_C133_negative_back_refuted : (forall H B (E : pyenv H B) s id hdr body b extra m, frame_layout id hdr body b -> - 2 ^ 31 <= id < 0 -> py_unpack E s (b ++ extra) = Ok m -> ym_id m = Some (id + 2 ^ 32)) /\
  exists b m, frame_layout (-1) (str_bytes "null") (str_bytes "12") b /\ py_unpack digits_env "json" b = Ok m /\ ym_id m = Some 4294967295.
Proof.
  split.
  - intros H B E s id hdr body b extra m Lay Hi Hu. destruct (layout_fields id hdr body b extra Lay) as (_ & F4 & _). rewrite py_unpack_eq in Hu. cbv zeta in Hu.
    destruct (py_load E s _) as [v|e|]; cbn [rbind] in Hu; [|discriminate|discriminate]. injection Hu as <-. cbn [ym_id]. rewrite F4. f_equal.
    rewrite <- (Z.mod_add id 1 (2 ^ 32)) by lia. rewrite Z.mod_small; lia.
  - exists (assemble (-1) (str_bytes "null") (str_bytes "12")). eexists. split; [apply assemble_layout; vm_compute; reflexivity|]. split; [vm_compute; reflexivity|reflexivity].
Qed.

Lemma p_C133_roundtrip : forall H B (E : pyenv H B) s m d extra bb v, py_pack E s m = Ok d -> writes E s (ym_body m) bb -> reads E s bb v ->
  exists hb, y_header E (ym_header m) = Some hb /\ py_unpack E s (d ++ extra) = Ok (PyMsg (ym_id m) hb v).
Proof.
  intros H B E s m d extra bb v Hd Hw Hr. apply py_pack_iff in Hd. destruct Hd as (id & hb & bb' & F1 & F2 & F3 & Hi & L & ->). apply py_body_iff in Hw. apply py_body_iff in F3. rewrite Hw in F3. injection F3 as <-.
  exists hb. split; [exact F2|]. destruct (p_C133_unpack H B E s id hb bb (assemble id hb bb) extra (assemble_layout id hb bb L)) as [X _]. rewrite (X v Hr), F1, Z.mod_small by lia. reflexivity.
Qed.

Lemma p_C133_cut : forall H B (E : pyenv H B) s id hdr body b n v, frame_layout id hdr body b -> (16 <= n)%nat ->
  reads E s (firstn (n - (16 + List.length hdr)) body) v ->
  py_unpack E s (firstn n b) = Ok (PyMsg (Some (id mod 2 ^ 32)) (firstn (n - 16) hdr) v).
Proof.
  intros H B E s id hdr body b n v Lay Hn Hv. destruct (layout_fields id hdr body b [] Lay) as (_ & F4 & F8 & F12 & _ & Sh & Sb). rewrite app_nil_r in F4, F8, F12, Sh, Sb.
  assert (K : forall off, (off + 4 <= 16)%nat -> field (firstn n b) off = field b off).
  { intros off Ho. unfold field. rewrite slice_firstn. rewrite Nat.min_l by lia. reflexivity. }
  rewrite py_unpack_eq. cbv zeta. rewrite !K by lia. rewrite F4, F8, F12. unfold blen. rewrite !Nat2Z.id, !slice_firstn.
  rewrite (slice_slice_min b hdr 16 (16 + List.length hdr) n ltac:(lia) Sh). rewrite (slice_slice_min b body (16 + List.length hdr) (16 + List.length hdr + List.length body) n ltac:(lia) Sb). apply py_load_iff in Hv. rewrite Hv. reflexivity.
Qed.

Lemma p_C133_cut_refuted : exists b d v, frame_layout 5 (str_bytes "null") (str_bytes "12") b /\ d = firstn 21 b /\
  py_unpack digits_env "json" b = Ok (PyMsg (Some 5) (str_bytes "null") (str_bytes "12")) /\
  py_unpack digits_env "json" d = Ok (PyMsg (Some 5) (str_bytes "null") v) /\ v = str_bytes "1" /\
  (exists e, BodyBytesOf (of_bytes d) = Err e) /\ (exists e, FirstBlockOfBytes (of_bytes d) = Err e).
Proof.
  exists (assemble 5 (str_bytes "null") (str_bytes "12")). eexists. eexists. split; [apply assemble_layout; vm_compute; reflexivity|]. split; [reflexivity|].
  split; [vm_compute; reflexivity|]. split; [vm_compute; reflexivity|]. split; [reflexivity|]. split; eexists; vm_compute; reflexivity.
Qed.

Lemma p_C133_exchange_partial : forall H B (E : pyenv H B) s n m d id hdr body b extra r v,
  py_pack E s m = Ok d -> (List.length d <= n)%nat -> frame_layout id hdr body b -> (List.length b <= 1024)%nat -> reads E s body v ->
  py_exchange E s n m (RData (b ++ extra) :: r) = (d, RdOk (PyMsg (Some (id mod 2 ^ 32)) hdr v)).
Proof.
  intros H B E s n m d id hdr body b extra r v Hd Hn Lay Hb Hv. unfold py_exchange. rewrite Hd. rewrite firstn_all2 by exact Hn. f_equal.
  destruct (layout_fields id hdr body b [] Lay) as (_ & _ & _ & _ & Hl & _). pose proof (blen_nonneg hdr). pose proof (blen_nonneg body).
  destruct (b ++ extra) as [|c cs] eqn:EA.
  - apply app_eq_nil in EA. destruct EA as [-> _]. change (blen []) with 0 in Hl. lia.
  - cbn [py_recv fst]. rewrite <- EA. rewrite firstn_app. rewrite (firstn_all2 b) by exact Hb.
    destruct (p_C133_unpack H B E s id hdr body b (firstn (1024 - List.length b) extra) Lay) as [X _]. rewrite (X v Hv). reflexivity.
Qed.

Lemma p_C133_recv : forall k r, (0 < k)%nat ->
  match py_recv k r with
  | (RdOk p, r') => (List.length p <= k)%nat /\ total_bytes r = p ++ total_bytes r' /\ (p = [] -> total_bytes r = [])
  | (RdErr _, r') | (RdBlocked, r') => total_bytes r = [] /\ total_bytes r' = []
  | (RdPanic, _) => False
  end.
Proof.
  intros k r K. induction r as [|[[|c bs]|e|[|c bs] e] r IH]; cbn [py_recv].
  - auto.
  - exact IH.
  - split; [apply firstn_le_length|]. destruct (Nat.leb_spec (List.length (c :: bs)) k) as [L|L].
    + rewrite firstn_all2 by exact L. split; [reflexivity|discriminate].
    + split; [cbn [total_bytes]; rewrite app_assoc, firstn_skipn; reflexivity|]. destruct k; [lia|discriminate].
  - destruct e; cbn [total_bytes]; auto. repeat split; auto. cbn; lia.
  - destruct e; cbn [total_bytes]; auto. repeat split; auto. cbn; lia.
  - split; [apply firstn_le_length|]. destruct (Nat.leb_spec (List.length (c :: bs)) k) as [L|L].
    + rewrite firstn_all2 by exact L. cbn [total_bytes]. rewrite app_nil_r. split; [reflexivity|discriminate].
    + split; [cbn [total_bytes]; rewrite firstn_skipn; reflexivity|]. destruct k; [lia|discriminate].
Qed.

Lemma p_C133_reply_refuted :
  (exists m b v, List.length b = 1025%nat /\ frame_layout 6 (repeat "x"%char 1007) (str_bytes "12") b /\
     snd (py_exchange digits_env "json" 100 m [RData b]) = RdOk (PyMsg (Some 6) (repeat "x"%char 1007) v) /\ v = str_bytes "1") /\
  (exists m b v, frame_layout 6 (str_bytes "{}") (str_bytes "12") b /\
     snd (py_exchange digits_env "json" 100 m [RData (firstn 19 b); RData (skipn 19 b)]) = RdOk (PyMsg (Some 6) (str_bytes "{}") v) /\ v = str_bytes "1") /\
  (exists m b1 b2, frame_layout 6 (str_bytes "{}") (str_bytes "1") b1 /\ frame_layout 7 (str_bytes "{}") (str_bytes "2") b2 /\
     snd (py_exchange digits_env "json" 100 m [RData (b1 ++ b2)]) = RdOk (PyMsg (Some 6) (str_bytes "{}") (str_bytes "1")) /\
     snd (py_recv 1024 [RData (b1 ++ b2)]) = []).
Proof.
  split; [|split].
  - exists (PyMsg (Some 5) (str_bytes "null") (str_bytes "12")), (assemble 6 (repeat "x"%char 1007) (str_bytes "12")). eexists. split; [vm_compute; reflexivity|]. split; [apply assemble_layout; vm_compute; reflexivity|]. split; vm_compute; reflexivity.
  - exists (PyMsg (Some 5) (str_bytes "null") (str_bytes "12")), (assemble 6 (str_bytes "{}") (str_bytes "12")). eexists. split; [apply assemble_layout; vm_compute; reflexivity|]. split; vm_compute; reflexivity.
  - exists (PyMsg (Some 5) (str_bytes "null") (str_bytes "12")), (assemble 6 (str_bytes "{}") (str_bytes "1")), (assemble 7 (str_bytes "{}") (str_bytes "2")). split; [apply assemble_layout; vm_compute; reflexivity|]. split; [apply assemble_layout; vm_compute; reflexivity|]. split; vm_compute; reflexivity.
Qed.

Lemma p_C133_closed_refuted : (forall H B (E : pyenv H B) s n m d v r, py_pack E s m = Ok d -> reads E s [] v -> py_exchange E s n m (RFail EEOF :: r) = (firstn n d, RdOk (PyMsg (Some 0) [] v))) /\
  exists m, snd (py_exchange digits_env "protobuf" 100 m [RFail EEOF]) = RdOk (PyMsg (Some 0) [] []).
Proof.
  split.
  - intros H B E s n m d v r Hd Hv. unfold py_exchange. rewrite Hd. cbn [py_recv fst]. rewrite py_unpack_eq. cbv zeta. unfold slice at 1. rewrite skipn_nil, firstn_nil. apply py_load_iff in Hv. rewrite Hv. unfold slice. rewrite skipn_nil, firstn_nil. reflexivity.
  - exists (PyMsg (Some 5) (str_bytes "null") (str_bytes "12")). vm_compute. reflexivity.
Qed.

Lemma p_C133_nil_body_refuted : forall H B (E : pyenv H B) V (G : env V) id h mo b, y_loads E [] = None ->
  Pack G id h None mo = Ok b -> blen b < 2 ^ 32 -> exists e, py_unpack E "json" b = Err e.
Proof.
  intros H B E V G id h mo b HL Hp Hb. destruct (p_C01_pack_layout V G (Msg id h None) mo b Hp) as (hdr & body & _ & EB & Lay); [lia|].
  unfold Pack, PackWithMarshaller in Hp. cbn [msg_header msg_body msg_id] in Hp. destruct (hmarshal (e_hdr G) h) as [hb|e|]; cbn [rbind] in Hp; [|discriminate|discriminate]. injection Hp as <-.
  assert (L : 12 + blen hb + blen [] < 2 ^ 32) by (rewrite assemble_length in Hb; lia).
  destruct (p_C133_unpack H B E "json" id hb [] (assemble id hb []) [] (assemble_layout id hb [] L)) as [_ X]. rewrite app_nil_r in X. apply X.
  intros v [[_ R]|[R _]]; [congruence|discriminate].
Qed.

Lemma p_C133_short_send_refuted : exists m d, py_pack digits_env "json" m = Ok d /\ fst (py_exchange digits_env "json" 10 m []) = firstn 10 d /\ firstn 10 d <> d /\
  forall r, segmentation (firstn 10 d) StaysOpen r -> fst (FirstBlockOf r) = RdBlocked.
Proof.
  exists (PyMsg (Some 5) (str_bytes "null") (str_bytes "12")), (assemble 5 (str_bytes "null") (str_bytes "12")). split; [vm_compute; reflexivity|]. split; [vm_compute; reflexivity|]. split; [vm_compute; discriminate|].
  intros r (P & T & N). pose proof (block_reader_spec 0 false r P) as HB. cbv zeta in HB. rewrite T, N in HB. unfold FirstBlockOf.
  assert (F : field (firstn 10 (assemble 5 (str_bytes "null") (str_bytes "12"))) 0 = 18) by (vm_compute; reflexivity).
  assert (L : blen (firstn 10 (assemble 5 (str_bytes "null") (str_bytes "12"))) = 10) by (vm_compute; reflexivity).
  rewrite F, L in HB. change (signed 18) with 18 in HB. destruct HB as [(X & _)|(_ & r4 & _ & _ & _ & [(X & _)|[(_ & X & _)|[(_ & _ & X & _)|(_ & _ & _ & r' & -> & _)]]])]; try lia; try discriminate. reflexivity.
Qed.

Lemma py_bytes_same x : to_bytes4 x = match ClientModel.py_to_bytes4 x with Some b => Ok b | None => Err (EMsg "OverflowError") end.
Proof.
  unfold to_bytes4, ClientModel.py_to_bytes4. change two32 with (2 ^ 32). destruct ((0 <=? x) && (x <? 2 ^ 32)); [|reflexivity]. cbn [map].
  change (256 ^ 3) with (2 ^ 24). change (256 ^ 2) with (2 ^ 16). change (256 ^ 1) with (2 ^ 8). change (256 ^ 0) with 1. rewrite Z.div_1_r. reflexivity.
Qed.

Lemma py_slice_same b lo hi : ClientModel.py_slice b lo hi = slice b lo hi.
Proof. unfold ClientModel.py_slice, slice. apply skipn_firstn_comm. Qed.

Lemma p_C133_extends : forall H B (E : pyenv H B) s,
  (forall m id hb bb, ym_id m = Some id -> y_header E (ym_header m) = Some hb -> writes E s (ym_body m) bb ->
     py_pack E s m = match ClientModel.py_pack id hb bb with Some d => Ok d | None => Err (EMsg "OverflowError") end) /\
  (forall d, py_unpack E s d = let '(i, h, b) := ClientModel.py_unpack d in rbind (py_load E s b) (fun v => Ok (PyMsg (Some i) h v))).
Proof.
  intros H B E s. split.
  - intros m id hb bb E1 E2 E3. apply py_body_iff in E3. unfold py_pack. rewrite E3, E1. cbn [rbind raised]. rewrite E2. rewrite !py_bytes_same. unfold ClientModel.py_pack.
    destruct (ClientModel.py_to_bytes4 id); cbn [rbind]; [|reflexivity]. cbn [raised rbind]. rewrite (py_bytes_same (blen hb)). destruct (ClientModel.py_to_bytes4 (blen hb)); cbn [rbind]; [|reflexivity]. destruct (ClientModel.py_to_bytes4 (blen bb)); cbn [rbind]; [|reflexivity].
    rewrite py_bytes_same. destruct (ClientModel.py_to_bytes4 _); reflexivity.
  - intros d. rewrite py_unpack_eq. cbv zeta. unfold ClientModel.py_unpack. cbv zeta. rewrite !py_slice_same, !slice_skip4. unfold ClientModel.py_from_bytes. fold (be_val (slice d (4 + 4) (4 + 8))). fold (be_val (slice d (4 + 8) (4 + 12))). fold (be_val (slice d (4 + 0) (4 + 4))). reflexivity.
Qed.
