(* Client-side helpers. *)
From Verif Require Export ClientModel SpecClient WireFacts BaseFacts.

Definition arg_id {V} (z : Z) (a : garg (V:=V)) : Prop := exists v, a = GInt z v.

(* an argument as the value of a pair: the value itself, nothing for nil *)
Definition arg_val {V} (v : option V) (a : garg (V:=V)) : Prop :=
  match a with GInt _ x => v = Some x | GVal x => v = Some x | GNil => v = None end.

Lemma arg_val_body {V} (v : option V) a : arg_val v a <-> v = arg_body a.
Proof. destruct a; reflexivity. Qed.

(* how the n pairs of a batch are packed: the marker on the first, no header on the others *)
Definition batch {V} (E : env V) (n : Z) (ps : list (Z * option V)) (blocks : list bytes) : Prop :=
  match ps, blocks with
  | [], [] => True
  | p :: ps', b :: blocks' =>
      json_block E (Some [("[tcpx-buffer-in-serial]"%string, JStr (String.append "enable;" (itoa n)))]) p b /\
      Forall2 (json_block E None) ps' blocks'
  | _, _ => False
  end.

Lemma assemble_int32 z h b : assemble (to_int32 z) h b = assemble z h b.
Proof.
  unfold assemble. replace (to_uint32 (to_int32 z)) with (to_uint32 z); auto.
  unfold to_uint32, to_int32. destruct (z mod two32 <? two31) eqn:C.
  - rewrite Z.mod_mod; auto. unfold two32; lia.
  - replace (z mod two32 - two32) with (z mod two32 + (-1) * two32) by lia. rewrite Z.mod_add by (unfold two32; lia).
    rewrite Z.mod_mod; auto. unfold two32; lia.
Qed.

Lemma pack_json_block {V} (E : env V) z h v b :
  PackWithMarshaller E (Msg (to_int32 z) h v) (Some (JsonMarshaller E)) = Ok b -> json_block E h (z, v) b /\ 16 <= blen b.
Proof.
  unfold PackWithMarshaller. cbn [or_json msg_header msg_body msg_id].
  destruct (hmarshal (e_hdr E) h) as [hb| |] eqn:Hh; try discriminate. cbn [rbind].
  destruct (match v with None => Ok [] | Some x => m_marshal (JsonMarshaller E) x end) as [bb| |] eqn:Hb; try discriminate.
  cbn [rbind]. intros H. injection H as <-. rewrite assemble_int32. split.
  - exists hb, bb. split; auto. split; [|split].
    + destruct v; simpl in *; congruence.
    + apply assemble_length.
    + intros L. apply assemble_layout. cbn [fst]. unfold two32. lia.
  - rewrite assemble_length. pose proof (blen_nonneg hb). pose proof (blen_nonneg bb). lia.
Qed.

Lemma pipe_loop_sound {V} (E : env V) n : forall k args, (List.length args <= k)%nat -> forall first out, Nat.even (List.length args) = true ->
  pipe_loop E n first args = Ok out ->
  exists ps blocks, pairing arg_id arg_val ps args /\ out = concat blocks /\
    (if first then batch E n ps blocks else Forall2 (json_block E None) ps blocks) /\ Forall (fun b => 16 <= blen b) blocks.
Proof.
  induction k as [|k IH]; intros args L first out Ev H.
  - destruct args; [|simpl in L; lia]. simpl in H. injection H as <-. exists [], []. split; [constructor|]. split; [auto|]. split; [destruct first; simpl; auto|constructor].
  - destruct args as [|a [|b rest]]; [..|].
    + simpl in H. injection H as <-. exists [], []. split; [constructor|]. split; [auto|]. split; [destruct first; simpl; auto|constructor].
    + discriminate.
    + cbn [pipe_loop] in H. destruct a as [z v|v|]; try discriminate.
      destruct (PackWithMarshaller E _ _) as [buf| |] eqn:P; try discriminate. cbn [rwrap rbind] in H.
      destruct (pipe_loop E n false rest) as [more| |] eqn:R; try discriminate. cbn [rbind] in H. injection H as <-.
      apply pack_json_block in P as (P & LB).
      destruct (IH rest) with (first := false) (out := more) as (ps & blocks & Hp & -> & Hf & Hl); auto. { simpl in L. lia. }
      exists ((z, arg_body b) :: ps), (buf :: blocks). split; [|split; [reflexivity|split]].
      * constructor; auto; [exists v; auto|apply arg_val_body; reflexivity].
      * destruct first; [split; auto|constructor; auto].
      * constructor; auto.
Qed.

Lemma odd_mod n : negb (Z.of_nat n mod 2 =? 0) = negb (Nat.even n).
Proof.
  f_equal. destruct (Nat.even n) eqn:Ev.
  - apply Nat.even_spec in Ev as (m & ->). apply Z.eqb_eq. rewrite Nat2Z.inj_mul, Z.mul_comm. apply Z.mod_mul. lia.
  - apply Z.eqb_neq. intros H. rewrite <- Nat.negb_odd in Ev. apply negb_false_iff in Ev. apply Nat.odd_spec in Ev as (m & ->).
    rewrite Nat2Z.inj_add, Nat2Z.inj_mul, Z.mul_comm, Z.add_comm in H. change (Z.of_nat 2) with 2 in H. rewrite Z.mod_add in H by lia. discriminate.
Qed.

Lemma pairing_length {V A} (f : Z -> A -> Prop) (g : option V -> A -> Prop) ps l : pairing f g ps l -> List.length l = (2 * List.length ps)%nat.
Proof. induction 1; simpl in *; lia. Qed.

Lemma p_C17_pipejson_all_or_nothing_partial : forall {V} (E : env V) args werr r ws, PipeJSON E args werr = (r, ws) ->
  (ws = [] /\ (args = [] /\ r = Ok tt \/ args <> [] /\ (r = Panic \/ exists e, r = Err e))) \/
  (exists ps blocks, pairing arg_id arg_val ps args /\ ps <> [] /\
     batch E (Z.of_nat (List.length ps)) ps blocks /\ ws = [concat blocks] /\
     r = match werr with None => Ok tt | Some e => Err (EWrap e) end).
Proof.
  intros V E args werr r ws H. unfold PipeJSON in H.
  destruct args as [|a args0]; [left; inversion H; auto|]. remember (a :: args0) as args eqn:Ha.
  rewrite odd_mod in H. destruct (Nat.even (List.length args)) eqn:Ev; cbn [negb] in H.
  2:{ left. inversion H; subst. split; auto. right. split; [discriminate|]. right; eauto. }
  destruct (pipe_loop E _ true args) as [out|e|] eqn:L; cbn [negb] in H.
  2:{ left. inversion H; subst. split; auto. right. split; [discriminate|]. right; eauto. }
  2:{ left. inversion H; subst. split; auto. right. split; [discriminate|]. auto. }
  destruct (pipe_loop_sound E _ (List.length args) args (le_n _) true out Ev L) as (ps & blocks & Hp & -> & Hb & Hl).
  assert (N : ps <> []). { intros ->. inversion Hp. congruence. }
  right. exists ps, blocks. split; auto. split; auto.
  apply pairing_length in Hp. rewrite Hp, Nat2Z.inj_mul in Hb. change (Z.of_nat 2) with 2 in Hb. rewrite Z.mul_comm, Z.div_mul in Hb by lia.
  split; auto.
  destruct ps as [|p ps]; [congruence|]. destruct blocks as [|b blocks]; [destruct Hb|].
  replace (blen (concat (b :: blocks)) =? 0) with false in H.
  - inversion H. auto.
  - symmetry. apply Z.eqb_neq. simpl. rewrite blen_app. inversion Hl; subst. pose proof (blen_nonneg (concat blocks)). lia.
Qed.

Lemma p_C17_pipejson_writes : forall {V} (E : env V) ps args werr, pairing arg_id arg_val ps args -> ps <> [] ->
  (exists hb, hmarshal (e_hdr E) (Some [("[tcpx-buffer-in-serial]"%string, JStr (String.append "enable;" (itoa (Z.of_nat (List.length ps)))))]) = Ok hb) ->
  (exists hb, hmarshal (e_hdr E) None = Ok hb) ->
  (forall z v, In (z, Some v) ps -> exists bb, e_json E v = Ok bb) ->
  exists blocks, batch E (Z.of_nat (List.length ps)) ps blocks /\
    PipeJSON E args werr = (match werr with None => Ok tt | Some e => Err (EWrap e) end, [concat blocks]).
Proof.
  intros V E ps args werr Hp N (h1 & H1) (h0 & H0) Hv.
  assert (L : forall first ps0 l, (forall p, In p ps0 -> In p ps) -> pairing arg_id arg_val ps0 l -> exists out, pipe_loop E (Z.of_nat (List.length ps)) first l = Ok out).
  { intros first ps0 l Hi HH. revert first Hi. induction HH as [|z v a b ps0 l Ha Hb HH IH]; intros first Hi; cbn [pipe_loop]; [eauto|]. cbv zeta.
    destruct Ha as (x & ->). apply arg_val_body in Hb. rewrite <- Hb.
    destruct (IH false) as (out & R). { intros p I. apply Hi. right; auto. }
    unfold PackWithMarshaller. cbv zeta. cbn [msg_header msg_body msg_id or_json m_marshal JsonMarshaller].
    match goal with |- context [hmarshal (e_hdr E) ?t] => assert (exists hb, hmarshal (e_hdr E) t = Ok hb) as (hb & ->) end.
    { destruct first; eauto. }
    cbn [rbind]. assert (exists bb, match v with None => Ok [] | Some x => e_json E x end = Ok bb) as (bb & Eb).
    { destruct v as [v|]; eauto. apply (Hv z). apply Hi. left; auto. }
    cbn [m_marshal]. rewrite Eb. cbn [rbind rwrap]. rewrite R. cbn [rbind]. eauto. }
  destruct (L true ps args) as (out & Ho); auto.
  destruct (PipeJSON E args werr) as (r, ws) eqn:P.
  destruct (p_C17_pipejson_all_or_nothing_partial E args werr r ws P) as [(-> & K)|(ps' & blocks & Hp' & N' & Hb & -> & ->)].
  - exfalso. pose proof (pairing_length _ _ _ _ Hp) as Len. unfold PipeJSON in P. destruct args as [|a args0]. { inversion Hp. congruence. }
    rewrite odd_mod, Len in P. replace (Nat.even (2 * List.length ps)) with true in P.
    2:{ symmetry. apply Nat.even_spec. eexists; reflexivity. }
    cbn [negb] in P. rewrite Nat2Z.inj_mul in P. change (Z.of_nat 2) with 2 in P. rewrite Z.mul_comm, Z.div_mul in P by lia.
    rewrite Ho in P. destruct (pipe_loop_sound E (Z.of_nat (List.length ps)) _ (a :: args0) (le_n _) true out) as (q & bl & Hq & -> & Hb & Hl); [|exact Ho|].
    { rewrite Len. apply Nat.even_spec. eexists; reflexivity. }
    destruct q as [|q0 q]; [inversion Hq|]. destruct bl as [|b bl]; [destruct Hb|].
    replace (blen (concat (b :: bl)) =? 0) with false in P; [discriminate|].
    symmetry. apply Z.eqb_neq. simpl. rewrite blen_app. inversion Hl; subst. pose proof (blen_nonneg (concat bl)). lia.
  - exists blocks. assert (ps' = ps) as ->; [|auto].
    clear -Hp Hp'. revert ps' Hp'. induction Hp as [|z v a b ps l (x & ->) Hb HH IH]; intros ps' Hp'; inversion Hp' as [|z' v' a' b' q l' (y & Ey) Hv' Hq]; subst; auto.
    injection Ey as -> _. rewrite (IH q) by auto. f_equal. rewrite arg_val_body in *. congruence.
Qed.

Lemma p_C17_pipejson_nil_id_refuted : forall {V} (E : env V) b werr, PipeJSON E [GNil; b] werr = (Panic, []).
Proof. reflexivity. Qed.

Lemma write_loop_contract wrap buf : forall ws sum, Forall (fun w => writer_contract buf (w_n w) (w_err w)) ws ->
  match write_loop wrap buf sum ws with
  | (WDone (Ok _), sent) => sent = buf
  | (WDone (Err _), sent) => prefix_of sent buf
  | (WDone Panic, _) => False
  | (WBlocked, sent) => sent = []
  end.
Proof.
  intros [|[n e] ws] sum F; simpl; auto. inversion F as [|? ? (L & C) F']; subst. cbn [w_n w_err] in *.
  destruct e as [e|]. { exists (skipn n buf). symmetry. apply firstn_skipn. }
  assert (n = List.length buf) as ->. { destruct (Nat.eq_dec n (List.length buf)); auto. exfalso. apply C; auto. lia. }
  replace (Nat.leb (List.length buf) (sum + List.length buf)) with true by (symmetry; apply Nat.leb_le; lia).
  apply firstn_all.
Qed.

Lemma p_C19_writeconn_once_partial : forall buf ws, Forall (fun w => writer_contract buf (w_n w) (w_err w)) ws ->
  (match WriteConn buf ws with
   | (WDone (Ok _), sent) => sent = buf
   | (WDone (Err _), sent) => prefix_of sent buf
   | (WDone Panic, _) => False
   | (WBlocked, sent) => sent = [] end) /\
  (match write_ buf ws with
   | (WDone (Ok _), sent) => sent = buf
   | (WDone (Err _), sent) => prefix_of sent buf
   | (WDone Panic, _) => False
   | (WBlocked, sent) => sent = [] end).
Proof.
  intros buf ws F. split. exact (write_loop_contract _ _ _ _ F).
  unfold write_. destruct buf as [|x buf]; [reflexivity|]. exact (write_loop_contract _ _ _ _ F).
Qed.

Lemma p_C19_writeconn_short_write_refuted : exists buf ws sent,
  WriteConn buf ws = (WDone (Ok tt), sent) /\ sent <> buf /\ write_ buf ws = (WDone (Ok tt), sent).
Proof. exists (str_bytes "abc"), [W 1 None; W 2 None], (str_bytes "aab"). repeat split. discriminate. Qed.

Lemma p_C19_writeconn_exact : forall buf ws r sent, WriteConn buf ws = (WDone (Ok r), sent) ->
  exists ns rest, ws = map (fun n => W n None) ns ++ rest /\ sent = concat (map (fun n => firstn n buf) ns) /\
    (List.length buf <= fold_right Nat.add O ns)%nat.
Proof.
  assert (G : forall wrap buf ws sum r sent, write_loop wrap buf sum ws = (WDone (Ok r), sent) ->
    exists ns rest, ws = map (fun n => W n None) ns ++ rest /\ sent = concat (map (fun n => firstn n buf) ns) /\ (List.length buf <= sum + fold_right Nat.add O ns)%nat).
  { intros wrap buf ws. induction ws as [|[n e] ws IH]; intros sum r sent H; simpl in H; [discriminate|].
    destruct e; [discriminate|]. destruct (Nat.leb (List.length buf) (sum + n)) eqn:L.
    - inversion H; subst. exists [n], ws. split; [reflexivity|]. simpl. rewrite app_nil_r. split; auto. apply Nat.leb_le in L. lia.
    - destruct (write_loop wrap buf (sum + n) ws) as (o, tl) eqn:W. inversion H; subst.
      destruct (IH _ _ _ W) as (ns & rest & -> & -> & Hs). exists (n :: ns), rest. split; [reflexivity|]. split; [reflexivity|]. simpl. lia. }
  intros buf ws r sent H. destruct (G _ _ _ _ _ _ H) as (ns & rest & A & B & C). exists ns, rest. auto.
Qed.

Lemma p_C19_write_exact : forall buf ws r sent, write_ buf ws = (WDone (Ok r), sent) ->
  buf = [] /\ sent = [] \/ buf <> [] /\
  exists ns rest, ws = map (fun n => W n None) ns ++ rest /\ sent = concat (map (fun n => firstn n buf) ns) /\
    (List.length buf <= fold_right Nat.add O ns)%nat /\
    forall ns' n, ns = ns' ++ [n] -> (fold_right Nat.add O ns' < List.length buf)%nat.
Proof.
  assert (G : forall wrap buf ws sum r sent, write_loop wrap buf sum ws = (WDone (Ok r), sent) -> (sum < List.length buf)%nat ->
    exists ns rest, ws = map (fun n => W n None) ns ++ rest /\ sent = concat (map (fun n => firstn n buf) ns) /\ (List.length buf <= sum + fold_right Nat.add O ns)%nat /\
    forall ns' n, ns = ns' ++ [n] -> (sum + fold_right Nat.add O ns' < List.length buf)%nat).
  { intros wrap buf ws. induction ws as [|[n e] ws IH]; intros sum r sent H Hs; simpl in H; [discriminate|].
    destruct e; [discriminate|]. destruct (Nat.leb (List.length buf) (sum + n)) eqn:L.
    - inversion H; subst. exists [n], ws. split; [reflexivity|]. simpl. rewrite app_nil_r. split; auto. apply Nat.leb_le in L. split; [lia|].
      intros ns' n' Q. destruct ns' as [|x ns']; [cbn; lia|]. inversion Q as [[Q1 Q2]]. destruct ns'; discriminate Q2.
    - destruct (write_loop wrap buf (sum + n) ws) as (o, tl) eqn:W. inversion H; subst. apply Nat.leb_gt in L.
      destruct (IH _ _ _ W L) as (ns & rest & -> & -> & Hs' & Hl). exists (n :: ns), rest. split; [reflexivity|]. split; [reflexivity|]. simpl. split; [lia|].
      intros ns' n' Q. destruct ns' as [|x ns']; [cbn; lia|]. inversion Q as [[Q1 Q2]]. specialize (Hl ns' n' Q2). cbn. lia. }
  intros buf ws r sent H. unfold write_ in H. destruct buf as [|x buf]; [left; inversion H; auto|right]. split; [discriminate|].
  exact (G _ _ _ O _ _ H ltac:(cbn; lia)).
Qed.

Lemma p_C19_error_reported : forall buf ws e sent, WriteConn buf ws = (WDone (Err e), sent) ->
  exists ns n x rest, ws = map (fun n => W n None) ns ++ W n (Some x) :: rest /\ sent = concat (map (fun n => firstn n buf) (ns ++ [n])) /\
    (x = EEOF /\ e = EEOF \/ x <> EEOF /\ e = EWrap x).
Proof.
  assert (G : forall buf ws sum e sent, write_loop eof_or_wrap buf sum ws = (WDone (Err e), sent) ->
    exists ns n x rest, ws = map (fun n => W n None) ns ++ W n (Some x) :: rest /\ sent = concat (map (fun n => firstn n buf) (ns ++ [n])) /\ e = eof_or_wrap x).
  { intros buf ws. induction ws as [|[n [x|]] ws IH]; intros sum e sent H; simpl in H; [discriminate|..].
    - inversion H; subst. exists [], n, x, ws. simpl. rewrite app_nil_r. auto.
    - destruct (Nat.leb (List.length buf) (sum + n)); [discriminate|]. destruct (write_loop eof_or_wrap buf (sum + n) ws) as (o, tl) eqn:W. inversion H; subst.
      destruct (IH _ _ _ W) as (ns & m & x & rest & -> & -> & ->). exists (n :: ns), m, x, rest. auto. }
  intros buf ws e sent H. destruct (G _ _ _ _ _ H) as (ns & n & x & rest & A & B & ->). exists ns, n, x, rest. repeat split; auto. destruct x; simpl; auto; right; split; auto; discriminate.
Qed.

Lemma py4_be z b : py_to_bytes4 z = Some b -> List.length b = 4%nat /\ be_val b = z.
Proof.
  unfold py_to_bytes4. destruct ((0 <=? z) && (z <? 2 ^ 32)) eqn:C; [|discriminate]. intros H. injection H as <-. split; auto.
  assert (0 <= z < 2 ^ 32) by lia.
  pose proof (be_val_put z) as P. rewrite Z.mod_small in P by (unfold two32; lia). rewrite <- P at 5. unfold put_uint32.
  rewrite !Z.shiftr_div_pow2 by lia. reflexivity.
Qed.

Lemma py4_put z : 0 <= z < 2 ^ 32 -> py_to_bytes4 z = Some (put_uint32 z).
Proof.
  intros H. unfold py_to_bytes4. replace ((0 <=? z) && (z <? 2 ^ 32)) with true by lia. unfold put_uint32.
  rewrite !Z.shiftr_div_pow2 by lia. reflexivity.
Qed.

Lemma p_C66_python_pack_partial : forall id header body, 0 <= id < 2 ^ 31 -> 12 + blen header + blen body < 2 ^ 32 ->
  py_pack id header body = Some (assemble id header body).
Proof.
  intros id h b Hi Hl. unfold py_pack. pose proof (blen_nonneg h). pose proof (blen_nonneg b).
  rewrite !py4_put by lia. rewrite !blen_app, !blen_put. rewrite py4_put by lia.
  unfold assemble. rewrite !blen_app, !blen_put. unfold to_uint32, two32. rewrite !Z.mod_small by lia. reflexivity.
Qed.

Lemma p_C66_python_unpack_partial : forall id hdr body block, frame_layout id hdr body block -> blen block < 2 ^ 32 ->
  py_unpack block = (id mod 2 ^ 32, hdr, body).
Proof.
  intros id hdr body block (l & i & h & b & Hl & Hi & Hh & Hb & -> & El & Ei & Eh & Eb) L.
  assert (S : forall (a c : bytes) n, n = List.length a -> skipn n (a ++ c) = c). { intros a c n ->. rewrite skipn_app, skipn_all, Nat.sub_diag. reflexivity. }
  assert (F : forall (a c : bytes) n, n = List.length a -> firstn n (a ++ c) = a). { intros a c n ->. rewrite firstn_app, Nat.sub_diag, firstn_all. simpl. apply app_nil_r. }
  unfold py_unpack. rewrite (S l) by auto. unfold py_slice.
  assert (X0 : skipn 0 (firstn 4 (i ++ h ++ b ++ hdr ++ body)) = i). { rewrite (F i) by auto. reflexivity. }
  assert (X1 : skipn 4 (firstn 8 (i ++ h ++ b ++ hdr ++ body)) = h).
  { rewrite (app_assoc i). rewrite F by (rewrite app_length; lia). apply S. auto. }
  assert (X2 : skipn 8 (firstn 12 (i ++ h ++ b ++ hdr ++ body)) = b).
  { rewrite (app_assoc i), (app_assoc (i ++ h)). rewrite F by (rewrite !app_length; lia). apply S. rewrite app_length; lia. }
  rewrite X0, X1, X2. change py_from_bytes with be_val. rewrite Ei, Eh, Eb.
  unfold blen. rewrite !Nat2Z.id.
  assert (G : l ++ i ++ h ++ b ++ hdr ++ body = (l ++ i ++ h ++ b) ++ hdr ++ body). { rewrite <- !app_assoc. reflexivity. }
  assert (LG : List.length (l ++ i ++ h ++ b) = 16%nat). { rewrite !app_length. lia. }
  f_equal; [f_equal|].
  - rewrite G. rewrite (app_assoc _ hdr). rewrite F by (rewrite app_length; lia). apply S. auto.
  - rewrite G. rewrite (app_assoc _ hdr).
    rewrite firstn_all2 by (rewrite app_length, (app_length (l ++ i ++ h ++ b)), LG; lia). apply S. rewrite (app_length (l ++ i ++ h ++ b)), LG. lia.
Qed.

Lemma p_C66_python_negative_ids_refuted : forall id hdr body, - 2 ^ 31 <= id < 0 -> 12 + blen hdr + blen body < 2 ^ 32 - 4 ->
  py_pack id hdr body = None /\ (exists i, py_unpack (assemble id hdr body) = (i, hdr, body) /\ i <> id).
Proof.
  intros id hdr body H L. split.
  - unfold py_pack, py_to_bytes4. replace (0 <=? id) with false by lia. reflexivity.
  - rewrite (p_C66_python_unpack_partial id hdr body).
    + eexists. split; [reflexivity|]. intros C. pose proof (Z.mod_pos_bound id (2 ^ 32)). lia.
    + apply assemble_layout. unfold two32. lia.
    + rewrite assemble_length. lia.
Qed.

Lemma p_C67_get_set_partial : forall {V} (m : message V) k v,
  (forall h, msg_header m = Some h -> exists m', MessageSet m k v = Ok m' /\ MessageGet m' k = Some v /\
     (forall k', k' <> k -> MessageGet m' k' = MessageGet m k') /\ msg_id m' = msg_id m /\ msg_body m' = msg_body m) /\
  (msg_header m = None -> forall k', MessageGet m k' = None).
Proof.
  intros V m k v. split.
  - intros h Hh. unfold MessageSet. rewrite Hh. eexists. split; [reflexivity|].
    unfold MessageGet. cbn [msg_header msg_id msg_body]. rewrite Hh. rewrite aget_aset, keqb_refl. split; [auto|]. split; [|auto].
    intros k' N. rewrite aget_aset. destruct (keqb k' k) eqn:E; auto. apply keqb_eq in E. congruence.
  - intros Hh k'. unfold MessageGet. rewrite Hh. reflexivity.
Qed.

Lemma p_C67_set_nil_header_refuted : forall {V} (m : message V) k v, msg_header m = None -> MessageSet m k v = Panic.
Proof. intros V m k v H. unfold MessageSet. rewrite H. reflexivity. Qed.

Lemma p_C67_request_set : forall h k v, hget k (RequestSet h k v) = Some v /\ (forall k', k' <> k -> hget k' (RequestSet h k v) = hget k' h).
Proof.
  intros [m|] k v; unfold hget, RequestSet; rewrite aget_aset, keqb_refl; split; auto; intros k' N; rewrite aget_aset; (destruct (keqb k' k) eqn:E; [apply keqb_eq in E; congruence|reflexivity]).
Qed.
