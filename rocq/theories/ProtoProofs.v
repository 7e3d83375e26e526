(* C134: the protobuf messages of the repository. NODEMO *)
From Verif Require Export SpecProto.
From Verif Require Import BaseFacts.

Definition vk (k : nat) (v : Z) (bs : bytes) : Prop :=
  0 <= v < 2 * 128 ^ Z.of_nat k /\ v = base128 bs /\ (List.length bs <= S k)%nat /\
  exists l z, bs = l ++ [z] /\ Forall (fun c => 128 <= code c) l /\ code z < 128.

Lemma vk_varint v bs : vk 9 v bs <-> varint v bs.
Proof. unfold vk, varint. change (2 * 128 ^ Z.of_nat 9) with (2 ^ 64). reflexivity. Qed.

Lemma get_sound k : forall b v r, get_varint_aux k b = Some (v, r) -> exists bs, b = bs ++ r /\ vk k v bs.
Proof.
  induction k as [|k IH]; intros [|c b] v r H; cbn [get_varint_aux] in H; try discriminate; pose proof (code_range c) as R.
  - destruct (code c <? 2) eqn:L; [|discriminate]. injection H as <- <-. exists [c]. split; [reflexivity|]. apply Z.ltb_lt in L.
    split; [cbn; lia|]. split; [cbn [base128 fold_right]; rewrite Z.mod_small by lia; lia|]. split; [cbn; lia|]. exists [], c. split; [reflexivity|]. split; [constructor|lia].
  - assert (P : 0 < 128 ^ Z.of_nat k) by (apply Z.pow_pos_nonneg; lia).
    assert (Q : 128 ^ Z.of_nat (S k) = 128 * 128 ^ Z.of_nat k) by (rewrite Nat2Z.inj_succ, Z.pow_succ_r; lia).
    destruct (code c <? 128) eqn:L.
    + injection H as <- <-. exists [c]. split; [reflexivity|]. apply Z.ltb_lt in L. split; [rewrite Q; lia|]. split; [cbn [base128 fold_right]; rewrite Z.mod_small by lia; lia|].
      split; [cbn; lia|]. exists [], c. split; [reflexivity|]. split; [constructor|lia].
    + apply Z.ltb_ge in L. destruct (get_varint_aux k b) as [[x r']|] eqn:G; [|discriminate]. assert (HH : v = code c - 128 + 128 * x /\ r = r') by (split; congruence). destruct HH as [-> ->]. destruct (IH _ _ _ G) as (bs & -> & V & B & N & l & z & E & F & ZL).
      exists (c :: bs). split; [reflexivity|]. split; [rewrite Q; lia|]. split.
      * cbn [base128 fold_right]. fold (base128 bs). rewrite <- B. replace (code c mod 128) with (code c - 128) by (symmetry; rewrite <- (Z.mod_small (code c - 128) 128) by lia; rewrite <- (Z.mod_add (code c - 128) 1 128) by lia; f_equal; lia). lia.
      * split; [cbn; lia|]. exists (c :: l), z. subst bs. split; [reflexivity|]. split; [constructor; auto; lia|auto].
Qed.

Lemma get_complete k : forall v bs r, vk k v bs -> get_varint_aux k (bs ++ r) = Some (v, r).
Proof.
  induction k as [|k IH]; intros v bs r (V & B & N & l & z & E & F & ZL); pose proof (code_range z) as RZ.
  - destruct l as [|c l]; [|subst bs; rewrite app_length in N; cbn in N; lia]. subst bs. cbn [app get_varint_aux]. cbn [base128 fold_right app] in B. rewrite Z.mod_small in B by lia.
    cbn in V. rewrite (proj2 (Z.ltb_lt (code z) 2)) by lia. do 2 f_equal. lia.
  - assert (P : 0 < 128 ^ Z.of_nat k) by (apply Z.pow_pos_nonneg; lia).
    assert (Q : 128 ^ Z.of_nat (S k) = 128 * 128 ^ Z.of_nat k) by (rewrite Nat2Z.inj_succ, Z.pow_succ_r; lia).
    rewrite Q in V. destruct l as [|c l].
    + subst bs. cbn [app get_varint_aux]. cbn [base128 fold_right app] in B. rewrite Z.mod_small in B by lia. rewrite (proj2 (Z.ltb_lt (code z) 128)) by lia. do 2 f_equal. lia.
    + apply Forall_cons_iff in F. destruct F as [C F]. pose proof (code_range c) as RC. subst bs. cbn [app get_varint_aux]. rewrite (proj2 (Z.ltb_ge (code c) 128)) by lia.
      cbn [app base128 fold_right] in B. fold (base128 (l ++ [z])) in B.
      assert (M : code c mod 128 = code c - 128) by (rewrite <- (Z.mod_small (code c - 128) 128) by lia; rewrite <- (Z.mod_add (code c - 128) 1 128) by lia; f_equal; lia).
      rewrite M in B. rewrite (IH (base128 (l ++ [z]))).
      * do 2 f_equal. lia.
      * split; [lia|]. split; [reflexivity|]. split; [rewrite app_length in *; cbn in *; lia|]. exists l, z. auto.
Qed.

Lemma get_varint_iff b v r : get_varint b = Some (v, r) <-> exists bs, b = bs ++ r /\ varint v bs.
Proof.
  unfold get_varint. split.
  - intros H. destruct (get_sound _ _ _ _ H) as (bs & E & K). exists bs. split; [exact E|]. apply vk_varint, K.
  - intros (bs & -> & K). apply get_complete, vk_varint, K.
Qed.

Lemma varint_some v bs : varint v bs -> (1 <= List.length bs)%nat.
Proof. intros (_ & _ & _ & l & z & -> & _). rewrite app_length. cbn. lia. Qed.

Lemma base128_bound bs : 0 <= base128 bs < 128 ^ Z.of_nat (List.length bs).
Proof.
  induction bs as [|c bs IH]; [cbn; lia|]. cbn [base128 fold_right List.length]. fold (base128 bs). rewrite Nat2Z.inj_succ, Z.pow_succ_r by lia.
  pose proof (Z.mod_pos_bound (code c) 128 ltac:(lia)). lia.
Qed.

Lemma put_get k : forall v, 0 <= v < 2 * 128 ^ Z.of_nat k -> vk k v (put_varint_aux k v) /\
  (v = 0 -> List.length (put_varint_aux k v) = 1%nat) /\ (v <> 0 -> 128 ^ (Z.of_nat (List.length (put_varint_aux k v)) - 1) <= v).
Proof.
  assert (ONE : forall k v, 0 <= v < 128 -> v < 2 * 128 ^ Z.of_nat k -> vk k v [byte_of v]).
  { intros k0 v R H. split; [lia|]. cbn [base128 fold_right]. rewrite code_byte_of. rewrite !(Z.mod_small v) by lia. split; [lia|]. split; [cbn; lia|]. exists [], (byte_of v). split; [reflexivity|]. split; [constructor|rewrite code_byte_of, Z.mod_small by lia; lia]. }
  induction k as [|k IH]; intros v R; cbn [put_varint_aux].
  - change (128 ^ Z.of_nat 0) with 1 in R. split; [apply ONE; cbn; lia|]. split; [reflexivity|]. intros. cbn. lia.
  - assert (P : 0 < 128 ^ Z.of_nat k) by (apply Z.pow_pos_nonneg; lia).
    assert (Q : 128 ^ Z.of_nat (S k) = 128 * 128 ^ Z.of_nat k) by (rewrite Nat2Z.inj_succ, Z.pow_succ_r; lia).
    rewrite Q in R. destruct (v <? 128) eqn:L.
    + apply Z.ltb_lt in L. split; [apply ONE; [|rewrite Q]; lia|]. split; [reflexivity|]. intros. cbn. lia.
    + apply Z.ltb_ge in L. assert (D : 1 <= v / 128) by (apply Z.div_le_lower_bound; lia). assert (D2 : v / 128 < 2 * 128 ^ Z.of_nat k) by (apply Z.div_lt_upper_bound; lia).
      destruct (IH (v / 128) ltac:(lia)) as ((V & B & N & l & z & E & F & ZL) & _ & M). pose proof (Z.mod_pos_bound v 128 ltac:(lia)) as MB. pose proof (Z.div_mod v 128 ltac:(lia)) as DM. split; [|split; [lia|]].
      * split; [rewrite Q; lia|]. split.
        -- cbn [base128 fold_right]. fold (base128 (put_varint_aux k (v / 128))). rewrite <- B, code_byte_of. rewrite (Z.mod_small (v mod 128 + 128) 256) by lia.
           replace (v mod 128 + 128) with (v mod 128 + 1 * 128) by lia. rewrite Z.mod_add, Z.mod_mod by lia. lia.
        -- split; [cbn [List.length]; lia|]. exists (byte_of (v mod 128 + 128) :: l), z. rewrite E. split; [reflexivity|]. split; [|exact ZL]. constructor; [|exact F]. rewrite code_byte_of, Z.mod_small by lia. lia.
      * intros _. specialize (M ltac:(lia)). cbn [List.length]. set (n := List.length (put_varint_aux k (v / 128))) in *.
        assert (n1 : (1 <= n)%nat) by (subst n; rewrite E, app_length; cbn; lia).
        replace (Z.of_nat (S n) - 1) with (Z.succ (Z.of_nat n - 1)) by lia. rewrite Z.pow_succ_r by lia. nia.
Qed.

Lemma put_shortest v : 0 <= v < 2 ^ 64 -> shortest v (put_varint v).
Proof. intros R. destruct (put_get 9 v R) as (A & B & C). split; [apply vk_varint, A|auto]. Qed.

Lemma varint_inj a : forall b l z l' z', a = l ++ [z] -> b = l' ++ [z'] -> Forall (fun c => 128 <= code c) l -> Forall (fun c => 128 <= code c) l' ->
  code z < 128 -> code z' < 128 -> List.length a = List.length b -> base128 a = base128 b -> a = b.
Proof.
  induction a as [|c a IH]; intros [|c' b] l z l' z' Ea Eb F F' Hz Hz' N B; try discriminate; [reflexivity|].
  assert (M : forall x, 128 <= code x -> code x mod 128 = code x - 128) by (intros x Hx; pose proof (code_range x); rewrite <- (Z.mod_small (code x - 128) 128) by lia; rewrite <- (Z.mod_add (code x - 128) 1 128) by lia; f_equal; lia).
  cbn [base128 fold_right] in B. fold (base128 a) (base128 b) in B. pose proof (code_range c) as R. pose proof (code_range c') as R'.
  pose proof (Z.mod_pos_bound (code c) 128 ltac:(lia)). pose proof (Z.mod_pos_bound (code c') 128 ltac:(lia)).
  assert (X : code c mod 128 = code c' mod 128 /\ base128 a = base128 b) by (split; nia). destruct X as [X Y].
  destruct l as [|x l]; destruct l' as [|x' l']; cbn [app] in Ea, Eb; injection Ea as -> ->; injection Eb as -> ->.
  - rewrite !Z.mod_small in X by lia. f_equal. apply code_inj. lia.
  - exfalso. cbn in N. rewrite app_length in N. cbn in N. lia.
  - exfalso. cbn in N. rewrite app_length in N. cbn in N. lia.
  - apply Forall_cons_iff in F. apply Forall_cons_iff in F'. destruct F as [F0 F], F' as [F0' F']. rewrite !M in X by lia. f_equal; [apply code_inj; lia|]. eapply IH; eauto.
Qed.

Lemma shortest_unique v a b : shortest v a -> shortest v b -> a = b.
Proof.
  intros (Va & A0 & A1) (Vb & B0 & B1). pose proof (varint_some _ _ Va) as Na. pose proof (varint_some _ _ Vb) as Nb. destruct Va as (R & Ba & _ & l & z & Ea & Fa & Za), Vb as (_ & Bb & _ & l' & z' & Eb & Fb & Zb).
  assert (N : List.length a = List.length b).
  { destruct (Z.eq_dec v 0) as [->|NZ]; [rewrite A0, B0 by reflexivity; reflexivity|]. specialize (A1 NZ). specialize (B1 NZ).
    pose proof (base128_bound a) as Xa. pose proof (base128_bound b) as Xb. rewrite <- Ba in Xa. rewrite <- Bb in Xb.
    assert (forall m n : nat, (1 <= n)%nat -> 128 ^ (Z.of_nat n - 1) <= v -> v < 128 ^ Z.of_nat m -> (n <= m)%nat).
    { intros m n Hn L U. apply Nat2Z.inj_le. assert (Y : 128 ^ (Z.of_nat n - 1) < 128 ^ Z.of_nat m) by lia. apply Z.pow_lt_mono_r_iff in Y; lia. }
    apply Nat.le_antisymm; [apply (H (List.length b) (List.length a))|apply (H (List.length a) (List.length b))]; lia. }
  eapply varint_inj; eauto. congruence.
Qed.

Lemma firstn_exact {A} (p r : list A) : firstn (List.length p) (p ++ r) = p.
Proof. rewrite firstn_app, Nat.sub_diag, firstn_all. cbn. apply app_nil_r. Qed.

Lemma skipn_exact {A} (p r : list A) : skipn (List.length p) (p ++ r) = r.
Proof. rewrite skipn_app, Nat.sub_diag, skipn_all. reflexivity. Qed.

Lemma get_bytes_iff b p r : get_bytes b = Some (p, r) <-> exists l, b = l ++ p ++ r /\ varint (blen p) l.
Proof.
  unfold get_bytes. split.
  - destruct (get_varint b) as [[n x]|] eqn:G; [|discriminate]. destruct (n <=? blen x) eqn:L; [|discriminate]. intros H. injection H as <- <-.
    apply get_varint_iff in G. destruct G as (l & -> & V). exists l. rewrite firstn_skipn. split; [reflexivity|]. apply Z.leb_le in L. unfold blen in *. rewrite firstn_length, Nat.min_l by (destruct V as (V & _); lia). rewrite Z2Nat.id by (destruct V as (V & _); lia). exact V.
  - intros (l & -> & V). rewrite (proj2 (get_varint_iff (l ++ p ++ r) (blen p) (p ++ r))) by (exists l; auto).
    unfold blen. rewrite app_length, (proj2 (Z.leb_le _ _)) by lia. rewrite Nat2Z.id, firstn_exact, skipn_exact. reflexivity.
Qed.

Lemma drop_iff n b r : drop n b = Some r <-> exists v, b = v ++ r /\ List.length v = n.
Proof.
  unfold drop. split.
  - destruct (n <=? List.length b)%nat eqn:L; [|discriminate]. intros H. injection H as <-. exists (firstn n b). rewrite firstn_skipn. split; [reflexivity|]. apply Nat.leb_le in L. rewrite firstn_length. lia.
  - intros (v & -> & <-). rewrite app_length, (proj2 (Nat.leb_le _ _)) by lia. rewrite skipn_exact. reflexivity.
Qed.

Lemma skip_scalar_sound n t b r : skip_scalar t b = Some r -> exists v, b = v ++ r /\ value n t v.
Proof.
  unfold skip_scalar. destruct (t =? 0) eqn:T0; [apply Z.eqb_eq in T0; subst t|destruct (t =? 1) eqn:T1; [apply Z.eqb_eq in T1; subst t|destruct (t =? 2) eqn:T2; [apply Z.eqb_eq in T2; subst t|destruct (t =? 5) eqn:T5; [apply Z.eqb_eq in T5; subst t|discriminate]]]].
  - destruct (get_varint b) as [[x r']|] eqn:G; [|discriminate]. intros H. injection H as <-. apply get_varint_iff in G. destruct G as (bs & -> & V). exists bs. split; [reflexivity|]. econstructor; eauto.
  - intros H. apply drop_iff in H. destruct H as (v & -> & L). exists v. split; [reflexivity|]. constructor; auto.
  - destruct (get_bytes b) as [[p r']|] eqn:G; [|discriminate]. intros H. injection H as <-. apply get_bytes_iff in G. destruct G as (l & -> & V). exists (l ++ p). rewrite app_assoc. split; [reflexivity|]. constructor; auto.
  - intros H. apply drop_iff in H. destruct H as (v & -> & L). exists v. split; [reflexivity|]. constructor; auto.
Qed.

Lemma skip_scalar_complete n t v r : value n t v -> t <> 3 -> skip_scalar t (v ++ r) = Some r.
Proof.
  intros H T. unfold skip_scalar. inversion H; subst; cbn [Z.eqb Pos.eqb]; try congruence.
  - rewrite (proj2 (get_varint_iff _ x r)); [reflexivity|]. eauto.
  - apply drop_iff. eauto.
  - rewrite (proj2 (get_bytes_iff _ p r)); [reflexivity|]. exists l. rewrite app_assoc. auto.
  - apply drop_iff. eauto.
Qed.

Fixpoint closes (open : list Z) (w : bytes) : Prop :=
  match open with [] => w = [] | n :: o => exists g e w', w = g ++ e ++ w' /\ items g /\ varint (8 * n + 4) e /\ closes o w' end.

Lemma tag_split tag : tag = 8 * (tag / 8) + tag mod 8.
Proof. apply Z.div_mod. lia. Qed.

Lemma skip_groups_sound f : forall o b r, skip_groups f o b = Some r -> exists w, b = w ++ r /\ closes o w.
Proof.
  induction f as [|f IH]; intros [|num o] b r H; cbn [skip_groups] in H; try (injection H as <-; exists []; split; reflexivity); try discriminate.
  destruct (get_varint b) as [[tag x]|] eqn:G; [|discriminate]. apply get_varint_iff in G. destruct G as (tg & -> & V).
  destruct ((tag / 8 <? 1) || (two31 - 1 <? tag / 8)) eqn:R; [discriminate|]. apply orb_false_iff in R. destruct R as [R1 R2]. apply Z.ltb_ge in R1, R2.
  pose proof (Z.mod_pos_bound tag 8 ltac:(lia)) as MB. pose proof (tag_split tag) as TS. change (two31 - 1) with (2 ^ 31 - 1) in R2.
  destruct (tag mod 8 =? 4) eqn:T4.
  { apply Z.eqb_eq in T4. destruct (tag / 8 =? num) eqn:N; [|discriminate]. apply Z.eqb_eq in N. destruct (IH _ _ _ H) as (w & -> & C). exists (tg ++ w). rewrite app_assoc. split; [reflexivity|].
    exists [], tg, w. split; [reflexivity|]. split; [constructor|]. split; [|exact C]. replace (8 * num + 4) with tag by lia. exact V. }
  apply Z.eqb_neq in T4. destruct (tag mod 8 =? 3) eqn:T3.
  { apply Z.eqb_eq in T3. destruct (IH _ _ _ H) as (w & -> & g2 & e2 & w2 & -> & I2 & E2 & g & e & w' & -> & I & E & C).
    exists (tg ++ (g2 ++ e2 ++ g ++ e ++ w')). rewrite app_assoc. split; [reflexivity|]. exists (tg ++ (g2 ++ e2) ++ g), e, w'. split; [rewrite <- !app_assoc; reflexivity|]. split; [|auto].
    apply (i_cons (tag / 8) 3); auto; try lia; [replace (8 * (tag / 8) + 3) with tag by lia; exact V|constructor; auto]. }
  destruct (skip_scalar (tag mod 8) x) as [r'|] eqn:K; [|discriminate]. destruct (skip_scalar_sound (tag / 8) _ _ _ K) as (v & -> & Hv). destruct (IH _ _ _ H) as (w & -> & g & e & w' & -> & I & E & C).
  exists (tg ++ v ++ g ++ e ++ w'). rewrite <- !app_assoc. split; [reflexivity|]. exists (tg ++ v ++ g), e, w'. split; [rewrite <- !app_assoc; reflexivity|]. split; [|auto].
  apply (i_cons (tag / 8) (tag mod 8)); auto; try lia. rewrite <- TS. exact V.
Qed.

Scheme value_ind2 := Minimality for value Sort Prop with items_ind2 := Minimality for items Sort Prop.
Combined Scheme value_items_ind from value_ind2, items_ind2.

Lemma skip_items : (forall n t v, value n t v -> t = 3 -> forall f o w' r, (forall f', (List.length w' <= f')%nat -> skip_groups f' o (w' ++ r) = Some r) -> (List.length (v ++ w') <= f)%nat -> 1 <= n < 2 ^ 31 -> skip_groups f (n :: o) (v ++ w' ++ r) = Some r) /\
  (forall g, items g -> forall num f o w' r, (forall f', (List.length w' <= f')%nat -> skip_groups f' (num :: o) (w' ++ r) = Some r) -> (List.length (g ++ w') <= f)%nat -> skip_groups f (num :: o) (g ++ w' ++ r) = Some r).
Proof.
  apply (value_items_ind (fun n t v => t = 3 -> forall f o w' r, (forall f', (List.length w' <= f')%nat -> skip_groups f' o (w' ++ r) = Some r) -> (List.length (v ++ w') <= f)%nat -> 1 <= n < 2 ^ 31 -> skip_groups f (n :: o) (v ++ w' ++ r) = Some r)
    (fun g => forall num f o w' r, (forall f', (List.length w' <= f')%nat -> skip_groups f' (num :: o) (w' ++ r) = Some r) -> (List.length (g ++ w') <= f)%nat -> skip_groups f (num :: o) (g ++ w' ++ r) = Some r)); try (intros; discriminate).
  - intros n g e _ IH V _ f o w' r H L Rn. rewrite <- app_assoc. replace (e ++ w' ++ r) with ((e ++ w') ++ r) by apply app_assoc_reverse. apply IH; [|rewrite <- app_assoc in L; exact L].
    intros f' L'. pose proof (varint_some _ _ V) as N1. rewrite app_length in L'. destruct f' as [|f']; [lia|]. rewrite <- app_assoc. cbn [skip_groups].
    rewrite (proj2 (get_varint_iff (e ++ w' ++ r) (8 * n + 4) (w' ++ r))) by eauto.
    assert (D : (8 * n + 4) / 8 = n) by (symmetry; apply (Z.div_unique _ 8 n 4); lia). assert (M : (8 * n + 4) mod 8 = 4) by (symmetry; apply (Z.mod_unique _ 8 n 4); lia). rewrite D, M.
    rewrite (proj2 (Z.ltb_ge n 1)) by lia. change (two31 - 1) with (2 ^ 31 - 1). rewrite (proj2 (Z.ltb_ge (2 ^ 31 - 1) n)) by lia. cbn [orb Z.eqb Pos.eqb]. rewrite Z.eqb_refl. apply H. lia.
  - intros num f o w' r H L. apply H, L.
  - intros n t tag v rest Rn Rt V Hv IHv Hr IHr num f o w' r H L. pose proof (varint_some _ _ V) as N1. rewrite !app_length in L. destruct f as [|f]; [lia|].
    rewrite <- !app_assoc. cbn [skip_groups]. rewrite (proj2 (get_varint_iff (tag ++ v ++ rest ++ w' ++ r) (8 * n + t) (v ++ rest ++ w' ++ r))) by eauto.
    assert (D : (8 * n + t) / 8 = n) by (symmetry; apply (Z.div_unique _ 8 n t); lia). assert (M : (8 * n + t) mod 8 = t) by (symmetry; apply (Z.mod_unique _ 8 n t); lia). rewrite D, M.
    rewrite (proj2 (Z.ltb_ge n 1)) by lia. change (two31 - 1) with (2 ^ 31 - 1). rewrite (proj2 (Z.ltb_ge (2 ^ 31 - 1) n)) by lia. cbn [orb].
    destruct (t =? 4) eqn:T4; [apply Z.eqb_eq in T4; subst t; inversion Hv|].
    destruct (t =? 3) eqn:T3.
    + apply Z.eqb_eq in T3. replace (rest ++ w' ++ r) with ((rest ++ w') ++ r) by apply app_assoc_reverse. apply IHv; auto; [|rewrite !app_length; lia].
      intros f' L'. rewrite <- app_assoc. apply IHr; auto.
    + apply Z.eqb_neq in T3. rewrite (skip_scalar_complete n t v (rest ++ w' ++ r) Hv T3). apply IHr; auto. rewrite app_length. lia.
Qed.

Lemma skip_value_iff n t b r : 1 <= n < 2 ^ 31 -> (skip_value n t b = Some r <-> exists v, b = v ++ r /\ value n t v).
Proof.
  intros Rn. unfold skip_value. destruct (t =? 3) eqn:T3.
  - apply Z.eqb_eq in T3. subst t. split.
    + intros H. destruct (skip_groups_sound _ _ _ _ H) as (w & -> & g & e & w' & -> & I & E & C). cbn [closes] in C. subst w'. rewrite app_nil_r. exists (g ++ e). split; [reflexivity|]. constructor; auto.
    + intros (v & -> & V). change (v ++ r) with (v ++ [] ++ r) at 2. apply (proj1 skip_items n 3 v V eq_refl (List.length (v ++ r)) [] [] r); auto.
      * intros [|f'] _; reflexivity.
      * rewrite app_nil_r, app_length. lia.
  - apply Z.eqb_neq in T3. split; [apply skip_scalar_sound|]. intros (v & -> & V). apply (skip_scalar_complete n); auto.
Qed.

Lemma code_is z : 0 <= z < 256 -> code (byte_of z) = z.
Proof. intros H. rewrite code_byte_of. apply Z.mod_small, H. Qed.

Lemma within_iff lo hi c : within lo hi c = true <-> lo <= code c <= hi.
Proof. unfold within. rewrite andb_true_iff, !Z.leb_le. reflexivity. Qed.

Lemma within_no lo hi c : ~ (lo <= code c <= hi) -> within lo hi c = false.
Proof. intros H. destruct (within lo hi c) eqn:W; [|reflexivity]. apply within_iff in W. tauto. Qed.

Lemma valid_char n r : scalar n -> valid_utf8 (utf8_of n ++ r) = valid_utf8 r.
Proof.
  intros [R NS]. unfold utf8_of.
  pose proof (Z.mod_pos_bound n 64 ltac:(lia)) as M0. pose proof (Z.mod_pos_bound (n / 64) 64 ltac:(lia)) as M1. pose proof (Z.mod_pos_bound (n / 4096) 64 ltac:(lia)) as M2.
  assert (C : forall z, 0 <= z < 64 -> cont (byte_of (128 + z)) = true) by (intros z Hz; apply within_iff; rewrite code_is; lia).
  destruct (n <? 128) eqn:L1; [|destruct (n <? 2048) eqn:L2; [|destruct (n <? 65536) eqn:L3]]; try apply Z.ltb_lt in L1; try apply Z.ltb_ge in L1; try apply Z.ltb_lt in L2; try apply Z.ltb_ge in L2; try apply Z.ltb_lt in L3; try apply Z.ltb_ge in L3; cbn [app valid_utf8].
  - rewrite (proj2 (within_iff 0 127 _)) by (rewrite code_is; lia). reflexivity.
  - assert (D : 2 <= n / 64 < 32) by (split; [apply Z.div_le_lower_bound|apply Z.div_lt_upper_bound]; lia).
    rewrite (within_no 0 127) by (rewrite code_is; lia). rewrite (proj2 (within_iff 194 223 _)) by (rewrite code_is; lia). rewrite C by lia. reflexivity.
  - assert (D : 0 <= n / 4096 < 16) by (split; [apply Z.div_le_lower_bound|apply Z.div_lt_upper_bound]; lia). assert (D' : n / 64 = 64 * (n / 4096) + n / 64 mod 64) by (replace (n / 4096) with (n / 64 / 64) by (rewrite Z.div_div by lia; reflexivity); apply Z.div_mod; lia).
    pose proof (Z.div_mod n 64 ltac:(lia)) as DM. rewrite (within_no 0 127) by (rewrite code_is; lia). rewrite (within_no 194 223) by (rewrite code_is; lia). rewrite (proj2 (within_iff 224 239 _)) by (rewrite code_is; lia). rewrite C by lia.
    rewrite (code_is (224 + n / 4096)) by lia. rewrite (proj2 (within_iff _ _ _)); [reflexivity|]. rewrite code_is by lia.
    destruct (Z.eqb_spec (224 + n / 4096) 224); destruct (Z.eqb_spec (224 + n / 4096) 237); lia.
  - assert (D : 0 <= n / 262144 < 5) by (split; [apply Z.div_le_lower_bound|apply Z.div_lt_upper_bound]; lia). assert (D' : n / 4096 = 64 * (n / 262144) + n / 4096 mod 64) by (replace (n / 262144) with (n / 4096 / 64) by (rewrite Z.div_div by lia; reflexivity); apply Z.div_mod; lia).
    assert (D4 : 16 <= n / 4096 < 272) by (split; [apply Z.div_le_lower_bound|apply Z.div_lt_upper_bound]; lia).
    rewrite (within_no 0 127) by (rewrite code_is; lia). rewrite (within_no 194 223) by (rewrite code_is; lia). rewrite (within_no 224 239) by (rewrite code_is; lia). rewrite (proj2 (within_iff 240 244 _)) by (rewrite code_is; lia). rewrite !C by lia.
    rewrite (code_is (240 + n / 262144)) by lia. rewrite (proj2 (within_iff _ _ (byte_of (128 + n / 4096 mod 64)))); [reflexivity|]. rewrite code_is by lia.
    destruct (Z.eqb_spec (240 + n / 262144) 240); destruct (Z.eqb_spec (240 + n / 262144) 244); lia.
Qed.

Lemma byte_is z c : z = code c -> byte_of z = c.
Proof. intros ->. apply byte_of_code. Qed.

Lemma utf8_cons n c r : scalar n -> c = utf8_of n -> utf8_text r -> utf8_text (c ++ r).
Proof. intros S -> (cs & F & ->). exists (n :: cs). split; [constructor; auto|reflexivity]. Qed.

Lemma valid_sound k : forall b, (List.length b <= k)%nat -> valid_utf8 b = true -> utf8_text b.
Proof.
  induction k as [|k IH]; intros b L H; [destruct b; [exists []; split; [constructor|reflexivity]|cbn in L; lia]|].
  destruct b as [|c0 r0]; [exists []; split; [constructor|reflexivity]|]. cbn [valid_utf8] in H. cbn [List.length] in L. pose proof (code_range c0) as R0.
  destruct (within 0 127 c0) eqn:W0.
  { apply within_iff in W0. apply (utf8_cons (code c0) [c0]); [split; lia| |apply IH; [lia|exact H]]. unfold utf8_of. rewrite (proj2 (Z.ltb_lt _ _)) by lia. rewrite byte_of_code. reflexivity. }
  assert (G0 : 127 < code c0) by (apply Z.nle_gt; intros X; rewrite (proj2 (within_iff 0 127 c0)) in W0 by lia; discriminate).
  destruct r0 as [|c1 r1]; [discriminate|]. cbn [List.length] in L. pose proof (code_range c1) as R1. destruct (within 194 223 c0) eqn:W1.
  { apply within_iff in W1. apply andb_true_iff in H. destruct H as [H1 H]. apply within_iff in H1. set (n := (code c0 - 192) * 64 + (code c1 - 128)).
    assert (Dn : n / 64 = code c0 - 192) by (unfold n; symmetry; apply (Z.div_unique _ 64 _ (code c1 - 128)); lia). assert (Mn : n mod 64 = code c1 - 128) by (unfold n; symmetry; apply (Z.mod_unique _ 64 (code c0 - 192)); lia).
    apply (utf8_cons n [c0; c1]); [split; unfold n; lia| |apply IH; [lia|exact H]]. unfold utf8_of. rewrite (proj2 (Z.ltb_ge n 128)), (proj2 (Z.ltb_lt n 2048)) by (unfold n; lia). rewrite Dn, Mn. repeat (apply f_equal2; [symmetry; apply byte_is; lia|]). reflexivity. }
  destruct r1 as [|c2 r2]; [discriminate|]. cbn [List.length] in L. pose proof (code_range c2) as R2. destruct (within 224 239 c0) eqn:W2.
  { apply within_iff in W2. apply andb_true_iff in H. destruct H as [H H3]. apply andb_true_iff in H. destruct H as [H1 H2]. apply within_iff in H1, H2.
    assert (B1 : 128 <= code c1 <= 191 /\ (code c0 = 224 -> 160 <= code c1) /\ (code c0 = 237 -> code c1 <= 159)).
    { destruct (Z.eqb_spec (code c0) 224); destruct (Z.eqb_spec (code c0) 237); lia. } clear H1. destruct B1 as (B1 & B2 & B3).
    set (n := (code c0 - 224) * 4096 + (code c1 - 128) * 64 + (code c2 - 128)).
    assert (Mn : n mod 64 = code c2 - 128) by (unfold n; symmetry; apply (Z.mod_unique _ 64 ((code c0 - 224) * 64 + (code c1 - 128))); lia).
    assert (Dn : n / 64 = (code c0 - 224) * 64 + (code c1 - 128)) by (unfold n; symmetry; apply (Z.div_unique _ 64 _ (code c2 - 128)); lia).
    assert (En : n / 4096 = code c0 - 224) by (unfold n; symmetry; apply (Z.div_unique _ 4096 _ ((code c1 - 128) * 64 + (code c2 - 128))); lia).
    assert (Fn : n / 64 mod 64 = code c1 - 128) by (rewrite Dn; symmetry; apply (Z.mod_unique _ 64 (code c0 - 224)); lia).
    assert (Rn : 2048 <= n < 65536) by (unfold n; lia).
    apply (utf8_cons n [c0; c1; c2]); [split; [lia|unfold n; lia]| |apply IH; [lia|exact H3]]. unfold utf8_of. rewrite (proj2 (Z.ltb_ge n 128)), (proj2 (Z.ltb_ge n 2048)), (proj2 (Z.ltb_lt n 65536)) by lia. rewrite En, Fn, Mn. repeat (apply f_equal2; [symmetry; apply byte_is; lia|]). reflexivity. }
  destruct r2 as [|c3 r3]; [discriminate|]. cbn [List.length] in L. pose proof (code_range c3) as R3.
  apply andb_true_iff in H. destruct H as [H H4]. apply andb_true_iff in H. destruct H as [H H3]. apply andb_true_iff in H. destruct H as [H H2]. apply andb_true_iff in H. destruct H as [H0 H1]. apply within_iff in H0, H1, H2, H3.
  assert (B1 : 128 <= code c1 <= 191 /\ (code c0 = 240 -> 144 <= code c1) /\ (code c0 = 244 -> code c1 <= 143)).
  { destruct (Z.eqb_spec (code c0) 240); destruct (Z.eqb_spec (code c0) 244); lia. } clear H1. destruct B1 as (B1 & B2 & B3).
  set (n := (code c0 - 240) * 262144 + (code c1 - 128) * 4096 + (code c2 - 128) * 64 + (code c3 - 128)).
  assert (Mn : n mod 64 = code c3 - 128) by (unfold n; symmetry; apply (Z.mod_unique _ 64 ((code c0 - 240) * 4096 + (code c1 - 128) * 64 + (code c2 - 128))); lia).
  assert (Dn : n / 64 = (code c0 - 240) * 4096 + (code c1 - 128) * 64 + (code c2 - 128)) by (unfold n; symmetry; apply (Z.div_unique _ 64 _ (code c3 - 128)); lia).
  assert (En : n / 4096 = (code c0 - 240) * 64 + (code c1 - 128)) by (unfold n; symmetry; apply (Z.div_unique _ 4096 _ ((code c2 - 128) * 64 + (code c3 - 128))); lia).
  assert (Gn : n / 262144 = code c0 - 240) by (unfold n; symmetry; apply (Z.div_unique _ 262144 _ ((code c1 - 128) * 4096 + (code c2 - 128) * 64 + (code c3 - 128))); lia).
  assert (Fn : n / 64 mod 64 = code c2 - 128) by (rewrite Dn; symmetry; apply (Z.mod_unique _ 64 ((code c0 - 240) * 64 + (code c1 - 128))); lia).
  assert (Hn : n / 4096 mod 64 = code c1 - 128) by (rewrite En; symmetry; apply (Z.mod_unique _ 64 (code c0 - 240)); lia).
  assert (Rn : 65536 <= n < 1114112) by (unfold n; lia).
  apply (utf8_cons n [c0; c1; c2; c3]); [split; lia| |apply IH; [lia|exact H4]]. unfold utf8_of. rewrite (proj2 (Z.ltb_ge n 128)), (proj2 (Z.ltb_ge n 2048)), (proj2 (Z.ltb_ge n 65536)) by lia. rewrite Gn, Hn, Fn, Mn. repeat (apply f_equal2; [symmetry; apply byte_is; lia|]). reflexivity.
Qed.

Lemma p_C134_utf8 : forall b, valid_utf8 b = true <-> utf8_text b.
Proof.
  intros b. split; [apply (valid_sound (List.length b)); lia|]. intros (cs & F & ->). induction F as [|n cs S F IH]; [reflexivity|]. cbn [flat_map]. rewrite valid_char by exact S. exact IH.
Qed.

Inductive reads_from : pbmsg -> bytes -> pbmsg -> Prop :=
  | f_nil m : reads_from m [] m
  | f_text m b m' tag l t : varint 10 tag -> varint (blen t) l -> utf8_text t -> reads_from (PbMsg t (pb_rest m)) b m' -> reads_from m (tag ++ l ++ t ++ b) m'
  | f_other m b m' n t tag v stag : 1 <= n < 2 ^ 29 -> 0 <= t < 8 -> ~ (n = 1 /\ t = 2) -> varint (8 * n + t) tag -> value n t v ->
      shortest (8 * n + t) stag -> reads_from (PbMsg (pb_text m) (pb_rest m ++ stag ++ v)) b m' -> reads_from m (tag ++ v ++ b) m'.

Lemma reads_glue m b m' : reads_from m b m' -> forall a, reads_as a m -> reads_as (a ++ b) m'.
Proof.
  induction 1 as [m|m b m' tag l t T L U R IH|m b m' n t tag v stag Rn Rt N T V S R IH]; intros a A.
  - rewrite app_nil_r. exact A.
  - replace (a ++ tag ++ l ++ t ++ b) with ((a ++ tag ++ l ++ t) ++ b) by (rewrite <- !app_assoc; reflexivity). apply IH. constructor; auto.
  - replace (a ++ tag ++ v ++ b) with ((a ++ tag ++ v) ++ b) by (rewrite <- !app_assoc; reflexivity). apply IH. econstructor; eauto.
Qed.

Lemma from_app m a m' : reads_from m a m' -> forall b m'', reads_from m' b m'' -> reads_from m (a ++ b) m''.
Proof.
  induction 1 as [m|m a m' tag l t T L U R IH|m a m' n t tag v stag Rn Rt N T V S R IH]; intros b m'' B; [exact B| |].
  - rewrite <- !app_assoc. apply f_text; auto.
  - rewrite <- !app_assoc. eapply f_other; eauto.
Qed.

Lemma as_from b m : reads_as b m -> reads_from (PbMsg [] []) b m.
Proof.
  induction 1 as [|b m tag l t R IH T L U|b m n t tag v stag R IH Rn Rt N T V S]; [constructor| |].
  - apply (from_app _ _ _ IH). replace (tag ++ l ++ t) with (tag ++ l ++ t ++ []) by (rewrite app_nil_r; reflexivity). apply f_text; auto. constructor.
  - apply (from_app _ _ _ IH). replace (tag ++ v) with (tag ++ v ++ []) by (rewrite app_nil_r; reflexivity). eapply f_other; eauto. constructor.
Qed.

Lemma take_sound f : forall m b m', take_fields f m b = Ok m' -> reads_from m b m'.
Proof.
  induction f as [|f IH]; intros m [|c b] m' H; cbn [take_fields] in H; try (injection H as <-; constructor); try discriminate. set (B := c :: b) in *. clearbody B.
  destruct (get_varint B) as [[tag x]|] eqn:G; [|discriminate]. apply get_varint_iff in G. destruct G as (tg & -> & V).
  destruct ((tag / 8 <? 1) || (2 ^ 29 - 1 <? tag / 8)) eqn:R; [discriminate|]. apply orb_false_iff in R. destruct R as [R1 R2]. apply Z.ltb_ge in R1, R2.
  pose proof (Z.mod_pos_bound tag 8 ltac:(lia)) as MB. pose proof (tag_split tag) as TS. destruct (tag mod 8 =? 4) eqn:T4; [discriminate|].
  destruct ((tag / 8 =? 1) && (tag mod 8 =? 2)) eqn:T2.
  - apply andb_true_iff in T2. destruct T2 as [T1 T2]. apply Z.eqb_eq in T1, T2. destruct (get_bytes x) as [[v r']|] eqn:K; [|discriminate]. destruct (valid_utf8 v) eqn:U; [|discriminate].
    apply get_bytes_iff in K. destruct K as (l & -> & L). apply f_text; auto; [replace 10 with tag by lia; exact V|apply p_C134_utf8; exact U].
  - destruct (skip_value (tag / 8) (tag mod 8) x) as [r'|] eqn:K; [|discriminate]. apply skip_value_iff in K; [|lia]. destruct K as (v & -> & Hv).
    rewrite app_length in H. replace (List.length v + List.length r' - List.length r')%nat with (List.length v) in H by lia. rewrite firstn_exact in H.
    apply (f_other m r' m' (tag / 8) (tag mod 8) tg v (put_varint tag)); auto; try lia.
    + rewrite <- TS. exact V.
    + rewrite <- TS. apply put_shortest. destruct V as (V & _). exact V.
Qed.

Lemma take_complete m b m' : reads_from m b m' -> forall f, (List.length b <= f)%nat -> take_fields f m b = Ok m'.
Proof.
  assert (NE : forall tg (z : bytes), (1 <= List.length tg)%nat -> exists c y, tg ++ z = c :: y) by (intros [|c tg] z N; [cbn in N; lia|exists c, (tg ++ z); reflexivity]).
  assert (ONE : forall f m B, (exists c y, B = c :: y) -> take_fields (S f) m B = match get_varint B with
          | None => pb_bad
          | Some (tag, r) =>
              if (tag / 8 <? 1) || (2 ^ 29 - 1 <? tag / 8) then pb_bad
              else if tag mod 8 =? 4 then pb_bad
              else if (tag / 8 =? 1) && (tag mod 8 =? 2) then
                match get_bytes r with
                | Some (v, r') => if valid_utf8 v then take_fields f (PbMsg v (pb_rest m)) r' else pb_bad
                | None => pb_bad
                end
              else match skip_value (tag / 8) (tag mod 8) r with
                | Some r' => take_fields f (PbMsg (pb_text m) (pb_rest m ++ put_varint tag ++ firstn (List.length r - List.length r') r)) r'
                | None => pb_bad
                end
          end) by (intros f m0 B (c & y & ->); reflexivity).
  induction 1 as [m|m b m' tag l t T L U R IH|m b m' n t tag v stag Rn Rt N T V S R IH]; intros f Lf; [destruct f; reflexivity| |].
  - pose proof (varint_some _ _ T) as N1. rewrite app_length in Lf. destruct f as [|f]; [lia|]. rewrite ONE by (apply NE; exact N1).
    rewrite (proj2 (get_varint_iff (tag ++ l ++ t ++ b) 10 (l ++ t ++ b))) by eauto. change (10 / 8) with 1. change (10 mod 8) with 2. change (2 ^ 29 - 1 <? 1) with false. cbn [Z.ltb Z.compare Pos.compare Pos.compare_cont orb Z.eqb Pos.eqb andb].
    rewrite (proj2 (get_bytes_iff (l ++ t ++ b) t b)) by eauto. rewrite (proj2 (p_C134_utf8 t) U). apply IH. rewrite !app_length in Lf. lia.
  - pose proof (varint_some _ _ T) as N1. rewrite app_length in Lf. destruct f as [|f]; [lia|]. rewrite ONE by (apply NE; exact N1).
    rewrite (proj2 (get_varint_iff (tag ++ v ++ b) (8 * n + t) (v ++ b))) by eauto.
    assert (D : (8 * n + t) / 8 = n) by (symmetry; apply (Z.div_unique _ 8 n t); lia). assert (M : (8 * n + t) mod 8 = t) by (symmetry; apply (Z.mod_unique _ 8 n t); lia). rewrite D, M.
    rewrite (proj2 (Z.ltb_ge n 1)), (proj2 (Z.ltb_ge (2 ^ 29 - 1) n)) by lia. cbn [orb]. destruct (t =? 4) eqn:T4; [apply Z.eqb_eq in T4; subst t; inversion V|].
    destruct ((n =? 1) && (t =? 2)) eqn:T2; [apply andb_true_iff in T2; destruct T2 as [A B]; apply Z.eqb_eq in A, B; tauto|].
    rewrite (proj2 (skip_value_iff n t (v ++ b) b ltac:(lia))) by eauto. rewrite app_length. replace (List.length v + List.length b - List.length b)%nat with (List.length v) by lia. rewrite firstn_exact.
    assert (E : put_varint (8 * n + t) = stag) by (eapply shortest_unique; [apply put_shortest; destruct T as (T & _); exact T|exact S]). rewrite E. apply IH. rewrite !app_length in Lf. lia.
Qed.

Lemma p_C134_reads : forall b m, pb_unmarshal b = Ok m <-> reads_as b m.
Proof.
  intros b m. unfold pb_unmarshal. split.
  - intros H. apply (reads_glue _ b m (take_sound _ _ _ _ H) []). constructor.
  - intros H. apply take_complete; [apply as_from, H|lia].
Qed.

Lemma p_C134_one_reading : forall b, pb_unmarshal b <> Panic /\ forall m m', reads_as b m -> reads_as b m' -> m = m'.
Proof.
  intros b. split.
  - unfold pb_unmarshal. generalize (PbMsg [] []). generalize (List.length b). intros f. revert b. induction f as [|f IH]; intros [|c b] m; cbn [take_fields]; try discriminate. set (B := c :: b). clearbody B.
    destruct (get_varint B) as [[tag x]|]; [|discriminate]. destruct ((tag / 8 <? 1) || _); [discriminate|]. destruct (tag mod 8 =? 4); [discriminate|].
    destruct ((tag / 8 =? 1) && (tag mod 8 =? 2)); [destruct (get_bytes x) as [[v r']|]; [destruct (valid_utf8 v); [apply IH|discriminate]|discriminate]|]. destruct (skip_value _ _ x); [apply IH|discriminate].
  - intros m m' A B. apply p_C134_reads in A, B. congruence.
Qed.

Lemma p_C134_writes : forall t rest, blen t < 2 ^ 64 ->
  (t = [] -> pb_marshal (PbMsg t rest) = Ok rest) /\
  (t <> [] -> utf8_text t -> exists l, shortest (blen t) l /\ pb_marshal (PbMsg t rest) = Ok ([byte_of 10] ++ l ++ t ++ rest)) /\
  (~ utf8_text t -> exists e, pb_marshal (PbMsg t rest) = Err e).
Proof.
  intros t rest L. unfold pb_marshal. cbn [pb_text pb_rest]. split; [intros ->; reflexivity|]. split.
  - intros N U. apply p_C134_utf8 in U. exists (put_varint (blen t)). split; [apply put_shortest; unfold blen in *; lia|]. destruct t; [congruence|]. rewrite U. reflexivity.
  - intros U. destruct t as [|c t]; [exfalso; apply U, p_C134_utf8; reflexivity|]. destruct (valid_utf8 (c :: t)) eqn:V; [exfalso; apply U, p_C134_utf8, V|]. eauto.
Qed.

Lemma tag10 : varint 10 [byte_of 10].
Proof. split; [lia|]. split; [reflexivity|]. split; [cbn; lia|]. exists [], (byte_of 10). split; [reflexivity|]. split; [constructor|vm_compute; reflexivity]. Qed.

(* kept fields are read back as kept *)
Lemma kept_again b m : reads_as b m -> forall t, reads_from (PbMsg t []) (pb_rest m) (PbMsg t (pb_rest m)).
Proof.
  induction 1 as [|b m tag l t R IH T L U|b m n t tag v stag R IH Rn Rt N T V S]; intros t0; cbn [pb_rest].
  - constructor.
  - apply IH.
  - apply (from_app _ _ _ (IH t0)). replace (stag ++ v) with (stag ++ v ++ []) at 1 by (rewrite app_nil_r; reflexivity). eapply f_other; eauto; [exact (proj1 S)|]. constructor.
Qed.

Lemma text_is_utf8 b m : reads_as b m -> utf8_text (pb_text m).
Proof. induction 1; cbn [pb_text]; auto. exists []. split; [constructor|reflexivity]. Qed.

Lemma p_C134_handed_on : forall b m, pb_unmarshal b = Ok m -> blen b < 2 ^ 64 -> exists w, pb_marshal m = Ok w /\ pb_unmarshal w = Ok m.
Proof.
  intros b m H L. apply p_C134_reads in H. assert (Lt : blen (pb_text m) < 2 ^ 64).
  { assert (blen (pb_text m) <= blen b); [|lia]. clear L. unfold blen. induction H; cbn [pb_text List.length] in *; rewrite ?app_length; lia. }
  pose proof (text_is_utf8 _ _ H) as U. pose proof (kept_again _ _ H (pb_text m)) as K. destruct m as [t rest]. cbn [pb_text pb_rest] in *. destruct (p_C134_writes t rest Lt) as (W0 & W1 & _). destruct t as [|c t].
  - exists rest. split; [apply W0; reflexivity|]. apply p_C134_reads. apply (reads_glue _ _ _ K []). constructor.
  - destruct (W1 ltac:(discriminate) U) as (l & S & W). eexists. split; [exact W|]. apply p_C134_reads. replace ([byte_of 10] ++ l ++ (c :: t) ++ rest) with (([] ++ [byte_of 10] ++ l ++ (c :: t)) ++ rest) by (cbn [app]; rewrite <- !app_assoc; reflexivity).
    apply (reads_glue _ _ _ K). change (PbMsg (c :: t) []) with (PbMsg (c :: t) (pb_rest (PbMsg [] []))). apply r_text; auto; [constructor|apply tag10|exact (proj1 S)].
Qed.

Lemma p_C134_roundtrip : forall t, blen t < 2 ^ 64 -> utf8_text t -> exists w, pb_marshal (PbMsg t []) = Ok w /\ pb_unmarshal w = Ok (PbMsg t []).
Proof.
  intros t L U. destruct (p_C134_writes t [] L) as (W0 & W1 & _). destruct t as [|c t]; [exists []; split; [apply W0|]; reflexivity|]. destruct (W1 ltac:(discriminate) U) as (l & S & W). eexists. split; [exact W|].
  apply p_C134_reads. rewrite app_nil_r. change ([byte_of 10] ++ l ++ c :: t) with ([] ++ [byte_of 10] ++ l ++ c :: t). change (PbMsg (c :: t) []) with (PbMsg (c :: t) (pb_rest (PbMsg [] []))). apply r_text; auto; [constructor|apply tag10|exact (proj1 S)].
Qed.

Lemma p_C134_any_text_refuted : ~ forall t, exists w, pb_marshal (PbMsg t []) = Ok w.
Proof. intros H. destruct (H [byte_of 255]) as (w & W). vm_compute in W. discriminate. Qed.

Lemma p_C134_together : forall a b ma mb, pb_unmarshal a = Ok ma -> pb_unmarshal b = Ok mb ->
  exists m, pb_unmarshal (a ++ b) = Ok m /\ pb_rest m = pb_rest ma ++ pb_rest mb /\ (pb_text mb <> [] -> pb_text m = pb_text mb) /\ (pb_text mb = [] -> pb_text m = pb_text ma \/ pb_text m = []).
Proof.
  intros a b ma mb A B. apply p_C134_reads in A, B. enough (X : exists m, reads_as (a ++ b) m /\ pb_rest m = pb_rest ma ++ pb_rest mb /\ (pb_text m = pb_text mb \/ pb_text mb = [] /\ pb_text m = pb_text ma)).
  { destruct X as (m & R & E & T). exists m. split; [apply p_C134_reads, R|]. split; [exact E|]. split; intros H; destruct T as [->|[T ->]]; auto. congruence. }
  induction B as [|b m tag l t R IH T L U|b m n t tag v stag R IH Rn Rt N T V S].
  - exists ma. rewrite app_nil_r. cbn. rewrite app_nil_r. auto.
  - destruct IH as (m1 & R1 & E1 & _). exists (PbMsg t (pb_rest m1)). rewrite app_assoc. split; [constructor; auto|]. cbn [pb_text pb_rest]. auto.
  - destruct IH as (m1 & R1 & E1 & T1). exists (PbMsg (pb_text m1) (pb_rest m1 ++ stag ++ v)). rewrite app_assoc. split; [econstructor; eauto|]. cbn [pb_text pb_rest]. rewrite E1, <- app_assoc. auto.
Qed.
