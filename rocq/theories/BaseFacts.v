(* Lemmas about the vocabulary of Base.v *)
From Verif Require Export Base.

Lemma keqb_refl {K} {E : EqK K} (x : K) : keqb x x = true.
Proof. apply keqb_eq; reflexivity. Qed.

Lemma keqb_neq {K} {E : EqK K} (x y : K) : keqb x y = false <-> x <> y.
Proof.
  split.
  - intros H He. apply keqb_eq in He. congruence.
  - intros H. destruct (keqb x y) eqn:Hk; [apply keqb_eq in Hk; contradiction|reflexivity].
Qed.

Lemma keqb_spec {K} {E : EqK K} (x y : K) : reflect (x = y) (keqb x y).
Proof.
  destruct (keqb x y) eqn:H; constructor; [apply keqb_eq|apply keqb_neq]; assumption.
Qed.

Section AssocFacts.
  Context {K V : Type} {E : EqK K}.
  Implicit Types (m : list (K * V)) (k : K) (v : V).

  Lemma aget_adel_same k m : aget k (adel k m) = None.
  Proof.
    induction m as [|[k' v'] m IH]; simpl; [reflexivity|].
    destruct (keqb k k') eqn:Hk; [exact IH|]. simpl. rewrite Hk. exact IH.
  Qed.

  Lemma aget_adel_other k k' m : k <> k' -> aget k (adel k' m) = aget k m.
  Proof.
    intros Hne. induction m as [|[k2 v2] m IH]; simpl; [reflexivity|].
    destruct (keqb_spec k' k2) as [->|Hk].
    - rewrite IH. destruct (keqb_spec k k2); [contradiction|reflexivity].
    - simpl. destruct (keqb k k2); [reflexivity|exact IH].
  Qed.

  Lemma aget_adel k k' m : aget k (adel k' m) = if keqb k k' then None else aget k m.
  Proof.
    destruct (keqb_spec k k') as [->|H].
    - apply aget_adel_same.
    - apply aget_adel_other; exact H.
  Qed.

  Lemma aget_aset k k' v m : aget k (aset k' v m) = if keqb k k' then Some v else aget k m.
  Proof.
    unfold aset; simpl. destruct (keqb_spec k k') as [->|H]; [reflexivity|].
    apply aget_adel_other; exact H.
  Qed.

  Lemma aget_In k v m : aget k m = Some v -> In (k, v) m.
  Proof.
    induction m as [|[k' v'] m IH]; simpl; [discriminate|].
    destruct (keqb_spec k k') as [->|H]; intros Heq.
    - injection Heq as ->. left; reflexivity.
    - right. apply IH. exact Heq.
  Qed.

  Lemma ahas_aset k k' v m : ahas k (aset k' v m) = if keqb k k' then true else ahas k m.
  Proof. unfold ahas. rewrite aget_aset. destruct (keqb k k'); reflexivity. Qed.

  Lemma ahas_adel k k' m : ahas k (adel k' m) = if keqb k k' then false else ahas k m.
  Proof. unfold ahas. rewrite aget_adel. destruct (keqb k k'); reflexivity. Qed.
End AssocFacts.

(* bytes *)
Lemma code_range b : 0 <= code b < 256.
Proof.
  unfold code. pose proof (N_ascii_bounded b). lia.
Qed.

Lemma code_byte_of z : code (byte_of z) = z mod 256.
Proof.
  unfold code, byte_of.
  assert (H : 0 <= z mod 256 < 256) by (apply Z.mod_pos_bound; lia).
  rewrite N_ascii_embedding by lia. lia.
Qed.

Lemma byte_of_code b : byte_of (code b) = b.
Proof.
  unfold byte_of. rewrite Z.mod_small by apply code_range.
  unfold code. rewrite N2Z.id. apply ascii_N_embedding.
Qed.

Lemma code_inj a b : code a = code b -> a = b.
Proof. intros H. rewrite <- (byte_of_code a), <- (byte_of_code b), H. reflexivity. Qed.

Lemma blen_nonneg b : 0 <= blen b.
Proof. unfold blen; lia. Qed.

Lemma blen_app a b : blen (a ++ b) = blen a + blen b.
Proof. unfold blen. rewrite app_length. lia. Qed.

(* machine integers *)
Ltac Zify.zify_post_hook ::= Z.div_mod_to_equations.

Lemma to_uint32_range z : 0 <= to_uint32 z < two32.
Proof. unfold to_uint32, two32. lia. Qed.

Lemma to_uint32_small z : 0 <= z < two32 -> to_uint32 z = z.
Proof. unfold to_uint32, two32. intros. apply Z.mod_small; lia. Qed.

Lemma to_int32_range z : is_int32 (to_int32 z).
Proof.
  unfold is_int32, to_int32, two31, two32.
  destruct (Z.ltb_spec (z mod 4294967296) 2147483648); lia.
Qed.

Lemma to_int32_id z : is_int32 z -> to_int32 z = z.
Proof.
  unfold is_int32, to_int32, two31, two32. intros H.
  destruct (Z.ltb_spec (z mod 4294967296) 2147483648); lia.
Qed.

Lemma to_int32_mod z : to_int32 (z mod two32) = to_int32 z.
Proof. unfold to_int32. rewrite Z.mod_mod by (unfold two32; lia). reflexivity. Qed.

Lemma to_int32_uint32 z : to_int32 (to_uint32 z) = to_int32 z.
Proof. apply to_int32_mod. Qed.

Lemma to_int32_nonneg u : 0 <= u < two32 -> (0 <= to_int32 u <-> u < two31).
Proof.
  unfold to_int32, two31, two32. intros H.
  rewrite Z.mod_small by lia.
  destruct (Z.ltb_spec u 2147483648); lia.
Qed.
