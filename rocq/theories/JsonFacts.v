(* The concrete JSON codec satisfies the header law on ASCII headers without duplicate keys. *)
From Verif Require Export BaseFacts JsonModel SpecHeader.
From Coq Require Import DecimalString DecimalZ Permutation.

(* ---------------- validity ---------------- *)
Fixpoint ascii_str (s : string) : bool :=
  match s with
  | EmptyString => true
  | String c s' => (N_of_ascii c <? 128)%N && ascii_str s'
  end.

Fixpoint nodup_keys {A} (m : list (string * A)) : bool :=
  match m with
  | [] => true
  | (k, _) :: m' => negb (ahas k m') && nodup_keys m'
  end.

Fixpoint jvalid (v : jv) : bool :=
  match v with
  | JNull | JBool _ | JInt _ | JNum _ => true
  | JStr s => ascii_str s
  | JArr l => forallb jvalid l
  | JObj m => nodup_keys m && forallb (fun kv => ascii_str (fst kv) && jvalid (snd kv)) m
  end.

Definition valid_header (h : header) : bool :=
  match h with None => true | Some m => jvalid (JObj m) end.

(* ---------------- induction principle ---------------- *)
Section JvInd.
  Context (P : jv -> Prop).
  Context (Hnull : P JNull).
  Context (Hbool : forall b, P (JBool b)).
  Context (Hint : forall z, P (JInt z)).
  Context (Hnum : forall z, P (JNum z)).
  Context (Hstr : forall s, P (JStr s)).
  Context (Harr : forall l, Forall P l -> P (JArr l)).
  Context (Hobj : forall m, Forall (fun kv => P (snd kv)) m -> P (JObj m)).
  Fixpoint jv_ind' (v : jv) : P v :=
    match v with
    | JNull => Hnull
    | JBool b => Hbool b
    | JInt z => Hint z
    | JNum z => Hnum z
    | JStr s => Hstr s
    | JArr l => Harr l ((fix go (l : list jv) : Forall P l :=
                           match l with
                           | [] => Forall_nil _
                           | x :: r => Forall_cons _ (jv_ind' x) (go r)
                           end) l)
    | JObj m => Hobj m ((fix go (m : list (string * jv)) : Forall (fun kv => P (snd kv)) m :=
                           match m with
                           | [] => Forall_nil _
                           | (k, x) :: r => Forall_cons (k, x) (jv_ind' x) (go r)
                           end) m)
    end.
End JvInd.

(* ---------------- strings ---------------- *)
Lemma parse_esc_char c r : (N_of_ascii c <? 128)%N = true ->
  parse_str (esc_char c ++ r) = cons_str [c] (parse_str r).
Proof.
  destruct c as [[] [] [] [] [] [] [] []]; intros H; try discriminate H; reflexivity.
Qed.

Lemma parse_enc_string s r : ascii_str s = true ->
  parse_str (esc_string s ++ cDQ :: r) = Some (s, r).
Proof.
  induction s as [|c s IH]; intros H; cbn [esc_string ascii_str app] in *; [reflexivity|].
  apply andb_true_iff in H. destruct H as [Hc Hs].
  rewrite <- app_assoc, parse_esc_char by exact Hc.
  rewrite IH by exact Hs. reflexivity.
Qed.

(* ---------------- numbers ---------------- *)
Fixpoint all_num (s : string) : bool :=
  match s with EmptyString => true | String c s' => is_numchar c && all_num s' end.

Lemma all_num_uint d : all_num (NilEmpty.string_of_uint d) = true.
Proof. induction d; cbn; auto. Qed.

Lemma nilzero_uint d : NilZero.string_of_uint d = NilEmpty.string_of_uint d \/ NilZero.string_of_uint d = "0"%string.
Proof. destruct d; cbn; auto. Qed.

Lemma all_num_itoa z : all_num (itoa z) = true.
Proof.
  unfold itoa, NilZero.string_of_int. destruct (Z.to_int z) as [d|d].
  - destruct (nilzero_uint d) as [->| ->]; [apply all_num_uint|reflexivity].
  - cbn [all_num]. destruct (nilzero_uint d) as [->| ->]; [apply all_num_uint|reflexivity].
Qed.

Lemma itoa_nonempty z : itoa z <> EmptyString.
Proof.
  unfold itoa, NilZero.string_of_int. destruct (Z.to_int z) as [d|d]; [|discriminate].
  destruct d; cbn; discriminate.
Qed.

Lemma itoa_unnil z : Z.to_int z <> Decimal.Pos Decimal.Nil /\ Z.to_int z <> Decimal.Neg Decimal.Nil.
Proof.
  destruct z as [|p|p]; cbn; (split; [|discriminate || idtac]); try discriminate.
  - intros H. injection H as H. exact (DecimalPos.Unsigned.to_uint_nonnil p H).
  - intros H. injection H as H. exact (DecimalPos.Unsigned.to_uint_nonnil p H).
Qed.

Lemma int_of_itoa z : NilZero.int_of_string (itoa z) = Some (Z.to_int z).
Proof.
  unfold itoa. destruct (itoa_unnil z) as [H1 H2]. apply NilZero.isi; assumption.
Qed.

Definition numfree (r : bytes) : Prop :=
  match r with
  | [] => True
  | c :: _ => is_numchar c = false /\
              (Ascii.eqb c "."%char || Ascii.eqb c "e"%char || Ascii.eqb c "E"%char) = false
  end.

Lemma span_num_app s r : all_num s = true -> numfree r ->
  span_num (list_ascii_of_string s ++ r) = (list_ascii_of_string s, r).
Proof.
  intros Hs Hr. induction s as [|c s IH]; cbn [list_ascii_of_string app span_num all_num] in *.
  - destruct r as [|c r]; [reflexivity|]. cbn [span_num]. destruct Hr as [-> _]. reflexivity.
  - apply andb_true_iff in Hs. destruct Hs as [Hc Hs]. rewrite Hc, IH by exact Hs. reflexivity.
Qed.

Lemma parse_num_enc z r : numfree r -> parse_num (enc_num z ++ r) = Some (z, r).
Proof.
  intros Hr. unfold parse_num, enc_num. rewrite span_num_app by (apply all_num_itoa || exact Hr).
  rewrite string_of_list_ascii_of_string, int_of_itoa, DecimalZ.of_to, String.eqb_refl.
  cbn [orb]. destruct r as [|c r]; [reflexivity|]. destruct Hr as [_ ->]. reflexivity.
Qed.

(* ---------------- first characters ---------------- *)
Definition starter (c : ascii) : Prop :=
  is_ws c = false /\ Ascii.eqb c cRS = false /\ Ascii.eqb c cRB = false.

Lemma numchar_starter c : is_numchar c = true ->
  starter c /\ Ascii.eqb c cLB = false /\ Ascii.eqb c cLS = false /\ Ascii.eqb c cDQ = false /\
  Ascii.eqb "n" c = false /\ Ascii.eqb "t" c = false /\ Ascii.eqb "f" c = false.
Proof.
  destruct c as [[] [] [] [] [] [] [] []]; intros H; try discriminate H; repeat split.
Qed.

Lemma enc_num_head z : exists c r, enc_num z = c :: r /\ is_numchar c = true.
Proof.
  unfold enc_num. pose proof (itoa_nonempty z) as Hn. pose proof (all_num_itoa z) as Ha.
  destruct (itoa z) as [|c s]; [contradiction|]. cbn in *.
  apply andb_true_iff in Ha. exists c, (list_ascii_of_string s). tauto.
Qed.

Lemma enc_head v : exists c r, enc v = c :: r /\ starter c.
Proof.
  destruct v as [| [] | z | z | s | l | m]; cbn [enc];
    try (do 2 eexists; split; [reflexivity|]; repeat split; reflexivity).
  - destruct (enc_num_head z) as (c & r & -> & H). exists c, r. split; [reflexivity|].
    apply numchar_starter; exact H.
  - destruct (enc_num_head z) as (c & r & -> & H). exists c, r. split; [reflexivity|].
    apply numchar_starter; exact H.
Qed.

Lemma skip_ws_head c r : is_ws c = false -> skip_ws (c :: r) = c :: r.
Proof. intros H. cbn [skip_ws]. rewrite H. reflexivity. Qed.

Lemma parse_value_num f z r : numfree r -> parse_value (S f) (enc_num z ++ r) = Some (JNum z, r).
Proof.
  intros Hr. destruct (enc_num_head z) as (c & t & He & Hc).
  pose proof (parse_num_enc z r Hr) as Hp. rewrite He in *. cbn [app] in *.
  destruct (numchar_starter c Hc) as ((Hw & _) & H1 & H2 & H3 & Hn & Ht & Hf).
  cbn [parse_value]. rewrite skip_ws_head by exact Hw.
  rewrite H1, H2, H3.
  cbn [str_bytes list_ascii_of_string strip]. rewrite Hn, Ht, Hf. rewrite Hp. reflexivity.
Qed.

(* ---------------- sorting ---------------- *)
Lemma sins_perm {A} (x : string * A) l : Permutation (x :: l) (sins x l).
Proof.
  induction l as [|y l IH]; cbn [sins]; [reflexivity|].
  destruct (String.leb (fst x) (fst y)); [reflexivity|].
  rewrite perm_swap. constructor. exact IH.
Qed.

Lemma ssort_perm {A} (l : list (string * A)) : Permutation l (ssort l).
Proof.
  induction l as [|x l IH]; cbn [ssort]; [reflexivity|].
  rewrite <- sins_perm. constructor. exact IH.
Qed.

Lemma ssort_map {A B} (f : A -> B) (l : list (string * A)) :
  ssort (map (fun kv => (fst kv, f (snd kv))) l) = map (fun kv => (fst kv, f (snd kv))) (ssort l).
Proof.
  induction l as [|x l IH]; cbn [map ssort]; [reflexivity|]. rewrite IH.
  generalize (ssort l) as m. clear. induction m as [|y m IH]; cbn [map sins fst]; [reflexivity|].
  destruct (String.leb (fst x) (fst y)); [reflexivity|]. cbn [map]. rewrite IH. reflexivity.
Qed.

Lemma nodup_keys_NoDup {A} (m : list (string * A)) : nodup_keys m = true <-> NoDup (map fst m).
Proof.
  induction m as [|[k v] m IH]; cbn [nodup_keys map fst].
  - split; [constructor|reflexivity].
  - rewrite andb_true_iff, IH, negb_true_iff. unfold ahas.
    assert (Hk : (match aget k m with Some _ => true | None => false end = false) <-> ~ In k (map fst m)).
    { clear. induction m as [|[k' v'] m IH]; cbn [aget map fst In]; [tauto|].
      destruct (keqb_spec k k') as [->|Hne]; [split; [discriminate|tauto]|].
      rewrite IH. split; [|tauto]. intros H [H'|H']; [congruence|contradiction]. }
    rewrite Hk. split; [intros [H1 H2]; constructor; assumption|].
    intros H; inversion H; auto.
Qed.

Lemma aget_NoDup_In {A} (m : list (string * A)) k v : NoDup (map fst m) -> In (k, v) m -> aget k m = Some v.
Proof.
  induction m as [|[k' v'] m IH]; cbn [map fst aget In]; [tauto|].
  intros Hnd [Heq|Hin]; inversion Hnd as [|? ? Hni Hnd']; subst.
  - injection Heq as -> ->. rewrite keqb_refl. reflexivity.
  - destruct (keqb_spec k k') as [->|Hne]; [|apply IH; assumption].
    exfalso. apply Hni. apply (in_map fst) in Hin. exact Hin.
Qed.

Lemma aget_perm {A} (m m' : list (string * A)) k : NoDup (map fst m) -> Permutation m m' -> aget k m = aget k m'.
Proof.
  intros Hnd Hp.
  assert (Hnd' : NoDup (map fst m')) by (eapply Permutation_NoDup; [apply Permutation_map; exact Hp|exact Hnd]).
  destruct (aget k m) as [v|] eqn:H1.
  - symmetry. apply aget_NoDup_In; [exact Hnd'|]. eapply Permutation_in; [exact Hp|]. apply aget_In; exact H1.
  - destruct (aget k m') as [v|] eqn:H2; [|reflexivity].
    apply aget_In in H2. rewrite <- H1. apply aget_NoDup_In; [exact Hnd|].
    eapply Permutation_in; [symmetry; exact Hp|exact H2].
Qed.

(* ---------------- main round trip ---------------- *)
Definition rt (v : jv) : Prop :=
  forall f rest, (List.length (enc v) <= f)%nat -> numfree rest ->
  exists v', parse_value (S f) (enc v ++ rest) = Some (v', rest) /\ jeq v v'.

Lemma parse_elems_rt l : Forall rt l -> l <> [] ->
  forall f rest acc, (List.length (join_comma (map enc l)) < f)%nat ->
  exists l', parse_elems (S f) (join_comma (map enc l) ++ cRS :: rest) acc = Some (JArr (acc ++ l'), rest) /\
             Forall2 jeq l l'.
Proof.
  induction l as [|v l IH]; intros Hall Hne f rest acc Hf; [contradiction|].
  inversion Hall as [|? ? Hv Hl]; subst.
  destruct l as [|w l].
  - cbn [map join_comma] in *. cbn [parse_elems].
    destruct f as [|f]; [lia|].
    destruct (Hv f (cRS :: rest)) as (v' & Hp & Hj); [lia|repeat split|].
    rewrite Hp. cbn. exists [v']. auto.
  - assert (Hjc : join_comma (map enc (v :: w :: l)) = enc v ++ cCO :: join_comma (map enc (w :: l))) by reflexivity.
    rewrite Hjc in *. rewrite app_length in Hf. cbn [List.length] in Hf.
    rewrite <- app_assoc. cbn [app].
    change (parse_elems (S f) (enc v ++ cCO :: join_comma (map enc (w :: l)) ++ cRS :: rest) acc)
      with (match parse_value f (enc v ++ cCO :: join_comma (map enc (w :: l)) ++ cRS :: rest) with
            | Some (v0, r3) => match skip_ws r3 with
               | c3 :: r4 => if Ascii.eqb c3 cCO then parse_elems f r4 (acc ++ [v0])
                             else if Ascii.eqb c3 cRS then Some (JArr (acc ++ [v0]), r4) else None
               | [] => None end
            | None => None end).
    destruct f as [|f]; [lia|].
    destruct (Hv f (cCO :: join_comma (map enc (w :: l)) ++ cRS :: rest)) as (v' & Hp & Hj); [lia|repeat split|].
    rewrite Hp. cbn [skip_ws]. change (is_ws cCO) with false. change (Ascii.eqb cCO cCO) with true. cbv iota.
    destruct (IH Hl ltac:(discriminate) f rest (acc ++ [v'])) as (l' & Hp' & Hj'); [lia|].
    rewrite Hp'. exists (v' :: l'). rewrite <- app_assoc. split; [reflexivity|constructor; assumption].
Qed.

Definition memb (kv : string * jv) : bytes := enc_string (fst kv) ++ cCL :: enc (snd kv).

Lemma parse_members_rt m :
  Forall (fun kv => ascii_str (fst kv) = true /\ rt (snd kv)) m -> NoDup (map fst m) -> m <> [] ->
  forall f rest acc, (List.length (join_comma (map memb m)) < f)%nat ->
  exists m', parse_members (S f) (join_comma (map memb m) ++ cRB :: rest) acc = Some (JObj m', rest) /\
     (forall k v, aget k m = Some v -> exists v', aget k m' = Some v' /\ jeq v v') /\
     (forall k, aget k m = None -> aget k m' = aget k acc).
Proof.
  induction m as [|[k v] m IH]; intros Hall Hnd Hne f rest acc Hf; [contradiction|].
  inversion Hall as [|? ? [Hk Hv] Hm]; subst. cbn [fst snd] in *.
  inversion Hnd as [|? ? Hni Hnd']; subst.
  assert (Hstep : forall tail, (List.length (enc v) < f)%nat -> numfree tail ->
     exists v', jeq v v' /\
       parse_members (S f) (memb (k, v) ++ tail) acc =
         match skip_ws tail with
         | c3 :: r4 => if Ascii.eqb c3 cCO then parse_members f r4 (aset k v' acc)
                       else if Ascii.eqb c3 cRB then Some (JObj (aset k v' acc), r4) else None
         | [] => None end).
  { intros tail Hlen Htail. unfold memb, enc_string. cbn [fst snd].
    destruct f as [|f']; [lia|].
    destruct (Hv f' tail) as (v' & Hp & Hj); [lia|exact Htail|].
    exists v'. split; [exact Hj|].
    rewrite <- !app_assoc. cbn [app]. rewrite <- app_assoc. cbn [app].
    cbn [parse_members]. rewrite skip_ws_head by reflexivity.
    change (Ascii.eqb cDQ cDQ) with true. cbv iota.
    rewrite parse_enc_string by exact Hk.
    rewrite skip_ws_head by reflexivity. change (Ascii.eqb cCL cCL) with true. cbv iota.
    rewrite Hp. reflexivity. }
  assert (Hlen_memb : (List.length (enc v) < List.length (memb (k, v)))%nat).
  { unfold memb. rewrite app_length. cbn [fst snd List.length]. lia. }
  destruct m as [|kv2 m].
  - cbn [map join_comma] in *.
    destruct (Hstep (cRB :: rest)) as (v' & Hj & Hp); [lia|repeat split|].
    rewrite Hp. rewrite skip_ws_head by reflexivity.
    change (Ascii.eqb cRB cCO) with false. change (Ascii.eqb cRB cRB) with true. cbv iota.
    eexists. split; [reflexivity|]. split.
    + intros k0 v0. cbn [aget]. destruct (keqb_spec k0 k) as [->|Hne']; intros Hg.
      * injection Hg as <-. exists v'. split; [|exact Hj].
        change (aget k (aset k v' acc) = Some v'). rewrite aget_aset, keqb_refl. reflexivity.
      * discriminate Hg.
    + intros k0. cbn [aget]. destruct (keqb_spec k0 k) as [->|Hne']; intros Hg; [discriminate|].
      change (aget k0 (aset k v' acc) = aget k0 acc). rewrite aget_aset.
      apply keqb_neq in Hne'. rewrite Hne'. reflexivity.
  - assert (Hjc : join_comma (map memb ((k, v) :: kv2 :: m)) =
              memb (k, v) ++ cCO :: join_comma (map memb (kv2 :: m))) by reflexivity.
    rewrite Hjc in *. rewrite app_length in Hf. cbn [List.length] in Hf.
    rewrite <- app_assoc.
    destruct (Hstep ((cCO :: join_comma (map memb (kv2 :: m))) ++ cRB :: rest)) as (v' & Hj & Hp);
      [lia|repeat split|].
    rewrite Hp. cbn [app skip_ws]. change (is_ws cCO) with false. change (Ascii.eqb cCO cCO) with true. cbv iota.
    destruct f as [|f']; [lia|].
    destruct (IH Hm Hnd' ltac:(discriminate) f' rest (aset k v' acc)) as (m' & Hp' & Hg1 & Hg2); [lia|].
    exists m'. split; [exact Hp'|]. split.
    + intros k0 v0. cbn [aget]. destruct (keqb_spec k0 k) as [->|Hne']; intros Hg.
      * injection Hg as <-. exists v'. split; [|exact Hj].
        assert (Hnone : aget k (kv2 :: m) = None).
        { destruct (aget k (kv2 :: m)) as [w|] eqn:Hw; [|reflexivity].
          exfalso. apply Hni. apply aget_In in Hw. apply (in_map fst) in Hw. exact Hw. }
        rewrite (Hg2 _ Hnone). rewrite aget_aset, keqb_refl. reflexivity.
      * exact (Hg1 k0 v0 Hg).
    + intros k0. cbn [aget]. destruct (keqb_spec k0 k) as [->|Hne']; intros Hg; [discriminate|].
      rewrite (Hg2 k0 Hg). rewrite aget_aset. apply keqb_neq in Hne'. rewrite Hne'. reflexivity.
Qed.

Lemma jvalid_rt v : jvalid v = true -> rt v.
Proof.
  induction v as [| b | z | z | s | l IH | m IH] using jv_ind'; intros Hv f rest Hf Hr.
  - exists JNull. split; [reflexivity|constructor].
  - exists (JBool b). split; [destruct b; reflexivity|constructor].
  - exists (JNum z). split; [apply parse_value_num; exact Hr|constructor; auto].
  - exists (JNum z). split; [apply parse_value_num; exact Hr|constructor; auto].
  - exists (JStr s). split; [|constructor]. cbn [enc jvalid] in *.
    unfold enc_string. cbn [app]. rewrite <- app_assoc. cbn [app].
    cbn [parse_value]. rewrite skip_ws_head by reflexivity.
    change (Ascii.eqb cDQ cLB) with false. change (Ascii.eqb cDQ cLS) with false.
    change (Ascii.eqb cDQ cDQ) with true. cbv iota.
    rewrite parse_enc_string by exact Hv. reflexivity.
  - cbn [enc jvalid] in *. cbn [app] in *. rewrite <- app_assoc.
    cbn [parse_value]. rewrite skip_ws_head by reflexivity.
    change (Ascii.eqb cLS cLB) with false. change (Ascii.eqb cLS cLS) with true. cbv iota.
    destruct l as [|w l].
    + cbn. exists (JArr []). split; [reflexivity|repeat constructor].
    + assert (Hall : Forall rt (w :: l)).
      { rewrite forallb_forall in Hv. rewrite Forall_forall in *. intros x Hx. apply IH; auto. }
      cbn [app] in *.
      assert (Hhead : exists c r, join_comma (map enc (w :: l)) = c :: r /\ starter c).
      { destruct (enc_head w) as (c & r & He & Hs). cbn [map join_comma].
        destruct (map enc l); rewrite He; cbn [app]; eauto. }
      destruct Hhead as (c & r & He & Hs1 & Hs2 & Hs3).
      destruct f as [|f]; [cbn in Hf; lia|].
      destruct (parse_elems_rt (w :: l) Hall ltac:(discriminate) f rest []) as (l' & Hp & Hj).
      { cbn [List.length] in Hf. rewrite app_length in Hf. cbn [List.length] in Hf. lia. }
      cbn [app] in Hp. exists (JArr l'). split; [|constructor; exact Hj].
      rewrite He in *. cbn [app] in *. rewrite skip_ws_head by exact Hs1. rewrite Hs2. exact Hp.
  - assert (Hencobj : enc (JObj m) = cLB :: join_comma (map memb (ssort m)) ++ [cRB]).
    { cbn [enc]. rewrite ssort_map, map_map. reflexivity. }
    rewrite Hencobj in *. clear Hencobj.
    cbn [jvalid] in Hv. apply andb_true_iff in Hv. destruct Hv as [Hnd Hfa].
    apply nodup_keys_NoDup in Hnd. rewrite forallb_forall in Hfa.
    cbn [app]. rewrite <- app_assoc. cbn [parse_value]. rewrite skip_ws_head by reflexivity.
    change (Ascii.eqb cLB cLB) with true. cbv iota.
    pose proof (ssort_perm m) as Hperm.
    destruct (ssort m) as [|kv0 ms] eqn:Hss.
    + apply Permutation_sym, Permutation_nil in Hperm. subst m.
      cbn. exists (JObj []). split; [reflexivity|]. constructor; [discriminate|reflexivity].
    + rewrite <- Hss in *.
      assert (Hne : ssort m <> []) by (rewrite Hss; discriminate).
      assert (Hall : Forall (fun kv => ascii_str (fst kv) = true /\ rt (snd kv)) (ssort m)).
      { rewrite Forall_forall in *. intros kv Hin.
        apply Permutation_sym in Hperm. pose proof (Permutation_in _ Hperm Hin) as Hin'.
        specialize (Hfa kv Hin'). apply andb_true_iff in Hfa. destruct Hfa as [H1 H2].
        split; [exact H1|]. apply IH; assumption. }
      assert (Hnds : NoDup (map fst (ssort m))).
      { eapply Permutation_NoDup; [apply Permutation_map; exact Hperm|exact Hnd]. }
      assert (Hhead : exists r, join_comma (map memb (ssort m)) = cDQ :: r).
      { rewrite Hss. cbn [map join_comma]. 
        destruct (map memb ms); unfold memb, enc_string; cbn [app]; eauto. }
      destruct Hhead as (r & He).
      destruct f as [|f]; [cbn in Hf; lia|].
      destruct (parse_members_rt (ssort m) Hall Hnds Hne f rest []) as (m' & Hp & Hg1 & Hg2).
      { cbn [List.length] in Hf. rewrite app_length in Hf. cbn [List.length] in Hf. lia. }
      exists (JObj m'). split.
      * cbn [app]. rewrite He in *. cbn [app] in *. rewrite skip_ws_head by reflexivity.
        change (Ascii.eqb cDQ cRB) with false. cbv iota. exact Hp.
      * constructor.
        -- intros k v Hg. apply Hg1. rewrite <- (aget_perm m (ssort m) k Hnd Hperm). exact Hg.
        -- intros k Hg. rewrite (aget_perm m (ssort m) k Hnd Hperm) in Hg. exact (Hg2 k Hg).
Qed.

Theorem json_hdr_roundtrips h : valid_header h = true -> hdr_roundtrips json_hdr h.
Proof.
  intros Hv. unfold hdr_roundtrips. destruct h as [m|].
  - cbn [hmarshal json_hdr valid_header] in *.
    destruct (jvalid_rt (JObj m) Hv (List.length (enc (JObj m))) [] (le_n _) I) as (v' & Hp & Hj).
    rewrite List.app_nil_r in Hp. inversion Hj as [| | | | | |? m' H1 H2]; subst.
    exists (enc (JObj m)), (Some m'). split; [reflexivity|]. split; [discriminate|].
    split; [|exact Hj]. cbn [hunmarshal json_hdr]. rewrite Hp. reflexivity.
  - exists (str_bytes "null"), None. repeat split; try reflexivity. discriminate.
Qed.

Example sample_header_valid : valid_header sample_header = true.
Proof. vm_compute. reflexivity. Qed.

(* the decoder never panics *)
Lemma json_hunmarshal_no_panic b : hunmarshal json_hdr b <> Panic.
Proof.
  cbn [hunmarshal json_hdr]. destruct (parse_value _ b) as [[v r]|]; [|discriminate].
  destruct (skip_ws r); [|discriminate]. destruct v; discriminate.
Qed.
