(* C127: what the panics of Use and UnUse say. NODEMO *)
From Verif Require Export SpecWhere.
From Verif Require Import BaseFacts MuxFacts.

Local Arguments aset : simpl never.
Local Arguments aget : simpl never.

Record whereinv (w : wmux) (n : list note) : Prop := WInv {
  wv_some : forall k a, aget k (m_amap (w_mux w)) = Some a ->
    a_key a = k /\ known k n = true /\ List.length (a_starts a) = (List.length (a_ends a) + if stands k n then 1 else 0)%nat;
  wv_none : forall k, aget k (m_amap (w_mux w)) = None -> known k n = false;
  wv_info : forall k, info_of k w = WI (places true k n) (places false k n) }.

Lemma stands_known k n : stands k n = true -> known k n = true.
Proof.
  induction n as [|x r IH]; cbn; [discriminate|]. destruct (String.eqb k (n_key x)); cbn; auto.
Qed.

Lemma where_new : whereinv new_wmux [].
Proof. split; cbn; intros; auto; discriminate. Qed.

Lemma aget_aset_ (k k' : string) {A} (v : A) l : aget k (aset k' v l) = if String.eqb k k' then Some v else aget k l.
Proof.
  rewrite aget_aset. reflexivity.
Qed.

Lemma places_cons b k x n :
  places b k (x :: n) = places b k n ++ (if String.eqb k (n_key x) && Bool.eqb b (n_use x) then [site_text (n_at x)] else []).
Proof.
  unfold places. cbn. destruct (String.eqb k (n_key x) && Bool.eqb b (n_use x)); cbn; [reflexivity|].
  rewrite app_nil_r. reflexivity.
Qed.

Lemma info_aset k k' i m l : info_of k (WM m (aset k' i l)) = if String.eqb k k' then i else info_of k (WM m l).
Proof. unfold info_of. cbn [w_info]. rewrite aget_aset_. destruct (String.eqb k k'); reflexivity. Qed.

Lemma where_use1 s k f w n w' r : whereinv w n -> wuse1 s k f w = (w', r) ->
  if stands k n then r = Misuse (use_text k (WI (places true k n) (places false k n))) /\ whereinv w' n
  else r = Fine /\ whereinv w' (Note true k s :: n).
Proof.
  intros I E. unfold wuse1 in E.
  destruct (aget k (m_amap (w_mux w))) as [a|] eqn:A.
  - destruct (wv_some _ _ I _ _ A) as [Ak [Kn Le]].
    unfold use1 in E. rewrite A in E. unfold callUse in E.
    destruct (stands k n) eqn:St.
    + assert (B : (List.length (a_ends a) <? List.length (a_starts a))%nat = true) by (apply Nat.ltb_lt; lia).
      rewrite B in E. cbn in E. inversion E; subst w' r. split.
      * rewrite (wv_info _ _ I). reflexivity.
      * split; [exact (wv_some _ _ I)|exact (wv_none _ _ I)|exact (wv_info _ _ I)].
    + assert (B : (List.length (a_ends a) <? List.length (a_starts a))%nat = false) by (apply Nat.ltb_ge; lia).
      rewrite B in E. cbn in E. inversion E; subst w' r. split; [reflexivity|]. split; cbn [w_mux].
      * intros k0 a0 H. cbn in H. rewrite aget_aset_ in H. cbn [stands known existsb n_key n_use].
        destruct (String.eqb_spec k0 k) as [->|D].
        -- inversion H; subst a0. cbn. repeat split; auto. rewrite app_length. cbn. lia.
        -- destruct (wv_some _ _ I _ _ H) as [X [Y Z]]. cbn. auto.
      * intros k0 H. cbn in H. rewrite aget_aset_ in H. cbn.
        destruct (String.eqb_spec k0 k) as [D|D]; [discriminate H|]. apply (wv_none _ _ I _ H).
      * intros k0. rewrite info_aset, !places_cons. cbn [n_key n_use n_at].
        destruct (String.eqb_spec k0 k) as [->|D]; cbn.
        -- rewrite (wv_info _ _ I). unfold mergeUse. cbn. rewrite app_nil_r. reflexivity.
        -- rewrite !app_nil_r. apply (wv_info _ _ I).
  - pose proof (wv_none _ _ I _ A) as Kn.
    assert (St : stands k n = false).
    { destruct (stands k n) eqn:S1; auto. rewrite (stands_known _ _ S1) in Kn. discriminate. }
    rewrite St. unfold use1 in E. rewrite A in E. cbn in E. unfold add_anchor, ahas in E. cbn in E. rewrite A in E.
    cbn in E. inversion E; subst w' r. split; [reflexivity|]. split; cbn [w_mux].
    + intros k0 a0 H. cbn in H. rewrite aget_aset_ in H. cbn [stands known existsb n_key n_use].
      destruct (String.eqb_spec k0 k) as [->|D].
      * inversion H; subst a0. cbn. repeat split; auto.
      * destruct (wv_some _ _ I _ _ H) as [X [Y Z]]. cbn. auto.
    + intros k0 H. cbn in H. rewrite aget_aset_ in H. cbn.
      destruct (String.eqb_spec k0 k) as [D|D]; [discriminate H|]. apply (wv_none _ _ I _ H).
    + intros k0. rewrite info_aset, !places_cons. cbn [n_key n_use n_at].
      destruct (String.eqb_spec k0 k) as [->|D]; cbn.
      * rewrite (wv_info _ _ I). unfold mergeUse. cbn. rewrite app_nil_r. reflexivity.
      * rewrite !app_nil_r. apply (wv_info _ _ I).
Qed.

Lemma where_unuse1 s k w n w' r : whereinv w n -> wunuse1 s k w = (w', r) ->
  if stands k n then r = Fine /\ whereinv w' (Note false k s :: n)
  else whereinv w' n /\
    r = if known k n then Misuse (unuse_text k (WI (places true k n) (places false k n))) else Other.
Proof.
  intros I E. unfold wunuse1 in E.
  destruct (aget k (m_amap (w_mux w))) as [a|] eqn:A.
  - destruct (wv_some _ _ I _ _ A) as [Ak [Kn Le]]. rewrite Kn.
    unfold unuse1 in E. rewrite A in E. unfold callUnUse in E.
    destruct (stands k n) eqn:St.
    + assert (B : (List.length (a_starts a) <=? List.length (a_ends a))%nat = false) by (apply Nat.leb_gt; lia).
      rewrite B in E. unfold replace_middleware in E. cbn [a_key] in E. rewrite Ak in E.
      unfold ahas in E. change (m_amap (tick (w_mux w))) with (m_amap (w_mux w)) in E. rewrite A in E.
      cbn in E. inversion E; subst w' r. split; [reflexivity|]. split; cbn [w_mux].
      * intros k0 a0 H. cbn in H. rewrite aget_aset_ in H. cbn [stands known existsb n_key n_use].
        destruct (String.eqb_spec k0 k) as [->|D].
        -- inversion H; subst a0. cbn. repeat split; auto. rewrite app_length. cbn. lia.
        -- destruct (wv_some _ _ I _ _ H) as [X [Y Z]]. cbn. auto.
      * intros k0 H. cbn in H. rewrite aget_aset_ in H. cbn.
        destruct (String.eqb_spec k0 k) as [D|D]; [discriminate H|]. apply (wv_none _ _ I _ H).
      * intros k0. rewrite info_aset, !places_cons. cbn [n_key n_use n_at].
        destruct (String.eqb_spec k0 k) as [->|D]; cbn.
        -- rewrite (wv_info _ _ I). unfold mergeUnUse. cbn. rewrite app_nil_r. reflexivity.
        -- rewrite !app_nil_r. apply (wv_info _ _ I).
    + assert (B : (List.length (a_starts a) <=? List.length (a_ends a))%nat = true) by (apply Nat.leb_le; lia).
      rewrite B in E. cbn in E. inversion E; subst w' r. split.
      * split; [exact (wv_some _ _ I)|exact (wv_none _ _ I)|exact (wv_info _ _ I)].
      * rewrite (wv_info _ _ I). reflexivity.
  - pose proof (wv_none _ _ I _ A) as Kn.
    assert (St : stands k n = false).
    { destruct (stands k n) eqn:S1; auto. rewrite (stands_known _ _ S1) in Kn. discriminate. }
    rewrite St, Kn. inversion E; subst w' r. auto.
Qed.

Lemma where_uses s : forall l w n w' r, whereinv w n -> wuse_pairs s l w = (w', r) -> whereinv w' (note_uses s l n) /\
  (forall t, r = Misuse t <-> exists k n', use_stops s l n k n' /\ t = use_text k (WI (places true k n') (places false k n'))).
Proof.
  fix REC 1. intros l w n w' r I E.
  destruct l as [|x l].
  { cbn in E. inversion E; subst. split; [exact I|]. intros t. split; [discriminate|]. intros (k & n' & H & _). inversion H. }
  destruct x as [k| |].
  2: { cbn in E. inversion E; subst. split; [exact I|]. intros t. split; [discriminate|]. intros (k & n' & H & _). inversion H. }
  2: { cbn in E. inversion E; subst. split; [exact I|]. intros t. split; [discriminate|]. intros (k & n' & H & _). inversion H. }
  destruct l as [|y l].
  { cbn in E. inversion E; subst. split; [exact I|]. intros t. split; [discriminate|]. intros (k0 & n' & H & _). inversion H. }
  destruct y as [|f|].
  1: { cbn in E. inversion E; subst. split; [exact I|]. intros t. split; [discriminate|]. intros (k1 & n' & H & _). inversion H. }
  2: { cbn in E. inversion E; subst. split; [exact I|]. intros t. split; [discriminate|]. intros (k1 & n' & H & _). inversion H. }
  cbn [wuse_pairs] in E. cbn [note_uses].
  destruct (wuse1 s k f w) as [w1 r1] eqn:E1.
  pose proof (where_use1 _ _ _ _ _ _ _ I E1) as H1.
  destruct (stands k n) eqn:St.
  - destruct H1 as [-> I1]. inversion E; subst w' r. split; [exact I1|]. intros t. split.
    + intros H. inversion H. exists k, n. split; [apply us_here; exact St|reflexivity].
    + intros (k0 & n' & H & ->). inversion H; subst; [reflexivity|congruence].
  - destruct H1 as [-> I1]. destruct (REC l w1 _ _ _ I1 E) as [I2 T]. split; [exact I2|]. intros t. rewrite T. split.
    + intros (k0 & n' & H & Ht). exists k0, n'. split; [apply us_later; assumption|exact Ht].
    + intros (k0 & n' & H & Ht). inversion H; subst; [congruence|]. exists k0, n'. auto.
Qed.

Lemma where_unuses s : forall l w n w' r, whereinv w n -> wUnUse s l w = (w', r) -> whereinv w' (note_unuses s l n) /\
  (forall t, r = Misuse t <-> exists k n', unuse_stops s l n k n' /\ t = unuse_text k (WI (places true k n') (places false k n'))).
Proof.
  induction l as [|k l IH]; intros w n w' r I E.
  { cbn in E. inversion E; subst. split; [exact I|]. intros t. split; [discriminate|]. intros (k & n' & H & _). inversion H. }
  cbn [wUnUse] in E. cbn [note_unuses].
  destruct (wunuse1 s k w) as [w1 r1] eqn:E1.
  pose proof (where_unuse1 _ _ _ _ _ _ I E1) as H1.
  destruct (stands k n) eqn:St.
  - destruct H1 as [-> I1]. destruct (IH _ _ _ _ I1 E) as [I2 T]. split; [exact I2|]. intros t. rewrite T. split.
    + intros (k0 & n' & H & Ht). exists k0, n'. split; [apply uu_later; assumption|exact Ht].
    + intros (k0 & n' & H & Ht). inversion H; subst; [congruence|]. exists k0, n'. auto.
  - destruct H1 as [I1 ->]. destruct (known k n) eqn:Kn; inversion E; subst w' r; (split; [exact I1|]); intros t; split.
    + intros H. inversion H. exists k, n. split; [apply uu_here; assumption|reflexivity].
    + intros (k0 & n' & H & ->). inversion H; subst; [reflexivity|congruence].
    + discriminate.
    + intros (k0 & n' & H & ->). inversion H; subst; congruence.
Qed.

Lemma amap_kept a m : (forall l, a <> AUse l) -> (forall k f, a <> ACall (OUse k f)) -> (forall k, a <> AUnUse k) ->
  (forall k, a <> ACall (OUnUse k)) -> m_amap (fst (api_step a m)) = m_amap m.
Proof.
  intros A B C D. destruct a as [l|ks|id|on|o].
  - destruct (A l eq_refl).
  - destruct (C ks eq_refl).
  - cbn. unfold add_handler_nil. reflexivity.
  - cbn [api_step]. unfold HeartBeatMode, HeartBeatModeDetail, AddHandler, AddSelf, AddHandleFunc, AddMessageIDAnchor, andthen, ok, bad.
    repeat match goal with |- context [match ?x with _ => _ end] => destruct x; cbn; try reflexivity end.
  - destruct o; cbn [api_step step].
    + destruct (B k f eq_refl).
    + destruct (D k eq_refl).
    + reflexivity.
    + unfold AddHandler, AddSelf, AddHandleFunc, AddMessageIDAnchor, andthen, ok, bad.
      repeat match goal with |- context [match ?x with _ => _ end] => destruct x; cbn; try reflexivity end.
    + unfold Any, AddURLAnchor, AddURLPatternHandler, andthen, ok, bad.
      repeat match goal with |- context [match ?x with _ => _ end] => destruct x; cbn; try reflexivity end.
    + unfold HeartBeatModeDetail, AddHandler, AddSelf, AddHandleFunc, AddMessageIDAnchor, andthen, ok, bad.
      repeat match goal with |- context [match ?x with _ => _ end] => destruct x; cbn; try reflexivity end.
    + unfold RewriteHeartBeatHandler, AddHandler, AddSelf, AddHandleFunc, AddMessageIDAnchor, andthen, ok, bad.
      repeat match goal with |- context [match ?x with _ => _ end] => destruct x; cbn; try reflexivity end.
    + unfold WithAuthDetail, AddHandler, AddSelf, AddHandleFunc, AddMessageIDAnchor, andthen, ok, bad.
      repeat match goal with |- context [match ?x with _ => _ end] => destruct x; cbn; try reflexivity end.
    + reflexivity.
Qed.

Lemma where_call s a w n : whereinv w n -> whereinv (fst (wcall s a w)) (note_call s a n).
Proof.
  intros I.
  assert (R : (forall l, a <> AUse l) -> (forall k f, a <> ACall (OUse k f)) -> (forall k, a <> AUnUse k) ->
    (forall k, a <> ACall (OUnUse k)) -> whereinv (WM (fst (api_step a (w_mux w))) (w_info w)) n).
  { intros A B C D. pose proof (amap_kept a (w_mux w) A B C D) as K. split; cbn [w_mux].
    - intros k x. rewrite K. apply (wv_some _ _ I).
    - intros k. rewrite K. apply (wv_none _ _ I).
    - intros k. exact (wv_info _ _ I k). }
  destruct a as [l|ks|id|on|o]; try (apply R; discriminate).
  - cbn [wcall note_call]. unfold wUse. destruct (Nat.even (List.length l)); [|exact I].
    destruct (wuse_pairs s l w) as [w' r] eqn:E. exact (proj1 (where_uses _ _ _ _ _ _ I E)).
  - cbn [wcall note_call]. destruct (wUnUse s ks w) as [w' r] eqn:E. exact (proj1 (where_unuses _ _ _ _ _ _ I E)).
  - destruct o; try (apply R; discriminate).
    + change (whereinv (fst (wuse_pairs s [UKey k; UFn f] w)) (note_uses s [UKey k; UFn f] n)).
      destruct (wuse_pairs s [UKey k; UFn f] w) as [w' r] eqn:E. exact (proj1 (where_uses _ _ _ _ _ _ I E)).
    + change (whereinv (fst (wUnUse s [k] w)) (note_unuses s [k] n)).
      destruct (wUnUse s [k] w) as [w' r] eqn:E. exact (proj1 (where_unuses _ _ _ _ _ _ I E)).
Qed.

Lemma where_run h : whereinv (wrun h) (notes h).
Proof.
  unfold wrun, notes.
  assert (G : forall w n, whereinv w n ->
    whereinv (fold_left (fun w c => fst (wcall (fst c) (snd c) w)) h w) (fold_left (fun n c => note_call (fst c) (snd c) n) h n)).
  { induction h as [|c r IH]; intros w n I; cbn; [exact I|]. apply IH. apply where_call. exact I. }
  apply G. apply where_new.
Qed.

Lemma join_app l x r : join (l ++ x :: r) = lines l (join (x :: r)).
Proof.
  induction l as [|y l IH]; [reflexivity|].
  change ((y :: l) ++ x :: r) with (y :: (l ++ x :: r)). cbn [lines fold_right]. fold (lines l (join (x :: r))).
  rewrite <- IH. destruct l; reflexivity.
Qed.

Lemma FormatPath_listing k n : FormatPath (WI (places true k n) (places false k n)) = listing k n.
Proof.
  unfold FormatPath, listing. cbn [wi_use wi_unuse].
  destruct (rev (places false k n)) as [|x r] eqn:R.
  - assert (Z : places false k n = []) by (rewrite <- (rev_involutive (places false k n)), R; reflexivity).
    rewrite Z, app_nil_r, app_assoc. rewrite join_app. reflexivity.
  - assert (Z : places false k n = rev r ++ [x]) by (rewrite <- (rev_involutive (places false k n)), R; reflexivity).
    rewrite Z.
    replace (["------------------- Use -----------------------"%string] ++ places true k n ++
       ["------------------- UnUse ---------------------"%string] ++ rev r ++ [x])
      with ((("------------------- Use -----------------------"%string :: places true k n) ++
       "------------------- UnUse ---------------------"%string :: rev r) ++ [x]).
    + rewrite join_app. reflexivity.
    + cbn. rewrite <- app_assoc. reflexivity.
Qed.

Lemma p_C127_use_text_partial : forall h s l t,
  snd (wcall s (AUse l) (wrun h)) = Misuse t <->
  Nat.even (List.length l) = true /\ exists k n, use_stops s l (notes h) k n /\
    t = ("can't Use(" ++ k ++ ", handler) more than twice when the first anchor middleware has not called UnUse(" ++ k ++
         ") yet, they're at:" ++ newline ++ listing k n)%string.
Proof.
  intros h s l t. cbn [wcall]. unfold wUse. destruct (Nat.even (List.length l)) eqn:Ev.
  - destruct (wuse_pairs s l (wrun h)) as [w' r] eqn:E. cbn [snd].
    rewrite (proj2 (where_uses _ _ _ _ _ _ (where_run h) E) t). split.
    + intros (k & n & H & ->). split; [reflexivity|]. exists k, n. split; [exact H|].
      unfold use_text. rewrite FormatPath_listing. reflexivity.
    + intros (_ & k & n & H & ->). exists k, n. split; [exact H|].
      unfold use_text. rewrite FormatPath_listing. reflexivity.
  - cbn. split; [discriminate|]. intros [H _]. discriminate.
Qed.

Lemma p_C127_unuse_text_partial : forall h s ks t,
  snd (wcall s (AUnUse ks) (wrun h)) = Misuse t <->
  exists k n, unuse_stops s ks (notes h) k n /\
    t = ("can't UnUse(" ++ k ++ ") when call UnUse times is bigger than call Use, they're at :" ++ newline ++ listing k n)%string.
Proof.
  intros h s ks t. cbn [wcall].
  destruct (wUnUse s ks (wrun h)) as [w' r] eqn:E. cbn [snd].
  rewrite (proj2 (where_unuses _ _ _ _ _ _ (where_run h) E) t). split.
  - intros (k & n & H & ->). exists k, n. split; [exact H|]. unfold unuse_text. rewrite FormatPath_listing. reflexivity.
  - intros (k & n & H & ->). exists k, n. split; [exact H|]. unfold unuse_text. rewrite FormatPath_listing. reflexivity.
Qed.

Lemma str_assoc (a b c : string) : ((a ++ b) ++ c)%string = (a ++ b ++ c)%string.
Proof. induction a; cbn; congruence. Qed.

Lemma str_nil (a : string) : (a ++ "")%string = a.
Proof. induction a; cbn; congruence. Qed.

Lemma occurs_later p a t : occurs a t -> occurs a (p ++ t).
Proof. intros (x & y & ->). exists (p ++ x)%string, y. rewrite str_assoc. reflexivity. Qed.

Lemma occurs_lines a l x : In a l \/ occurs a x -> occurs a (lines l x).
Proof.
  induction l as [|y l IH]; cbn [lines fold_right]; intros [H|H].
  - destruct H.
  - exact H.
  - destruct H as [->|H].
    + exists ""%string, (newline ++ lines l x)%string. reflexivity.
    + apply occurs_later, occurs_later. fold (lines l x). auto.
  - apply occurs_later, occurs_later. fold (lines l x). auto.
Qed.

Lemma in_places b k x n : In x n -> n_key x = k -> n_use x = b -> In (site_text (n_at x)) (places b k n).
Proof.
  intros H K U. unfold places. apply -> in_rev. apply in_map_iff. exists x. split; [reflexivity|].
  apply filter_In. split; [exact H|]. rewrite K, U, String.eqb_refl. destruct b; reflexivity.
Qed.

Lemma p_C127_earlier_named : forall h s c t x f, In x (notes h) ->
  c = AUse [UKey (n_key x); UFn f] \/ c = AUnUse [n_key x] ->
  snd (wcall s c (wrun h)) = Misuse t -> occurs (site_text (n_at x)) t.
Proof.
  assert (G : forall x n k, In x n -> n_key x = k -> occurs (site_text (n_at x)) (listing k n)).
  { intros x n k H K. pose proof (in_places _ _ _ _ H K eq_refl) as P. unfold listing.
    destruct (rev (places false k n)) as [|y r] eqn:R.
    - apply occurs_lines. left. right. destruct (n_use x); [exact P|].
      apply -> in_rev in P. rewrite R in P. destruct P.
    - apply occurs_lines. destruct (n_use x).
      + left. apply in_or_app. left. right. exact P.
      + apply -> in_rev in P. rewrite R in P. destruct P as [->|P].
        * right. exists ""%string, ""%string. cbn. symmetry. apply str_nil.
        * left. apply in_or_app. right. right. apply -> in_rev. exact P. }
  intros h s c t x f Hx Hc T. destruct Hc as [-> | ->].
  - apply p_C127_use_text_partial in T. destruct T as (_ & k & n & H & ->). inversion H; subst.
    + repeat apply occurs_later. apply G; auto.
    + match goal with X : use_stops _ [] _ _ _ |- _ => inversion X end.
  - apply p_C127_unuse_text_partial in T. destruct T as (k & n & H & ->). inversion H; subst.
    + repeat apply occurs_later. apply G; auto.
    + match goal with X : unuse_stops _ [] _ _ _ |- _ => inversion X end.
Qed.

Lemma p_C127_same_effect : forall s a w,
  w_mux (fst (wcall s a w)) = fst (api_step a (w_mux w)) /\ (snd (wcall s a w) = Fine <-> snd (api_step a (w_mux w)) = false).
Proof.
  assert (U : forall s l n, (List.length l <= n)%nat -> forall w, w_mux (fst (wuse_pairs s l w)) = fst (use_pairs l (w_mux w)) /\ (snd (wuse_pairs s l w) = Fine <-> snd (use_pairs l (w_mux w)) = false)).
  { intros s l n. revert l. induction n as [|n IH]; intros [|[k|f|] [|[k2|f2|] r]] L w; cbn in L |- *; try lia;
      try (split; [reflexivity|split; intros X; first [discriminate X|reflexivity]]).
    unfold andthen, wuse1. destruct (use1 k f2 (w_mux w)) as [m' [|]] eqn:E; cbn [fst snd]; [split; [reflexivity|split; intros X; discriminate X]|].
    apply (IH r ltac:(lia) (WM m' (aset k (mergeUse (site_text s) (info_of k w)) (w_info w)))). }
  assert (W : forall s ks w, w_mux (fst (wUnUse s ks w)) = fst (UnUse ks (w_mux w)) /\ (snd (wUnUse s ks w) = Fine <-> snd (UnUse ks (w_mux w)) = false)).
  { intros s ks. induction ks as [|k r IH]; intros w; cbn [wUnUse UnUse]; [split; [reflexivity|split; reflexivity]|].
    unfold andthen, wunuse1, unuse1. destruct (aget k (m_amap (w_mux w))) as [x|]; [|split; [reflexivity|split; intros X; discriminate X]].
    destruct (callUnUse x (next_index (w_mux w))) as [x'|]; [|split; [reflexivity|split; intros X; discriminate X]].
    destruct (replace_middleware x' (tick (w_mux w))) as [m' [|]]; cbn [fst snd]; [split; [reflexivity|split; intros X; discriminate X]|].
    apply (IH (WM m' (aset k (mergeUnUse (site_text s) (info_of k w)) (w_info w)))). }
  assert (O : forall a w, w_mux (fst (let o := api_step a (w_mux w) in (WM (fst o) (w_info w), if snd o then Other else Fine))) = fst (api_step a (w_mux w)) /\
    (snd (let o := api_step a (w_mux w) in (WM (fst o) (w_info w), if snd o then Other else Fine)) = Fine <-> snd (api_step a (w_mux w)) = false)).
  { intros a w. cbn [fst snd w_mux]. split; [reflexivity|]. destruct (snd (api_step a (w_mux w))); split; intros X; first [discriminate X|reflexivity]. }
  intros s a w. destruct a as [l|ks|id|on|o]; cbn [wcall]; try apply O.
  - cbn [api_step]. unfold wUse, Use. destruct (Nat.even (List.length l)); [apply (U s l _ (le_n _))|split; [reflexivity|split; intros X; discriminate X]].
  - apply W.
  - destruct o; try apply O; cbn [api_step step]; [apply (U s [UKey k; UFn f] _ (le_n _))|apply W].
Qed.

Lemma p_C127_offender_refuted : exists h s c t,
  snd (wcall s c (wrun h)) = Misuse t /\ String.index 0 (site_text s) t = None.
Proof.
  exists [(Site "main.go" 10, AUse [UKey "log"; UFn (User 1)])], (Site "main.go" 25), (AUse [UKey "log"; UFn (User 1)]).
  eexists. split; [vm_compute; reflexivity|vm_compute; reflexivity].
Qed.
