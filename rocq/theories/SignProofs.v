(* C115, C116: MD5 and the auth example *)
From Verif Require Export SpecSign ChanProofs.

Definition all_ascii : list ascii := map ascii_of_nat (seq 0 256).

Lemma all_ascii_in c : In c all_ascii.
Proof.
  apply in_map_iff. exists (nat_of_ascii c). split; [apply ascii_nat_embedding|]. apply in_seq. split; [lia|]. apply nat_ascii_bounded.
Qed.

Definition hex2 (b : ascii) : bytes := map upper (sprintf_x [b]).

Lemma hex2_facts : forallb (fun b => Nat.eqb (List.length (hex2 b)) 2 && forallb (fun c => existsb (Ascii.eqb c) (list_ascii_of_string "0123456789ABCDEF")) (hex2 b)) all_ascii = true.
Proof. vm_compute. reflexivity. Qed.

Lemma hex2_read : forallb (fun b => match hex2 b with [x; y] =>
    Ascii.eqb b (ascii_of_N (let v c := let n := N_of_ascii c in (if n <? 58 then n - 48 else n - 55)%N in (v x * 16 + v y)%N)) | _ => false end) all_ascii = true.
Proof. vm_compute. reflexivity. Qed.

Lemma hex2_spec b : List.length (hex2 b) = 2%nat /\ Forall hex_upper (hex2 b).
Proof.
  pose proof hex2_facts as H. rewrite forallb_forall in H. specialize (H b (all_ascii_in b)). apply andb_true_iff in H as (A & B).
  split; [apply Nat.eqb_eq; auto|]. apply Forall_forall. intros c Hc. rewrite forallb_forall in B. specialize (B c Hc).
  apply existsb_exists in B as (d & D1 & D2). apply Ascii.eqb_eq in D2. subst d. exact D1.
Qed.

Lemma hex2_inj b b' : hex2 b = hex2 b' -> b = b'.
Proof.
  intros E. pose proof hex2_read as H. rewrite forallb_forall in H. pose proof (H b (all_ascii_in b)) as A. pose proof (H b' (all_ascii_in b')) as B.
  cbv beta in A, B. rewrite <- E in B. destruct (hex2 b) as [|x [|y [|]]]; try discriminate. apply Ascii.eqb_eq in A, B. congruence.
Qed.

Lemma hex_cons b l : map upper (sprintf_x (b :: l)) = hex2 b ++ map upper (sprintf_x l).
Proof. unfold hex2, sprintf_x. cbn [flat_map]. rewrite app_nil_r, map_app. reflexivity. Qed.

Lemma hex_spec l : List.length (map upper (sprintf_x l)) = (2 * List.length l)%nat /\ Forall hex_upper (map upper (sprintf_x l)).
Proof.
  induction l as [|b l (A & B)]; [split; constructor|]. rewrite hex_cons. destruct (hex2_spec b) as (C & D).
  split; [rewrite app_length, C, A; cbn [List.length]; lia|apply Forall_app; auto].
Qed.

Lemma hex_inj l l' : map upper (sprintf_x l) = map upper (sprintf_x l') -> l = l'.
Proof.
  revert l'. induction l as [|b l IH]; intros [|b' l'] E; auto.
  - exfalso. apply (f_equal (@List.length ascii)) in E. rewrite (proj1 (hex_spec _)) in E. discriminate.
  - exfalso. apply (f_equal (@List.length ascii)) in E. rewrite (proj1 (hex_spec (b :: l))) in E. discriminate.
  - rewrite !hex_cons in E. destruct (hex2_spec b) as (C & _). destruct (hex2_spec b') as (C' & _).
    assert (hex2 b = hex2 b' /\ map upper (sprintf_x l) = map upper (sprintf_x l')) as (A & B).
    { destruct (hex2 b) as [|x [|y [|]]]; try discriminate. destruct (hex2 b') as [|x' [|y' [|]]]; try discriminate.
      cbn in E. inversion E. auto. }
    f_equal; [apply hex2_inj|apply IH]; auto.
Qed.

Lemma le_bytes_len n x : List.length (le_bytes n x) = n.
Proof. revert x. induction n; cbn; auto. Qed.

Lemma md5_len m : List.length (md5_sum m) = 16%nat.
Proof. unfold md5_sum. cbv zeta. rewrite !app_length, !le_bytes_len. reflexivity. Qed.

Lemma string_len l : String.length (string_of_list_ascii l) = List.length l.
Proof. induction l; cbn; auto. Qed.

Lemma p_C115_format : forall m, String.length (MD5 m) = 32%nat /\ Forall hex_upper (list_ascii_of_string (MD5 m)).
Proof.
  intros m. unfold MD5. destruct (hex_spec (md5_sum (list_ascii_of_string m))) as (A & B).
  rewrite string_len, A, md5_len, list_ascii_of_string_of_list_ascii. auto.
Qed.

Lemma p_C115_tells_sums_apart : forall m m', MD5 m = MD5 m' <-> md5_sum (list_ascii_of_string m) = md5_sum (list_ascii_of_string m').
Proof.
  intros m m'. unfold MD5. split; [|intros ->; reflexivity]. intros E. apply (f_equal list_ascii_of_string) in E.
  rewrite !list_ascii_of_string_of_list_ascii in E. apply hex_inj. exact E.
Qed.

Lemma auth_plan id : plan_of (ById id) auth_server = if id =? 1393 then Direct (User 0) else Unrouted.
Proof.
  let v := eval vm_compute in auth_server in change auth_server with v. unfold plan_of. cbn -[Z.eqb]. unfold plan_id. cbn -[Z.eqb].
  destruct (Z.eqb_spec id 1393) as [->|]; reflexivity.
Qed.

Lemma handler_cases b : (b = None /\ auth_handler b = ([NServerError], [])) \/
  (exists a, b = Some a /\ signed_right a /\ auth_handler b = ([], [1])) \/
  (exists a, b = Some a /\ ~ signed_right a /\ auth_handler b = ([NDeny], [-1])).
Proof.
  destruct b as [a|]; [right|left; auto]. unfold auth_handler, signed_right, Encrypt, appSecret.
  destruct (String.eqb_spec (MD5 (a_F1 a ++ a_F2 a ++ "hello")) (a_Signature a)) as [E|E]; [left|right]; exists a; auto.
Qed.

Record AInv (vs : list Z) (s : chn) : Prop := {
  av_slot : forall v, ch_slot s = Some v -> In v vs;
  av_calls : forall v, In v (concat (ch_calls s)) -> In v vs;
  av_end : ch_end s = true -> ch_open s = false;
  av_kept : ch_watch s = false -> ch_open s = true -> exists v, In v vs /\ v >= 0 }.

Lemma concat_upd (l : list (list Z)) i v r w : nth_error l i = Some (v :: r) -> In w (concat (upd l i r)) -> In w (concat l).
Proof.
  revert i. induction l as [|x l IH]; intros [|i] H X; cbn in *; try discriminate.
  - inversion H; subst. cbn. auto.
  - apply in_app_iff in X as [X|X]; apply in_app_iff; eauto.
Qed.

Lemma concat_head (l : list (list Z)) i v r : nth_error l i = Some (v :: r) -> In v (concat l).
Proof. intros H. apply nth_error_In in H. apply in_concat. exists (v :: r). split; [auto|left; auto]. Qed.

Lemma ainv_step vs s o s' : chstep CAuth s o s' -> AInv vs s -> AInv vs s'.
Proof.
  intros V [S C E K]. destruct V; try discriminate.
  - constructor; cbn; auto. intros u X. inversion X; subst u. apply C. eapply concat_head; eauto. intros w X. apply C. eapply concat_upd; eauto.
  - destruct (v >=? 0) eqn:Q; constructor; cbn; auto; try discriminate. intros _ _. exists v. split; auto. lia.
  - destruct c; [constructor; cbn; auto; discriminate|]. specialize (H0 eq_refl). discriminate.
  - constructor; cbn; auto. intros _ O. rewrite (E H0) in O. discriminate.
  - constructor; cbn; auto; discriminate.
Qed.

Lemma ainv_run vs s os s' : chruns CAuth s os s' -> AInv vs s -> AInv vs s'.
Proof. induction 1; auto. intros A. apply IHchruns. eapply ainv_step; eauto. Qed.

Lemma p_C116_kept_only_if_signed : forall bodies os s, chruns CAuth (auth_conn bodies) os s ->
  ch_watch s = false -> ch_open s = true -> exists a, In (Some a) bodies /\ signed_right a.
Proof.
  intros bodies os s V W O. set (vs := concat (map (fun b => snd (auth_handler b)) bodies)).
  assert (A0 : AInv vs (auth_conn bodies)) by (constructor; cbn; auto; discriminate).
  destruct (av_kept _ _ (ainv_run _ _ _ _ V A0) W O) as (v & I & P). apply in_concat in I as (l & L & Il). apply in_map_iff in L as (b & Eb & Ib).
  destruct (handler_cases b) as [(-> & H)|[(a & -> & Ra & H)|(a & -> & Ra & H)]]; rewrite H in Eb; cbn in Eb; subst l.
  - destruct Il.
  - eauto.
  - destruct Il as [<-|[]]. lia.
Qed.

Lemma send_value (Q : Z -> Prop) i v s0 os s1 : chruns CAuth s0 os s1 -> In (KSend i v) os ->
  (forall w l, nth_error (ch_calls s0) i = Some l -> In w l -> Q w) -> Q v.
Proof.
  induction 1 as [|s o s1 os s2 V W IH]; [intros []|]. intros I B. destruct I as [->|I].
  - inversion V; subst. eapply B; [eassumption|left; reflexivity].
  - apply IH; auto. intros w l L J. destruct V; cbn [ch_calls] in L; try (eapply B; eauto; fail).
    + rewrite nth_upd in L. destruct (Nat.eqb_spec i i0) as [->|]; [|eapply B; eauto].
      rewrite H0 in L. inversion L; subst. eapply B; [eassumption|right; exact J].
    + destruct (v0 >=? 0); cbn [ch_calls] in L; eapply B; eauto.
Qed.

Lemma p_C116_signed_first_partial : forall bodies pre i v post s a, let os := pre ++ KSend i v :: post in
  chruns CAuth (auth_conn bodies) os s -> no_close os -> no_quit os ->
  sends pre = [] -> nth_error bodies i = Some (Some a) -> signed_right a -> ch_open s = true.
Proof.
  intros bodies pre i v post s a os V C Q X Na Sa.
  assert (I : In (KSend i v) os) by (unfold os; apply in_or_app; right; left; reflexivity).
  assert (X' : sends os = v :: sends post) by (unfold os, sends in *; rewrite flat_map_app, X; reflexivity).
  assert (P : v >= 0).
  { apply (send_value (fun w => w >= 0) i v _ _ _ V I). intros w l L J. unfold auth_conn, ch_start in L. cbn [ch_calls] in L. rewrite nth_error_map, Na in L.
    destruct (handler_cases (Some a)) as [(H & _)|[(a' & E & _ & H)|(a' & E & Ra & H)]]; [discriminate| |inversion E; subst a'; contradiction].
    cbn [option_map] in L. rewrite H in L. inversion L; subst l. destruct J as [<-|[]]. lia. }
  eapply p_C83_ignored_refuted; eauto.
Qed.

Lemma p_C116_wrong_first : forall bodies pre i v post s a, let os := pre ++ KSend i v :: post in
  chruns CAuth (auth_conn bodies) os s -> sends pre = [] -> nth_error bodies i = Some (Some a) -> ~ signed_right a ->
  fst (auth_handler (Some a)) = [NDeny] /\ v = -1 /\
  ((ch_open s = false \/ exists s', chstep CAuth s KTake s' /\ ch_open s' = false) /\ (ch_watch s = false -> ch_open s = false)).
Proof.
  intros bodies pre i v post s a os V X N R.
  destruct (handler_cases (Some a)) as [(H & _)|[(a' & E & Ra & H)|(a' & E & Ra & H)]]; [discriminate|inversion E; subst a'; contradiction|].
  rewrite H. split; [reflexivity|].
  assert (Ev : v = -1).
  { apply (send_value (fun w => w = -1) i v _ _ _ V); [unfold os; apply in_or_app; right; left; reflexivity|].
    intros w l L J. unfold auth_conn, ch_start in L. cbn [ch_calls] in L. rewrite nth_error_map, N in L. cbn [option_map] in L. rewrite H in L.
    inversion L; subst l. destruct J as [<-|[]]. reflexivity. }
  split; [exact Ev|]. eapply p_C83_deny_first_partial; [exact V| |].
  - unfold os, sends in *. rewrite flat_map_app, X. reflexivity.
  - lia.
Qed.

Lemma p_C116_fields_refuted : forall a f1 f2, signed_right a -> (a_F1 a ++ a_F2 a = f1 ++ f2)%string -> signed_right (Auth f1 f2 (a_Signature a)).
Proof.
  intros [x y g] f1 f2 R E. unfold signed_right in *. cbn [a_F1 a_F2 a_Signature] in *. rewrite R.
  assert (As : forall p q t : string, ((p ++ q) ++ t = p ++ (q ++ t))%string) by (induction p; cbn; congruence).
  rewrite <- !As. rewrite E. reflexivity.
Qed.

Lemma p_C116_undecodable_refuted : forall n os s, chruns CAuth (auth_conn (repeat None n)) os s -> no_close os -> no_quit os ->
  ch_open s = true /\ ch_watch s = true /\ ch_slot s = None.
Proof.
  intros n os s V C Q.
  assert (G : forall s0 os s, chruns CAuth s0 os s -> no_close os -> no_quit os -> concat (ch_calls s0) = [] -> ch_open s0 = true -> ch_end s0 = false -> ch_watch s0 = true -> ch_slot s0 = None ->
     ch_open s = true /\ ch_watch s = true /\ ch_slot s = None).
  { clear. induction 1 as [|s o s1 os s2 V W IH]; auto. intros C Q E O N Wt F.
    destruct V; try congruence.
    - exfalso. apply concat_head in H0. rewrite E in H0. destruct H0.
    - exfalso. eapply Q. left. reflexivity.
    - exfalso. apply C. left. reflexivity. }
  apply (G _ _ _ V C Q); try reflexivity. unfold auth_conn, ch_start. cbn [ch_calls]. clear. induction n; cbn; auto.
Qed.

Lemma p_C116_deny_after_pass_refuted : forall a b, signed_right a -> ~ signed_right b ->
  fst (auth_handler (Some b)) = [NDeny] /\
  exists s, chruns CAuth (auth_conn [Some a; Some b]) [KSend 0 1; KTake; KSend 1 (-1)] s /\ ch_open s = true /\ ch_watch s = false.
Proof.
  intros a b Ra Rb. destruct (handler_cases (Some a)) as [(H & _)|[(a' & E & _ & Ha)|(a' & E & X & Ha)]]; [discriminate| |inversion E; subst a'; contradiction].
  destruct (handler_cases (Some b)) as [(H & _)|[(b' & F & X & Hb)|(b' & F & _ & Hb)]]; [discriminate|inversion F; subst b'; contradiction|].
  split; [rewrite Hb; reflexivity|]. unfold auth_conn, ch_start. cbn [map]. rewrite Ha, Hb. cbn [snd].
  eexists. split.
  - eapply kr_cons; [eapply k_send; reflexivity|]. eapply kr_cons; [eapply k_take_auth; reflexivity|]. eapply kr_cons; [eapply k_send; reflexivity|]. apply kr_nil.
  - split; reflexivity.
Qed.

Lemma p_C116_valid_client_refuted : client_auth = Auth "ft" "fj" (MD5 "ftfjhello2222") /\ auth_handler (Some client_auth) = ([NDeny], [-1]) /\ ~ signed_right client_auth.
Proof. split; [reflexivity|]. split; [vm_compute; reflexivity|]. vm_compute. discriminate. Qed.
