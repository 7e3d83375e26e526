(* Handler lists as slices (C102). NODEMO *)
From Verif Require Export SpecSlice MuxProofs.

Lemma upd_len {A} (l : list A) i x : List.length (upd l i x) = List.length l.
Proof. revert i. induction l as [|y l IH]; intros [|i]; cbn; auto. Qed.

Lemma array_upd m k a j : (k < List.length m)%nat -> array (upd m k a) j = if Nat.eqb j k then a else array m j.
Proof. unfold array. revert k j. induction m as [|x m IH]; intros [|k] [|j] H; cbn [List.length upd nth Nat.eqb] in *; try lia; auto. apply IH. lia. Qed.

Lemma array_app m a j : (j < List.length m)%nat -> array (m ++ [a]) j = array m j.
Proof. intros H. unfold array. apply app_nth1. exact H. Qed.

Lemma array_new m a : array (m ++ [a]) (List.length m) = a.
Proof. unfold array. rewrite app_nth2, Nat.sub_diag; auto. Qed.

Lemma write_len a i l : (i + List.length l <= List.length a)%nat -> List.length (write_at a i l) = List.length a.
Proof. intros H. unfold write_at. rewrite !app_length, firstn_length, skipn_length. lia. Qed.

Lemma write_read a i l : (i + List.length l <= List.length a)%nat -> firstn (i + List.length l) (write_at a i l) = firstn i a ++ l.
Proof.
  intros H. unfold write_at. rewrite app_assoc, firstn_app.
  replace (i + List.length l - List.length (firstn i a ++ l))%nat with 0%nat by (rewrite app_length, firstn_length; lia).
  rewrite firstn_O, app_nil_r. apply firstn_all2. rewrite app_length, firstn_length. lia.
Qed.

Definition private (P : string -> bool) (x : place) : Prop :=
  match x with PVar _ => False | PGlobal => True | PSelf _ => True | PUrl p => P p = true end.
Definition inrange (m : memory) (s : slice) : Prop := (sl_arr s < List.length m)%nat /\ (sl_len s <= List.length (array m (sl_arr s)))%nat.
Definition owned (P : string -> bool) (st : slices) : Prop :=
  (forall x s, slice_at st x = Some s -> inrange (ss_mem st) s) /\
  (forall x y s t, private P x -> x <> y -> slice_at st x = Some s -> slice_at st y = Some t -> sl_arr s <> sl_arr t).

(* a slice that may be stored at x: no private place but x has its array, and none at all if x is private *)
Definition may_hold (P : string -> bool) (st : slices) (x : place) (s : slice) : Prop :=
  inrange (ss_mem st) s /\ forall y t, y <> x -> private P x \/ private P y -> slice_at st y = Some t -> sl_arr t <> sl_arr s.

Definition place_ok (st : slices) (x : place) : Prop := forall i, x = PVar i -> i = List.length (ss_vars st).

Lemma place_dec (x y : place) : {x = y} + {x <> y}.
Proof. decide equality; [apply Nat.eq_dec|apply Z.eq_dec|apply string_dec]. Qed.

Lemma slice_at_put st x s y : place_ok st x -> slice_at (put st x s) y = if place_dec y x then Some s else slice_at st y.
Proof.
  intros H. destruct x as [i| |id|p]; destruct y as [j| |id'|q]; cbn [slice_at put ss_vars ss_globals ss_self ss_urls]; destruct (place_dec _ _) as [E|E]; try discriminate; try reflexivity.
  - injection E as ->. rewrite (H i eq_refl). rewrite nth_error_app2, Nat.sub_diag by lia. reflexivity.
  - rewrite (H i eq_refl) in E. destruct (Nat.lt_ge_cases j (List.length (ss_vars st))) as [L|L].
    + apply nth_error_app1. exact L.
    + rewrite nth_error_app2 by exact L. assert (j <> List.length (ss_vars st)) by congruence.
      rewrite (proj2 (nth_error_None (ss_vars st) j)) by lia. apply nth_error_None. cbn. lia.
  - congruence.
  - injection E as ->. rewrite aget_aset, keqb_refl. reflexivity.
  - rewrite aget_aset. destruct (keqb id' id) eqn:K; [apply keqb_eq in K; congruence|reflexivity].
  - injection E as ->. rewrite aget_aset, keqb_refl. reflexivity.
  - rewrite aget_aset. destruct (keqb q p) eqn:K; [apply keqb_eq in K; congruence|reflexivity].
Qed.

Lemma put_mem st x s : ss_mem (put st x s) = ss_mem st.
Proof. destruct x; reflexivity. Qed.

Lemma owned_put P st x s : owned P st -> place_ok st x -> may_hold P st x s ->
  owned P (put st x s) /\ (forall y, y <> x -> holds (put st x s) y = holds st y) /\ holds (put st x s) x = Some (contents (ss_mem st) s).
Proof.
  intros [R O] K [I M]. split; [split|split].
  - intros y t. rewrite slice_at_put, put_mem by exact K. destruct (place_dec y x); [intros [= <-]; exact I|apply R].
  - intros y z t u Py N. rewrite !slice_at_put by exact K. destruct (place_dec y x) as [->|Ny]; destruct (place_dec z x) as [->|Nz]; intros A B.
    + congruence.
    + injection A as <-. intros E. apply (M z u Nz (or_introl Py) B). congruence.
    + injection B as <-. intros E. apply (M y t Ny (or_intror Py) A). congruence.
    + exact (O y z t u Py N A B).
  - intros y N. unfold holds. rewrite slice_at_put, put_mem by exact K. destruct (place_dec y x); [congruence|reflexivity].
  - unfold holds. rewrite slice_at_put, put_mem by exact K. destruct (place_dec x x); [reflexivity|congruence].
Qed.

Lemma inrange_app m a s : inrange m s -> inrange (m ++ [a]) s.
Proof. intros [A B]. split; [rewrite app_length; cbn; lia|]. rewrite array_app by exact A. exact B. Qed.

Lemma contents_app m a s : inrange m s -> contents (m ++ [a]) s = contents m s.
Proof. intros [A B]. unfold contents. rewrite array_app by exact A. reflexivity. Qed.

Lemma slice_at_set_mem st m x : slice_at (set_mem st m) x = slice_at st x.
Proof. destruct x; reflexivity. Qed.

Lemma owned_alloc P st a : owned P st -> owned P (set_mem st (ss_mem st ++ [a])) /\ (forall y, holds (set_mem st (ss_mem st ++ [a])) y = holds st y) /\
  (forall x n, (n <= List.length a)%nat -> may_hold P (set_mem st (ss_mem st ++ [a])) x (Sl (List.length (ss_mem st)) n)).
Proof.
  intros [R O]. split; [split|split].
  - intros x s H. rewrite slice_at_set_mem in H. apply inrange_app, (R x s H).
  - intros x y s t. rewrite !slice_at_set_mem. apply O.
  - intros y. unfold holds. rewrite slice_at_set_mem. destruct (slice_at st y) as [s|] eqn:G; [|reflexivity]. cbn [option_map ss_mem set_mem]. rewrite contents_app by exact (R y s G). reflexivity.
  - intros x n L. split; [split; cbn [sl_arr sl_len ss_mem set_mem]; [rewrite app_length; cbn; lia|rewrite array_new; exact L]|].
    intros y t _ _ G. rewrite slice_at_set_mem in G. destruct (R y t G) as [A _]. cbn [sl_arr]. lia.
Qed.

(* writing an array that only x may share *)
Lemma owned_write P st s a : owned P st -> (sl_arr s < List.length (ss_mem st))%nat -> List.length a = List.length (array (ss_mem st) (sl_arr s)) ->
  owned P (set_mem st (upd (ss_mem st) (sl_arr s) a)) /\
  (forall y t, slice_at st y = Some t -> sl_arr t <> sl_arr s -> holds (set_mem st (upd (ss_mem st) (sl_arr s) a)) y = holds st y).
Proof.
  intros [R O] A L. split; [split|].
  - intros x t H. rewrite slice_at_set_mem in H. destruct (R x t H) as [B C]. split; cbn [ss_mem set_mem]; [rewrite upd_len; exact B|].
    rewrite array_upd by exact A. destruct (Nat.eqb (sl_arr t) (sl_arr s)) eqn:E; [apply Nat.eqb_eq in E; rewrite L, <- E; exact C|exact C].
  - intros x y t u. rewrite !slice_at_set_mem. apply O.
  - intros y t G N. unfold holds. rewrite slice_at_set_mem, G. cbn [option_map ss_mem set_mem]. unfold contents. rewrite array_upd by exact A. apply Nat.eqb_neq in N. rewrite N. reflexivity.
Qed.

Lemma owned_append P extra st x s l : owned P st -> place_ok st x -> may_hold P st x s ->
  owned P (append_to extra st x s l) /\ (forall y, y <> x -> private P y -> holds (append_to extra st x s l) y = holds st y) /\
  holds (append_to extra st x s l) x = Some (contents (ss_mem st) s ++ l) /\
  (private P x -> forall y, y <> x -> holds (append_to extra st x s l) y = holds st y).
Proof.
  intros Ow K [I M]. assert (Ow' := Ow). destruct Ow' as [R O]. destruct I as [I1 I2]. unfold append_to, go_append.
  destruct (_ <=? _)%nat eqn:C.
  - apply Nat.leb_le in C. set (a := write_at (array (ss_mem st) (sl_arr s)) (sl_len s) l). set (st1 := set_mem st (upd (ss_mem st) (sl_arr s) a)).
    assert (La : List.length a = List.length (array (ss_mem st) (sl_arr s))) by (apply write_len; exact C).
    destruct (owned_write P st s a Ow I1 La) as [O1 H1]. fold st1 in O1, H1.
    assert (K1 : place_ok st1 x) by exact K.
    assert (M1 : may_hold P st1 x (Sl (sl_arr s) (sl_len s + List.length l))).
    { split; [split; cbn [sl_arr sl_len st1 ss_mem set_mem]|].
      - unfold st1. cbn [ss_mem set_mem]. rewrite upd_len. exact I1.
      - unfold st1. cbn [ss_mem set_mem]. rewrite array_upd, Nat.eqb_refl, La by exact I1. exact C.
      - intros y t N Pxy G. unfold st1 in G. rewrite slice_at_set_mem in G. exact (M y t N Pxy G). }
    destruct (owned_put P st1 x _ O1 K1 M1) as (O2 & H2 & E2).
    split; [exact O2|]. split; [|split].
    + intros y N Py. rewrite H2 by exact N. destruct (slice_at st y) as [t|] eqn:G; [|unfold holds, st1; rewrite slice_at_set_mem, G; reflexivity]. apply (H1 y t G). exact (M y t N (or_intror Py) G).
    + rewrite E2. f_equal. unfold contents, st1. cbn [ss_mem set_mem sl_arr sl_len]. rewrite array_upd, Nat.eqb_refl by exact I1. apply write_read. exact C.
    + intros Px y N. rewrite H2 by exact N. destruct (slice_at st y) as [t|] eqn:G; [|unfold holds, st1; rewrite slice_at_set_mem, G; reflexivity]. apply (H1 y t G). exact (M y t N (or_introl Px) G).
  - set (a := contents (ss_mem st) s ++ l ++ repeat Beat _). destruct (owned_alloc P st a Ow) as (O1 & H1 & M1).
    assert (Lc : List.length (contents (ss_mem st) s) = sl_len s) by (unfold contents; rewrite firstn_length; lia).
    assert (La : (sl_len s + List.length l <= List.length a)%nat) by (unfold a; rewrite !app_length, Lc; lia).
    destruct (owned_put P _ x _ O1 K (M1 x _ La)) as (O2 & H2 & E2).
    split; [exact O2|]. split; [|split].
    + intros y N _. rewrite H2 by exact N. apply H1.
    + rewrite E2. f_equal. unfold contents at 1. cbn [ss_mem set_mem sl_arr sl_len]. rewrite array_new. unfold a. rewrite app_assoc, <- Lc, <- app_length. rewrite firstn_app, Nat.sub_diag, firstn_O, app_nil_r, firstn_all. reflexivity.
    + intros _ y N. rewrite H2 by exact N. apply H1.
Qed.

Lemma own_may_hold P st x s : owned P st -> slice_at st x = Some s -> may_hold P st x s.
Proof. intros [R O] G. split; [exact (R x s G)|]. intros y t N [Px|Py] H; [|exact (O y x t s Py N H G)]. assert (A := O x y s t Px (not_eq_sym N) G H). congruence. Qed.

(* a variable's slice may be put wherever nothing is private *)
Lemma shared_may_hold P st i x s : owned P st -> ~ private P x -> slice_at st (PVar i) = Some s -> may_hold P st x s.
Proof. intros [R O] N G. split; [exact (R _ s G)|]. intros y t _ [Px|Py] H; [destruct (N Px)|]. apply (O y (PVar i) t s Py); auto. intros ->. exact Py. Qed.

Lemma append_other P extra st x s l y : owned P st -> place_ok st x -> may_hold P st x s -> private P y -> y <> x -> holds (append_to extra st x s l) y = holds st y.
Proof. intros A B C D E. exact (proj1 (proj2 (owned_append P extra st x s l A B C)) y E D). Qed.

Lemma addurl_keeps P extra p s st : owned P st -> (aget p (ss_urls st) = None -> may_hold P st (PUrl p) s) ->
  owned P (addurl extra p s st) /\ (forall y, y <> PUrl p -> private P y -> holds (addurl extra p s st) y = holds st y).
Proof.
  intros O G. assert (K : place_ok st (PUrl p)) by (intros j; discriminate). unfold addurl. destruct (aget p (ss_urls st)) as [h|] eqn:E.
  - assert (M : may_hold P st (PUrl p) h) by (apply own_may_hold; [exact O|exact E]).
    destruct (owned_append P extra st (PUrl p) h (contents (ss_mem st) s) O K M) as (A & B & _). split; [exact A|exact B].
  - destruct (owned_put P st (PUrl p) s O K (G eq_refl)) as (A & B & _). split; [exact A|]. intros y N _. exact (B y N).
Qed.

Lemma addurl_there extra p s st : aget p (ss_urls (addurl extra p s st)) <> None.
Proof. unfold addurl, append_to. destruct (aget p (ss_urls st)) eqn:E; [destruct (go_append _ _ _ _)|]; cbn [put ss_urls]; rewrite aget_aset, keqb_refl; discriminate. Qed.

Lemma addurl_vars extra p s st i : slice_at (addurl extra p s st) (PVar i) = slice_at st (PVar i).
Proof. unfold addurl, append_to. destruct (aget p (ss_urls st)); [destruct (go_append _ _ _ _)|]; reflexivity. Qed.

(* what one registration of a pattern with the handlers l adds *)
Definition added (l : list hdl) : list hdl := if (1 <? List.length l)%nat then l ++ l else l.

Lemma addurl_fresh P extra p s l st : owned P st -> P p = true -> may_hold P st (PUrl p) s -> contents (ss_mem st) s = l ->
  (forall h, aget p (ss_urls st) = Some h -> sl_arr h <> sl_arr s) ->
  owned P (addurl extra p s st) /\ (forall y, y <> PUrl p -> holds (addurl extra p s st) y = holds st y) /\
  holds (addurl extra p s st) (PUrl p) = Some (match holds st (PUrl p) with Some o => o | None => [] end ++ l) /\
  contents (ss_mem (addurl extra p s st)) s = l.
Proof.
  intros O Pp M C F. assert (K : place_ok st (PUrl p)) by (intros j; discriminate). unfold addurl. destruct (aget p (ss_urls st)) as [h|] eqn:E.
  - assert (Mh : may_hold P st (PUrl p) h) by (apply own_may_hold; [exact O|exact E]).
    destruct (owned_append P extra st (PUrl p) h (contents (ss_mem st) s) O K Mh) as (A & B & D & G). split; [exact A|]. split; [exact (G Pp)|]. split.
    + rewrite D, C. unfold holds. cbn [slice_at]. rewrite E. reflexivity.
    + unfold append_to, go_append. destruct Mh as [[R1 R2] _]. destruct M as [[S1 S2] _]. destruct (_ <=? _)%nat; rewrite put_mem; cbn [ss_mem set_mem].
      * unfold contents. rewrite array_upd by exact R1. assert (X := F h eq_refl). apply not_eq_sym, Nat.eqb_neq in X. rewrite X. exact C.
      * rewrite contents_app by (split; assumption). exact C.
  - destruct (owned_put P st (PUrl p) s O K M) as (A & B & D). split; [exact A|]. split; [exact B|]. split; [|exact C]. rewrite D, C. unfold holds. cbn [slice_at]. rewrite E. reflexivity.
Qed.

(* ... and once more, with the slice that was stored the first time *)
Lemma addurl_again P extra p s l st : owned P st -> P p = true -> contents (ss_mem st) s = l ->
  holds st (PUrl p) <> None ->
  owned P (addurl extra p s st) /\ (forall y, y <> PUrl p -> holds (addurl extra p s st) y = holds st y) /\
  holds (addurl extra p s st) (PUrl p) = Some (match holds st (PUrl p) with Some o => o | None => [] end ++ l).
Proof.
  intros O Pp C H. assert (K : place_ok st (PUrl p)) by (intros j; discriminate). unfold addurl. unfold holds in H. cbn [slice_at] in H. destruct (aget p (ss_urls st)) as [h|] eqn:E; [|destruct (H eq_refl)].
  assert (Mh : may_hold P st (PUrl p) h) by (apply own_may_hold; [exact O|exact E]).
  destruct (owned_append P extra st (PUrl p) h (contents (ss_mem st) s) O K Mh) as (A & B & D & G). split; [exact A|]. split; [exact (G Pp)|].
  rewrite D, C. unfold holds. cbn [slice_at]. rewrite E. reflexivity.
Qed.

Definition self_gets (st : slices) (o : slop) (id : Z) : option (list hdl) :=
  match o with
  | SAdd id' a => if (Z.eqb id id' && (1 <? List.length (value st a))%nat)%bool then Some (removelast (value st a)) else None
  | _ => None
  end.
Definition global_gets (st : slices) (o : slop) : list hdl := match o with SGlobal a => value st a | _ => [] end.
Definition url_gets (o : slop) (p : string) : list hdl := match o with SAny q (Lit l) => if String.eqb p q then added l else [] | _ => [] end.

Definition step_holds (st : slices) (o : slop) (x : place) : option (list hdl) :=
  match x with
  | PGlobal => option_map (fun l => l ++ global_gets st o) (holds st x)
  | PSelf id => match holds st x with Some l => Some l | None => self_gets st o id end
  | PUrl p => match url_gets o p with [] => holds st x | l => Some (match holds st x with Some o => o | None => [] end ++ l) end
  | PVar _ => None
  end.

Lemma pass_spec P st a st1 s : owned P st -> pass st a = Some (st1, s) ->
  owned P st1 /\ (forall y, holds st1 y = holds st y) /\ contents (ss_mem st1) s = value st a /\ List.length (value st a) = sl_len s /\ inrange (ss_mem st1) s /\
  ss_self st1 = ss_self st /\ ss_urls st1 = ss_urls st /\ ss_globals st1 = ss_globals st /\ ss_vars st1 = ss_vars st /\
  (forall i, a = Var i -> slice_at st1 (PVar i) = Some s) /\ (forall l, a = Lit l -> forall x, may_hold P st1 x s /\ forall y t, slice_at st1 y = Some t -> sl_arr t <> sl_arr s).
Proof.
  intros O. destruct a as [i|l]; cbn [pass].
  - destruct (nth_error (ss_vars st) i) as [t|] eqn:E; [|discriminate]. intros [= <- <-]. destruct (proj1 O (PVar i) t E) as [R1 R2].
    split; [exact O|]. split; [reflexivity|]. unfold value, holds. cbn [slice_at]. rewrite E. cbn [option_map]. split; [reflexivity|]. split; [unfold contents; rewrite firstn_length; lia|].
    split; [split; assumption|]. do 4 (split; [reflexivity|]). split; [intros j [= ->]; exact E|intros l; discriminate].
  - intros [= <- <-]. destruct (owned_alloc P st l O) as (A & B & C).
    split; [exact A|]. split; [exact B|]. split; [unfold contents; cbn [ss_mem set_mem sl_arr sl_len]; rewrite array_new; apply firstn_all|]. split; [reflexivity|].
    split; [exact (proj1 (C PGlobal _ (le_n _)))|]. do 4 (split; [reflexivity|]). split; [intros i; discriminate|]. intros l' _ x. split; [exact (C x _ (le_n _))|].
    intros y t G. rewrite slice_at_set_mem in G. destruct (proj1 O y t G) as [Q _]. cbn [sl_arr]. lia.
Qed.

Lemma pass_none st a : pass st a = None -> value st a = [].
Proof. destruct a as [i|l]; cbn [pass]; [|discriminate]. unfold value, holds. cbn [slice_at]. destruct (nth_error (ss_vars st) i); [discriminate|reflexivity]. Qed.

Lemma slstep_spec P extra st o : owned P st -> (forall p i, o = SAny p (Var i) -> P p = false) ->
  owned P (slstep extra st o) /\ forall x, private P x -> holds (slstep extra st o) x = step_holds st o x.
Proof.
  intros O V.
  assert (Stay : forall st', (forall y, holds st' y = holds st y) -> (global_gets st o = []) -> (forall id, self_gets st o id = None \/ holds st (PSelf id) <> None) -> (forall p, P p = true -> url_gets o p = []) ->
    forall x, private P x -> holds st' x = step_holds st o x).
  { intros st' H Gg Gs Gu x Px. rewrite H. destruct x as [i| |id|p]; cbn [step_holds]; [destruct Px| | |].
    - rewrite Gg. unfold holds. cbn [slice_at option_map]. rewrite app_nil_r. reflexivity.
    - destruct (holds st (PSelf id)) eqn:E; [reflexivity|]. destruct (Gs id) as [->|N]; [reflexivity|congruence].
    - rewrite (Gu p Px). reflexivity. }
  assert (Stay' : forall st', (forall y, private P y -> holds st' y = holds st y) -> (global_gets st o = []) -> (forall id, self_gets st o id = None) -> (forall p, P p = true -> url_gets o p = []) ->
    forall x, private P x -> holds st' x = step_holds st o x).
  { intros st' H Gg Gs Gu x Px. rewrite H by exact Px. apply (Stay st); auto. }
  destruct o as [l spare|i l|i k f|a|id a|p a]; cbn [slstep].
  - destruct (owned_alloc P st (l ++ spare) O) as (A & B & C).
    assert (K : place_ok (set_mem st (ss_mem st ++ [l ++ spare])) (next_var st)) by (intros j [= <-]; reflexivity).
    assert (L : (List.length l <= List.length (l ++ spare))%nat) by (rewrite app_length; lia).
    destruct (owned_put P _ _ _ A K (C (next_var st) _ L)) as (D & E & _). split; [exact D|]. apply Stay'; auto. intros y Py. rewrite E by (intros ->; exact Py). apply B.
  - destruct (nth_error (ss_vars st) i) as [s|] eqn:E; [|split; [exact O|apply Stay'; auto]].
    assert (K : place_ok st (next_var st)) by (intros j [= <-]; reflexivity).
    assert (M : may_hold P st (next_var st) s) by (apply (shared_may_hold P st i); [exact O|intros []|exact E]).
    destruct (owned_append P extra st (next_var st) s l O K M) as (A & B & _). split; [exact A|]. apply Stay'; auto. intros y Py. apply B; [intros ->; exact Py|exact Py].
  - destruct (nth_error (ss_vars st) i) as [s|] eqn:E; [|split; [exact O|apply Stay'; auto]].
    destruct (k <? sl_len s)%nat; [|split; [exact O|apply Stay'; auto]].
    destruct (proj1 O (PVar i) s E) as [R1 R2].
    destruct (owned_write P st s (upd (array (ss_mem st) (sl_arr s)) k f) O R1 (upd_len _ _ _)) as [A B]. split; [exact A|]. apply Stay'; auto.
    intros y Py. destruct (slice_at st y) as [t|] eqn:G; [|unfold holds; rewrite slice_at_set_mem, G; reflexivity]. apply (B y t G). apply (proj2 O y (PVar i) t s Py); auto. intros ->. exact Py.
  - destruct (pass st a) as [[st1 s]|] eqn:E; [|split; [exact O|apply Stay'; auto; apply (pass_none st a E)]].
    destruct (pass_spec P st a st1 s O E) as (A & B & C & D & _). 
    assert (K : place_ok st1 PGlobal) by (intros j; discriminate).
    assert (M : may_hold P st1 PGlobal (ss_globals st1)) by (apply own_may_hold; [exact A|reflexivity]).
    destruct (owned_append P extra st1 PGlobal (ss_globals st1) (contents (ss_mem st1) s) A K M) as (F & G & H & _). split; [exact F|].
    intros x Px. destruct x as [i| |id|p]; cbn [step_holds]; [destruct Px| | |].
    + rewrite H, C. rewrite <- (B PGlobal). unfold holds. reflexivity.
    + rewrite G, B by (exact Px || discriminate). cbn [self_gets]. destruct (holds st (PSelf id)); reflexivity.
    + rewrite G, B by (exact Px || discriminate). reflexivity.
  - destruct (pass st a) as [[st1 s]|] eqn:E.
    2: { split; [exact O|]. apply Stay; auto. intros id'. left. cbn [self_gets]. rewrite (pass_none st a E). cbn. rewrite Bool.andb_false_r. reflexivity. }
    destruct (pass_spec P st a st1 s O E) as (A & B & C & D & I & S & _). rewrite C.
    destruct (rev (value st a)) as [|f ms] eqn:Rv.
    { split; [exact A|]. apply Stay; auto. intros id'. left. cbn [self_gets]. apply (f_equal (@rev hdl)) in Rv. rewrite rev_involutive in Rv. rewrite Rv. cbn. rewrite Bool.andb_false_r. reflexivity. }
    assert (Vm : value st a = rev ms ++ [f]) by (apply (f_equal (@rev hdl)) in Rv; rewrite rev_involutive in Rv; exact Rv).
    assert (Ah : forall q g, (forall y, holds (add_handler q id g) y = holds q y) /\ (owned P q -> owned P (add_handler q id g))).
    { intros q g. assert (X : forall y, slice_at (add_handler q id g) y = slice_at q y) by (intros []; reflexivity). split; [intros y; unfold holds; rewrite X; reflexivity|].
      intros [R' O']. split; [intros y t; rewrite X; apply R'|intros y z t u; rewrite !X; apply O']. }
    assert (Fin : forall q, owned P q -> owned P (if ahas id (ss_handlers q) then q else add_handler q id f) /\ forall y, holds (if ahas id (ss_handlers q) then q else add_handler q id f) y = holds q y).
    { intros q Oq. destruct (ahas id (ss_handlers q)); [auto|]. split; [apply Ah; exact Oq|apply Ah]. }
    destruct (1 <? sl_len s)%nat eqn:L1; cbn [andb].
    + destruct (ahas id (ss_self st1)) eqn:Hs.
      * split; [exact A|]. apply Stay; auto. intros id'. cbn [self_gets]. destruct (Z.eqb id' id) eqn:Ei; [|left; reflexivity]. right. apply Z.eqb_eq in Ei. subst id'. rewrite <- (B (PSelf id)). unfold holds, ahas in *. cbn [slice_at]. destruct (aget id (ss_self st1)); discriminate.
      * destruct (owned_alloc P st1 (repeat Beat 10) A) as (A2 & B2 & C2). set (st2 := set_mem st1 (ss_mem st1 ++ [repeat Beat 10])) in *.
        assert (K : place_ok st2 (PSelf id)) by (intros j; discriminate).
        destruct (owned_append P extra st2 (PSelf id) _ (rev ms) A2 K (C2 (PSelf id) 0%nat (Nat.le_0_l _))) as (F & G & H & _).
        destruct (Fin _ F) as [F1 F2]. split; [exact F1|]. intros x Px. rewrite F2. destruct x as [i| |id'|p]; cbn [step_holds]; [destruct Px| | |].
        -- rewrite G, B2, B by (exact Px || discriminate). cbn [global_gets]. unfold holds. cbn [slice_at option_map]. rewrite app_nil_r. reflexivity.
        -- cbn [self_gets]. rewrite D, L1. destruct (Z.eqb id' id) eqn:Ei; cbn [andb].
           ++ apply Z.eqb_eq in Ei. subst id'. rewrite H. assert (Hn : holds st1 (PSelf id) = None) by (unfold holds; cbn [slice_at]; unfold ahas in Hs; destruct (aget id (ss_self st1)); [discriminate|reflexivity]). rewrite <- (B (PSelf id)), Hn. rewrite Vm, removelast_last. unfold contents. cbn [sl_len firstn app]. reflexivity.
           ++ apply Z.eqb_neq in Ei. rewrite G, B2, B by (exact Px || congruence). destruct (holds st (PSelf id')); reflexivity.
        -- rewrite G, B2, B by (exact Px || discriminate). reflexivity.
    + destruct (Fin _ A) as [F1 F2]. split; [exact F1|]. apply Stay; auto.
      * intros y. rewrite F2. apply B.
      * intros id'. left. cbn [self_gets]. rewrite D, L1, Bool.andb_false_r. reflexivity.
  - destruct (pass st a) as [[st1 s]|] eqn:E.
    2: { split; [exact O|]. apply Stay; auto. intros q Pq. cbn [url_gets]. destruct a as [i|l]; [reflexivity|discriminate E]. }
    destruct (pass_spec P st a st1 s O E) as (A & B & C & D & I & S & U & _ & _ & Gv & Gl).
    destruct (sl_len s =? 0)%nat eqn:L0.
    { split; [exact A|]. apply Stay; auto. intros q Pq. cbn [url_gets]. destruct a as [i|l]; [reflexivity|]. apply Nat.eqb_eq in L0. rewrite L0 in D. cbn [value] in D. destruct l; [|discriminate D]. destruct (String.eqb q p); reflexivity. }
    assert (M : P p = false \/ (exists l, a = Lit l) -> may_hold P st1 (PUrl p) s).
    { intros _. destruct a as [i|l]; [|exact (proj1 (Gl l eq_refl (PUrl p)))]. apply (shared_may_hold P st1 i); [exact A| |exact (Gv i eq_refl)]. cbn [private]. rewrite (V p i eq_refl). discriminate. }
    assert (Ms : may_hold P st1 (PUrl p) s) by (destruct a as [i|l]; [apply M; left; exact (V p i eq_refl)|apply M; right; eauto]). clear M.
    destruct (addurl_keeps P extra p s st1 A (fun _ => Ms)) as [A1 B1].
    destruct (addurl_keeps P extra p s _ A1 (fun N => match addurl_there extra p s st1 N with end)) as [A2 B2].
    assert (Oth : forall y, y <> PUrl p -> private P y -> holds (if (1 <? sl_len s)%nat then addurl extra p s (addurl extra p s st1) else addurl extra p s st1) y = holds st y).
    { intros y N Py. destruct (1 <? sl_len s)%nat; [rewrite B2 by assumption|]; rewrite B1 by assumption; apply B. }
    split; [destruct (1 <? sl_len s)%nat; assumption|]. intros x Px.
    replace (addurl extra p s (if (1 <? sl_len s)%nat then addurl extra p s st1 else st1)) with (if (1 <? sl_len s)%nat then addurl extra p s (addurl extra p s st1) else addurl extra p s st1) by (destruct (1 <? sl_len s)%nat; reflexivity).
    destruct (place_dec x (PUrl p)) as [->|N].
    2: { rewrite Oth by assumption.
      destruct x as [i| |id|q]; cbn [step_holds]; [destruct Px| | |].
      - unfold holds. cbn [slice_at option_map global_gets]. rewrite app_nil_r. reflexivity.
      - cbn [self_gets]. destruct (holds st (PSelf id)); reflexivity.
      - assert (Z : url_gets (SAny p a) q = []); [|rewrite Z; reflexivity]. cbn [url_gets]. destruct a as [i|l]; [reflexivity|]. destruct (String.eqb q p) eqn:Q; [apply String.eqb_eq in Q; congruence|reflexivity]. }
    cbn [private] in Px. destruct a as [i|l]; [rewrite (V p i eq_refl) in Px; discriminate|]. cbn [value] in C, D.
    destruct (Gl l eq_refl (PUrl p)) as [_ F]. assert (Un : forall h, aget p (ss_urls st1) = Some h -> sl_arr h <> sl_arr s) by (intros h Hh; exact (F (PUrl p) h Hh)).
    destruct (addurl_fresh P extra p s l st1 A Px Ms C Un) as (_ & _ & F1 & F2). cbn [step_holds url_gets]. rewrite String.eqb_refl. unfold added. rewrite D.
    destruct (1 <? sl_len s)%nat eqn:L1.
    + assert (Nn : holds (addurl extra p s st1) (PUrl p) <> None) by (rewrite F1; discriminate).
      destruct (addurl_again P extra p s l _ A1 Px F2 Nn) as (_ & _ & F3). rewrite F3, F1, B, <- app_assoc. destruct l; [apply Nat.eqb_neq in L0; cbn in D; lia|reflexivity].
    + rewrite F1, B. destruct l; [apply Nat.eqb_neq in L0; cbn in D; lia|reflexivity].
Qed.

Lemma owned0 P : owned P slices0.
Proof.
  split.
  - intros [i| |id|p] s; cbn; try (destruct i; discriminate); try discriminate. intros [= <-]. split; cbn; lia.
  - intros [i| |id|p] y s t Px N; cbn [slice_at]; try (cbn; discriminate); [destruct Px|]. intros _. destruct y as [i| |id|p]; cbn; try (destruct i; discriminate); try discriminate. congruence.
Qed.

Lemma slrun_snoc extra h o : slrun extra (h ++ [o]) = slstep extra (slrun extra h) o.
Proof. unfold slrun. rewrite fold_left_app. reflexivity. Qed.

Lemma slrun_owned P extra h : (forall p i, In (SAny p (Var i)) h -> P p = false) -> owned P (slrun extra h).
Proof.
  intros H. induction h as [|o h IH] using rev_ind; [apply owned0|]. rewrite slrun_snoc. apply slstep_spec.
  - apply IH. intros p i Hi. apply (H p i), in_or_app. left. exact Hi.
  - intros p i ->. apply (H p i), in_or_app. right. left. reflexivity.
Qed.

Definition nobody : string -> bool := fun _ => false.

Lemma p_C102_ids : forall extra h o,
  (forall id l, holds (slrun extra h) (PSelf id) = Some l -> holds (slrun extra (h ++ [o])) (PSelf id) = Some l) /\
  (forall id f, aget id (ss_handlers (slrun extra h)) = Some f -> aget id (ss_handlers (slrun extra (h ++ [o]))) = Some f) /\
  (forall id a ms f, o = SAdd id a -> value (slrun extra h) a = ms ++ [f] -> ms <> [] -> holds (slrun extra h) (PSelf id) = None -> holds (slrun extra (h ++ [o])) (PSelf id) = Some ms) /\
  exists l, holds (slrun extra h) PGlobal = Some l /\
    holds (slrun extra (h ++ [o])) PGlobal = Some (l ++ match o with SGlobal a => value (slrun extra h) a | _ => [] end).
Proof.
  intros extra h o. rewrite slrun_snoc. set (st := slrun extra h).
  assert (O : owned nobody st) by (apply slrun_owned; reflexivity).
  destruct (slstep_spec nobody extra st o O (fun _ _ _ => eq_refl)) as [_ S].
  split; [|split; [|split]].
  - intros id l H. rewrite S by exact I. cbn [step_holds]. rewrite H. reflexivity.
  - clear S O. intros id f H.
    assert (Ap : forall q x s l, ss_handlers (append_to extra q x s l) = ss_handlers q) by (intros q x s l; unfold append_to; destruct (go_append _ _ _ _), x; reflexivity).
    assert (Au : forall p s q, ss_handlers (addurl extra p s q) = ss_handlers q) by (intros p s q; unfold addurl; destruct (aget p (ss_urls q)); [apply Ap|reflexivity]).
    assert (Pa : forall a q s, pass st a = Some (q, s) -> ss_handlers q = ss_handlers st) by (intros [i|l] q s; cbn [pass]; [destruct (nth_error _ _); [intros [= <- _]; reflexivity|discriminate]|intros [= <- _]; reflexivity]).
    destruct o as [l spare|i l|i k g|a|id' a|p a]; cbn [slstep].
    + exact H.
    + destruct (nth_error _ _); [rewrite Ap|]; exact H.
    + destruct (nth_error _ _); [|exact H]. destruct (k <? _)%nat; exact H.
    + destruct (pass st a) as [[q s]|] eqn:E; [|exact H]. rewrite Ap, (Pa _ _ _ E). exact H.
    + destruct (pass st a) as [[q s]|] eqn:E; [|exact H]. assert (Hq := Pa _ _ _ E). destruct (rev _) as [|g ms]; [rewrite Hq; exact H|]. destruct (_ && _)%bool; [rewrite Hq; exact H|].
      set (r := if (1 <? sl_len s)%nat then _ else q). assert (Hr : ss_handlers r = ss_handlers st) by (unfold r; destruct (1 <? sl_len s)%nat; [rewrite Ap|]; exact Hq).
      destruct (ahas id' (ss_handlers r)) eqn:Ha; [rewrite Hr; exact H|]. cbn [add_handler ss_handlers]. rewrite aget_aset. destruct (keqb id id') eqn:K; [|rewrite Hr; exact H]. apply keqb_eq in K. subst id'. unfold ahas in Ha. rewrite Hr, H in Ha. discriminate.
    + destruct (pass st a) as [[q s]|] eqn:E; [|exact H]. assert (Hq := Pa _ _ _ E). destruct (_ =? _)%nat; [rewrite Hq; exact H|]. destruct (1 <? _)%nat; rewrite ?Au, Hq; exact H.
  - intros id a ms f -> Va Nn Hn. rewrite S by exact I. cbn [step_holds self_gets]. rewrite Hn, Va, Z.eqb_refl, removelast_last, app_length. destruct ms; [congruence|]. cbn [List.length]. replace (1 <? _)%nat with true by (symmetry; apply Nat.ltb_lt; cbn; lia). reflexivity.
  - eexists. split; [reflexivity|]. rewrite S by exact I. cbn [step_holds]. unfold holds, global_gets. cbn [slice_at option_map]. destruct o; reflexivity.
Qed.

Lemma any_urls p l m q : aget q (m_urls (fst (Any p l m))) = match url_gets (SAny p (Lit l)) q with [] => aget q (m_urls m) | a => Some (match aget q (m_urls m) with Some o => o | None => [] end ++ a) end.
Proof.
  assert (A : forall k n x, aget q (m_urls (AddURLPatternHandler k x n)) = if String.eqb q k then Some (match aget q (m_urls n) with Some o => o | None => [] end ++ x) else aget q (m_urls n)).
  { intros k n x. unfold AddURLPatternHandler. destruct (String.eqb q k) eqn:E.
    - apply String.eqb_eq in E. subst k. destruct (aget q (m_urls n)) eqn:G; cbn [set_urls m_urls]; rewrite aget_aset, keqb_refl; reflexivity.
    - destruct (aget k (m_urls n)); cbn [set_urls m_urls]; rewrite aget_aset; destruct (keqb q k) eqn:K; try reflexivity; apply keqb_eq in K; subst; rewrite String.eqb_refl in E; discriminate. }
  assert (B : forall i n, m_urls (fst (AddURLAnchor p i n)) = m_urls n) by (intros i n; unfold AddURLAnchor; destruct (ahas _ _); reflexivity).
  unfold Any. destruct l as [|x l]; [cbn; destruct (String.eqb q p); reflexivity|]. rewrite B. cbn [m_urls tick set_seed]. rewrite A. cbn [url_gets]. unfold added.
  destruct (String.eqb q p) eqn:E.
  - destruct (1 <? _)%nat eqn:L; [|reflexivity]. rewrite A, E, <- app_assoc. reflexivity.
  - destruct (1 <? _)%nat; [|reflexivity]. rewrite A, E. reflexivity.
Qed.

Lemma p_C102_literal_partial : forall extra h p, literal p h -> holds (slrun extra h) (PUrl p) = aget p (m_urls (build (lits h))).
Proof.
  intros extra h p L. set (P := fun q => String.eqb q p).
  assert (Pp : P p = true) by (apply String.eqb_refl).
  assert (N : forall q i, In (SAny q (Var i)) h -> P q = false).
  { intros q i H. unfold P. destruct (String.eqb q p) eqn:E; [|reflexivity]. apply String.eqb_eq in E. subst q. destruct (L i H). }
  clear L. induction h as [|o h IH] using rev_ind; [reflexivity|].
  assert (N' : forall q i, In (SAny q (Var i)) h -> P q = false) by (intros q i H; apply (N q i), in_or_app; left; exact H).
  rewrite slrun_snoc. destruct (slstep_spec P extra (slrun extra h) o (slrun_owned P extra h N')) as [_ S].
  { intros q i ->. apply (N q i), in_or_app. right. left. reflexivity. }
  rewrite (S (PUrl p) Pp). cbn [step_holds]. rewrite (IH N'). unfold lits. rewrite flat_map_app, rev_app_distr. fold (lits h). cbn [flat_map app].
  destruct o as [l spare|i l|i k f|a|id a|q [i|l]]; try reflexivity. cbn [app rev build]. change (rev (flat_map _ h)) with (lits h). change (fst (step (OAny q l) (build (lits h)))) with (fst (Any q l (build (lits h)))). rewrite any_urls. reflexivity.
Qed.

Lemma p_C102_append_refuted : forall extra l spare x p, (2 <= List.length l <= List.length spare)%nat ->
  holds (slrun extra [SMake l spare; SAny p (Var 0)]) (PUrl p) = Some (l ++ l) /\
  holds (slrun extra [SMake l spare; SAny p (Var 0); SAppend 0 [x]]) (PUrl p) = Some (l ++ x :: tl l).
Proof.
  intros extra l spare x p [L2 Ls].
  assert (E : slrun extra [SMake l spare; SAny p (Var 0)] = SS [repeat Beat 10; write_at (l ++ spare) (List.length l) l] [Sl 1 (List.length l)] (Sl 0 0) [] [(p, Sl 1 (List.length l + List.length l))] []).
  { unfold slrun, slices0. cbn [fold_left slstep set_mem put ss_mem ss_vars ss_globals ss_self ss_urls ss_handlers next_var pass app nth_error List.length].
    cbn [sl_len]. destruct (Nat.eqb_spec (List.length l) 0); [lia|]. replace (1 <? List.length l)%nat with true by (symmetry; apply Nat.ltb_lt; lia).
    unfold addurl at 2. cbn [ss_urls aget put ss_mem ss_vars ss_globals ss_self ss_handlers aset]. unfold addurl. cbn [ss_urls]. rewrite aget_aset, keqb_refl.
    unfold append_to, go_append. cbn [ss_mem sl_arr sl_len]. unfold contents, array. cbn [nth sl_arr sl_len].
    assert (F : firstn (List.length l) (l ++ spare) = l) by (rewrite firstn_app, Nat.sub_diag, firstn_O, app_nil_r; apply firstn_all). rewrite F, app_length.
    replace (List.length l + List.length l <=? List.length l + List.length spare)%nat with true by (symmetry; apply Nat.leb_le; lia).
    cbn [upd set_mem put ss_mem ss_vars ss_globals ss_self ss_urls ss_handlers]. unfold aset. cbn. rewrite ?String.eqb_refl. reflexivity. }
  change [SMake l spare; SAny p (Var 0); SAppend 0 [x]] with ([SMake l spare; SAny p (Var 0)] ++ [SAppend 0 [x]]). rewrite slrun_snoc, E.
  assert (W : (List.length l + List.length l <= List.length (l ++ spare))%nat) by (rewrite app_length; lia).
  assert (F : firstn (List.length l) (l ++ spare) = l) by (rewrite firstn_app, Nat.sub_diag, firstn_O, app_nil_r; apply firstn_all).
  split.
  - unfold holds. cbn [slice_at ss_urls aget ss_mem]. rewrite keqb_refl. cbn [option_map]. unfold contents, array. cbn [sl_arr sl_len nth]. rewrite write_read, F by exact W. reflexivity.
  - cbn [slstep ss_vars nth_error]. unfold append_to, go_append. cbn [ss_mem sl_arr sl_len]. unfold array. cbn [nth]. rewrite write_len by exact W.
    replace (List.length l + List.length [x] <=? List.length (l ++ spare))%nat with true by (symmetry; apply Nat.leb_le; cbn [List.length]; lia).
    unfold holds, next_var. cbn [upd set_mem put slice_at ss_urls aget ss_mem ss_vars]. rewrite keqb_refl. cbn [option_map]. unfold contents, array. cbn [sl_arr sl_len nth]. f_equal.
    unfold write_at. rewrite F. set (r := skipn (List.length l + List.length l) (l ++ spare)).
    rewrite !firstn_app, !Nat.sub_diag. cbn [firstn]. rewrite !app_nil_r, !firstn_all.
    replace (List.length l + List.length l - List.length l)%nat with (List.length l) by lia. rewrite firstn_all2 by lia. f_equal.
    { rewrite firstn_nil. cbn [List.length app]. rewrite Nat.sub_0_l, firstn_O, firstn_nil, app_nil_r. reflexivity. }
    rewrite skipn_app. cbn [List.length]. rewrite (skipn_all2 (n := List.length l + 1) l) by lia. cbn [app].
    replace (List.length l + 1 - List.length l)%nat with 1%nat by lia. destruct l as [|y l]; [cbn in L2; lia|]. cbn [tl List.length]. replace (S (List.length l) - 1)%nat with (List.length l) by lia. cbn [firstn skipn app]. rewrite firstn_nil. cbn [app]. f_equal. rewrite firstn_app, Nat.sub_diag, firstn_O, app_nil_r. apply firstn_all.
Qed.

Lemma p_C102_write_refuted : forall extra f spare x p,
  holds (slrun extra [SMake [f] spare; SAny p (Var 0)]) (PUrl p) = Some [f] /\ holds (slrun extra [SMake [f] spare; SAny p (Var 0); SWrite 0 0 x]) (PUrl p) = Some [x].
Proof. intros extra f spare x p. unfold slrun, holds. cbn. rewrite !String.eqb_refl. split; reflexivity. Qed.
