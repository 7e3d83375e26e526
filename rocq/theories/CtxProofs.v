(* Contexts: the two stores, router type, URL pattern, reply helpers. *)
From Verif Require Export SpecCtx CtxFacts SpecWire SpecHeader WireFacts WireProofs.

Lemma RouterType_exact hc h x c : nth_error (w_ctxs (crun hc h)) x = Some c ->
  exists s, req_slot h x = Some s /\
    fst (RouterType hc c (crun hc h)) =
      match val hc h s (KStr "router_type") with Some (VStr t) => Ok t | _ => own_router_type hc (stream_of h x) end.
Proof.
  intros H. destruct (stores_exact hc h x c k_router H) as (_ & (s & Hs & Hg) & Hst). exists s. split; auto.
  unfold RouterType, routerType. rewrite Hg, Hst. change (KStr "router_type") with k_router.
  destruct (val hc h s k_router) as [[t| |]|]; simpl; auto; destruct (own_router_type hc (stream_of h x)); reflexivity.
Qed.

Lemma GetURL_exact hc h x c : nth_error (w_ctxs (crun hc h)) x = Some c ->
  exists s, req_slot h x = Some s /\
    fst (GetURLPattern hc c (crun hc h)) =
      match val hc h s (KStr "url_pattern") with Some (VStr t) => Ok t | _ => rwrap (URLPatternOf hc (stream_of h x)) end.
Proof.
  intros H. destruct (stores_exact hc h x c k_url H) as (_ & (s & Hs & Hg) & Hst). exists s. split; auto.
  unfold GetURLPattern. rewrite Hg, Hst. change (KStr "url_pattern") with k_url.
  destruct (val hc h s k_url) as [[t| |]|]; simpl; auto; destruct (URLPatternOf hc (stream_of h x)); reflexivity.
Qed.

Lemma header_of_layout hc id hdr body b s hd : is_int32 id -> frame_layout id hdr body b -> blen b < 2 ^ 31 ->
  gwf s -> gbytes s = b -> hunmarshal hc hdr = Ok hd -> HeaderOf hc s = Ok hd /\ MessageIDOf s = Ok id /\ glen s <> 0.
Proof.
  intros Hi Hf Hl Hw Hb Hh. destruct (p_C03_accessors_agree id hdr body b [] s) as (_ & A & _ & _ & (r & B & C) & _); auto.
  { rewrite app_nil_r. auto. }
  split; [|split; auto].
  - unfold HeaderOf. rewrite B. cbn [rwrap rbind]. rewrite C, Hh. reflexivity.
  - intros Q. unfold glen in Q. rewrite <- (gbytes_length s Hw), Hb in Q.
    destruct Hf as (l & i & h & bb & Ll & _ & _ & _ & -> & _). rewrite app_length, Ll in Q. lia.
Qed.

Lemma hlen_hget hd k : Nat.eqb (hlen hd) 0 = true -> hget k hd = None.
Proof. intros H. apply Nat.eqb_eq in H. destruct hd as [[|]|]; simpl in *; auto. discriminate. Qed.

Definition router_of (hd : header) : string :=
  match hget "Router-Type" hd with Some (JStr t) => t | _ => "MESSAGE_ID" end.

Lemma own_of_header hc s hd : HeaderOf hc s = Ok hd -> glen s <> 0 -> own_router_type hc s = Ok (router_of hd).
Proof.
  intros H G. unfold own_router_type. destruct (Z.eqb_spec (glen s) 0); [contradiction|]. rewrite H. unfold router_of.
  destruct (Nat.eqb (hlen hd) 0) eqn:L; [rewrite (hlen_hget _ _ L); auto|].
  change HEADER_ROUTER_KEY with "Router-Type"%string. destruct (hget "Router-Type" hd) as [[]|]; auto.
  destruct (String.eqb s0 MESSAGEID) eqn:Q; auto. apply String.eqb_eq in Q. subst. auto.
Qed.

Lemma url_of_header hc s hd : HeaderOf hc s = Ok hd ->
  URLPatternOf hc s = match hget "Router-Pattern-Value" hd with Some (JStr u) => Ok u | None => Ok EmptyString
                      | Some _ => Err (EWrap (EMsg "key exist but is not a string type")) end.
Proof.
  intros H. unfold URLPatternOf. rewrite H. cbn [rwrap rbind]. unfold headerGetString.
  destruct (Nat.eqb (hlen hd) 0) eqn:L; [rewrite (hlen_hget _ _ L); auto|].
  change HEADER_ROUTER_VALUE with "Router-Pattern-Value"%string. destruct (hget "Router-Pattern-Value" hd) as [[]|]; auto.
Qed.

Lemma Load_self c k v w : Load (w_heap (set_heap w (Store (w_heap w) (c_pr c) k v))) (c_pr c) k = Some v.
Proof. cbn [set_heap w_heap]. rewrite Load_Store, Nat.eqb_refl, keqb_refl. reflexivity. Qed.

Lemma RouterType_again hc c w t w1 : RouterType hc c w = (Ok t, w1) -> RouterType hc c w1 = (Ok t, w1).
Proof.
  unfold RouterType. intros H. destruct (routerType hc c w) as [[t' [|]]| |] eqn:R; inversion H; subst.
  - rewrite R. auto.
  - unfold routerType, GetCtxPerRequest. rewrite Load_self. reflexivity.
Qed.

Lemma route_by hc c w t hd id : fst (RouterType hc c w) = Ok t -> HeaderOf hc (c_stream c) = Ok hd -> MessageIDOf (c_stream c) = Ok id ->
  fst (route hc c w) = Ok (routing_by t hd id).
Proof.
  intros Ht Hh Hi. unfold route. destruct (RouterType hc c w) as (r & w1) eqn:R. simpl in Ht. subst r.
  unfold routing_by. change MESSAGEID with "MESSAGE_ID"%string. change URLPATTERN with "URL_PATTERN"%string.
  rewrite Hi. destruct (String.eqb t "MESSAGE_ID"); auto. rewrite (RouterType_again _ _ _ _ _ R).
  destruct (String.eqb t "URL_PATTERN"); auto. rewrite (url_of_header _ _ _ Hh).
  destruct (hget "Router-Pattern-Value" hd) as [[]|]; auto.
Qed.

Lemma asked_by hd id : asked_routing hd id = routing_by (router_of hd) hd id.
Proof.
  unfold asked_routing, routing_by, router_of. destruct (hget "Router-Type" hd) as [[]|]; auto.
  destruct (String.eqb s "MESSAGE_ID") eqn:A, (String.eqb s "URL_PATTERN") eqn:B; auto.
  apply String.eqb_eq in A, B. subst. discriminate.
Qed.

(* a string under the cache key stays there *)
Lemma cache_sticky hc k s t h2 : forall h, (k = KStr "router_type" \/ k = KStr "url_pattern") ->
  val hc h s k = Some (VStr t) -> existsb (names_key k) h2 = false ->
  (match s with SConn _ => True | SPriv x => forall y, In (CReset y) h2 -> y <> x end) ->
  val hc (h2 ++ h) s k = Some (VStr t).
Proof.
  induction h2 as [|o h2 IH]; intros h Hk Hv Hn Hr; auto.
  cbn [existsb app] in *. apply orb_false_iff in Hn as (Hn & Hn').
  assert (IH' : val hc (h2 ++ h) s k = Some (VStr t)).
  { apply IH; auto. destruct s; auto. intros y Hy. apply Hr. right; auto. }
  cbn [val]. cbv zeta. rewrite IH'. destruct o; auto; cbn [names_key] in Hn; try rewrite Hn; rewrite ?andb_false_r; auto.
  destruct s as [d|z]; simpl slot_eqb; auto. destruct (Nat.eqb x z) eqn:E; auto. apply Nat.eqb_eq in E. subst. exfalso. eapply Hr; [left; reflexivity|reflexivity].
Qed.

Lemma no_writes hc k s h : existsb (names_key k) h = false -> k <> KStr "router_type" -> k <> KStr "url_pattern" -> val hc h s k = None.
Proof.
  intros H N1 N2. induction h as [|o h IH]; auto. cbn [existsb] in H. apply orb_false_iff in H as (H & H'). specialize (IH H').
  assert (Q : forall k', k <> k' -> keqb k k' = false). { intros k' N. apply not_true_iff_false. rewrite keqb_eq. auto. }
  cbn [val]; cbv zeta. rewrite IH. destruct o; auto; cbn [names_key] in H; try rewrite H; rewrite ?Q by auto; rewrite ?andb_false_r; auto.
  destruct (slot_eqb (SPriv x) s && exists_ctx h x); auto.
Qed.

Lemma born_app_list h2 : forall h x a, nth_error (born h) x = Some a -> nth_error (born (h2 ++ h)) x = Some a.
Proof. induction h2; intros; auto. simpl app. apply born_mono. auto. Qed.

(* after routing a message whose connection storage holds no string, its own type is stored *)
Lemma router_stores hc h y c t : nth_error (w_ctxs (crun hc h)) y = Some c -> fst (RouterType hc c (crun hc h)) = Ok t ->
  exists s, req_slot h y = Some s /\ val hc (CRouter y :: h) s (KStr "router_type") = Some (VStr t).
Proof.
  intros Hc Ht. destruct (RouterType_exact hc h y c Hc) as (s & Hs & E). rewrite Ht in E. exists s. split; auto.
  cbn [val]. cbv zeta. rewrite Hs. cbn [is_slot]. rewrite slot_eqb_refl, keqb_refl. cbn [andb].
  destruct (val hc h s (KStr "router_type")) as [[u| |]|]; cbn [is_string negb]; try congruence; rewrite <- E; auto.
Qed.

Lemma url_stores hc h y c t : nth_error (w_ctxs (crun hc h)) y = Some c -> fst (GetURLPattern hc c (crun hc h)) = Ok t ->
  exists s, req_slot h y = Some s /\ val hc (CURL y :: h) s (KStr "url_pattern") = Some (VStr t).
Proof.
  intros Hc Ht. destruct (GetURL_exact hc h y c Hc) as (s & Hs & E). rewrite Ht in E. exists s. split; auto.
  cbn [val]. cbv zeta. rewrite Hs. cbn [is_slot]. rewrite slot_eqb_refl, keqb_refl. cbn [andb].
  destruct (val hc h s (KStr "url_pattern")) as [[u| |]|]; cbn [is_string negb]; try congruence;
    (destruct (URLPatternOf hc (stream_of h y)); simpl in E; try discriminate; inversion E; auto).
Qed.

Lemma p_C34_router_type_exact : forall hc h x c, nth_error (w_ctxs (crun hc h)) x = Some c ->
  exists s, req_slot h x = Some s /\
    fst (RouterType hc c (crun hc h)) =
      match val hc h s (KStr "router_type") with
      | Some (VStr t) => Ok t
      | _ => own_router_type hc (stream_of h x)
      end.
Proof. intros hc h x c H. apply RouterType_exact. exact H. Qed.

Lemma p_C34_own_type_partial : forall hc h x c s id hdr body hd,
  nth_error (w_ctxs (crun hc h)) x = Some c -> req_slot h x = Some s ->
  is_string (val hc h s (KStr "router_type")) = false ->
  is_int32 id -> frame_layout id hdr body (gbytes (stream_of h x)) -> blen (gbytes (stream_of h x)) < 2 ^ 31 ->
  gwf (stream_of h x) -> hunmarshal hc hdr = Ok hd ->
  fst (route hc c (crun hc h)) = Ok (asked_routing hd id).
Proof.
  intros hc h x c s id hdr body hd Hc Hs Hv Hi Hf Hl Hw Hh.
  destruct (header_of_layout hc id hdr body _ (stream_of h x) hd Hi Hf Hl Hw eq_refl Hh) as (A & B & G).
  destruct (RouterType_exact hc h x c Hc) as (s' & Hs' & E). rewrite Hs in Hs'. inversion Hs'; subst s'.
  destruct (stores_exact hc h x c k_router Hc) as (_ & _ & Hst).
  rewrite asked_by. apply route_by; rewrite ?Hst; auto. rewrite E.
  destruct (val hc h s (KStr "router_type")) as [[u| |]|]; try discriminate; apply own_of_header; auto.
Qed.

Lemma conn_slot_priv h y x : is_slot (conn_slot h y) (SPriv x) = true -> y = x.
Proof.
  unfold conn_slot. destruct (nth_error (born h) y) as [[| |]|]; simpl; try discriminate. intros H. apply Nat.eqb_eq in H. auto.
Qed.

Lemma req_slot_priv h y x : is_slot (req_slot h y) (SPriv x) = true -> y = x.
Proof.
  unfold req_slot. destruct (nth_error (born h) y) as [[| |]|]; simpl; try discriminate; try (intros H; apply Nat.eqb_eq in H; exact H).
  destruct (was_reset h y); simpl; try discriminate. intros H; apply Nat.eqb_eq in H; exact H.
Qed.

Lemma gram_before o p x : nth_error (born (o :: p)) x = Some Gram -> nth_error (born p) x = Some Gram \/
  (nth_error (born p) x = None /\ exists s, o = CDatagram s).
Proof.
  intros H. destruct (nth_error (born p) x) as [a|] eqn:E; [left; rewrite (born_mono _ _ _ _ E) in H; auto|right; split; auto].
  destruct o; simpl in H; try congruence; eauto.
  - apply nth_snoc in H as [H|(_ & H)]; congruence.
  - destruct (nth_error (born p) x0) as [[| |]|]; try congruence; apply nth_snoc in H as [H|(_ & H)]; congruence.
Qed.

Lemma gram_stream o p x : nth_error (born p) x = Some Gram -> stream_of (o :: p) x = stream_of p x.
Proof.
  intros H. assert (L : (x < List.length (born p))%nat) by (apply nth_error_Some; congruence).
  destruct o; simpl; auto.
  - replace (Nat.eqb x (List.length (born p))) with false; auto. symmetry. apply Nat.eqb_neq. lia.
  - destruct (nth_error (born p) x0) as [[| |]|] eqn:E; auto;
    (replace (Nat.eqb x (List.length (born p)) || Nat.eqb x x0) with false; auto; symmetry; apply orb_false_iff; split; apply Nat.eqb_neq; [lia|congruence]).
Qed.

(* the cached type or pattern of a datagram is its own *)
Lemma gram_cache hc h x k : (k = KStr "router_type" \/ k = KStr "url_pattern") -> nth_error (born h) x = Some Gram ->
  (forall o, In o h -> subject o = Some x -> names_key k o = false) ->
  val hc h (SPriv x) k = None \/ exists t, val hc h (SPriv x) k = Some (VStr t) /\
    (if keqb k (KStr "router_type") then own_router_type hc (stream_of h x) else URLPatternOf hc (stream_of h x)) = Ok t.
Proof.
  intros Hk. induction h as [|o p IH]; intros Hb Hn; [left; reflexivity|].
  destruct (gram_before _ _ _ Hb) as [Hp|(Hp & s & ->)].
  2: { left. cbn [val]. apply val_nonexistent. apply not_true_iff_false. rewrite exists_ctx_iff. congruence. }
  rewrite (gram_stream o p x Hp).
  assert (IH' := IH Hp (fun o' I => Hn o' (or_intror I))). clear IH.
  pose proof (Hn o (or_introl eq_refl)) as Ho.
  destruct o; cbn [val]; cbv zeta; auto.
  - destruct (is_slot (conn_slot p x0) (SPriv x)) eqn:E; auto. apply conn_slot_priv in E. subst. specialize (Ho eq_refl). cbn [names_key] in Ho. rewrite Ho. auto.
  - destruct (is_slot (req_slot p x0) (SPriv x)) eqn:E; auto. apply req_slot_priv in E. subst. specialize (Ho eq_refl). cbn [names_key] in Ho. rewrite Ho. auto.
  - destruct (is_slot (conn_slot p x0) (SPriv x)) eqn:E; auto. apply conn_slot_priv in E. subst. specialize (Ho eq_refl). cbn [names_key] in Ho. rewrite Ho. auto.
  - destruct (is_slot (req_slot p x0) (SPriv x)) eqn:E; auto. apply req_slot_priv in E. subst.
    destruct (keqb k (KStr "router_type")) eqn:Ek; auto. destruct IH' as [->|(t & -> & Q)]; cbn [andb is_string negb]; [|right; eauto].
    destruct (own_router_type hc (stream_of p x)) eqn:Q; auto. right. eauto.
  - destruct (is_slot (req_slot p x0) (SPriv x)) eqn:E; auto. apply req_slot_priv in E. subst.
    destruct (keqb k (KStr "url_pattern")) eqn:Ek; auto. apply keqb_eq in Ek. subst k. change (keqb (KStr "url_pattern") (KStr "router_type")) with false in *.
    destruct IH' as [->|(t & -> & Q)]; cbn [andb is_string negb]; [|right; eauto].
    destruct (URLPatternOf hc (stream_of p x)) eqn:Q; auto. right. eauto.
  - destruct (slot_eqb (SPriv x0) (SPriv x) && exists_ctx p x0); auto.
  - destruct (is_slot (conn_slot p x0) (SPriv x)) eqn:E; auto. apply conn_slot_priv in E. subst. specialize (Ho eq_refl). cbn [names_key] in Ho. rewrite Ho. auto.
Qed.

Lemma p_C34_datagram_own_type : forall hc h x c id hdr body hd,
  nth_error (w_ctxs (crun hc h)) x = Some c -> nth_error (born h) x = Some Gram ->
  (forall o, In o h -> subject o = Some x -> names_key (KStr "router_type") o = false) ->
  is_int32 id -> frame_layout id hdr body (gbytes (stream_of h x)) -> blen (gbytes (stream_of h x)) < 2 ^ 31 ->
  gwf (stream_of h x) -> hunmarshal hc hdr = Ok hd ->
  fst (route hc c (crun hc h)) = Ok (asked_routing hd id).
Proof.
  intros hc h x c id hdr body hd Hc Hb Hn Hi Hf Hl Hw Hh.
  destruct (header_of_layout hc id hdr body _ (stream_of h x) hd Hi Hf Hl Hw eq_refl Hh) as (A & B & G).
  assert (Hst : c_stream c = stream_of h x) by apply (stores_exact hc h x c k_router Hc).
  rewrite asked_by. apply route_by; rewrite ?Hst; auto.
  destruct (RouterType_exact hc h x c Hc) as (s & Hs & E). rewrite E.
  assert (s = SPriv x) as ->. { unfold req_slot in Hs. rewrite Hb in Hs. congruence. }
  destruct (gram_cache hc h x (KStr "router_type") (or_introl eq_refl) Hb Hn) as [->|(t & -> & Q)].
  - apply own_of_header; auto.
  - rewrite (own_of_header _ _ _ A G) in Q. inversion Q. reflexivity.
Qed.

Lemma p_C34_sticky_refuted : forall hc h h2 c y cy t x cx id hdr body hd,
  let h' := h2 ++ CRouter y :: h in
  nth_error (w_ctxs (crun hc h)) y = Some cy -> nth_error (born h) y = Some (Req c) -> was_reset h y = false ->
  fst (RouterType hc cy (crun hc h)) = Ok t ->
  existsb (names_key (KStr "router_type")) h2 = false ->
  nth_error (w_ctxs (crun hc h')) x = Some cx -> nth_error (born h') x = Some (Req c) -> was_reset h' x = false ->
  is_int32 id -> frame_layout id hdr body (gbytes (stream_of h' x)) -> blen (gbytes (stream_of h' x)) < 2 ^ 31 ->
  gwf (stream_of h' x) -> hunmarshal hc hdr = Ok hd ->
  fst (RouterType hc cx (crun hc h')) = Ok t /\
  fst (route hc cx (crun hc h')) = Ok (routing_by t hd id).
Proof.
  intros hc h h2 c y cy t x cx id hdr body hd h' Hy By Ry Ht Hn Hx Bx Rx Hi Hf Hl Hw Hh.
  destruct (router_stores hc h y cy t Hy Ht) as (s & Hs & Hv).
  assert (s = SConn c) as ->. { unfold req_slot in Hs. rewrite By, Ry in Hs. congruence. }
  assert (Hv' : val hc h' (SConn c) (KStr "router_type") = Some (VStr t)) by (apply cache_sticky; auto).
  destruct (RouterType_exact hc h' x cx Hx) as (s & Hs' & E).
  assert (s = SConn c) as ->. { unfold req_slot in Hs'. rewrite Bx, Rx in Hs'. congruence. }
  rewrite Hv' in E. split; auto.
  destruct (header_of_layout hc id hdr body _ (stream_of h' x) hd Hi Hf Hl Hw eq_refl Hh) as (A & B & G).
  assert (Hst : c_stream cx = stream_of h' x) by apply (stores_exact hc h' x cx k_router Hx).
  apply route_by; rewrite ?Hst; auto.
Qed.

Lemma p_C35_pattern_exact : forall hc h x c, nth_error (w_ctxs (crun hc h)) x = Some c ->
  exists s, req_slot h x = Some s /\
    fst (GetURLPattern hc c (crun hc h)) =
      match val hc h s (KStr "url_pattern") with
      | Some (VStr t) => Ok t
      | _ => rwrap (URLPatternOf hc (stream_of h x))
      end.
Proof. intros hc h x c H. apply GetURL_exact. exact H. Qed.

Lemma p_C35_reply_carries_reported_pattern : forall {V} (E : env V) c src werr w fmt reply,
  (fmt = FJson /\ reply = JSONURLPattern E) \/ (fmt = FProtobuf /\ reply = ProtobufURLPattern E) ->
  match fst (GetURLPattern (e_hdr E) c w), fst (reply c src werr w) with
  | Ok p, (r, [b]) =>
      (blen b - 4 < 2 ^ 32 -> exists hdr body,
        hmarshal (e_hdr E) (Some [("Router-Type"%string, JStr "URL_PATTERN"); ("Router-Pattern-Value"%string, JStr p)]) = Ok hdr /\
        body_encoding E (Some (format_marshaller E fmt)) src body /\ frame_layout 0 hdr body b) /\
      write_outcome werr r
  | Ok p, (r, ws) => ws = [] /\ r = match MessagePack E (NewURLPatternMessage p src) (Some (format_marshaller E fmt)) with Err e => Err (EWrap e) | _ => Panic end
  | Err e, (r, ws) => ws = [] /\ r = Err (EWrap e)
  | Panic, (r, ws) => ws = [] /\ r = Panic
  end.
Proof.
  intros V E c src werr w fmt reply HR.
  assert (reply = reply_url E (format_marshaller E fmt)) as -> by (destruct HR as [(-> & ->)|(-> & ->)]; reflexivity). clear HR.
  unfold reply_url. destruct (GetURLPattern (e_hdr E) c w) as ([p| |] & w'); cbn [fst]; try (split; reflexivity).
  unfold send. destruct (MessagePack E (NewURLPatternMessage p src) (Some (format_marshaller E fmt))) as [b| |] eqn:P; cbn [fst]; try (split; reflexivity).
  cbn [replyBuf]. split.
  - intros L. destruct (p_C01_pack_layout _ E _ _ _ P L) as (hdr & body & A & B & C). exists hdr, body. auto.
  - destruct werr; simpl; auto.
Qed.

Lemma p_C35_own_pattern_partial : forall hc h x c s id hdr body hd,
  nth_error (w_ctxs (crun hc h)) x = Some c -> req_slot h x = Some s ->
  is_string (val hc h s (KStr "url_pattern")) = false ->
  is_int32 id -> frame_layout id hdr body (gbytes (stream_of h x)) -> blen (gbytes (stream_of h x)) < 2 ^ 31 ->
  gwf (stream_of h x) -> hunmarshal hc hdr = Ok hd ->
  match asked_pattern hd with
  | Some u => fst (GetURLPattern hc c (crun hc h)) = Ok u
  | None => exists e, fst (GetURLPattern hc c (crun hc h)) = Err e
  end.
Proof.
  intros hc h x c s id hdr body hd Hc Hs Hv Hi Hf Hl Hw Hh. destruct (GetURL_exact hc h x c Hc) as (s' & Hs' & E). rewrite Hs in Hs'. inversion Hs'; subst s'.
  destruct (header_of_layout hc id hdr body _ (stream_of h x) hd Hi Hf Hl Hw eq_refl Hh) as (A & _).
  assert (E' : fst (GetURLPattern hc c (crun hc h)) = rwrap (URLPatternOf hc (stream_of h x))).
  { rewrite E. destruct (val hc h s (KStr "url_pattern")) as [[]|]; try discriminate; auto. }
  rewrite E', (url_of_header _ _ _ A). unfold asked_pattern. destruct (hget "Router-Pattern-Value" hd) as [[]|]; cbn [rwrap]; eauto.
Qed.

Lemma p_C35_datagram_own_pattern : forall hc h x c id hdr body hd u,
  nth_error (w_ctxs (crun hc h)) x = Some c -> nth_error (born h) x = Some Gram ->
  (forall o, In o h -> subject o = Some x -> names_key (KStr "url_pattern") o = false) ->
  is_int32 id -> frame_layout id hdr body (gbytes (stream_of h x)) -> blen (gbytes (stream_of h x)) < 2 ^ 31 ->
  gwf (stream_of h x) -> hunmarshal hc hdr = Ok hd -> asked_pattern hd = Some u ->
  fst (GetURLPattern hc c (crun hc h)) = Ok u.
Proof.
  intros hc h x c id hdr body hd u Hc Hb Hn Hi Hf Hl Hw Hh Hu0. destruct (GetURL_exact hc h x c Hc) as (s & Hs & E). rewrite E.
  destruct (header_of_layout hc id hdr body _ (stream_of h x) hd Hi Hf Hl Hw eq_refl Hh) as (A & _).
  assert (Hu : URLPatternOf hc (stream_of h x) = Ok u).
  { rewrite (url_of_header _ _ _ A). unfold asked_pattern in Hu0. destruct (hget "Router-Pattern-Value" hd) as [[]|]; congruence. }
  assert (s = SPriv x) as ->. { unfold req_slot in Hs. rewrite Hb in Hs. congruence. }
  destruct (gram_cache hc h x (KStr "url_pattern") (or_intror eq_refl) Hb Hn) as [->|(t & -> & Q)].
  - rewrite Hu. reflexivity.
  - change (keqb (KStr "url_pattern") (KStr "router_type")) with false in Q. cbv iota in Q. congruence.
Qed.

Lemma p_C35_sticky_refuted : forall hc h h2 c y cy u x cx,
  let h' := h2 ++ CURL y :: h in
  nth_error (w_ctxs (crun hc h)) y = Some cy -> nth_error (born h) y = Some (Req c) -> was_reset h y = false ->
  fst (GetURLPattern hc cy (crun hc h)) = Ok u ->
  existsb (names_key (KStr "url_pattern")) h2 = false ->
  nth_error (w_ctxs (crun hc h')) x = Some cx -> nth_error (born h') x = Some (Req c) -> was_reset h' x = false ->
  fst (GetURLPattern hc cx (crun hc h')) = Ok u.
Proof.
  intros hc h h2 c y cy u x cx h' Hy By Ry Ht Hn Hx Bx Rx.
  destruct (url_stores hc h y cy u Hy Ht) as (s & Hs & Hv).
  assert (s = SConn c) as ->. { unfold req_slot in Hs. rewrite By, Ry in Hs. congruence. }
  assert (Hv' : val hc h' (SConn c) (KStr "url_pattern") = Some (VStr u)) by (apply cache_sticky; auto).
  destruct (GetURL_exact hc h' x cx Hx) as (s & Hs' & E).
  assert (s = SConn c) as ->. { unfold req_slot in Hs'. rewrite Bx, Rx in Hs'. congruence. }
  rewrite Hv' in E. exact E.
Qed.

Lemma other_subject hc o p s k : (forall y, subject o = Some y -> is_slot (conn_slot p y) s = false /\ is_slot (req_slot p y) s = false /\ s <> SPriv y) ->
  val hc (o :: p) s k = val hc p s k.
Proof.
  intros H. destruct o; cbn [val]; cbv zeta; auto; destruct (H _ eq_refl) as (-> & -> & N) || destruct (H _ eq_refl) as (-> & _ & N) || destruct (H _ eq_refl) as (_ & -> & N) || destruct (H _ eq_refl) as (_ & _ & N); auto.
  destruct (slot_eqb (SPriv x) s) eqn:E; auto. apply slot_eqb_eq in E. congruence.
Qed.

Lemma req_slot_kept o p x a : nth_error (born p) x = Some a -> subject o <> Some x -> req_slot (o :: p) x = req_slot p x.
Proof.
  intros H N. unfold req_slot. rewrite (born_mono _ _ _ _ H), H. destruct a; auto.
  replace (was_reset (o :: p) x) with (was_reset p x); auto. destruct o; auto. simpl.
  destruct (Nat.eqb x x0) eqn:E; auto. apply Nat.eqb_eq in E. subst. exfalso. apply N. reflexivity.
Qed.

Lemma conn_slot_kept o p x a : nth_error (born p) x = Some a -> conn_slot (o :: p) x = conn_slot p x.
Proof. intros H. unfold conn_slot. rewrite (born_mono _ _ _ _ H), H. auto. Qed.

Lemma p_C36_private_isolated_partial : forall hc h o x c c' k,
  nth_error (w_ctxs (crun hc h)) x = Some c -> nth_error (w_ctxs (crun hc (o :: h))) x = Some c' ->
  req_slot h x = Some (SPriv x) -> subject o <> Some x ->
  GetCtxPerRequest c' k (crun hc (o :: h)) = GetCtxPerRequest c k (crun hc h).
Proof.
  intros hc h o x c c' k Hc Hc' Hs No.
  destruct (stores_exact hc h x c k Hc) as (_ & (s & Hs1 & ->) & _). destruct (stores_exact hc (o :: h) x c' k Hc') as (_ & (s' & Hs2 & ->) & _).
  assert (B : exists a, nth_error (born h) x = Some a). { unfold req_slot in Hs. destruct (nth_error (born h) x); [eauto|discriminate]. }
  destruct B as (a & B). rewrite (req_slot_kept o h x a B No), Hs in Hs2. rewrite Hs in Hs1. inversion Hs1; inversion Hs2; subst.
  apply other_subject. intros y Hy. assert (y <> x) by congruence. split; [|split; [|congruence]].
  - apply not_true_iff_false. intros K. apply conn_slot_priv in K. auto.
  - apply not_true_iff_false. intros K. apply req_slot_priv in K. auto.
Qed.

Lemma p_C36_datagram_private : forall h x, nth_error (born h) x = Some Gram -> req_slot h x = Some (SPriv x).
Proof. intros h x H. unfold req_slot. rewrite H. reflexivity. Qed.

Lemma conn_of_slot h x c : conn_of h x = Some c -> conn_slot h x = Some (SConn c).
Proof. unfold conn_of, conn_slot. destruct (nth_error (born h) x) as [[| |]|]; congruence. Qed.

Lemma conn_slot_of h x c : conn_slot h x = Some (SConn c) -> conn_of h x = Some c.
Proof. unfold conn_of, conn_slot. destruct (nth_error (born h) x) as [[| |]|]; congruence. Qed.

Lemma req_slot_conn h y c : req_slot h y = Some (SConn c) -> conn_of h y = Some c.
Proof.
  unfold req_slot, conn_of. destruct (nth_error (born h) y) as [[| |]|]; try discriminate. destruct (was_reset h y); congruence.
Qed.

Lemma conn_of_kept o p x c : conn_of p x = Some c -> conn_of (o :: p) x = Some c.
Proof.
  unfold conn_of. destruct (nth_error (born p) x) eqn:E; [|discriminate]. rewrite (born_mono _ _ _ _ E). auto.
Qed.

Lemma p_C36_cross_connection : forall hc h o x c cn c' k,
  nth_error (w_ctxs (crun hc h)) x = Some c -> nth_error (w_ctxs (crun hc (o :: h))) x = Some c' ->
  conn_of h x = Some cn -> (forall y, subject o = Some y -> conn_of h y <> Some cn) ->
  GetCtxPerRequest c' k (crun hc (o :: h)) = GetCtxPerRequest c k (crun hc h) /\
  GetCtxPerConn c' k (crun hc (o :: h)) = GetCtxPerConn c k (crun hc h).
Proof.
  intros hc h o x c cn c' k Hc Hc' Hn No.
  assert (Nx : subject o <> Some x). { intros K. apply (No x K). exact Hn. }
  destruct (stores_exact hc h x c k Hc) as ((t & Ht1 & ->) & (s & Hs1 & ->) & _).
  destruct (stores_exact hc (o :: h) x c' k Hc') as ((t' & Ht2 & ->) & (s' & Hs2 & ->) & _).
  assert (B : exists a, nth_error (born h) x = Some a). { unfold conn_of in Hn. destruct (nth_error (born h) x); [eauto|discriminate]. }
  destruct B as (a & B). rewrite (req_slot_kept o h x a B Nx), Hs1 in Hs2. rewrite (conn_slot_kept o h x a B), Ht1 in Ht2.
  inversion Hs2; inversion Ht2; subst s' t'. rewrite (conn_of_slot _ _ _ Hn) in Ht1. inversion Ht1; subst t.
  split; apply other_subject; intros y Hy; assert (Nc := No y Hy); assert (y <> x) by congruence.
  - destruct s as [d|z].
    + apply req_slot_conn in Hs1. rewrite Hn in Hs1. inversion Hs1; subst d. split; [|split; [|discriminate]].
      * apply not_true_iff_false. intros K. destruct (conn_slot h y) as [q|] eqn:Q; [|discriminate]. apply slot_eqb_eq in K. subst q. apply conn_slot_of in Q. contradiction.
      * apply not_true_iff_false. intros K. destruct (req_slot h y) as [q|] eqn:Q; [|discriminate]. apply slot_eqb_eq in K. subst q. apply req_slot_conn in Q. contradiction.
    + assert (z = x) as ->. { symmetry. apply (req_slot_priv h x z). rewrite Hs1. simpl. apply Nat.eqb_refl. }
      split; [|split; [|congruence]].
      * apply not_true_iff_false. intros K. apply conn_slot_priv in K. auto.
      * apply not_true_iff_false. intros K. apply req_slot_priv in K. auto.
  - split; [|split; [|discriminate]].
    + apply not_true_iff_false. intros K. destruct (conn_slot h y) as [q|] eqn:Q; [|discriminate]. apply slot_eqb_eq in K. subst q. apply conn_slot_of in Q. contradiction.
    + apply not_true_iff_false. intros K. destruct (req_slot h y) as [q|] eqn:Q; [|discriminate]. apply slot_eqb_eq in K. subst q. apply req_slot_conn in Q. contradiction.
Qed.

Lemma p_C36_tcp_shared_refuted : forall hc h cn x y v k cx,
  nth_error (born h) x = Some (Req cn) -> nth_error (born h) y = Some (Req cn) -> was_reset h x = false -> was_reset h y = false ->
  nth_error (w_ctxs (crun hc (CSetReq y k v :: h))) x = Some cx ->
  GetCtxPerRequest cx k (crun hc (CSetReq y k v :: h)) = Some v /\ GetCtxPerConn cx k (crun hc (CSetReq y k v :: h)) = Some v.
Proof.
  intros hc h cn x y v k cx Bx By Rx Ry Hx.
  destruct (stores_exact hc _ x cx k Hx) as ((t & Ht & ->) & (s & Hs & ->) & _).
  assert (s = SConn cn) as ->. { unfold req_slot in Hs. cbn [born was_reset] in Hs. rewrite Bx, Rx in Hs. congruence. }
  assert (t = SConn cn) as ->. { unfold conn_slot in Ht. cbn [born] in Ht. rewrite Bx in Ht. congruence. }
  cbn [val]. cbv zeta. unfold req_slot. rewrite By, Ry. cbn [is_slot]. rewrite slot_eqb_refl, keqb_refl. auto.
Qed.

Lemma last_store_exact hc cn k h : existsb (request_sets k) h = false -> k <> KStr "router_type" -> k <> KStr "url_pattern" ->
  val hc h (SConn cn) k = last_conn_store h cn k.
Proof.
  intros H N1 N2. induction h as [|o h IH]; auto. cbn [existsb] in H. apply orb_false_iff in H as (H & H'). specialize (IH H').
  assert (Q : forall k', k <> k' -> keqb k k' = false). { intros k' N. apply not_true_iff_false. rewrite keqb_eq. auto. }
  assert (C : forall x, is_slot (conn_slot h x) (SConn cn) = match conn_of h x with Some d => Nat.eqb d cn | None => false end).
  { intros x. unfold conn_slot, conn_of. destruct (nth_error (born h) x) as [[| |]|]; reflexivity. }
  cbn [val last_conn_store]; cbv zeta. rewrite IH. destruct o; auto; cbn [request_sets] in H; rewrite ?C; rewrite ?H, ?Q by auto; rewrite ?andb_false_r; auto.
  - destruct (conn_of h x); auto.
  - destruct (conn_of h x); auto.
  - destruct (conn_of h x); auto.
Qed.

Lemma p_C37_last_write_partial : forall hc h x c cn k,
  nth_error (w_ctxs (crun hc h)) x = Some c -> conn_of h x = Some cn ->
  existsb (request_sets k) h = false -> k <> KStr "router_type" -> k <> KStr "url_pattern" ->
  GetCtxPerConn c k (crun hc h) = last_conn_store h cn k.
Proof.
  intros hc h x c cn k Hc Hn H1 H2 H3. destruct (stores_exact hc h x c k Hc) as ((t & Ht & ->) & _).
  rewrite (conn_of_slot _ _ _ Hn) in Ht. inversion Ht; subst. apply last_store_exact; auto.
Qed.

Lemma p_C37_read_own_write : forall hc h x y cx cn k v,
  conn_of h x = Some cn -> conn_of h y = Some cn -> reserved k = false ->
  nth_error (w_ctxs (crun hc (CSetConn y k v :: h))) x = Some cx ->
  GetCtxPerConn cx k (crun hc (CSetConn y k v :: h)) = Some v.
Proof.
  intros hc h x y cx cn k v Hx Hy Hk Hc. destruct (stores_exact hc _ x cx k Hc) as ((t & Ht & ->) & _).
  change (conn_slot (CSetConn y k v :: h) x) with (conn_slot h x) in Ht. rewrite (conn_of_slot _ _ _ Hx) in Ht. inversion Ht; subst.
  cbn [val]. cbv zeta. rewrite (conn_of_slot _ _ _ Hy), Hk. cbn [is_slot]. rewrite slot_eqb_refl, keqb_refl. reflexivity.
Qed.

Lemma p_C37_no_leak : forall hc h o x c cn c' k,
  nth_error (w_ctxs (crun hc h)) x = Some c -> nth_error (w_ctxs (crun hc (o :: h))) x = Some c' ->
  conn_of h x = Some cn -> (forall y, subject o = Some y -> conn_of h y <> Some cn) ->
  GetCtxPerConn c' k (crun hc (o :: h)) = GetCtxPerConn c k (crun hc h).
Proof. intros hc h o x c cn c' k H1 H2 H3 H4. apply (p_C36_cross_connection hc h o x c cn c' k H1 H2 H3 H4). Qed.

Lemma p_C37_overwritten_refuted : forall hc h cn x y v v' k cx, reserved k = false ->
  nth_error (born h) x = Some (Req cn) -> nth_error (born h) y = Some (Req cn) -> was_reset h y = false ->
  nth_error (w_ctxs (crun hc (CSetReq y k v' :: CSetConn x k v :: h))) x = Some cx ->
  last_conn_store (CSetReq y k v' :: CSetConn x k v :: h) cn k = Some v /\
  GetCtxPerConn cx k (crun hc (CSetReq y k v' :: CSetConn x k v :: h)) = Some v'.
Proof.
  intros hc h cn x y v v' k cx Hk Bx By Ry Hx. split.
  - cbn [last_conn_store]. unfold conn_of. rewrite Bx, Nat.eqb_refl, keqb_refl, Hk. reflexivity.
  - destruct (stores_exact hc _ x cx k Hx) as ((t & Ht & ->) & _).
    assert (t = SConn cn) as ->. { unfold conn_slot in Ht. cbn [born] in Ht. rewrite Bx in Ht. congruence. }
    cbn [val]. cbv zeta. unfold req_slot. cbn [born was_reset]. rewrite By, Ry. cbn [is_slot]. rewrite slot_eqb_refl, keqb_refl. reflexivity.
Qed.

Lemma prefix_spec p s : prefix p s = true <-> exists t, s = String.append p t.
Proof.
  revert s. induction p as [|a p IH]; intros s; simpl.
  - split; eauto. destruct s; auto.
  - destruct s as [|b s]; [split; [discriminate|intros (t & H); discriminate]|].
    cbn [prefix]. destruct (ascii_dec a b) as [->|N].
    + rewrite IH. split; intros (t & H); exists t; congruence.
    + split; [discriminate|]. intros (t & H). inversion H. congruence.
Qed.

Definition heart_key : ckey := KStr "tcpx-heart-beat-channel".
Lemma heart_exact hc h x c : nth_error (w_ctxs (crun hc h)) x = Some c ->
  exists s, conn_slot h x = Some s /\
    option_map fst (HeartBeatChan c (crun hc h)) = Some (match val hc h s heart_key with Some (VChan m) => m | _ => beats_made h end).
Proof.
  intros H. destruct (inv_all hc h) as (rho & I). destruct (getconn_slot _ _ _ _ _ _ k_heart I H) as (s & Hs & V & Hv).
  destruct (setconn_tick hc _ _ _ _ _ k_heart (VChan (w_chans (crun hc h))) (S (w_chans (crun hc h))) I H) as (s' & Hs' & _ & Hst).
  exists s. split; auto. unfold HeartBeatChan. rewrite Hv, Hst. cbv zeta. change heart_key with k_heart. rewrite (i_chans _ _ _ _ I).
  destruct (val hc h s k_heart) as [[| |]|]; reflexivity.
Qed.
Lemma heart_made hc h y c n : nth_error (w_ctxs (crun hc h)) y = Some c -> option_map fst (HeartBeatChan c (crun hc h)) = Some n ->
  exists s, conn_slot h y = Some s /\ val hc (CHeart y :: h) s heart_key = Some (VChan n).
Proof.
  intros Hc Hn. destruct (heart_exact hc h y c Hc) as (s & Hs & E). exists s. split; auto. rewrite Hn in E. inversion E; subst n.
  cbn [val]. cbv zeta. rewrite Hs. cbn [is_slot]. change (KStr "tcpx-heart-beat-channel") with heart_key. rewrite slot_eqb_refl, keqb_refl. cbn [andb].
  destruct (val hc h s heart_key) as [[| |]|]; reflexivity.
Qed.
Lemma chan_sticky hc cn n h2 : forall h, val hc h (SConn cn) heart_key = Some (VChan n) -> existsb (request_sets heart_key) h2 = false ->
  val hc (h2 ++ h) (SConn cn) heart_key = Some (VChan n).
Proof.
  induction h2 as [|o h2 IH]; intros h Hv Hn; auto. cbn [existsb app] in *. apply orb_false_iff in Hn as (Hn & Hn'). specialize (IH h Hv Hn').
  cbn [val]. cbv zeta. rewrite IH. destruct o; auto; cbn [request_sets] in Hn.
  - destruct (is_slot (conn_slot (h2 ++ h) x) (SConn cn) && keqb heart_key k) eqn:E; auto. apply andb_true_iff in E as (_ & E). apply keqb_eq in E. subst k. reflexivity.
  - rewrite Hn, andb_false_r. reflexivity.
  - change (keqb heart_key (KStr "tcpx-username")) with false. rewrite andb_false_r. reflexivity.
  - change (keqb heart_key (KStr "router_type")) with false. rewrite andb_false_r. reflexivity.
  - change (keqb heart_key (KStr "url_pattern")) with false. rewrite andb_false_r. reflexivity.
  - cbn [is_chan negb]. rewrite andb_false_r. reflexivity.
Qed.
(* when nobody names the key, every channel stored under it was made by HeartBeatChan, for one storage *)
Lemma chans_private hc h : existsb (request_sets heart_key) h = false ->
  (forall s n, val hc h s heart_key = Some (VChan n) -> (n < beats_made h)%nat) /\
  (forall s t n, val hc h s heart_key = Some (VChan n) -> val hc h t heart_key = Some (VChan n) -> s = t).
Proof.
  induction h as [|o h IH]; intros Hn. { split; discriminate. }
  cbn [existsb] in Hn. apply orb_false_iff in Hn as (Hn & Hn'). destruct (IH Hn') as (A & B). clear IH.
  assert (K : (forall s, val hc (o :: h) s heart_key = val hc h s heart_key \/ val hc (o :: h) s heart_key = None) ->
    (beats_made h <= beats_made (o :: h))%nat ->
    (forall s n, val hc (o :: h) s heart_key = Some (VChan n) -> (n < beats_made (o :: h))%nat) /\
    (forall s t n, val hc (o :: h) s heart_key = Some (VChan n) -> val hc (o :: h) t heart_key = Some (VChan n) -> s = t)).
  { intros K L. split.
    - intros s n H. destruct (K s) as [Q|Q]; rewrite Q in H; [|discriminate]. apply A in H. lia.
    - intros s t n H H'. destruct (K s) as [Q|Q]; rewrite Q in H; [|discriminate]. destruct (K t) as [Q'|Q']; rewrite Q' in H'; [|discriminate]. eauto. }
  destruct o; try (apply K; [intros s0; left; reflexivity|apply Nat.le_refl]); cbn [request_sets] in Hn.
  - apply K; [|apply Nat.le_refl]. intros s. left. cbn [val]. cbv zeta.
    destruct (is_slot (conn_slot h x) s && keqb heart_key k) eqn:E; auto. apply andb_true_iff in E as (_ & E). apply keqb_eq in E. subst k. reflexivity.
  - apply K; [|apply Nat.le_refl]. intros s. left. cbn [val]. cbv zeta. rewrite Hn, andb_false_r. reflexivity.
  - apply K; [|apply Nat.le_refl]. intros s. left. cbn [val]. cbv zeta. change (keqb heart_key (KStr "tcpx-username")) with false. rewrite andb_false_r. reflexivity.
  - apply K; [|apply Nat.le_refl]. intros s. left. cbn [val]. cbv zeta. change (keqb heart_key (KStr "router_type")) with false. rewrite andb_false_r. reflexivity.
  - apply K; [|apply Nat.le_refl]. intros s. left. cbn [val]. cbv zeta. change (keqb heart_key (KStr "url_pattern")) with false. rewrite andb_false_r. reflexivity.
  - apply K; [|apply Nat.le_refl]. intros s. cbn [val]. cbv zeta. destruct (slot_eqb (SPriv x) s && exists_ctx h x); auto.
  - cbn [val]. cbv zeta. change (KStr "tcpx-heart-beat-channel") with heart_key. rewrite keqb_refl. cbn [beats_made].
    destruct (exists_ctx h x) eqn:Ex.
    + assert (Q : forall s n, (if is_slot (conn_slot h x) s && true && negb (is_chan (val hc h s heart_key)) then Some (VChan (beats_made h)) else val hc h s heart_key) = Some (VChan n) ->
        (n < beats_made h)%nat /\ val hc h s heart_key = Some (VChan n) \/ n = beats_made h /\ conn_slot h x = Some s).
      { intros s n H. destruct (is_slot (conn_slot h x) s && true && negb (is_chan (val hc h s heart_key))) eqn:E; [|left; split; eauto].
        right. inversion H; subst. split; auto. apply andb_true_iff in E as (E & _). apply andb_true_iff in E as (E & _).
        destruct (conn_slot h x) as [t|]; [|discriminate]. apply slot_eqb_eq in E. congruence. }
      split.
      * intros s n H. destruct (Q _ _ H) as [(L & _)|(-> & _)]; lia.
      * intros s t n H H'. destruct (Q _ _ H) as [(L & V)|(-> & V)], (Q _ _ H') as [(L' & V')|(W & V')]; try lia; [eauto|congruence].
    + assert (Z : conn_slot h x = None). { unfold conn_slot. destruct (nth_error (born h) x) eqn:E; auto. exfalso. apply not_true_iff_false in Ex. apply Ex. apply exists_ctx_iff. congruence. }
      rewrite Z. cbn [is_slot andb]. auto.
Qed.
Lemma heart_ctx_kept hc o h x c : nth_error (w_ctxs (crun hc h)) x = Some c -> exists c', nth_error (w_ctxs (crun hc (o :: h))) x = Some c'.
Proof.
  intros H. apply ctx_born. apply exists_mono. apply (ctx_born hc). eauto.
Qed.

Lemma p_C47_one_channel_partial : forall hc h h2 cn x y cx cy n,
  let h' := h2 ++ CHeart y :: h in
  nth_error (w_ctxs (crun hc h)) y = Some cy -> conn_of h y = Some cn -> option_map fst (HeartBeatChan cy (crun hc h)) = Some n ->
  existsb (request_sets (KStr "tcpx-heart-beat-channel")) h2 = false ->
  nth_error (w_ctxs (crun hc h')) x = Some cx -> conn_of h' x = Some cn ->
  option_map fst (HeartBeatChan cx (crun hc h')) = Some n.
Proof.
  intros hc h h2 cn x y cx cy n h' Hy Cy Hn H2 Hx Cx.
  destruct (heart_made hc h y cy n Hy Hn) as (s & Hs & V). rewrite (conn_of_slot _ _ _ Cy) in Hs. inversion Hs; subst s.
  destruct (heart_exact hc h' x cx Hx) as (s & Hs' & ->). rewrite (conn_of_slot _ _ _ Cx) in Hs'. inversion Hs'; subst s.
  unfold h'. rewrite (chan_sticky hc cn n h2 _ V H2). reflexivity.
Qed.

Lemma p_C47_channels_apart_partial : forall hc h h2 cn dn x y cx cy n m,
  let h' := h2 ++ CHeart y :: h in
  nth_error (w_ctxs (crun hc h)) y = Some cy -> conn_of h y = Some cn -> option_map fst (HeartBeatChan cy (crun hc h)) = Some n ->
  existsb (request_sets (KStr "tcpx-heart-beat-channel")) h' = false ->
  nth_error (w_ctxs (crun hc h')) x = Some cx -> conn_of h' x = Some dn -> option_map fst (HeartBeatChan cx (crun hc h')) = Some m ->
  cn <> dn -> n <> m.
Proof.
  intros hc h h2 cn dn x y cx cy n m h' Hy Cy Hn H2 Hx Cx Hm N E. subst m.
  destruct (heart_made hc h y cy n Hy Hn) as (s & Hs & V). rewrite (conn_of_slot _ _ _ Cy) in Hs. inversion Hs; subst s.
  destruct (heart_exact hc h' x cx Hx) as (s & Hs' & Hm'). rewrite (conn_of_slot _ _ _ Cx) in Hs'. inversion Hs'; subst s.
  assert (H2' : existsb (request_sets heart_key) h2 = false). { unfold h' in H2. rewrite existsb_app in H2. apply orb_false_iff in H2 as (H2 & _). exact H2. }
  pose proof (chan_sticky hc cn n h2 _ V H2') as V'. fold h' in V'. destruct (chans_private hc h' H2) as (A & B).
  rewrite Hm in Hm'. destruct (val hc h' (SConn dn) heart_key) as [[q|q|q]|] eqn:W; inversion Hm'; subst.
  - apply A in V'. lia.
  - apply N. assert (SConn cn = SConn dn) by eauto. congruence.
  - apply A in V'. lia.
  - apply A in V'. lia.
Qed.

Lemma p_C47_channel_replaced_refuted : forall hc h cn x y v cx cx' n,
  existsb (request_sets (KStr "tcpx-heart-beat-channel")) h = false -> is_chan (Some v) = false ->
  conn_of h x = Some cn -> nth_error (born h) y = Some (Req cn) -> was_reset h y = false ->
  nth_error (w_ctxs (crun hc h)) x = Some cx -> option_map fst (HeartBeatChan cx (crun hc h)) = Some n ->
  let h' := CSetReq y (KStr "tcpx-heart-beat-channel") v :: CHeart x :: h in
  nth_error (w_ctxs (crun hc h')) x = Some cx' ->
  exists m, option_map fst (HeartBeatChan cx' (crun hc h')) = Some m /\ m <> n.
Proof.
  intros hc h cn x y v cx cx' n Hn Iv Cx By Ry Hx Hf h' Hx'.
  destruct (heart_made hc h x cx n Hx Hf) as (s & Hs & V). rewrite (conn_of_slot _ _ _ Cx) in Hs. inversion Hs; subst s.
  destruct (heart_exact hc h' x cx' Hx') as (s & Hs' & ->).
  change (conn_slot h' x) with (conn_slot h x) in Hs'. rewrite (conn_of_slot _ _ _ Cx) in Hs'. inversion Hs'; subst s.
  eexists. split; [reflexivity|]. unfold h'. cbn [val]. cbv zeta. change (KStr "tcpx-heart-beat-channel") with heart_key.
  change (req_slot (CHeart x :: h) y) with (req_slot h y). unfold req_slot. rewrite By, Ry. cbn [is_slot]. rewrite slot_eqb_refl, keqb_refl. cbn [andb].
  destruct (chans_private hc (CHeart x :: h) Hn) as (A & _). apply A in V.
  destruct v as [q|q|q]; try discriminate; change (beats_made (CSetReq y heart_key (VStr q) :: CHeart x :: h)) with (beats_made (CHeart x :: h)) || idtac;
    cbn [beats_made] in *; lia.
Qed.

Lemma p_C38_reserved_keys : forall hc h x c k v, nth_error (w_ctxs (crun hc h)) x = Some c ->
  ((exists t, k = KStr (String.append "tcpx-" t)) -> SetCtxPerConn c k v (crun hc h) = None) /\
  ((forall t, k <> KStr (String.append "tcpx-" t)) ->
     exists w', SetCtxPerConn c k v (crun hc h) = Some w' /\ GetCtxPerConn c k w' = Some v /\
       (forall k', k' <> k -> GetCtxPerConn c k' w' = GetCtxPerConn c k' (crun hc h))).
Proof.
  intros hc h x c k v Hc. split.
  - intros (t & ->). unfold SetCtxPerConn, reserved. replace (prefix "tcpx-" (String.append "tcpx-" t)) with true; auto.
    symmetry. apply prefix_spec. eauto.
  - intros N. assert (R : reserved k = false).
    { destruct k as [s|]; auto. simpl. apply not_true_iff_false. rewrite prefix_spec. intros (t & ->). apply (N t). reflexivity. }
    unfold SetCtxPerConn. rewrite R. destruct (inv_all hc h) as (rho & I).
    destruct (setconn_slot hc _ _ _ _ _ k v I Hc) as (s & Hs & Vs & E). exists (set_heap (crun hc h) (Store (w_heap (crun hc h)) (rho s) k v)).
    split; auto. unfold setCtxPerConn in E. unfold GetCtxPerConn, GetCtxPerRequest.
    unfold SetCtxPerRequest in E. destruct (is_udp c).
    + assert (Q : set_heap (crun hc h) (Store (w_heap (crun hc h)) (c_pr c) k v) = set_heap (crun hc h) (Store (w_heap (crun hc h)) (rho s) k v)) by congruence.
      rewrite <- Q. cbn [set_heap w_heap]. split; [rewrite Load_Store, Nat.eqb_refl, keqb_refl; auto|].
      intros k' Nk. rewrite Load_Store. replace (keqb k' k) with false. rewrite andb_false_r; auto. symmetry. apply not_true_iff_false. rewrite keqb_eq. auto.
    + destruct (c_pc c) as [r|]; [|discriminate].
      assert (Q : set_heap (crun hc h) (Store (w_heap (crun hc h)) r k v) = set_heap (crun hc h) (Store (w_heap (crun hc h)) (rho s) k v)) by congruence.
      rewrite <- Q. cbn [set_heap w_heap]. split; [rewrite Load_Store, Nat.eqb_refl, keqb_refl; auto|].
      intros k' Nk. rewrite Load_Store. replace (keqb k' k) with false. rewrite andb_false_r; auto. symmetry. apply not_true_iff_false. rewrite keqb_eq. auto.
Qed.

Lemma p_C38_per_request_setter_overwrites : forall hc h cn x y v cx,
  nth_error (born h) x = Some (Req cn) -> nth_error (born h) y = Some (Req cn) -> was_reset h y = false ->
  nth_error (w_ctxs (crun hc (CSetReq y (KStr "tcpx-username") v :: h))) x = Some cx ->
  Username cx (crun hc (CSetReq y (KStr "tcpx-username") v :: h)) = match v with VStr u => Ok (Some u) | _ => Panic end.
Proof.
  intros hc h cn x y v cx Bx By Ry Hx. unfold Username, k_username.
  destruct (stores_exact hc _ x cx (KStr "tcpx-username") Hx) as ((t & Ht & ->) & _).
  assert (t = SConn cn) as ->. { unfold conn_slot in Ht. cbn [born] in Ht. rewrite Bx in Ht. congruence. }
  cbn [val]. cbv zeta. unfold req_slot. rewrite By, Ry. cbn [is_slot]. rewrite slot_eqb_refl, keqb_refl. reflexivity.
Qed.

Lemma send_cases {V} (E : env V) mar id src hs werr wrap :
  match send werr wrap (PackxPack E mar id src hs) with
  | (r, [b]) => PackxPack E mar id src hs = Ok b /\ write_outcome werr r
  | (r, []) => match PackxPack E mar id src hs with Ok _ => False | Err e => r = Err (EWrap e) | Panic => r = Panic end
  | _ => False
  end.
Proof.
  unfold send. destruct (PackxPack E mar id src hs) as [b| |]; simpl; auto.
  split; auto. destruct werr, wrap; simpl; auto.
Qed.

Lemma p_C68_reply_helpers : forall {V} (E : env V) mar f name reply id src hs werr,
  In (f, name, reply) [(FJson, "json"%string, ctxJSON E); (FXml, "xml"%string, ctxXML E); (FToml, "toml"%string, ctxTOML E);
                       (FYaml, "yaml"%string, ctxYAML E); (FProtobuf, "protobuf"%string, ctxProtoBuf E)] ->
  let m := if String.eqb (m_name mar) name then mar else format_marshaller E f in
  match reply mar id src hs werr with
  | (r, [b]) =>
      (blen b - 4 < 2 ^ 32 -> exists h hdr body, carries h hs /\ hmarshal (e_hdr E) (Some h) = Ok hdr /\ body_encoding E (Some m) src body /\ frame_layout id hdr body b) /\
      write_outcome werr r
  | (r, []) =>
      match PackxPack E m id src hs with Ok _ => False | Err e => r = Err (EWrap e) | Panic => r = Panic end
  | _ => False
  end.
Proof.
  intros V E mar f name reply id src hs werr Hin m.
  assert (K : exists wrap, reply mar id src hs werr = send werr wrap (PackxPack E m id src hs)).
  { unfold m. destruct Hin as [H|[H|[H|[H|[H|[]]]]]]; inversion H; subst; unfold ctxJSON, ctxXML, ctxTOML, ctxYAML, ctxProtoBuf, commonReply;
      (destruct (String.eqb (m_name mar) _); [exists false; reflexivity|exists true; reflexivity]). }
  destruct K as (wrap & ->). pose proof (send_cases E m id src hs werr wrap) as S.
  destruct (send werr wrap (PackxPack E m id src hs)) as (r & [|b [|]]); auto.
  destruct S as (S1 & S2). split; auto. intros L. apply (proj1 (p_C01_packx_layout V E m id src [] hs b) S1 L).
Qed.

Lemma p_C68_reply : forall {V} (E : env V) mar mo id src hs werr m reply,
  (m = mar /\ reply = Reply E mar id src hs werr) \/
  (m = match mo with Some x => x | None => format_marshaller E FJson end /\ reply = ReplyWithMarshaller E mo id src hs werr) ->
  match reply with
  | (r, [b]) =>
      (blen b - 4 < 2 ^ 32 -> exists h hdr body, carries h hs /\ hmarshal (e_hdr E) (Some h) = Ok hdr /\ body_encoding E (Some m) src body /\ frame_layout id hdr body b) /\
      write_outcome werr r
  | (r, []) =>
      match PackxPack E m id src hs with Ok _ => False | Err e => r = Err (EWrap e) | Panic => r = Panic end
  | _ => False
  end.
Proof.
  intros V E mar mo id src hs werr m reply H.
  assert (K : exists wrap, reply = send werr wrap (PackxPack E m id src hs)).
  { destruct H as [(-> & ->)|(-> & ->)]; [exists false; reflexivity|exists true; destruct mo; reflexivity]. }
  destruct K as (wrap & ->). pose proof (send_cases E m id src hs werr wrap) as S.
  destruct (send werr wrap (PackxPack E m id src hs)) as (r & [|b [|]]); auto.
  destruct S as (S1 & S2). split; auto. intros L. apply (proj1 (p_C01_packx_layout V E m id src [] hs b) S1 L).
Qed.

Lemma p_C68_wraps : forall {V} (E : env V) mar mo id src hs e,
  (forall b, PackxPack E mar id src hs = Ok b -> fst (Reply E mar id src hs (Some e)) = Err (EWrap e)) /\
  (forall b, PackxPack E (match mo with Some x => x | None => format_marshaller E FJson end) id src hs = Ok b -> fst (ReplyWithMarshaller E mo id src hs (Some e)) = Err (EWrap (EWrap e))) /\
  (forall f name reply b, In (f, name, reply) [(FJson, "json"%string, ctxJSON E); (FXml, "xml"%string, ctxXML E); (FToml, "toml"%string, ctxTOML E);
                       (FYaml, "yaml"%string, ctxYAML E); (FProtobuf, "protobuf"%string, ctxProtoBuf E)] ->
     PackxPack E (if String.eqb (m_name mar) name then mar else format_marshaller E f) id src hs = Ok b ->
     fst (reply mar id src hs (Some e)) = Err (if String.eqb (m_name mar) name then EWrap e else EWrap (EWrap e))) /\
  (forall m reply c w p w', (m = JsonMarshaller E /\ reply = JSONURLPattern E) \/ (m = ProtobufMarshaller E /\ reply = ProtobufURLPattern E) ->
     (forall b, GetURLPattern (e_hdr E) c w = (Ok p, w') -> MessagePack E (NewURLPatternMessage p src) (Some m) = Ok b -> fst (reply c src (Some e) w) = (Err (EWrap (EWrap e)), [b])) /\
     (forall e', GetURLPattern (e_hdr E) c w = (Err e', w') -> fst (reply c src (Some e) w) = (Err (EWrap e'), [])) /\
     (forall e', GetURLPattern (e_hdr E) c w = (Ok p, w') -> MessagePack E (NewURLPatternMessage p src) (Some m) = Err e' -> fst (reply c src (Some e) w) = (Err (EWrap e'), []))).
Proof.
  intros V E mar mo id src hs e. split; [|split; [|split]].
  - intros b Hb. unfold Reply. rewrite Hb. reflexivity.
  - intros b Hb. unfold ReplyWithMarshaller. destruct mo; cbn [or_json]; change (format_marshaller E FJson) with (JsonMarshaller E) in *; rewrite Hb; reflexivity.
  - intros f name reply b HI Hb.
    assert (G : forall nm m, GetMarshallerByMarshalName E nm = Ok m -> PackxPack E (if String.eqb (m_name mar) nm then mar else m) id src hs = Ok b ->
      fst (commonReply E mar nm id src hs (Some e)) = Err (if String.eqb (m_name mar) nm then EWrap e else EWrap (EWrap e))).
    { intros nm m Hm Hp. unfold commonReply. destruct (String.eqb (m_name mar) nm); cbn [negb]; [rewrite Hp; reflexivity|]. rewrite Hm, Hp. reflexivity. }
    cbn in HI. destruct HI as [X|[X|[X|[X|[X|[]]]]]]; injection X as <- <- <-; refine (G _ _ _ Hb); reflexivity.
  - intros m reply c w p w' H. assert (R : reply = reply_url E m) by (destruct H as [[-> ->]|[-> ->]]; reflexivity). subst reply. unfold reply_url. split; [|split].
    + intros b Hp Hb. rewrite Hp, Hb. reflexivity.
    + intros e' Hp. rewrite Hp. reflexivity.
    + intros e' Hp Hb. rewrite Hp, Hb. reflexivity.
Qed.
