(* A message's whole way: sent, received, routed, handled (C69-C72). *)
From Verif Require Export SpecEnd ServerProofs.

Lemma heq_get h h' k : header_eq h h' ->
  match hget k h with None => hget k h' = None | Some v => exists v', hget k h' = Some v' /\ jeq v v' end.
Proof.
  destruct h as [m|], h' as [m'|]; cbn; try tauto. intros H. inversion H as [| | | | | |? ? X Y]; subst.
  destruct (aget k m) eqn:E; auto.
Qed.

Lemma heq_type h h' : header_eq h h' -> asked_type h = asked_type h'.
Proof.
  intros H. unfold asked_type. pose proof (heq_get h h' "Router-Type" H) as G. destruct (hget "Router-Type" h) as [v|].
  - destruct G as (v' & -> & J). inversion J as [| |? ? [->| ->]|? ? [->| ->]| | |]; subst; reflexivity.
  - rewrite G. reflexivity.
Qed.

Lemma heq_routing h h' id : header_eq h h' -> asked_routing h id = asked_routing h' id.
Proof.
  intros H. unfold asked_routing. pose proof (heq_get h h' "Router-Type" H) as G. pose proof (heq_get h h' "Router-Pattern-Value" H) as G'.
  assert (Q : match hget "Router-Pattern-Value" h with Some (JStr u) => ByURL u | None => ByURL EmptyString | Some _ => ByNothing end =
              match hget "Router-Pattern-Value" h' with Some (JStr u) => ByURL u | None => ByURL EmptyString | Some _ => ByNothing end).
  { destruct (hget "Router-Pattern-Value" h) as [v|].
    - destruct G' as (v' & -> & J). inversion J as [| |? ? [->| ->]|? ? [->| ->]| | |]; subst; reflexivity.
    - rewrite G'. reflexivity. }
  rewrite <- Q. clear Q G'. destruct (hget "Router-Type" h) as [v|].
  - destruct G as (v' & -> & J). inversion J as [| |? ? [->| ->]|? ? [->| ->]| | |]; subst; reflexivity.
  - rewrite G. reflexivity.
Qed.

Lemma sent_layout {V} (E : env V) lim m b : sent E lim m b ->
  exists hdr body hd, frame_layout (msg_id (fst m)) hdr body b /\ hunmarshal (e_hdr E) hdr = Ok hd /\ header_eq (msg_header (fst m)) hd.
Proof.
  intros (P & L & _ & Hi & RT & _). destruct (p_C01_pack_layout V E (fst m) (snd m) b P) as (hdr & body & A & B & C); [lia|].
  destruct RT as (hb & h' & R1 & R2 & R3 & R4). rewrite R1 in A. inversion A; subst hb. eauto 10.
Qed.

Lemma sent_is_message {V} (E : env V) lim m b s : sent E lim m b -> gwf s -> gbytes s = b ->
  exists hd, is_message (e_hdr E) s (msg_id (fst m)) hd /\ header_eq (msg_header (fst m)) hd.
Proof.
  intros S G Gb. destruct (sent_layout E lim m b S) as (hdr & body & hd & F & U & Q). destruct S as (P & L & _ & Hi & _).
  exists hd. split; auto. split; [auto|]. split; [auto|]. rewrite Gb. split; [auto|]. eauto.
Qed.

Lemma sent_plain {V} (E : env V) lim m b : sent E lim m b -> plain_message (e_hdr E) lim b.
Proof.
  intros S. destruct (sent_layout E lim m b S) as (hdr & body & hd & F & U & Q). destruct S as (P & L & W & Hi & _ & N).
  split; [split; [eapply layout_is_block; eauto; lia|exact W]|]. exists hdr, hd. split; [eapply layout_header_text; eauto|]. split; [exact U|].
  apply asks_nothing. pose proof (heq_get _ _ "[tcpx-buffer-in-serial]" Q) as G. rewrite N in G. exact G.
Qed.

Lemma sent_received {V} (E : env V) lim m b c : sent E lim m b -> gwf (c_stream c) -> gbytes (c_stream c) = b -> received E m c.
Proof.
  intros (P & L & _ & Hi & RT & _) G Gb d0 Hd.
  assert (A : gs_arr (c_stream c) = b ++ skipn (gs_len (c_stream c)) (gs_arr (c_stream c))).
  { rewrite <- Gb. unfold gbytes. symmetry. apply firstn_skipn. }
  destruct (p_C02_unpack_inverts_pack V E (fst m) (snd m) b _ (c_stream c) d0 Hi RT Hd P ltac:(lia) A) as (m' & U & R).
  exists m'. split; [exact U|exact R].
Qed.

Lemma p_C69_delivered_as_sent : forall {V} (E : env V) lim ms bs en r,
  Forall2 (sent E lim) ms bs -> segmentation (concat bs) en r ->
  serve_reads (e_hdr E) lim r = (map SDispatch bs, at_end en) /\
  Forall2 (fun m b => forall c, c_stream c = of_bytes b -> received E m c) ms bs.
Proof.
  intros V E lim ms bs en r F S. split.
  - apply p_C56_every_message_once; auto. clear S. induction F; constructor; auto. eapply sent_plain; eauto.
  - clear S. induction F as [|m b ms bs H F IH]; constructor; auto. intros c Hc. apply (sent_received E lim m b c H); rewrite Hc; [apply gwf_of_bytes|apply gbytes_of_bytes].
Qed.

Lemma conn_of_mono o p x c : conn_of p x = Some c -> conn_of (o :: p) x = Some c.
Proof. unfold conn_of. destruct (nth_error (born p) x) as [a|] eqn:E; [|discriminate]. rewrite (born_mono _ _ _ _ E). auto. Qed.

Lemma conn_of_app h2 : forall h x c, conn_of h x = Some c -> conn_of (h2 ++ h) x = Some c.
Proof. induction h2; intros; auto. cbn [app]. apply conn_of_mono. auto. Qed.

Lemma read_on_mono o p c s : read_on p c s -> read_on (o :: p) c s.
Proof. intros (l & e & x & -> & H). exists (o :: l), e, x. auto. Qed.

Lemma req_stream h : forall y c, nth_error (born h) y = Some (Req c) -> read_on h c (stream_of h y).
Proof.
  induction h as [|o p IH]; intros y c H; [destruct y; discriminate|].
  destruct (nth_error (born p) y) as [a|] eqn:E.
  - pose proof (born_mono o p y a E) as E'. rewrite H in E'. inversion E'; subst a.
    assert (L : (y < List.length (born p))%nat) by (apply nth_error_Some; congruence).
    assert (NL : Nat.eqb y (List.length (born p)) = false) by (apply Nat.eqb_neq; lia).
    destruct o; cbn [stream_of]; try (apply read_on_mono; apply IH; exact E).
    + rewrite NL. apply read_on_mono. apply IH. exact E.
    + rewrite NL. cbn [orb]. destruct (nth_error (born p) x) as [[|d|]|] eqn:Ex; try (apply read_on_mono; apply IH; exact E);
      (destruct (Nat.eqb y x) eqn:Exy; [apply Nat.eqb_eq in Exy; subst x|apply read_on_mono; apply IH; exact E]);
      (exists [], p, y; split; [reflexivity|]; unfold conn_of; rewrite E; congruence).
  - destruct o; cbn [born] in H; try congruence.
    + apply nth_snoc in H as [H|(_ & H)]; congruence.
    + apply nth_snoc in H as [H|(_ & H)]; congruence.
    + cbn [stream_of]. destruct (nth_error (born p) x) as [[|d|]|] eqn:Ex; try congruence;
      (apply nth_snoc in H as [H|(Hy & H)]; [congruence|]; inversion H; subst; rewrite Nat.eqb_refl; cbn [orb];
       exists [], p, x; split; [reflexivity|]; unfold conn_of; rewrite Ex; reflexivity).
Qed.

Lemma conn_slot_conn h x c : is_slot (conn_slot h x) (SConn c) = true -> conn_of h x = Some c.
Proof. unfold conn_slot, conn_of. destruct (nth_error (born h) x) as [[| |]|]; cbn; try discriminate; intros H; apply Nat.eqb_eq in H; subst; auto. Qed.

Lemma req_slot_conn h x c : is_slot (req_slot h x) (SConn c) = true -> conn_of h x = Some c /\ nth_error (born h) x = Some (Req c).
Proof.
  unfold req_slot, conn_of. destruct (nth_error (born h) x) as [[| |]|]; cbn; try discriminate. destruct (was_reset h x); cbn; try discriminate.
  intros H; apply Nat.eqb_eq in H; subst; auto.
Qed.

(* on a connection whose messages all carry router type t the cache is empty or holds t *)
Lemma uniform_cache hc c t h : (forall s, read_on h c s -> own_router_type hc s = Ok t) -> leaves_alone h c (KStr "router_type") ->
  val hc h (SConn c) (KStr "router_type") = None \/ val hc h (SConn c) (KStr "router_type") = Some (VStr t).
Proof.
  induction h as [|o p IH]; intros Hu Hn; [left; reflexivity|].
  assert (IH' := IH (fun s R => Hu s (read_on_mono o p c s R))
    (fun o' x' Ho' Sx Cx => Hn o' x' (or_intror Ho') Sx (conn_of_mono o p x' c Cx))). clear IH.
  assert (No : forall x, subject o = Some x -> conn_of p x = Some c -> names_key (KStr "router_type") o = false).
  { intros x Sx Cx. apply (Hn o x); auto. left; reflexivity. apply conn_of_mono; auto. }
  destruct o; cbn [val]; cbv zeta; auto.
  - destruct (is_slot (conn_slot p x) (SConn c)) eqn:Q; auto. apply conn_slot_conn in Q. specialize (No x eq_refl Q). cbn [names_key] in No. rewrite No. auto.
  - destruct (is_slot (req_slot p x) (SConn c)) eqn:Q; auto. apply req_slot_conn in Q as (Q & _). specialize (No x eq_refl Q). cbn [names_key] in No. rewrite No. auto.
  - destruct (is_slot (conn_slot p x) (SConn c)) eqn:Q; auto.
  - destruct (is_slot (req_slot p x) (SConn c)) eqn:Q; auto. apply req_slot_conn in Q as (_ & Q). rewrite keqb_refl. cbn [andb].
    destruct IH' as [->| ->]; cbn [is_string negb]; auto. rewrite (Hu (stream_of p x)); auto. apply read_on_mono. apply req_stream. auto.
  - destruct (is_slot (req_slot p x) (SConn c)) eqn:Q; auto.
  - destruct (is_slot (conn_slot p x) (SConn c)) eqn:Q; auto.
Qed.

Lemma is_message_header hc s id hd : is_message hc s id hd -> HeaderOf hc s = Ok hd /\ MessageIDOf s = Ok id /\ glen s <> 0.
Proof. intros (G & Hi & L & hdr & body & F & U). eapply header_of_layout; eauto. Qed.

Lemma is_message_type hc s id hd : is_message hc s id hd -> own_router_type hc s = Ok (asked_type hd).
Proof. intros M. destruct (is_message_header hc s id hd M) as (A & B & G). apply own_of_header; auto. Qed.

Lemma p_C70_routed_by_own_header : forall hc h x c cx t id hd,
  nth_error (w_ctxs (crun hc h)) x = Some cx -> nth_error (born h) x = Some (Req c) -> was_reset h x = false ->
  (forall s, read_on h c s -> exists id' hd', is_message hc s id' hd' /\ asked_type hd' = t) ->
  leaves_alone h c (KStr "router_type") -> is_message hc (stream_of h x) id hd ->
  fst (route hc cx (crun hc h)) = Ok (asked_routing hd id).
Proof.
  intros hc h x c cx t id hd Hx Bx Rx Hu Hn M.
  assert (Hu' : forall s, read_on h c s -> own_router_type hc s = Ok t).
  { intros s R. destruct (Hu s R) as (id' & hd' & M' & <-). eapply is_message_type; eauto. }
  destruct (is_message_header _ _ _ _ M) as (A & B & G).
  assert (Hst : c_stream cx = stream_of h x) by apply (stores_exact hc h x cx k_router Hx).
  change (asked_routing hd id) with (asked_routing hd id). rewrite asked_by. apply route_by; rewrite ?Hst; auto.
  destruct (RouterType_exact hc h x cx Hx) as (s & Hs & E). rewrite E.
  assert (s = SConn c) as ->. { unfold req_slot in Hs. rewrite Bx, Rx in Hs. congruence. }
  assert (T : own_router_type hc (stream_of h x) = Ok t) by (apply Hu'; apply req_stream; auto).
  rewrite (is_message_type _ _ _ _ M) in T. inversion T as [T']. change (router_of hd) with (asked_type hd).
  destruct (uniform_cache hc c t h Hu' Hn) as [->| ->]; [|congruence]. eapply is_message_type; eauto.
Qed.

Lemma exec_direct behave acts : forall off, -1 <= off ->
  exists t s o rest, exec (fun o => run_from o (act_chain behave [])) acts off = Some (t, s, o) /\ gin_body (fun _ => []) acts [] t s rest.
Proof.
  assert (R : forall o, -1 <= o -> run_from o (act_chain behave []) = Some ([], Returned, o + 1)).
  { intros o Ho. unfold run_from, act_chain. cbn [List.length seq ch_handlers Nat.add loop]. destruct (Z.ltb_spec (o + 1) (Z.of_nat 0)); [lia|]. reflexivity. }
  induction acts as [|a acts IH]; intros off Ho.
  - exists [], Returned, off, []. split; [reflexivity|constructor].
  - destruct a; cbn [exec].
    + destruct (IH off Ho) as (t & s & o & rest & -> & G). repeat eexists. constructor. eauto.
    + rewrite R by auto. destruct (IH (off + 1) ltac:(lia)) as (t & s & o & rest & -> & G). repeat eexists. econstructor; [constructor|eauto].
    + rewrite R by auto. destruct (IH (off + 1) ltac:(lia)) as (t & s & o & rest & -> & G). repeat eexists. econstructor; [constructor|eauto].
    + destruct (IH ABORT) as (t & s & o & rest & -> & G); [unfold ABORT; lia|]. repeat eexists. constructor. eauto.
    + repeat eexists. constructor.
Qed.

Lemma run_plan_performs behave p : not_too_long p -> p <> PlanPanic ->
  exists t s, run_plan behave (-1) p = Some (t, s) /\ performs behave p t s.
Proof.
  intros L N. destruct p as [|f|l|]; cbn [run_plan not_too_long] in *.
  - eexists _, _. split; [reflexivity|constructor].
  - destruct (exec_direct behave (behave f) (-1) ltac:(lia)) as (t & s & o & rest & -> & G). eexists _, _. split; [reflexivity|]. econstructor; eauto.
  - destruct (run_chain_ok (act_chain behave l)) as (t & s & o & E & _ & G). unfold run_from. unfold run_chain in E. rewrite E.
    eexists _, _. split; [reflexivity|]. econstructor. cbn [act_chain ch_handlers ch_beh] in G. apply G. rewrite seq_length. unfold ABORT. exact L.
  - congruence.
Qed.

Lemma plan_planned q rt : onmessage q = None -> plan_of rt (build q) = planned q rt /\ planned q rt <> PlanPanic.
Proof.
  intros Q. destruct (p_C25_coverage_exact q Q) as (A & B).
  assert (E : plan_of rt (build q) = planned q rt).
  { destruct rt; cbn [planned]; auto. unfold plan_of. rewrite (i_onmsg q (inv_all q)), Q. reflexivity. }
  split; auto. destruct rt; cbn [planned]; try discriminate.
  - unfold spec_plan. destruct (serving id q); [|discriminate]. destruct (_ && _); [discriminate|]. destruct (_ && _); discriminate.
  - unfold spec_url_plan. destruct (url_serving u q); discriminate.
Qed.

Lemma handle_performs hc q behave c w rt : onmessage q = None -> fst (route hc c w) = Ok rt -> not_too_long (planned q rt) ->
  exists tr st, handleMiddleware hc (build q) behave (-1) c w = Some (tr, st) /\ performs behave (planned q rt) tr st.
Proof.
  intros Q R L. destruct (plan_planned q rt Q) as (P & N). unfold handleMiddleware. rewrite (i_onmsg q (inv_all q)), Q, R, P. apply run_plan_performs; auto.
Qed.

Lemma p_C70_handled_as_planned : forall hc q behave h x c cx t id hd, onmessage q = None ->
  nth_error (w_ctxs (crun hc h)) x = Some cx -> nth_error (born h) x = Some (Req c) -> was_reset h x = false ->
  (forall s, read_on h c s -> exists id' hd', is_message hc s id' hd' /\ asked_type hd' = t) ->
  leaves_alone h c (KStr "router_type") -> is_message hc (stream_of h x) id hd ->
  not_too_long (planned q (asked_routing hd id)) ->
  exists tr st, handleMiddleware hc (build q) behave (-1) cx (crun hc h) = Some (tr, st) /\
    performs behave (planned q (asked_routing hd id)) tr st.
Proof.
  intros hc q behave h x c cx t id hd Q Hx Bx Rx Hu Hn M L. apply handle_performs; auto. eapply p_C70_routed_by_own_header; eauto.
Qed.

Lemma p_C70_sent_and_handled : forall {V} (E : env V) q behave lim h x c cx t ms bs m b, onmessage q = None ->
  Forall2 (sent E lim) ms bs -> Forall (fun m => asked_type (msg_header (fst m)) = t) ms ->
  (forall s, read_on h c s -> gwf s /\ In (gbytes s) bs) -> leaves_alone h c (KStr "router_type") ->
  nth_error (w_ctxs (crun (e_hdr E) h)) x = Some cx -> nth_error (born h) x = Some (Req c) -> was_reset h x = false ->
  sent E lim m b -> gbytes (stream_of h x) = b ->
  not_too_long (planned q (asked_routing (msg_header (fst m)) (msg_id (fst m)))) ->
  received E m cx /\
  exists tr st, handleMiddleware (e_hdr E) (build q) behave (-1) cx (crun (e_hdr E) h) = Some (tr, st) /\
    performs behave (planned q (asked_routing (msg_header (fst m)) (msg_id (fst m)))) tr st.
Proof.
  intros V E q behave lim h x c cx t ms bs m b Q F T R Hn Hx Bx Rx S Gb L.
  assert (Hst : c_stream cx = stream_of h x) by apply (stores_exact (e_hdr E) h x cx k_router Hx).
  destruct (R _ (req_stream h x c Bx)) as (Gx & _).
  split. { eapply sent_received; eauto; rewrite Hst; auto. }
  destruct (sent_is_message E lim m b (stream_of h x) S Gx Gb) as (hd & M & HE).
  rewrite (heq_routing _ hd _ HE) in *. eapply (p_C70_handled_as_planned _ q behave h x c cx t); eauto.
  intros s Rs. destruct (R s Rs) as (Gs & Is).
  assert (exists m', In m' ms /\ sent E lim m' (gbytes s)) as (m' & Im & Sm).
  { clear - F Is. induction F; [destruct Is|]. destruct Is as [<-|Is]; [eexists; split; [left; reflexivity|auto]|]. destruct (IHF Is) as (m' & I & Sm). exists m'. split; [right|]; auto. }
  destruct (sent_is_message E lim m' _ s Sm Gs eq_refl) as (hd' & M' & HE'). exists (msg_id (fst m')), hd'. split; auto.
  rewrite <- (heq_type _ _ HE'). rewrite Forall_forall in T. auto.
Qed.

Lemma p_C71_datagram_handled_as_sent : forall {V} (E : env V) size m b extra,
  sent E 0 m b -> blen b <= Z.of_nat size ->
  exists s, serve_udp size [b ++ extra] = ([s], true) /\ gbytes s = b /\
    (forall c, c_stream c = s -> received E m c) /\
    forall q behave h x cx, onmessage q = None ->
      nth_error (w_ctxs (crun (e_hdr E) h)) x = Some cx -> nth_error (born h) x = Some Gram -> stream_of h x = s ->
      (forall o, In o h -> subject o = Some x -> names_key (KStr "router_type") o = false) ->
      not_too_long (planned q (asked_routing (msg_header (fst m)) (msg_id (fst m)))) ->
      exists tr st, handleMiddleware (e_hdr E) (build q) behave (-1) cx (crun (e_hdr E) h) = Some (tr, st) /\
        performs behave (planned q (asked_routing (msg_header (fst m)) (msg_id (fst m)))) tr st.
Proof.
  intros V E size m b extra S Hs. destruct (sent_layout E 0 m b S) as (hdr & body & hd & F & U & HE).
  assert (Lb : blen b < 2 ^ 31) by apply S. assert (Hi : is_int32 (msg_id (fst m))) by apply S.
  destruct (layout_fields _ hdr body b extra F) as (F0 & _ & _ & _ & Hb & _).
  pose proof (blen_nonneg hdr). pose proof (blen_nonneg body). pose proof (blen_nonneg extra).
  destruct (udp_bytes size (b ++ extra)) as (Gr & Gb & Gl).
  assert (Fb : firstn size (b ++ extra) = b ++ firstn (size - List.length b) extra).
  { rewrite firstn_app. rewrite firstn_all2 by (unfold blen in Hs; lia). reflexivity. }
  rewrite Fb in Gb, Gl. assert (F0' : field (b ++ firstn (size - List.length b) extra) 0 = blen b - 4).
  { destruct (layout_fields _ hdr body b (firstn (size - List.length b) extra) F) as (X & _). rewrite X. lia. }
  rewrite blen_app in Gl. pose proof (blen_nonneg (firstn (size - List.length b) extra)).
  destruct (FirstBlockOfBytes_cases _ Gr) as [(L & _)|(L1 & L2 & FB)]; rewrite ?Gb, ?F0' in *; [lia|].
  replace (4 + (blen b - 4)) with (blen b) in * by lia.
  set (s := GS (gs_arr (ReadAllUDP size (b ++ extra))) (Z.to_nat (blen b))) in *.
  assert (Gs : gwf s). { unfold gwf in *. subst s. cbn [gs_arr gs_len]. unfold glen in L2. lia. }
  assert (Gsb : gbytes s = b).
  { subst s. unfold gbytes in *. cbn [gs_arr gs_len]. transitivity (firstn (Z.to_nat (blen b)) (firstn (gs_len (ReadAllUDP size (b ++ extra))) (gs_arr (ReadAllUDP size (b ++ extra))))).
    - rewrite firstn_firstn. f_equal. unfold glen in L2. lia.
    - rewrite Gb. unfold blen. rewrite Nat2Z.id, firstn_app, Nat.sub_diag, firstn_all. cbn [firstn]. apply app_nil_r. }
  exists s. cbn [serve_udp]. rewrite FB. split; [reflexivity|]. split; [exact Gsb|]. split.
  - intros c Hc. eapply sent_received; eauto; rewrite Hc; auto.
  - intros q behave h x cx Q Hx Bx Sx Hn L. apply handle_performs; auto.
    rewrite (heq_routing _ hd _ HE). apply (p_C34_datagram_own_type _ h x cx (msg_id (fst m)) hdr body hd); auto; rewrite Sx, ?Gsb; auto.
Qed.

Lemma exec_nexts acts : forall off, -1 <= off -> ~ In AAbort acts -> ~ In APanic acts ->
  exists t, exec (fun o => run_from o (Chain [] (fun _ => []))) acts off = Some (t, Returned, off + next_calls acts).
Proof.
  assert (R : forall o, -1 <= o -> run_from o (Chain [] (fun _ => [])) = Some ([], Returned, o + 1)).
  { intros o Ho. unfold run_from. cbn [List.length ch_handlers Nat.add loop]. destruct (Z.ltb_spec (o + 1) (Z.of_nat 0)); [lia|]. reflexivity. }
  unfold next_calls. induction acts as [|a acts IH]; intros off Ho NA NP.
  - exists []. cbn [exec filter List.length]. rewrite Z.add_0_r. reflexivity.
  - assert (NA' : ~ In AAbort acts) by (intros I; apply NA; right; auto). assert (NP' : ~ In APanic acts) by (intros I; apply NP; right; auto).
    destruct a; cbn [exec filter].
    + destruct (IH off Ho NA' NP') as (t & ->). eauto.
    + rewrite R by auto. destruct (IH (off + 1) ltac:(lia) NA' NP') as (t & ->). eexists. do 2 f_equal. cbn [List.length]. lia.
    + rewrite R by auto. destruct (IH (off + 1) ltac:(lia) NA' NP') as (t & ->). eexists. do 2 f_equal. cbn [List.length]. lia.
    + exfalso. apply NA. left. reflexivity.
    + exfalso. apply NP. left. reflexivity.
Qed.

Lemma p_C72_connect_untouched_partial : forall acts, next_calls acts = 0 -> ~ In AAbort acts -> ~ In APanic acts ->
  connected_offset acts = Some (-1).
Proof.
  intros acts N NA NP. unfold connected_offset. destruct (exec_nexts acts (-1) ltac:(lia) NA NP) as (t & ->). rewrite N. reflexivity.
Qed.

Lemma connect_aborted acts : forall off t o, exec (fun o => run_from o (Chain [] (fun _ => []))) acts off = Some (t, Returned, o) -> -1 <= off ->
  (ABORT <= off \/ In AAbort acts -> ABORT <= o) /\ -1 <= o.
Proof.
  induction acts as [|a acts IH]; intros off t o X Ho; cbn [exec] in X.
  - inversion X; subst. split; [intros [H|[]]|]; auto.
  - assert (R : run_from off (Chain [] (fun _ => [])) = Some ([], Returned, off + 1)).
    { unfold run_from. cbn [List.length ch_handlers Nat.add loop]. destruct (Z.ltb_spec (off + 1) (Z.of_nat 0)); [lia|]. reflexivity. }
    destruct a; try rewrite R in X.
    + destruct (exec _ acts off) as [[[t' s'] o']|] eqn:Q; [|discriminate]. inversion X; subst. destruct (IH _ _ _ Q Ho) as (A & B). split; auto.
      intros [H|[H|H]]; auto. discriminate.
    + destruct (exec _ acts (off + 1)) as [[[t' s'] o']|] eqn:Q; [|discriminate]. inversion X; subst. destruct (IH _ _ _ Q ltac:(lia)) as (A & B). split; auto.
      intros [H|[H|H]]; [apply A; lia|discriminate|auto].
    + destruct (exec _ acts (off + 1)) as [[[t' s'] o']|] eqn:Q; [|discriminate]. inversion X; subst. destruct (IH _ _ _ Q ltac:(lia)) as (A & B). split; auto.
      intros [H|[H|H]]; [apply A; lia|discriminate|auto].
    + destruct (exec _ acts ABORT) as [[[t' s'] o']|] eqn:Q; [|discriminate]. inversion X; subst. destruct (IH _ _ _ Q ltac:(unfold ABORT; lia)) as (A & B). split; auto.
      intros _. apply A. left. lia.
    + discriminate.
Qed.

Lemma p_C72_next_in_onconnect_refuted : forall acts behave l, ~ In AAbort acts -> ~ In APanic acts ->
  Z.of_nat (List.length l) <= 2019 ->
  exists off tr st rest, connected_offset acts = Some off /\ run_plan behave off (RunChain l) = Some (tr, st) /\
    gin_chain (fun i => behave (nth i l Beat)) (skipn (Z.to_nat (next_calls acts)) (seq 0 (List.length l))) tr st rest.
Proof.
  intros acts behave l NA NP L. destruct (exec_nexts acts (-1) ltac:(lia) NA NP) as (t0 & E0).
  unfold connected_offset. rewrite E0. exists (-1 + next_calls acts). set (k := next_calls acts) in *.
  assert (Hk : 0 <= k) by (unfold k, next_calls; lia). cbn [run_plan]. unfold run_from.
  destruct (loop_all_ok (act_chain behave l) (List.length (ch_handlers (act_chain behave l)) + 2) (-1 + k + 1)) as (t & s & o & -> & _ & _ & G); [lia|lia|lia|].
  exists t, s. eexists. split; [reflexivity|]. split; [reflexivity|].
  cbn [act_chain ch_handlers ch_beh] in G. specialize (G ltac:(rewrite seq_length; unfold ABORT; exact L)).
  unfold rest_at in G at 1. replace (-1 + k + 1 - 1 + 1) with k in G by lia. exact G.
Qed.

Lemma p_C72_abort_in_onconnect_refuted : forall acts off behave, In AAbort acts -> connected_offset acts = Some off ->
  (forall l, run_plan behave off (RunChain l) = Some ([], Returned)) /\
  (forall f, exists tr st, run_plan behave off (Direct f) = Some (tr, st) /\ performs behave (Direct f) tr st).
Proof.
  intros acts off behave I C. unfold connected_offset in C. destruct (exec _ acts (-1)) as [[[t []] o]|] eqn:X; inversion C; subst o.
  destruct (connect_aborted acts _ _ _ X ltac:(lia)) as (A & B). specialize (A (or_intror I)). split.
  - intros l. cbn [run_plan]. unfold run_from. rewrite Nat.add_comm. cbn [Nat.add loop]. destruct (_ <? _); auto.
    destruct (Z.leb_spec ABORT (off + 1)); [reflexivity|lia].
  - intros f. cbn [run_plan]. destruct (exec_direct behave (behave f) off B) as (t' & s' & o' & rest & -> & G). eexists _, _. split; [reflexivity|]. econstructor; eauto.
Qed.

Lemma p_C68_send_to_conn : forall {V} (E : env V) mar id src hs werr,
  match SendToConn E mar id src hs werr with
  | (r, [b]) =>
      (blen b - 4 < 2 ^ 32 -> exists h hdr body, carries h hs /\ hmarshal (e_hdr E) (Some h) = Ok hdr /\ body_encoding E (Some mar) src body /\ frame_layout id hdr body b) /\
      write_outcome werr r
  | (r, []) =>
      match PackxPack E mar id src hs with Ok _ => False | Err e => r = Err (EWrap e) | Panic => r = Panic end
  | _ => False
  end.
Proof. intros V E mar id src hs werr. apply (p_C68_reply E mar None id src hs werr mar). left. auto. Qed.

Lemma p_C03_raw_stream : forall c id hdr body b, is_int32 id -> frame_layout id hdr body b -> blen b < 2 ^ 31 ->
  gwf (c_stream c) -> gbytes (c_stream c) = b -> exists r, RawStream c = Ok r /\ gbytes r = body.
Proof.
  intros c id hdr body b I F L W G. unfold RawStream. apply (p_C03_accessors_agree id hdr body b [] (c_stream c) I F L W). rewrite G, app_nil_r. reflexivity.
Qed.

Lemma p_C03_bad_header : forall hc id hdr body b e rest en r,
  is_int32 id -> frame_layout id hdr body b -> blen b < 2 ^ 31 -> hdr <> [] -> hunmarshal hc hdr = Err e ->
  segmentation (b ++ rest) en r ->
  exists e' r', UnPackFromReader hc r = (RdErr e', r') /\ segmentation rest en r'.
Proof.
  intros hc id hdr body b e rest en r Hid Hlay Hlt Hne Hu HS.
  assert (Hblk : is_block b) by (apply (layout_is_block id hdr body); [exact Hlay|lia]).
  destruct (read_block_ok 0 false b rest en r Hblk ltac:(discriminate) HS) as (r' & E & HS').
  unfold UnPackFromReader. rewrite E.
  destruct (p_C03_accessors_agree id hdr body b [] (of_bytes b) Hid Hlay Hlt (gwf_of_bytes b)) as (_ & A2 & _ & _ & (rh & A5 & A5') & _).
  { rewrite gbytes_of_bytes, app_nil_r. reflexivity. }
  rewrite A2. unfold HeaderOf. rewrite A5. cbn [rwrap rbind]. rewrite A5', Hu. cbn [rwrap rbind rd_of_res]. eauto.
Qed.

Lemma p_C18_bad_marker : forall hc lim b hdr hd rest en r, frame lim b -> header_text b hdr -> hunmarshal hc hdr = Ok hd ->
  (forall o, ~ asks hd o) -> segmentation (b ++ rest) en r ->
  (hget "[tcpx-buffer-in-serial]" hd <> Some JNull -> serve_reads hc lim r = ([], SEnded)) /\
  (hget "[tcpx-buffer-in-serial]" hd = Some JNull -> serve_reads hc lim r = ([], SPanicked)).
Proof.
  intros hc lim b hdr hd rest en r F T U N S. destruct (read_frame lim b rest en r F S) as (r1 & E & S1). rewrite serve_reads_step, E.
  pose proof (isPipe_fault hc b (proj1 F) (or_intror (ex_intro _ hdr (ex_intro _ hd (conj T (conj U N)))))) as X.
  assert (Y : (hget "[tcpx-buffer-in-serial]" hd <> Some JNull -> isPipe hc (of_bytes b) <> Panic) /\
              (hget "[tcpx-buffer-in-serial]" hd = Some JNull -> isPipe hc (of_bytes b) = Panic)).
  { unfold isPipe. rewrite (isPipe_header hc b hdr hd (proj1 F) T U). cbn [rwrap rbind]. change PIPED with "[tcpx-buffer-in-serial]"%string.
    destruct (Nat.eqb (hlen hd) 0) eqn:L; [split; [discriminate|intros H; rewrite (hlen_hget _ _ L) in H; discriminate]|].
    destruct (hget "[tcpx-buffer-in-serial]" hd) as [[| | | |s| |]|]; split; intros H; try discriminate; try congruence.
    destruct (Split ";"%char (str_bytes s)) as [|a [|t [|]]]; try discriminate. destruct (Atoi t); try discriminate. destruct (bytes_eqb a (str_bytes "enable")); discriminate. }
  destruct Y as [Y1 Y2]. split; intros H.
  - destruct (isPipe hc (of_bytes b)) as [x|e|]; [destruct (X x eq_refl)|reflexivity|destruct (Y1 H eq_refl)].
  - rewrite (Y2 H). reflexivity.
Qed.
