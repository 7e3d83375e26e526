(* C128: the tls example. *)
From Verif Require Export TlsModel SpecEnd SpecListen ListenProofs EndProofs JsonFacts.
From Verif Require Import Demo.

Lemma p_C128_never_clear : forall loads ok left,
  snd (tls_main loads ok left) <> Some InClear /\
  (snd (tls_main loads ok left) = Some Encrypted <-> loads = true /\ ok = true) /\
  (fst (tls_main loads ok left) = PanicsOut <-> loads = false \/ ok = false).
Proof. intros [] [] [[]|]; vm_compute; intuition congruence. Qed.

Lemma p_C128_one_message_each : forall {V} (E : env V), e_hdr E = json_hdr ->
  exists b, tls_client E = Ok b /\
  forall rs, Forall (fun r => exists e, segmentation b (Fails e) r) rs ->
    accept_loop json_hdr 0 Unset Unset rs = (repeat [SDispatch b; SCloseConn] (List.length rs), true).
Proof.
  intros V E He. set (b := assemble 0 (match hmarshal json_hdr (msg_header (@NewURLPatternMessage V "/login/" None)) with Ok h => h | _ => [] end) []).
  assert (P : tls_client E = Ok b) by (unfold tls_client, MessagePack, PackWithMarshaller; rewrite He; reflexivity).
  exists b. split; [exact P|].
  assert (S : SpecEnd.sent E 0 (NewURLPatternMessage "/login/" None, None) b).
  { split; [exact P|]. split; [vm_compute; reflexivity|]. split; [intros X; lia|]. split; [split; vm_compute; congruence|]. split; [rewrite He; apply json_hdr_roundtrips; reflexivity|reflexivity]. }
  induction rs as [|r rs IH]; intros F; [reflexivity|]. inversion F as [|? ? (e & Sg) Fr]; subst. cbn [accept_loop List.length repeat]. rewrite (IH Fr).
  assert (C : connection json_hdr 0 Unset r = [SDispatch b; SCloseConn]).
  { unfold connection. pose proof (p_C56_every_message_once json_hdr 0 [b] (Fails e) r) as Q. cbn [concat map] in Q. rewrite app_nil_r in Q.
    rewrite Q; [reflexivity| |exact Sg]. constructor; [|constructor]. rewrite <- He. apply (sent_plain E 0 _ _ S). }
  rewrite C. reflexivity.
Qed.

Lemma p_C128_one_login : forall {V} (E : env V) b h x c cx, e_hdr E = json_hdr -> tls_client E = Ok b ->
  nth_error (w_ctxs (crun json_hdr h)) x = Some cx -> nth_error (born h) x = Some (Req c) -> was_reset h x = false ->
  (forall s, read_on h c s -> gwf s /\ gbytes s = b) -> leaves_alone h c (KStr "router_type") ->
  handleMiddleware json_hdr tls_server tls_behave (-1) cx (crun json_hdr h) = Some ([EEnter 0; EEff 1], Returned).
Proof.
  intros V E b h x c cx He P Hx Bx Rx R L.
  assert (Bv : b = assemble 0 (match hmarshal json_hdr (msg_header (@NewURLPatternMessage V "/login/" None)) with Ok h => h | _ => [] end) []).
  { unfold tls_client, MessagePack, PackWithMarshaller in P. rewrite He in P. injection P as <-. reflexivity. }
  assert (S : SpecEnd.sent E 0 (NewURLPatternMessage "/login/" None, None) b).
  { split; [exact P|]. split; [rewrite Bv; vm_compute; reflexivity|]. split; [intros X; lia|]. split; [split; vm_compute; congruence|]. split; [rewrite He; apply json_hdr_roundtrips; reflexivity|reflexivity]. }
  assert (M : forall s, read_on h c s -> exists hd, is_message json_hdr s 0 hd /\ header_eq (msg_header (@NewURLPatternMessage V "/login/" None)) hd).
  { intros s Rs. destruct (R s Rs) as (W & G). rewrite <- He. exact (sent_is_message E 0 _ b s S W G). }
  destruct (M _ (req_stream h x c Bx)) as (hd & Im & Q).
  assert (T : fst (route json_hdr cx (crun json_hdr h)) = Ok (asked_routing hd 0)).
  { apply (p_C70_routed_by_own_header json_hdr h x c cx "URL_PATTERN" 0 hd); auto.
    intros s Rs. destruct (M s Rs) as (hd' & I' & Q'). exists 0, hd'. split; [exact I'|]. rewrite <- (heq_type _ _ Q'). reflexivity. }
  rewrite <- (heq_routing _ hd 0 Q) in T. unfold handleMiddleware.
  replace (m_onmsg tls_server) with (@None hdl) by reflexivity. rewrite T. vm_compute. reflexivity.
Qed.
