(* What the listening functions open (C99) and return (C100). NODEMO *)
From Verif Require Export SpecListen StrProofs MuxFacts.

Lemma choice_stream n : stream_network n -> ListenAndServe_choice n = Ok ServeTCP.
Proof. intros H. destruct (p_C63_networks n) as (r & E & T & _). rewrite E. f_equal. apply T. exact H. Qed.

Lemma choice_packet n : packet_network n -> ListenAndServe_choice n = Ok ServeUDP.
Proof. intros H. destruct (p_C63_networks n) as (r & E & _ & U & _). rewrite E. f_equal. apply U. exact H. Qed.

Lemma choice_other n : ~ stream_network n -> ~ packet_network n -> exists r, ListenAndServe_choice n = Ok r /\ (r = NoKCP \/ r = NotSupported).
Proof.
  intros S P. destruct (p_C63_networks n) as (r & E & T & U & _). exists r. split; auto. destruct r; auto.
  - exfalso. apply S, T. reflexivity.
  - exfalso. apply P, U. reflexivity.
Qed.

Lemma p_C99_tcp_encrypted_partial : forall m c network ok left, stream_network network ->
  (forall t, snd (ListenAndServe m (Some c) network ok left) = Some t -> t = Encrypted) /\
  (snd (ListenAndServe m (Some c) network ok left) = Some Encrypted <-> checkPrepare m = true /\ ok = true /\ has_certificate c = true).
Proof.
  intros m c network ok left S. unfold ListenAndServe. destruct (checkPrepare m); [rewrite (choice_stream _ S)|].
  - unfold ListenAndServeTCP, newListener. destruct ok, (has_certificate c); cbn; (split; [intros t H; congruence|]); (split; [intros X; try discriminate X; auto|intros (A & B & C); try discriminate B; try discriminate C; reflexivity]).
  - cbn. split; [discriminate|split; [discriminate|intros (A & _); discriminate]].
Qed.

Lemma p_C99_raw_udp_clear_refuted : forall m c network ok left sizes,
  (ok = true -> snd (ListenAndServeRaw (Some c) ok left) = Some InClear) /\
  (ok = true -> packet_network network -> checkPrepare m = true -> snd (ListenAndServe m (Some c) network ok left) = Some InClear) /\
  (ok = true -> (sizes <= 1)%nat -> snd (ListenAndServeUDP (Some c) sizes ok) = Some InClear).
Proof.
  intros m c network ok left sizes. split; [|split]; intros ->; [reflexivity| |].
  - intros P C. unfold ListenAndServe. rewrite C, (choice_packet _ P). reflexivity.
  - intros L. unfold ListenAndServeUDP. destruct (Nat.ltb_spec 1 sizes); [lia|]. reflexivity.
Qed.

Lemma p_C99_new_listener : forall cfg ok t, newListener cfg ok = Some t <->
  ok = true /\ match cfg with None => t = InClear | Some c => t = Encrypted /\ has_certificate c = true end.
Proof.
  intros [[[]]|] [] []; cbn; split; intros H; try discriminate H; try destruct H as (A & B); try discriminate A; try discriminate B; try destruct B as (B & C); try discriminate B; try discriminate C; auto.
Qed.

Lemma p_C99_load : forall cfg loads, LoadTLSFile cfg loads = (if loads then Some (Tls true) else cfg, negb loads).
Proof. intros cfg []; reflexivity. Qed.

Lemma p_C100_stream_error_partial : forall m cfg network ok left, checkPrepare m = true -> stream_network network ->
  (fst (ListenAndServe m cfg network ok left) = ReturnsErr <-> snd (ListenAndServe m cfg network ok left) = None) /\
  (fst (ListenAndServe m cfg network ok left) = ReturnsErr <-> ok = false \/ exists c, cfg = Some c /\ has_certificate c = false) /\
  fst (ListenAndServe m cfg network ok left) <> PanicsOut /\
  (fst (ListenAndServeRaw cfg ok left) = ReturnsErr <-> ok = false).
Proof.
  intros m cfg network ok left C S. unfold ListenAndServe. rewrite C, (choice_stream _ S). unfold ListenAndServeTCP, ListenAndServeRaw, newListener, after_loop.
  destruct cfg as [[hc]|], ok; try destruct hc; destruct left; cbn; (split; [split; congruence|]); (split; [split; [intros X; try discriminate X; eauto|intros [X|(c & X & Y)]; try discriminate X; try (injection X as <-; discriminate Y); reflexivity]|]); (split; [discriminate|split; congruence]).
Qed.

Lemma p_C100_unsupported : forall m cfg network ok left, checkPrepare m = true -> ~ stream_network network -> ~ packet_network network ->
  ListenAndServe m cfg network ok left = (ReturnsErr, None).
Proof.
  intros m cfg network ok left C S P. unfold ListenAndServe. rewrite C. destruct (choice_other _ S P) as (r & -> & [-> | ->]); reflexivity.
Qed.

Lemma p_C100_udp_refuted : forall m cfg network ok left, checkPrepare m = true -> packet_network network ->
  fst (ListenAndServe m cfg network ok left) = if ok then NeverReturns else PanicsOut.
Proof. intros m cfg network ok left C P. unfold ListenAndServe. rewrite C, (choice_packet _ P). destruct ok; reflexivity. Qed.

Lemma p_C100_nil_refuted : forall m network, checkPrepare m = true -> stream_network network ->
  forall y, fst (ListenAndServe m None network true (Some y)) = ReturnsNil /\ fst (ListenAndServeRaw None true (Some y)) = ReturnsNil.
Proof. intros m network C S y. unfold ListenAndServe. rewrite C, (choice_stream _ S). split; reflexivity. Qed.

Lemma p_C100_waits : forall m cfg network, checkPrepare m = true -> stream_network network ->
  (forall c, cfg = Some c -> has_certificate c = true) ->
  fst (ListenAndServe m cfg network true None) = NeverReturns /\ fst (ListenAndServeRaw cfg true None) = NeverReturns.
Proof.
  intros m cfg network C S H. unfold ListenAndServe. rewrite C, (choice_stream _ S). unfold ListenAndServeTCP, ListenAndServeRaw, newListener.
  destruct cfg as [c|]; [|split; reflexivity]. specialize (H c eq_refl). destruct c as [hc]. cbn in *. subst hc. split; reflexivity.
Qed.
