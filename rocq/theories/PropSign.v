(* Property theorems: C115, C116: MD5 and the auth example.
   Each is closed by the lemma of the same name in SignProofs.v. *)
From Verif Require Export SignProofs.
From Verif Require Import Demo.

(* C115: MD5 of any string is 32 upper-case hexadecimal digits ... *)
Theorem C115_format : forall m, String.length (MD5 m) = 32%nat /\ Forall hex_upper (list_ascii_of_string (MD5 m)).
Proof. exact p_C115_format. Qed.
Print Assumptions C115_format.

(* ... that tell the sixteen bytes of the sum apart: two strings have equal results exactly when
   their sums are equal. *)
Theorem C115_tells_sums_apart : forall m m', MD5 m = MD5 m' <-> md5_sum (list_ascii_of_string m) = md5_sum (list_ascii_of_string m').
Proof. exact p_C115_tells_sums_apart. Qed.
Print Assumptions C115_tells_sums_apart.

(* the test vectors of RFC 1321, A.5 *)
Example C115_case : map MD5 [""; "a"; "abc"; "message digest"; "abcdefghijklmnopqrstuvwxyz";
    "ABCDEFGHIJKLMNOPQRSTUVWXYZabcdefghijklmnopqrstuvwxyz0123456789";
    "12345678901234567890123456789012345678901234567890123456789012345678901234567890"]%string =
  ["D41D8CD98F00B204E9800998ECF8427E"; "0CC175B9C0F1B6A831C399E269772661"; "900150983CD24FB0D6963F7D28E17F72";
   "F96B697D7CB7938D525A2F31AAF161D0"; "C3FCD3D76192E4007DFB496CCA67E13B"; "D174AB98D277D9F5A5611C2C9F419D9F";
   "57EDF4A22BE3C955AC49DA2E2107B67A"]%string.
Proof. vm_compute. reflexivity. Qed.

(* C116: whatever messages come and however the goroutines interleave with the watcher, the
   deadline and others closing the connection: once the watcher is gone, a connection that is still
   open received a message with a right signature.
   Example: C116_case. *)
Theorem C116_kept_only_if_signed : forall bodies os s, chruns CAuth (auth_conn bodies) os s ->
  ch_watch s = false -> ch_open s = true -> exists a, In (Some a) bodies /\ signed_right a.
Proof. exact p_C116_kept_only_if_signed. Qed.
Print Assumptions C116_kept_only_if_signed.

(* C116, the other way, the part that holds: if the first signal comes from a rightly signed
   message, then unless something other than the authentication closes it, the connection stays
   open.  Missing: the deadline may come first, and a wrong message sent first denies.
   Example: C116_case. *)
Theorem C116_signed_first_partial : forall bodies pre i v post s a, let os := pre ++ KSend i v :: post in
  chruns CAuth (auth_conn bodies) os s -> no_close os -> no_quit os ->
  sends pre = [] -> nth_error bodies i = Some (Some a) -> signed_right a -> ch_open s = true.
Proof. exact p_C116_signed_first_partial. Qed.
Print Assumptions C116_signed_first_partial.

(* A message that is wrongly signed and the first to signal gets the connection closed as soon as
   the watcher looks, and its sender is told.
   Example: C116_case. *)
Theorem C116_wrong_first : forall bodies pre i v post s a, let os := pre ++ KSend i v :: post in
  chruns CAuth (auth_conn bodies) os s -> sends pre = [] -> nth_error bodies i = Some (Some a) -> ~ signed_right a ->
  fst (auth_handler (Some a)) = [NDeny] /\ v = -1 /\
  ((ch_open s = false \/ exists s', chstep CAuth s KTake s' /\ ch_open s' = false) /\ (ch_watch s = false -> ch_open s = false)).
Proof. exact p_C116_wrong_first. Qed.
Print Assumptions C116_wrong_first.

(* The signature does not say where F1 ends: one made for a message is right for every message
   whose two fields run together to the same text.
   Example: C116_case. *)
Theorem C116_fields_refuted : forall a f1 f2, signed_right a -> (a_F1 a ++ a_F2 a = f1 ++ f2)%string -> signed_right (Auth f1 f2 (a_Signature a)).
Proof. exact p_C116_fields_refuted. Qed.
Print Assumptions C116_fields_refuted.

(* Messages that cannot be decoded neither pass nor deny: as long as nothing else closes the
   connection and the deadline has not come it stays open, whatever their number. *)
Theorem C116_undecodable_refuted : forall n os s, chruns CAuth (auth_conn (repeat None n)) os s -> no_close os -> no_quit os ->
  ch_open s = true /\ ch_watch s = true /\ ch_slot s = None.
Proof. exact p_C116_undecodable_refuted. Qed.
Print Assumptions C116_undecodable_refuted.

(* After a right message a wrong one no longer closes the connection, though its sender is told so.
   Example: C116_case. *)
Theorem C116_deny_after_pass_refuted : forall a b, signed_right a -> ~ signed_right b ->
  fst (auth_handler (Some b)) = [NDeny] /\
  exists s, chruns CAuth (auth_conn [Some a; Some b]) [KSend 0 1; KTake; KSend 1 (-1)] s /\ ch_open s = true /\ ch_watch s = false.
Proof. exact p_C116_deny_after_pass_refuted. Qed.
Print Assumptions C116_deny_after_pass_refuted.

(* The message of the example's ValidClient, were it sent, is denied. *)
Theorem C116_valid_client_refuted : client_auth = Auth "ft" "fj" (MD5 "ftfjhello2222") /\ auth_handler (Some client_auth) = ([NDeny], [-1]) /\ ~ signed_right client_auth.
Proof. exact p_C116_valid_client_refuted. Qed.
Print Assumptions C116_valid_client_refuted.

(* a right message: kept; its fields moved: still right; the run of a denial *)
Example C116_case : let a := Auth "ft" "fj" "CF1A6DCC1EB4BB4AC5D82C6B9F1F7D06" in let b := Auth "ft" "fj" (MD5 "ftfjhello") in
  ~ signed_right a /\ signed_right b /\ signed_right (Auth "f" "tfj" (a_Signature b)) /\ plan_of (ById 1393) auth_server = Direct (User 0) /\
  (exists s, chruns CAuth (auth_conn [None; Some b]) [KSend 1 1; KTake] s /\ ch_watch s = false /\ ch_open s = true) /\
  (exists s, chruns CAuth (auth_conn [Some a; Some b]) [KSend 0 (-1); KTake] s /\ ch_watch s = false /\ ch_open s = false).
Proof.
  cbv zeta. split; [vm_compute; discriminate|]. split; [vm_compute; reflexivity|]. split; [vm_compute; reflexivity|]. split; [vm_compute; reflexivity|]. split.
  - eexists. split; [eapply kr_cons; [eapply k_send; vm_compute; reflexivity|]; eapply kr_cons; [eapply k_take_auth; reflexivity|]; apply kr_nil|]. split; reflexivity.
  - eexists. split; [eapply kr_cons; [eapply k_send; vm_compute; reflexivity|]; eapply kr_cons; [eapply k_take_auth; reflexivity|]; apply kr_nil|]. split; reflexivity.
Qed.
