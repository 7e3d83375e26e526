(* Property theorems. Each is closed by the lemma of the same name in StrProofs.v. *)
From Verif Require Export StrProofs.

(* C64.  Provided no entry is the single character "%", In never panics and is true exactly
   when some entry matches in the documented sense. *)
Theorem C64_in_matches_partial : forall s arr, ~ In [pct] arr ->
  exists b, In_ s arr = Ok b /\ (b = true <-> exists v, In v arr /\ pattern_matches s v).
Proof. exact p_C64_in_matches_partial. Qed.
Print Assumptions C64_in_matches_partial.

Example C64_example : ~ In [pct] (map str_bytes ["ip%"; "%ram"; "%ixp%"; "udp"]%string) /\
  map (fun s => In_ (str_bytes s) (map str_bytes ["ip%"; "%ram"; "%ixp%"; "udp"]%string)) ["ip4:icmp"; "unixgram"; "unixpacket"; "udp"; "tip"; "udp4"]%string
  = [Ok true; Ok true; Ok true; Ok true; Ok false; Ok false].
Proof. split; [|reflexivity]. intros H. simpl in H. intuition discriminate. Qed.

(* The rest of C64 is false: an entry "%" makes In panic (slice bounds [1:0]) unless an
   earlier entry already matched. *)
Theorem C64_in_panics_refuted : exists s arr, In_ s arr = Panic.
Proof. exact p_C64_in_panics_refuted. Qed.
Print Assumptions C64_in_panics_refuted.

(* Exactly when In panics, and what it returns in every case. *)
Theorem C64_in_exact : forall s arr,
  (exists pre post, arr = pre ++ [pct] :: post /\ ~ In [pct] pre /\ (forall v, In v pre -> ~ pattern_matches s v) /\ In_ s arr = Panic) \/
  (exists pre v post, arr = pre ++ v :: post /\ ~ In [pct] (pre ++ [v]) /\ pattern_matches s v /\ In_ s arr = Ok true) \/
  (~ In [pct] arr /\ (forall v, In v arr -> ~ pattern_matches s v) /\ In_ s arr = Ok false).
Proof. exact p_C64_in_exact. Qed.
Print Assumptions C64_in_exact.

Example C64_exact_example : In_ (str_bytes "a") [str_bytes "b"; [pct]] = Panic /\ In_ (str_bytes "a") [str_bytes "a"; [pct]] = Ok true.
Proof. split; reflexivity. Qed.

(* Entries with a % only in the middle match nothing, not even themselves. *)
Theorem C64_middle_percent_never_matches : forall s p q, p <> [] -> q <> [] -> ~ starts pct p -> ~ finishes pct q ->
  ~ pattern_matches s (p ++ pct :: q).
Proof. exact p_C64_middle_percent_never_matches. Qed.
Print Assumptions C64_middle_percent_never_matches.

Example C64_middle_example : In_ (str_bytes "a%b") [str_bytes "a%b"] = Ok false.
Proof. reflexivity. Qed.

(* C63.  For every network string, ListenAndServe starts the TCP server, the UDP server or
   returns an error, as documented. *)
Theorem C63_networks : forall network,
  exists r, ListenAndServe_choice network = Ok r /\
    (r = ServeTCP <-> In network (map str_bytes ["tcp"; "tcp4"; "tcp6"; "unix"; "unixpacket"]%string)) /\
    (r = ServeUDP <-> In network (map str_bytes ["udp"; "udp4"; "udp6"; "unixgram"]%string) \/ exists t, network = str_bytes "ip" ++ t) /\
    (r = NoKCP <-> network = str_bytes "kcp").
Proof. exact p_C63_networks. Qed.
Print Assumptions C63_networks.

Example C63_example : map (fun s => ListenAndServe_choice (str_bytes s)) ["tcp"; "udp4"; "ip4:icmp"; "kcp"; "http"; ""; "tcp%"]%string
  = [Ok ServeTCP; Ok ServeUDP; Ok ServeUDP; Ok NoKCP; Ok NotSupported; Ok NotSupported; Ok NotSupported].
Proof. reflexivity. Qed.

(* C65, the part that holds: for "host:port" with neither containing a colon (IPv4), the host. *)
Theorem C65_clientip_ipv4_partial : forall host port, ~ In ":"%char host -> ~ In ":"%char port ->
  ClientIP (host ++ ":"%char :: port) = host.
Proof. exact p_C65_clientip_ipv4_partial. Qed.
Print Assumptions C65_clientip_ipv4_partial.

Example C65_example : ClientIP (str_bytes "10.1.2.3:8080") = str_bytes "10.1.2.3".
Proof. reflexivity. Qed.

(* The other half is false: every IPv6 peer is reported as 127.0.0.1, whatever its address
   (net.Addr prints IPv6 endpoints as "[addr]:port", and an address contains at least two colons). *)
Theorem C65_clientip_ipv6_always_localhost : forall a b port,
  ClientIP ("["%char :: a ++ ":"%char :: b ++ "]"%char :: ":"%char :: port) = str_bytes "127.0.0.1".
Proof. exact p_C65_clientip_ipv6_always_localhost. Qed.
Print Assumptions C65_clientip_ipv6_always_localhost.

Theorem C65_clientip_ipv6_refuted : exists host port, ClientIP ("["%char :: host ++ "]"%char :: ":"%char :: port) <> host.
Proof. exact p_C65_clientip_ipv6_refuted. Qed.
Print Assumptions C65_clientip_ipv6_refuted.

Example C65_ipv6_example : ClientIP (str_bytes "[2001:db8::1]:443") = str_bytes "127.0.0.1".
Proof. reflexivity. Qed.

(* Every other shape: with no brackets and a colon count other than one, the text before the last
   colon (so a unix socket's empty address gives ""). *)
Theorem C65_clientip_other : forall host port, ~ In "["%char (host ++ port) -> ~ In ":"%char port ->
  ClientIP (host ++ ":"%char :: port) = host.
Proof. exact p_C65_clientip_other. Qed.
Print Assumptions C65_clientip_other.

Example C65_other_example : ClientIP (str_bytes "fe80::1:443") = str_bytes "fe80::1" /\ ClientIP [] = [].
Proof. split; reflexivity. Qed.
