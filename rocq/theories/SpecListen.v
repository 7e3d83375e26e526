(* The documented networks. *)
From Verif Require Export ListenModel.

Definition stream_network (n : bytes) : Prop := In n (map str_bytes ["tcp"; "tcp4"; "tcp6"; "unix"; "unixpacket"]%string).
Definition packet_network (n : bytes) : Prop :=
  In n (map str_bytes ["udp"; "udp4"; "udp6"; "unixgram"]%string) \/ exists t, n = str_bytes "ip" ++ t.
