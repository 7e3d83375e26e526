(* What a signature and a signed connection are. *)
From Verif Require Export SignModel SpecChan.

(* an upper-case hexadecimal digit *)
Definition hex_upper (c : ascii) : Prop := In c (list_ascii_of_string "0123456789ABCDEF").

(* signed with the server's secret *)
Definition signed_right (a : auth_msg) : Prop := a_Signature a = MD5 (a_F1 a ++ a_F2 a ++ "hello").
