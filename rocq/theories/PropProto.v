(* Property theorems. Each is closed by the lemma of the same name in ProtoProofs.v. *)
From Verif Require Export ProtoProofs.

(* C134: the text of a message is checked as Unicode defines UTF-8: the bytes are the encodings of a
   sequence of scalar values, no surrogates, each as short as possible.
   Example: C134_case. *)
Theorem C134_utf8 : forall b, valid_utf8 b = true <-> utf8_text b.
Proof. exact p_C134_utf8. Qed.
Print Assumptions C134_utf8.

(* C134: reading.  What bytes are read as is what the encoding guide says: fields one after the other, the
   last text counts, everything else is kept behind it in its order; where the guide gives no reading,
   Unmarshal fails.
   Example: C134_case. *)
Theorem C134_reads : forall b m, pb_unmarshal b = Ok m <-> reads_as b m.
Proof. exact p_C134_reads. Qed.
Print Assumptions C134_reads.

(* C134: a reading is unique, and reading never panics. *)
Theorem C134_one_reading : forall b, pb_unmarshal b <> Panic /\ forall m m', reads_as b m -> reads_as b m' -> m = m'.
Proof. exact p_C134_one_reading. Qed.
Print Assumptions C134_one_reading.

(* C134: writing.  An empty text is left out; any other text that is UTF-8 is written as its tag, its length
   as the shortest varint and itself; what was kept comes last.  Text that is not UTF-8 is an error.
   Example: C134_case. *)
Theorem C134_writes : forall t rest, blen t < 2 ^ 64 ->
  (t = [] -> pb_marshal (PbMsg t rest) = Ok rest) /\
  (t <> [] -> utf8_text t -> exists l, shortest (blen t) l /\ pb_marshal (PbMsg t rest) = Ok ([byte_of 10] ++ l ++ t ++ rest)) /\
  (~ utf8_text t -> exists e, pb_marshal (PbMsg t rest) = Err e).
Proof. exact p_C134_writes. Qed.
Print Assumptions C134_writes.

(* C134: a message that was read can be written, and what is written is read as the same message: a
   message can be handed on without losing anything, fields unknown to the program included.
   Example: C134_case. *)
Theorem C134_handed_on : forall b m, pb_unmarshal b = Ok m -> blen b < 2 ^ 64 -> exists w, pb_marshal m = Ok w /\ pb_unmarshal w = Ok m.
Proof. exact p_C134_handed_on. Qed.
Print Assumptions C134_handed_on.

(* C134: every text that is UTF-8 survives the round trip.
   Example: C134_case. *)
Theorem C134_roundtrip : forall t, blen t < 2 ^ 64 -> utf8_text t -> exists w, pb_marshal (PbMsg t []) = Ok w /\ pb_unmarshal w = Ok (PbMsg t []).
Proof. exact p_C134_roundtrip. Qed.
Print Assumptions C134_roundtrip.

(* C134, refuted: not every Go string can be sent: one that is not UTF-8 cannot be packed.
   Example: C134_case. *)
Theorem C134_any_text_refuted : ~ forall t, exists w, pb_marshal (PbMsg t []) = Ok w.
Proof. exact p_C134_any_text_refuted. Qed.
Print Assumptions C134_any_text_refuted.

(* C134: two messages one after the other are one: the second's fields are added to the first's; its text
   replaces the first's if it is not empty.
   Example: C134_case. *)
Theorem C134_together : forall a b ma mb, pb_unmarshal a = Ok ma -> pb_unmarshal b = Ok mb ->
  exists m, pb_unmarshal (a ++ b) = Ok m /\ pb_rest m = pb_rest ma ++ pb_rest mb /\ (pb_text mb <> [] -> pb_text m = pb_text mb) /\ (pb_text mb = [] -> pb_text m = pb_text ma \/ pb_text m = []).
Proof. exact p_C134_together. Qed.
Print Assumptions C134_together.

(* the request of the Python client; a field 2 (a number), an empty text and a group that are kept; a
   text of three characters of two, three and four bytes; bytes that cannot be read: field number 0, a
   surrogate, a cut text, the end of no group *)
Example C134_case :
  pb_marshal (PbMsg (str_bytes "young") []) = Ok (map byte_of [10; 5] ++ str_bytes "young") /\
  pb_unmarshal (map byte_of [16; 150; 1; 10; 2; 104; 105; 35; 8; 1; 36]) = Ok (PbMsg (str_bytes "hi") (map byte_of [16; 150; 1; 35; 8; 1; 36])) /\
  pb_marshal (PbMsg (str_bytes "hi") (map byte_of [16; 150; 1; 35; 8; 1; 36])) = Ok (map byte_of [10; 2; 104; 105; 16; 150; 1; 35; 8; 1; 36]) /\
  pb_unmarshal (map byte_of [10; 1; 97; 10; 0]) = Ok (PbMsg [] []) /\
  valid_utf8 (flat_map utf8_of [233; 8364; 128512]) = true /\
  pb_unmarshal (map byte_of [138; 0; 1; 97]) = Ok (PbMsg (str_bytes "a") []) /\
  pb_unmarshal (map byte_of [0; 0]) = pb_bad /\ pb_unmarshal (map byte_of [10; 3; 237; 160; 128]) = pb_bad /\ pb_unmarshal (map byte_of [10; 3; 97]) = pb_bad /\ pb_unmarshal (map byte_of [12]) = pb_bad.
Proof. vm_compute. repeat split. Qed.
