(* Property theorems: C114: the my-marshal example.
   Each is closed by the lemma of the same name in ByteProofs.v. *)
From Verif Require Export ByteProofs.
From Verif Require Import Demo.

(* C114: whatever bytes the client packs under whatever id, all three ways of reading print that
   id and those bytes, from any slice that shows just the packed block.
   Example: C114_case. *)
Theorem C114_received : forall E id payload block c, is_int32 id -> hdr_roundtrips (e_hdr E) None ->
  client_packs E id (BBytes payload) = Ok block -> blen block < 2 ^ 31 -> gwf (c_stream c) -> gbytes (c_stream c) = block ->
  handler22 E c = Said id payload /\ handler23 E c = Said id payload /\ handler24 c = Said id payload.
Proof. exact p_C114_received. Qed.
Print Assumptions C114_received.

(* On any stream at all - well formed or not - whose slice has no spare capacity, as the buffers
   the server reads have: what Bind prints, the third way prints too; and what the third way prints
   Bind prints, provided the header decodes and the length field does not run past the buffer and
   the header length is not negative.
   Example: C114_case. *)
Theorem C114_agree : forall E c id p, gwf (c_stream c) -> gcap (c_stream c) = glen (c_stream c) -> glen (c_stream c) < 2 ^ 31 ->
  handler22 E c = handler23 E c /\
  (handler23 E c = Said id p -> handler24 c = Said id p) /\
  (handler24 c = Said id p -> field (gbytes (c_stream c)) 0 + 4 <= glen (c_stream c) -> 0 <= signed (field (gbytes (c_stream c)) 8) ->
     (forall hb, HeaderBytesOf (c_stream c) = Ok hb -> gbytes hb <> [] -> exists hd, hunmarshal (e_hdr E) (gbytes hb) = Ok hd) ->
     handler23 E c = Said id p).
Proof. exact p_C114_agree. Qed.
Print Assumptions C114_agree.

(* The server runs the handler of the message's id, and it prints what was sent. *)
Theorem C114_server : forall E id payload block c, id = 22 \/ id = 23 \/ id = 24 -> hdr_roundtrips (e_hdr E) None ->
  client_packs E id (BBytes payload) = Ok block -> blen block < 2 ^ 31 -> gwf (c_stream c) -> gbytes (c_stream c) = block ->
  exists f, plan_of (ById id) byte_server = RunChain [f] /\ byte_handler E f c = Some (Said id payload).
Proof. exact p_C114_server. Qed.
Print Assumptions C114_server.

Example C114_server_case : exists block, client_packs byte_env 24 (BBytes (list_ascii_of_string "hello")) = Ok block /\
  exists f, plan_of (ById 24) byte_server = RunChain [f] /\ byte_handler byte_env f (Ctx true None 0 (of_bytes block)) = Some (Said 24 (list_ascii_of_string "hello")).
Proof.
  eexists. split; [vm_compute; reflexivity|]. eapply C114_server; [auto|apply json_hdr_roundtrips; reflexivity|vm_compute; reflexivity|vm_compute; reflexivity|apply gwf_of_bytes|reflexivity].
Qed.

(* Packing bytes never fails once headers can be encoded, and puts exactly them into the frame.
   Example: C114_case. *)
Theorem C114_packs : forall E id payload hb, hmarshal (e_hdr E) None = Ok hb -> blen hb + blen payload + 12 < 2 ^ 32 ->
  exists block, client_packs E id (BBytes payload) = Ok block /\ frame_layout id hb payload block.
Proof. exact p_C114_packs. Qed.
Print Assumptions C114_packs.

(* Packing anything else panics. *)
Theorem C114_not_bytes : forall E id hb, hmarshal (e_hdr E) None = Ok hb -> client_packs E id BOther = Panic.
Proof. exact p_C114_not_bytes. Qed.
Print Assumptions C114_not_bytes.

Example C114_case : hdr_roundtrips (e_hdr byte_env) None /\
  forall p, In p [list_ascii_of_string "hello"; []] -> exists block, client_packs byte_env 22 (BBytes p) = Ok block /\ blen block < 2 ^ 31 /\
    let c := Ctx true None 0 (of_bytes block) in gwf (c_stream c) /\ gbytes (c_stream c) = block /\ gcap (c_stream c) = glen (c_stream c) /\
    handler22 byte_env c = Said 22 p /\ handler23 byte_env c = Said 22 p /\ handler24 c = Said 22 p.
Proof.
  split; [apply json_hdr_roundtrips; reflexivity|].
  intros p [<-|[<-|[]]]; (eexists; split; [vm_compute; reflexivity|]; vm_compute; repeat split; try (intros; congruence); repeat constructor).
Qed.

(* bytes that are no frame: the third way prints an error, Bind panics *)
Example C114_malformed_case : let c := Ctx true None 0 (of_bytes (list_ascii_of_string "0123456789abcdef0123")) in
  handler23 byte_env c = Died /\ handler24 c = SaidError /\ client_packs byte_env 22 BOther = Panic.
Proof. vm_compute. repeat split. Qed.
