(* Property theorems: C124: the helloworld example..
   Each is closed by the lemma of the same name in WorldProofs.v. *)
From Verif Require Export WorldProofs.
From Verif Require Import Demo.

(* C124: the base64 text written is the one RFC 4648 defines, and is read back as the same bytes. *)
Theorem C124_base64 : forall b, rfc4648 b (b64_encode b) /\ b64_decode (b64_encode b) = Ok b.
Proof. exact p_C124_base64. Qed.
Print Assumptions C124_base64.

(* C124: whatever byte slices clients send the way the example does, however the connection cuts them
   into reads and however it ends, the handlers print exactly these slices, one line each.
   Example: C124_case. *)
Theorem C124_prints : forall vs bs en r,
  Forall2 (fun v b => world_packs v = Ok b /\ blen b < 2 ^ 31) vs bs -> segmentation (concat bs) en r ->
  world_prints r = map (fun v => Some (as_line v)) vs /\ snd (serve_reads json_hdr 0 r) = at_end en.
Proof. exact p_C124_prints. Qed.
Print Assumptions C124_prints.

(* C124: packing never fails; the block is as long as the layout says: 16 bytes, the text null, two
   quotes and four characters for every three bytes or part of three. *)
Theorem C124_packs : forall m, exists b, world_packs (Some m) = Ok b /\ blen b = 22 + 4 * ((blen m + 2) / 3).
Proof. exact p_C124_packs. Qed.
Print Assumptions C124_packs.

(* C124: every well-formed message makes its handler print one line: the slice its body decodes to,
   and an empty line when there is no body or the header or the body does not decode (JSON arrays are
   outside the model).
   Example: C124_case. *)
Theorem C124_always_a_line : forall id hdr body b, frame_layout id hdr body b -> blen b < 2 ^ 31 ->
  exists t, world_line b = Some t /\
    ((hdr = [] \/ exists hd, hunmarshal json_hdr hdr = Ok hd) -> body <> [] ->
      (forall v, slice_of_json body (Some None) = Ok v -> t = as_line v)) /\
    ((hdr <> [] /\ forall hd, hunmarshal json_hdr hdr <> Ok hd) \/ body = [] \/ (forall v, slice_of_json body (Some None) <> Ok v) -> t = []).
Proof. exact p_C124_always_a_line. Qed.
Print Assumptions C124_always_a_line.

(* C124: messages sent together by PipeJSON are printed as well, in their order, before what follows
   on the connection.
   Example: C124_case. *)
Theorem C124_piped : forall args w rest en r, PipeJSON slice_env args None = (Ok tt, [w]) -> Z.of_nat (List.length args) <= 2 ^ 45 -> blen w < 2 ^ 31 ->
  segmentation (w ++ rest) en r ->
  exists ps r', pairing arg_id arg_val ps args /\ segmentation rest en r' /\
    world_prints r = map (fun p => Some (match snd p with Some v => as_line v | None => [] end)) ps ++ world_prints r'.
Proof. exact p_C124_piped. Qed.
Print Assumptions C124_piped.

(* C124: line ends inside base64 text are not looked at. *)
Theorem C124_line_ends : forall s, b64_decode s = b64_decode (filter (fun c => negb (Ascii.eqb c "010" || Ascii.eqb c "013")) s).
Proof. exact p_C124_line_ends. Qed.
Print Assumptions C124_line_ends.

(* the example's message and others, among them nil and one of zero bytes, over a connection that cuts
   them; and a body with line ends in its base64 *)
Example C124_case :
  b64_encode (str_bytes "hello world") = str_bytes "aGVsbG8gd29ybGQ=" /\
  exists b1 b2 b3, world_packs (Some (str_bytes "hello world")) = Ok b1 /\ world_packs None = Ok b2 /\ world_packs (Some ["000"; "255"]%char) = Ok b3 /\
    blen b1 < 2 ^ 31 /\ blen b2 < 2 ^ 31 /\ blen b3 < 2 ^ 31 /\
    segmentation (concat [b1; b2; b3]) (Fails EEOF) [RData (firstn 9 (concat [b1; b2; b3])); RData (skipn 9 (concat [b1; b2; b3])); RFail EEOF] /\
    world_prints [RData (firstn 9 (concat [b1; b2; b3])); RData (skipn 9 (concat [b1; b2; b3])); RFail EEOF] =
      [Some (str_bytes "hello world"); Some []; Some ["000"; "255"]%char] /\
    slice_of_json (cDQ :: str_bytes "aGVs\n" ++ str_bytes "bG8=" ++ [cDQ]) (Some None) = Ok (Some (str_bytes "hello")) /\
    slice_of_json (cDQ :: str_bytes "aGVsbG8" ++ [cDQ]) (Some None) = Err (EMsg "illegal base64 data") /\
    exists w, PipeJSON slice_env [GInt 7 None; GVal (Some (str_bytes "hi")); GInt 8 None; GNil] None = (Ok tt, [w]) /\ blen w < 2 ^ 31 /\
      world_prints [RData (w ++ b1)] = [Some (str_bytes "hi"); Some []; Some (str_bytes "hello world")].
Proof.
  split; [vm_compute; reflexivity|]. do 3 eexists. split; [vm_compute; reflexivity|]. split; [vm_compute; reflexivity|]. split; [vm_compute; reflexivity|].
  split; [vm_compute; reflexivity|]. split; [vm_compute; reflexivity|]. split; [vm_compute; reflexivity|]. split; [split; [repeat constructor|split; vm_compute; reflexivity]|].
  split; [vm_compute; reflexivity|]. split; [vm_compute; reflexivity|]. split; [vm_compute; reflexivity|]. eexists. split; [vm_compute; reflexivity|]. split; vm_compute; reflexivity.
Qed.
