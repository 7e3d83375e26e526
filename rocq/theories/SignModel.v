(* Model of tcpx.MD5 (utils.go:78-83, the same function in examples/modules/auth/server/main.go:43-48 and
   client/main.go:139-144) and of the auth example: server/main.go:11-42, client/main.go:14-104, on the
   signal channel of ChanModel.  No proofs in this file. *)
From Verif Require Export ChanModel MuxModel.

(* ------------------------------------------------------------------ *)
(* crypto/md5.Sum as RFC 1321 defines it (it is Go's, not this repository's; the model's test vectors
   are beside the theorems) *)
Definition w32 (x : Z) : Z := x mod 2 ^ 32.
Definition wnot (x : Z) : Z := 2 ^ 32 - 1 - x.
Definition rotl (x n : Z) : Z := w32 (Z.lor (Z.shiftl x n) (Z.shiftr x (32 - n))).
Definition md5_k : list Z :=
  [3614090360; 3905402710; 606105819; 3250441966; 4118548399; 1200080426; 2821735955; 4249261313;
   1770035416; 2336552879; 4294925233; 2304563134; 1804603682; 4254626195; 2792965006; 1236535329;
   4129170786; 3225465664; 643717713; 3921069994; 3593408605; 38016083; 3634488961; 3889429448;
   568446438; 3275163606; 4107603335; 1163531501; 2850285829; 4243563512; 1735328473; 2368359562;
   4294588738; 2272392833; 1839030562; 4259657740; 2763975236; 1272893353; 4139469664; 3200236656;
   681279174; 3936430074; 3572445317; 76029189; 3654602809; 3873151461; 530742520; 3299628645;
   4096336452; 1126891415; 2878612391; 4237533241; 1700485571; 2399980690; 4293915773; 2240044497;
   1873313359; 4264355552; 2734768916; 1309151649; 4149444226; 3174756917; 718787259; 3951481745].
Definition md5_s : list Z :=
  [7; 12; 17; 22; 7; 12; 17; 22; 7; 12; 17; 22; 7; 12; 17; 22; 5; 9; 14; 20; 5; 9; 14; 20; 5; 9; 14; 20; 5; 9; 14; 20;
   4; 11; 16; 23; 4; 11; 16; 23; 4; 11; 16; 23; 4; 11; 16; 23; 6; 10; 15; 21; 6; 10; 15; 21; 6; 10; 15; 21; 6; 10; 15; 21].

Record md5st := MD { mdA : Z; mdB : Z; mdC : Z; mdD : Z }.
Definition md5_round (ws : list Z) (st : md5st) (i : nat) : md5st :=
  let '(MD a b c d) := st in
  let fg :=
    if Nat.ltb i 16 then (Z.lor (Z.land b c) (Z.land (wnot b) d), i)
    else if Nat.ltb i 32 then (Z.lor (Z.land d b) (Z.land (wnot d) c), Nat.modulo (5 * i + 1) 16)
    else if Nat.ltb i 48 then (Z.lxor b (Z.lxor c d), Nat.modulo (3 * i + 5) 16)
    else (Z.lxor c (Z.lor b (wnot d)), Nat.modulo (7 * i) 16) in
  let f := w32 (fst fg + a + nth i md5_k 0 + nth (snd fg) ws 0) in
  MD d (w32 (b + rotl f (nth i md5_s 0))) b c.

Fixpoint le_val (bs : bytes) : Z := match bs with [] => 0 | b :: r => Z.of_N (N_of_ascii b) + 256 * le_val r end.
Fixpoint le_bytes (n : nat) (x : Z) : bytes :=
  match n with O => [] | S n => ascii_of_N (Z.to_N (x mod 256)) :: le_bytes n (x / 256) end.
Definition words (block : bytes) : list Z := map (fun i => le_val (firstn 4 (skipn (4 * i) block))) (seq 0 16).
Definition md5_block (st : md5st) (block : bytes) : md5st :=
  let r := fold_left (md5_round (words block)) (seq 0 64) st in
  MD (w32 (mdA st + mdA r)) (w32 (mdB st + mdB r)) (w32 (mdC st + mdC r)) (w32 (mdD st + mdD r)).
Definition md5_pad (m : bytes) : bytes :=
  m ++ ascii_of_N 128 :: repeat zero (Z.to_nat ((55 - Z.of_nat (List.length m)) mod 64)) ++ le_bytes 8 (8 * Z.of_nat (List.length m)).
(* the blocks of 64 bytes, n of them *)
Fixpoint blocks (n : nat) (m : bytes) : list bytes := match n with O => [] | S n => firstn 64 m :: blocks n (skipn 64 m) end.
Definition md5_sum (m : bytes) : bytes :=
  let p := md5_pad m in
  let r := fold_left md5_block (blocks (Nat.div (List.length p) 64) p) (MD 1732584193 4023233417 2562383102 271733878) in
  le_bytes 4 (mdA r) ++ le_bytes 4 (mdB r) ++ le_bytes 4 (mdC r) ++ le_bytes 4 (mdD r).

(* fmt.Sprintf("%x", [16]byte): two lower-case digits per byte; strings.ToUpper maps a-z to A-Z *)
Definition hex_digit (n : N) : ascii := ascii_of_N (if (n <? 10)%N then 48 + n else 87 + n).
Definition sprintf_x (bs : bytes) : bytes := flat_map (fun b => let n := N_of_ascii b in [hex_digit (n / 16); hex_digit (n mod 16)]) bs.
Definition upper (c : ascii) : ascii :=
  let n := N_of_ascii c in if ((97 <=? n) && (n <=? 122))%N then ascii_of_N (n - 32) else c.
(* utils.go:78-83 *)
Definition MD5 (rawMsg : string) : string :=
  string_of_list_ascii (map upper (sprintf_x (md5_sum (list_ascii_of_string rawMsg)))).

(* ------------------------------------------------------------------ *)
(* server/main.go:34-42 *)
Record auth_msg := Auth { a_F1 : string; a_F2 : string; a_Signature : string }.
Definition Encrypt (a : auth_msg) (secret : string) : string := MD5 (a_F1 a ++ a_F2 a ++ secret).
Definition appSecret : string := "hello".        (* server/main.go:11 *)

(* The handler of message 1393, server/main.go:16-29, given its body decoded (None: Bind's error):
   what it writes on the connection and the signals it sends (context.go:672-679), in this order. *)
Inductive note := NServerError | NDeny.
Definition auth_handler (body : option auth_msg) : list note * list Z :=
  match body with
  | None => ([NServerError], [])
  | Some a => if String.eqb (Encrypt a appSecret) (a_Signature a) then ([], [1]) else ([NDeny], [-1])
  end.

(* server/main.go:14-29: WithAuthDetail(true, 30s, false, 1393, handler), no other handlers; User 0 = the handler *)
Definition auth_server : mux := build [OAuth true false DEFAULT_AUTH_MESSAGEID (User 0)].
(* a connection of this server on which messages with these bodies arrive, each handled in a
   goroutine of its own; the watcher runs.  A goroutine whose message has not come yet is one that
   makes no step, so all interleavings of arrivals are among the runs of ChanModel. *)
Definition auth_conn (bodies : list (option auth_msg)) : chn := ch_start true (map (fun b => snd (auth_handler b)) bodies).

(* client/main.go:28-31, 60-63, 89-92: the clients' message, all three with this secret *)
Definition client_auth : auth_msg :=
  let a := Auth "ft" "fj" "" in Auth "ft" "fj" (Encrypt a "hello2222").
