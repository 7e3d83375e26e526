(* A concrete header codec: encoding/json restricted to the values of type [jv].
   encoding/json is not part of /repo; this instance exists to show that the laws
   assumed of the header codec are satisfiable and to run the model on examples.
   Simplifications: numbers are integers (a number with fraction or exponent is a decode
   error here), strings are copied byte for byte above 0x7F, surrogate pairs in \u escapes
   are not combined. *)
From Verif Require Export WireModel.
From Coq Require Import DecimalString DecimalZ.

Definition ch (n : N) : ascii := ascii_of_N n.
Definition cDQ : ascii := "034"%char.   (* double quote *)
Definition cBS : ascii := "\"%char.
Definition cLB : ascii := "{"%char.
Definition cRB : ascii := "}"%char.
Definition cLS : ascii := "["%char.
Definition cRS : ascii := "]"%char.
Definition cCO : ascii := ","%char.
Definition cCL : ascii := ":"%char.

(* ---------------- encoder ---------------- *)

Definition hexd (n : N) : ascii := if (n <? 10)%N then ch (48 + n) else ch (87 + n).

(* encoding/json string escaping (HTML-safe variant used by json.Marshal) *)
Definition esc_char (c : ascii) : bytes :=
  let n := N_of_ascii c in
  if Ascii.eqb c cDQ then [cBS; cDQ]
  else if Ascii.eqb c cBS then [cBS; cBS]
  else if (n =? 10)%N then [cBS; "n"%char]
  else if (n =? 13)%N then [cBS; "r"%char]
  else if (n =? 9)%N then [cBS; "t"%char]
  else if (n <? 32)%N || (n =? 60)%N || (n =? 62)%N || (n =? 38)%N
  then [cBS; "u"%char; "0"%char; "0"%char; hexd (n / 16); hexd (n mod 16)]
  else [c].

Fixpoint esc_string (s : string) : bytes :=
  match s with
  | EmptyString => []
  | String c s' => esc_char c ++ esc_string s'
  end.

Definition enc_string (s : string) : bytes := cDQ :: esc_string s ++ [cDQ].

(* decimal rendering of an integer: strconv.Itoa *)
Definition itoa (z : Z) : string := NilZero.string_of_int (Z.to_int z).
Definition enc_num (z : Z) : bytes := list_ascii_of_string (itoa z).

Fixpoint join_comma (l : list bytes) : bytes :=
  match l with
  | [] => []
  | [x] => x
  | x :: l' => x ++ cCO :: join_comma l'
  end.

(* json.Marshal writes map entries sorted by key *)
Fixpoint sins {A} (x : string * A) (l : list (string * A)) : list (string * A) :=
  match l with
  | [] => [x]
  | y :: l' => if String.leb (fst x) (fst y) then x :: y :: l' else y :: sins x l'
  end.
Fixpoint ssort {A} (l : list (string * A)) : list (string * A) :=
  match l with
  | [] => []
  | x :: l' => sins x (ssort l')
  end.

Fixpoint enc (v : jv) : bytes :=
  match v with
  | JNull => str_bytes "null"
  | JBool true => str_bytes "true"
  | JBool false => str_bytes "false"
  | JInt z => enc_num z
  | JNum z => enc_num z
  | JStr s => enc_string s
  | JArr l => cLS :: join_comma (map enc l) ++ [cRS]
  | JObj m => cLB :: join_comma (map (fun kv => enc_string (fst kv) ++ cCL :: snd kv)
                              (ssort (map (fun kv => (fst kv, enc (snd kv))) m))) ++ [cRB]
  end.

(* ---------------- decoder ---------------- *)

Definition is_ws (c : ascii) : bool :=
  let n := N_of_ascii c in (n =? 32)%N || (n =? 10)%N || (n =? 13)%N || (n =? 9)%N.

Fixpoint skip_ws (b : bytes) : bytes :=
  match b with
  | [] => []
  | c :: r => if is_ws c then skip_ws r else b
  end.

Definition unhex (c : ascii) : option N :=
  let n := N_of_ascii c in
  if (48 <=? n)%N && (n <=? 57)%N then Some (n - 48)%N
  else if (97 <=? n)%N && (n <=? 102)%N then Some (n - 87)%N
  else if (65 <=? n)%N && (n <=? 70)%N then Some (n - 55)%N
  else None.

(* UTF-8 bytes of a code point below 0x10000 *)
Definition utf8 (n : N) : bytes :=
  (if n <? 128 then [ch n]
   else if n <? 2048 then [ch (192 + n / 64); ch (128 + n mod 64)]
   else [ch (224 + n / 4096); ch (128 + (n / 64) mod 64); ch (128 + n mod 64)])%N.

Definition cons_str (bs : bytes) (r : option (string * bytes)) : option (string * bytes) :=
  match r with
  | Some (s, rest) => Some (fold_right String s bs, rest)
  | None => None
  end.

Definition simple_esc (c : ascii) : option ascii :=
  if Ascii.eqb c cDQ then Some cDQ
  else if Ascii.eqb c cBS then Some cBS
  else if Ascii.eqb c "/"%char then Some "/"%char
  else if Ascii.eqb c "b"%char then Some (ch 8)
  else if Ascii.eqb c "f"%char then Some (ch 12)
  else if Ascii.eqb c "n"%char then Some (ch 10)
  else if Ascii.eqb c "r"%char then Some (ch 13)
  else if Ascii.eqb c "t"%char then Some (ch 9)
  else None.

(* after the opening quote *)
Fixpoint parse_str (b : bytes) : option (string * bytes) :=
  match b with
  | [] => None
  | c :: r =>
      if Ascii.eqb c cDQ then Some (EmptyString, r)
      else if Ascii.eqb c cBS then
        match r with
        | [] => None
        | e :: r1 =>
            if Ascii.eqb e "u"%char then
              match r1 with
              | h1 :: h2 :: h3 :: h4 :: r2 =>
                  match unhex h1, unhex h2, unhex h3, unhex h4 with
                  | Some a, Some b', Some c', Some d =>
                      cons_str (utf8 (((a * 16 + b') * 16 + c') * 16 + d)%N) (parse_str r2)
                  | _, _, _, _ => None
                  end
              | _ => None
              end
            else match simple_esc e with
                 | Some x => cons_str [x] (parse_str r1)
                 | None => None
                 end
        end
      else if (N_of_ascii c <? 32)%N then None
      else cons_str [c] (parse_str r)
  end.

Definition is_numchar (c : ascii) : bool :=
  let n := N_of_ascii c in ((48 <=? n)%N && (n <=? 57)%N) || Ascii.eqb c "-"%char.

Fixpoint span_num (b : bytes) : bytes * bytes :=
  match b with
  | [] => ([], [])
  | c :: r => if is_numchar c then let (p, q) := span_num r in (c :: p, q) else ([], b)
  end.

(* an integer literal without leading zeros; "-0" is 0 *)
Definition parse_num (b : bytes) : option (Z * bytes) :=
  let (p, q) := span_num b in
  let s := string_of_list_ascii p in
  match NilZero.int_of_string s with
  | Some d => let z := Z.of_int d in
              if String.eqb s (itoa z) || String.eqb s "-0" then
                match q with
                | c :: _ => if Ascii.eqb c "."%char || Ascii.eqb c "e"%char || Ascii.eqb c "E"%char
                            then None else Some (z, q)
                | [] => Some (z, q)
                end
              else None
  | None => None
  end.

Fixpoint strip (p b : bytes) : option bytes :=
  match p, b with
  | [], _ => Some b
  | x :: p', y :: b' => if Ascii.eqb x y then strip p' b' else None
  | _, [] => None
  end.

Fixpoint parse_value (fuel : nat) (b : bytes) {struct fuel} : option (jv * bytes) :=
  match fuel with
  | O => None
  | S f =>
    match skip_ws b with
    | [] => None
    | c :: r =>
        if Ascii.eqb c cLB then
          match skip_ws r with
          | c2 :: r2 => if Ascii.eqb c2 cRB then Some (JObj [], r2) else parse_members f (c2 :: r2) []
          | [] => None
          end
        else if Ascii.eqb c cLS then
          match skip_ws r with
          | c2 :: r2 => if Ascii.eqb c2 cRS then Some (JArr [], r2) else parse_elems f (c2 :: r2) []
          | [] => None
          end
        else if Ascii.eqb c cDQ then
          match parse_str r with Some (s, r') => Some (JStr s, r') | None => None end
        else match strip (str_bytes "null") (c :: r) with
        | Some r' => Some (JNull, r')
        | None => match strip (str_bytes "true") (c :: r) with
        | Some r' => Some (JBool true, r')
        | None => match strip (str_bytes "false") (c :: r) with
        | Some r' => Some (JBool false, r')
        | None => match parse_num (c :: r) with Some (z, r') => Some (JNum z, r') | None => None end
        end end end
    end
  end
(* at the start of a key; [acc] = entries so far (later duplicates win) *)
with parse_members (fuel : nat) (b : bytes) (acc : list (string * jv)) {struct fuel} : option (jv * bytes) :=
  match fuel with
  | O => None
  | S f =>
    match skip_ws b with
    | c :: r =>
        if Ascii.eqb c cDQ then
          match parse_str r with
          | Some (k, r1) =>
              match skip_ws r1 with
              | c1 :: r2 =>
                  if Ascii.eqb c1 cCL then
                    match parse_value f r2 with
                    | Some (v, r3) =>
                        match skip_ws r3 with
                        | c3 :: r4 =>
                            if Ascii.eqb c3 cCO then parse_members f r4 (aset k v acc)
                            else if Ascii.eqb c3 cRB then Some (JObj (aset k v acc), r4)
                            else None
                        | [] => None
                        end
                    | None => None
                    end
                  else None
              | [] => None
              end
          | None => None
          end
        else None
    | [] => None
    end
  end
with parse_elems (fuel : nat) (b : bytes) (acc : list jv) {struct fuel} : option (jv * bytes) :=
  match fuel with
  | O => None
  | S f =>
    match parse_value f b with
    | Some (v, r3) =>
        match skip_ws r3 with
        | c3 :: r4 =>
            if Ascii.eqb c3 cCO then parse_elems f r4 (acc ++ [v])
            else if Ascii.eqb c3 cRS then Some (JArr (acc ++ [v]), r4)
            else None
        | [] => None
        end
    | None => None
    end
  end.

(* json.Marshal(map) / json.Unmarshal(b, &map) on a nil map variable *)
Definition json_hdr : hcodec := {|
  hmarshal := fun h => match h with
                       | None => Ok (str_bytes "null")
                       | Some m => Ok (enc (JObj m))
                       end;
  hunmarshal := fun b =>
    match parse_value (S (List.length b)) b with
    | Some (v, r) =>
        match skip_ws r with
        | [] => match v with
                | JNull => Ok None
                | JObj m => Ok (Some m)
                | _ => Err (EMsg "json: cannot unmarshal into map")
                end
        | _ => Err (EMsg "json: invalid character after top-level value")
        end
    | None => Err (EMsg "json: syntax error")
    end
|}.

Local Open Scope string_scope.
(* sanity: printed and reread (the tests are Examples in JsonFacts.v) *)
Definition sample_header : header :=
  Some [("Router-Type", JStr "URL_PATTERN"); ("n", JInt (-12)); ("esc", JStr (String cDQ (String "010" "<b>")));
        ("nest", JObj [("a", JArr [JNull; JBool true; JNum 0]); ("Z", JObj [])])].
