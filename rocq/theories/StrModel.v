(* String helpers of tcpx: In, the network choice of ListenAndServe, ClientIP.
   A Go string is a byte sequence; here it is [bytes]. *)
From Verif Require Export Base.

(* ------------------------------------------------------------------ *)
(* The functions of Go's packages strings and strconv that the code calls *)

(* strings.HasPrefix(s, p) *)
Fixpoint hasPrefix (s p : bytes) {struct p} : bool :=
  match p, s with
  | [], _ => true
  | x :: p', y :: s' => Ascii.eqb x y && hasPrefix s' p'
  | _ :: _, [] => false
  end.

(* strings.HasSuffix(s, p) *)
Definition hasSuffix (s p : bytes) : bool := hasPrefix (rev s) (rev p).

(* strings.Contains(s, sub) *)
Fixpoint contains (s sub : bytes) : bool :=
  hasPrefix s sub || match s with [] => false | _ :: s' => contains s' sub end.

(* s == t *)
Fixpoint bytes_eqb (s t : bytes) : bool :=
  match s, t with
  | [], [] => true
  | x :: s', y :: t' => Ascii.eqb x y && bytes_eqb s' t'
  | _, _ => false
  end.

(* strings.Split(s, string(c)) for a one-byte separator *)
Fixpoint Split (c : ascii) (s : bytes) : list bytes :=
  match s with
  | [] => [[]]
  | x :: s' => if Ascii.eqb x c then [] :: Split c s'
               else match Split c s' with
                    | h :: t => (x :: h) :: t
                    | [] => [[x]]
                    end
  end.

(* strings.Join(arr, string(c)) *)
Fixpoint Join (c : ascii) (arr : list bytes) : bytes :=
  match arr with
  | [] => []
  | [x] => x
  | x :: arr' => x ++ c :: Join c arr'
  end.

(* the s[lo:hi] of a Go string: panics unless 0 <= lo <= hi <= len(s) *)
Definition strsub (s : bytes) (lo hi : Z) : res bytes :=
  if (0 <=? lo) && (lo <=? hi) && (hi <=? blen s)
  then Ok (firstn (Z.to_nat (hi - lo)) (skipn (Z.to_nat lo) s)) else Panic.

Definition digit (c : ascii) : option Z :=
  let n := code c in if (48 <=? n) && (n <=? 57) then Some (n - 48) else None.

(* strconv.Atoi on a 64-bit platform: optional sign, at least one decimal digit,
   nothing else, value in the range of int *)
Fixpoint digits (acc : Z) (s : bytes) : option Z :=
  match s with
  | [] => Some acc
  | c :: s' => match digit c with Some d => digits (acc * 10 + d) s' | None => None end
  end.

Definition int_range (z : Z) : bool := (- 2 ^ 63 <=? z) && (z <? 2 ^ 63).

Definition Atoi (s : bytes) : option Z :=
  let unsigned := fun neg t =>
    match t with
    | [] => None
    | _ => match digits 0 t with
           | Some v => let z := if neg : bool then - v else v in
                       if int_range z then Some z else None
           | None => None
           end
    end in
  match s with
  | [] => None
  | c :: t => if Ascii.eqb c "-"%char then unsigned true t
              else if Ascii.eqb c "+"%char then unsigned false t
              else unsigned false s
  end.

(* ------------------------------------------------------------------ *)
(* utils.go:29-52 In *)

Definition percent : bytes := ["%"%char].

(* one iteration of the loop, utils.go:31-49: true = return true, false = next entry *)
Definition in_entry (s v : bytes) : res bool :=
  if contains v percent then
    if hasPrefix v percent && hasSuffix v percent then
      sub <- strsub v 1 (blen v - 1) ;; Ok (contains s sub)
    else if hasPrefix v percent then
      sub <- strsub v 1 (blen v) ;; Ok (hasSuffix s sub)
    else if hasSuffix v percent then
      sub <- strsub v 0 (blen v - 1) ;; Ok (hasPrefix s sub)
    else Ok false
  else Ok (bytes_eqb v s).

Fixpoint In_ (s : bytes) (arr : list bytes) : res bool :=
  match arr with
  | [] => Ok false
  | v :: arr' => b <- in_entry s v ;; if b : bool then Ok true else In_ s arr'
  end.

(* ------------------------------------------------------------------ *)
(* tcpx.go:367-384 ListenAndServe after checkPrepare: which server runs *)

Inductive served := ServeTCP | ServeUDP | NoKCP | NotSupported.

Definition ListenAndServe_choice (network : bytes) : res served :=
  t <- In_ network (map str_bytes ["tcp"; "tcp4"; "tcp6"; "unix"; "unixpacket"]%string) ;;
  if t : bool then Ok ServeTCP else
  u <- In_ network (map str_bytes ["udp"; "udp4"; "udp6"; "unixgram"; "ip%"]%string) ;;
  if u : bool then Ok ServeUDP else
  k <- In_ network (map str_bytes ["kcp"]%string) ;;
  if k : bool then Ok NoKCP else Ok NotSupported.

(* ------------------------------------------------------------------ *)
(* context.go:528-549 ClientIP.  [clientAddr] is Conn.RemoteAddr().String() (tcp) or
   Addr.String() (udp), context.go:530-537. *)
Definition ClientIP (clientAddr : bytes) : bytes :=
  let arr := Split ":"%char clientAddr in
  if Nat.eqb (List.length arr) 2 then nth 0 arr []
  else if contains clientAddr ["["%char] && contains clientAddr ["]"%char]
  then str_bytes "127.0.0.1"
  else Join ":"%char (firstn (List.length arr - 1) arr).
