(* Model of the call sites that anchored middleware remembers and of the panic texts that list them:
   anchor.go:29-95, called from tcpx.go:257-316.  No proofs in this file.
   The anchors themselves are those of MuxModel; here every call comes with its place in the user's
   program (what runtime.Caller(2) gives in callUse and callUnUse: frame 0 is callUse, frame 1
   TcpX.Use, frame 2 the caller of Use), and the field [info] of the anchors stored in
   MiddlewareAnchorMap is kept beside them, by key.  The copies of [info] in the slice
   MiddlewareAnchors are read by checkValidBeforeRun only, which never panics (C32).
   The other panics of Use and UnUse carry texts made by errorx, which are not modelled.
   The file name is one string without interpretation; the key is printed as it is (%s). *)
From Verif Require Export MuxModel JsonModel.

(* file and line *)
Record site := Site { s_file : string; s_line : Z }.
(* anchor.go:54, 66: fmt.Sprintf("%s:%d", file, line) *)
Definition site_text (s : site) : string := (s_file s ++ ":" ++ itoa (s_line s))%string.

(* anchor.go:29-32 AnchorMiddlewareInfo *)
Record winfo := WI { wi_use : list string; wi_unuse : list string }.
Record wmux := WM { w_mux : mux; w_info : list (string * winfo) }.
Definition new_wmux : wmux := WM new_mux [].

Definition info_of (k : string) (w : wmux) : winfo :=
  match aget k (w_info w) with Some i => i | None => WI [] [] end.
(* anchor.go:71-77 mergeUse, 79-85 mergeUnUse *)
Definition mergeUse (p : string) (i : winfo) : winfo := WI (wi_use i ++ [p]) (wi_unuse i).
Definition mergeUnUse (p : string) (i : winfo) : winfo := WI (wi_use i) (wi_unuse i ++ [p]).

Definition newline : string := String (ascii_of_nat 10) EmptyString.
(* strings.Join(rs, "\n") *)
Fixpoint join (rs : list string) : string :=
  match rs with
  | [] => ""
  | [x] => x
  | x :: r => (x ++ newline ++ join r)%string
  end.
(* anchor.go:87-95 FormatPath *)
Definition FormatPath (i : winfo) : string :=
  join (["------------------- Use -----------------------"%string] ++ wi_use i ++
        ["------------------- UnUse ---------------------"%string] ++ wi_unuse i).

(* how a call ends: it returns, panics in callUse or callUnUse with this text, or panics otherwise *)
Inductive answer := Fine | Misuse (text : string) | Other.

(* anchor.go:46-49 *)
Definition use_text (k : string) (i : winfo) : string :=
  ("can't Use(" ++ k ++ ", handler) more than twice when the first anchor middleware has not called UnUse(" ++ k ++
   ") yet, they're at:" ++ newline ++ FormatPath i)%string.
(* anchor.go:59-62 *)
Definition unuse_text (k : string) (i : winfo) : string :=
  ("can't UnUse(" ++ k ++ ") when call UnUse times is bigger than call Use, they're at :" ++ newline ++ FormatPath i)%string.

(* tcpx.go:281-291 for one pair; use1 panics in callUse only *)
Definition wuse1 (s : site) (k : string) (f : hdl) (w : wmux) : wmux * answer :=
  let o := use1 k f (w_mux w) in
  if snd o then (WM (fst o) (w_info w), Misuse (use_text k (info_of k w)))
  else (WM (fst o) (aset k (mergeUse (site_text s) (info_of k w)) (w_info w)), Fine).
(* tcpx.go:257-293 Use *)
Fixpoint wuse_pairs (s : site) (l : list uarg) (w : wmux) : wmux * answer :=
  match l with
  | UKey k :: UFn f :: r =>
      match wuse1 s k f w with
      | (w', Fine) => wuse_pairs s r w'
      | bad => bad
      end
  | [] => (w, Fine)
  | _ => (w, Other)
  end.
Definition wUse (s : site) (l : list uarg) (w : wmux) : wmux * answer :=
  if Nat.even (List.length l) then wuse_pairs s l w else (w, Other).

(* tcpx.go:309-315 for one key: an unknown key panics with another text, and so would
   ReplaceMiddlewareAnchor, which is called for known keys only *)
Definition wunuse1 (s : site) (k : string) (w : wmux) : wmux * answer :=
  match aget k (m_amap (w_mux w)) with
  | None => (w, Other)
  | Some a =>
      let o := unuse1 k (w_mux w) in
      match callUnUse a (next_index (w_mux w)) with
      | None => (WM (fst o) (w_info w), Misuse (unuse_text k (info_of k w)))
      | Some _ =>
          if snd o then (WM (fst o) (w_info w), Other)
          else (WM (fst o) (aset k (mergeUnUse (site_text s) (info_of k w)) (w_info w)), Fine)
      end
  end.
(* tcpx.go:306-316 UnUse *)
Fixpoint wUnUse (s : site) (ks : list string) (w : wmux) : wmux * answer :=
  match ks with
  | [] => (w, Fine)
  | k :: r =>
      match wunuse1 s k w with
      | (w', Fine) => wUnUse s r w'
      | bad => bad
      end
  end.

(* a call of the registration API from a place; the other calls leave the anchors alone *)
Definition wcall (s : site) (a : api) (w : wmux) : wmux * answer :=
  match a with
  | AUse l => wUse s l w
  | ACall (OUse k f) => wUse s [UKey k; UFn f] w
  | AUnUse ks => wUnUse s ks w
  | ACall (OUnUse k) => wUnUse s [k] w
  | _ => let o := api_step a (w_mux w) in (WM (fst o) (w_info w), if snd o then Other else Fine)
  end.
(* the state after calls made one after another, oldest first; panics are recovered *)
Definition wrun (h : list (site * api)) : wmux :=
  fold_left (fun w c => fst (wcall (fst c) (snd c) w)) h new_wmux.
