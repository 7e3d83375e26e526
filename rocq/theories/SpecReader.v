(* Independent vocabulary for stream framing: what a connection delivers as a whole. *)
From Verif Require Export SpecWire ReaderModel.

(* how the byte stream of a connection ends: it stays open and silent, or fails *)
Inductive ending := StaysOpen | Fails (e : gerr).

(* all bytes a reader will ever deliver, and how it ends *)
Fixpoint total_bytes (r : reader) : bytes :=
  match r with
  | [] => []
  | RData bs :: r' => bs ++ total_bytes r'
  | RFail _ :: _ => []
  | RDataFail bs _ :: _ => bs
  end.
Fixpoint ends (r : reader) : ending :=
  match r with
  | [] => StaysOpen
  | RData _ :: r' => ends r'
  | RFail e :: _ => Fails e
  | RDataFail _ e :: _ => Fails e
  end.

(* net.Conn behaviour: no Read returns data together with an error *)
Definition plain (r : reader) : Prop := Forall (fun ev => match ev with RDataFail _ _ => False | _ => True end) r.

(* [r] is some segmentation of the stream [bs] ending as [en] *)
Definition segmentation (bs : bytes) (en : ending) (r : reader) : Prop :=
  plain r /\ total_bytes r = bs /\ ends r = en.

(* a complete block: 4 length bytes announcing exactly the rest, below 2^31 *)
Definition is_block (b : bytes) : Prop :=
  4 <= blen b /\ field b 0 = blen b - 4 /\ blen b - 4 < 2 ^ 31.

(* the error a caller sees for a transport failure *)
Definition same_failure (e seen : gerr) : Prop :=
  (e = EEOF /\ seen = EEOF) \/ (e <> EEOF /\ exists k, seen = Nat.iter k EWrap e /\ (1 <= k)%nat).

(* a receive loop: read up to n blocks with [rd], stop at the first non-block *)
Fixpoint recv (rd : reader -> rdres bytes * reader) (n : nat) (r : reader) : list bytes * rdres unit * reader :=
  match n with
  | O => ([], RdOk tt, r)
  | S n' =>
      match rd r with
      | (RdOk b, r') => let '(bs, o, r'') := recv rd n' r' in (b :: bs, o, r'')
      | (RdErr e, r') => ([], RdErr e, r')
      | (RdPanic, r') => ([], RdPanic, r')
      | (RdBlocked, r') => ([], RdBlocked, r')
      end
  end.

(* the messages completely contained in the first k bytes of a stream of messages *)
Fixpoint whole (k : nat) (blocks : list bytes) : list bytes :=
  match blocks with
  | [] => []
  | b :: t => if (List.length b <=? k)%nat then b :: whole (k - List.length b) t else []
  end.
