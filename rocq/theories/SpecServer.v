(* What a byte stream asks of the server, independently of how the server reads it. *)
From Verif Require Export SpecReader ServerModel.

(* the frame is small enough for SetMaxBytePerMessage(lim); lim <= 0: no limit *)
Definition within (lim : Z) (b : bytes) : Prop := 0 < lim -> blen b - 4 <= to_int32 lim.

(* the header text of a frame, when its header length makes sense *)
Definition header_text (b hdr : bytes) : Prop :=
  12 <= blen b /\ field b 8 < 2 ^ 31 - 16 /\ 16 + field b 8 <= blen b /\ hdr = slice b 16 (16 + Z.to_nat (field b 8)).

(* t is a number in decimal digits, v *)
Definition decimal (t : bytes) (v : Z) : Prop :=
  t <> [] /\ Forall (fun c => 48 <= code c <= 57) t /\ v = fold_left (fun a c => a * 10 + (code c - 48)) t 0.
(* t, with or without a sign, is the int n *)
Definition reads_as (t : bytes) (n : Z) : Prop :=
  - 2 ^ 63 <= n < 2 ^ 63 /\
  exists d v, decimal d v /\ (t = d /\ n = v \/ t = "+"%char :: d /\ n = v \/ t = "-"%char :: d /\ n = - v).

(* what the header says about pipelining: None = an ordinary message, Some n = "enable;n" *)
Inductive asks (hd : header) : option Z -> Prop :=
| asks_nothing : hget "[tcpx-buffer-in-serial]" hd = None -> asks hd None
| asks_other s a t n : hget "[tcpx-buffer-in-serial]" hd = Some (JStr s) -> str_bytes s = a ++ ";"%char :: t ->
    ~ In ";"%char a -> a <> str_bytes "enable" -> reads_as t n -> asks hd None
| asks_batch s t n : hget "[tcpx-buffer-in-serial]" hd = Some (JStr s) ->
    str_bytes s = str_bytes "enable" ++ ";"%char :: t -> reads_as t n -> asks hd (Some n).

Section Streams.
  Context (hc : hcodec) (lim : Z).

  Definition frame (b : bytes) : Prop := is_block b /\ within lim b.
  Definition asking (b : bytes) (o : option Z) : Prop :=
    frame b /\ exists hdr hd, header_text b hdr /\ hunmarshal hc hdr = Ok hd /\ asks hd o.

  (* an ordinary message *)
  Definition plain_message (b : bytes) : Prop := asking b None.
  (* the first frame of a pipelined batch of n *)
  Definition batch_head (b : bytes) (n : Z) : Prop := asking b (Some n).

  (* a part of the stream and what the server is to do with it *)
  Inductive part : bytes -> sev -> Prop :=
  | part_message b : plain_message b -> part b (SDispatch b)
  | part_batch b l : batch_head b (1 + Z.of_nat (List.length l)) -> Forall frame l -> 1 + Z.of_nat (List.length l) <= 2 ^ 45 ->
      part (b ++ concat l) (SPipe (b :: l) 0).

  (* how the connection's goroutine may end up *)
  Definition at_end (en : ending) : sres := match en with StaysOpen => SWaiting | Fails _ => SEnded end.

  (* the stream starts with something that is no acceptable frame *)
  Inductive fault (en : ending) : bytes -> sres -> Prop :=
  | fault_short bs : blen bs < 4 -> fault en bs (at_end en)
  | fault_cut bs : 4 <= blen bs -> 0 <= signed (field bs 0) -> (0 < lim -> signed (field bs 0) <= to_int32 lim) ->
      blen bs < 4 + signed (field bs 0) -> fault en bs (at_end en)
  | fault_long bs : 4 <= blen bs -> 0 < lim -> to_int32 lim < signed (field bs 0) -> fault en bs SEnded
  | fault_negative bs : 4 <= blen bs -> signed (field bs 0) < 0 -> (0 < lim -> signed (field bs 0) <= to_int32 lim) ->
      fault en bs SPanicked
  | fault_header b rest s : frame b -> (forall hdr hd, header_text b hdr -> hunmarshal hc hdr <> Ok hd) ->
      s = SEnded \/ s = SPanicked -> fault en (b ++ rest) s
  | fault_marker b rest hdr hd s : frame b -> header_text b hdr -> hunmarshal hc hdr = Ok hd -> (forall o, ~ asks hd o) ->
      s = SEnded \/ s = SPanicked -> fault en (b ++ rest) s
  | fault_count b rest n : batch_head b n -> n <= 0 \/ 2 ^ 45 < n -> fault en (b ++ rest) SPanicked.

  (* what may follow inside a batch instead of a frame *)
  Definition incomplete (bs : bytes) : Prop :=
    blen bs < 4 \/ 4 <= blen bs /\ 0 <= signed (field bs 0) /\ (0 < lim -> signed (field bs 0) <= to_int32 lim) /\ blen bs < 4 + signed (field bs 0).
  Definition overlong (bs : bytes) : Prop := 4 <= blen bs /\ 0 < lim /\ to_int32 lim < signed (field bs 0).
  Definition negative (bs : bytes) : Prop :=
    4 <= blen bs /\ signed (field bs 0) < 0 /\ (0 < lim -> signed (field bs 0) <= to_int32 lim).

  (* b is the head of a batch of n of which only the frames l follow *)
  Definition broken_batch (b : bytes) (l : list bytes) (n : Z) : Prop :=
    batch_head b n /\ Forall frame l /\ 1 + Z.of_nat (List.length l) < n <= 2 ^ 45.

  (* a whole stream: what is handed on, and how the connection's goroutine ends up *)
  Inductive stream_served (en : ending) : bytes -> list sev -> sres -> Prop :=
  | served_fault bs s : fault en bs s -> stream_served en bs [] s
  | served_part p e rest evs s : part p e -> stream_served en rest evs s -> stream_served en (p ++ rest) (e :: evs) s
  | served_cut b l n rest : broken_batch b l n -> incomplete rest ->
      stream_served en (b ++ concat l ++ rest)
        (match en with StaysOpen => [] | Fails _ => [SPipe (b :: l) (n - 1 - Z.of_nat (List.length l))] end) (at_end en)
  | served_long b l n rest evs s : broken_batch b l n -> overlong rest -> stream_served en (skipn 4 rest) evs s ->
      stream_served en (b ++ concat l ++ rest) (SPipe (b :: l) (n - 1 - Z.of_nat (List.length l)) :: evs) s
  | served_negative b l n rest : broken_batch b l n -> negative rest -> stream_served en (b ++ concat l ++ rest) [] SPanicked.
End Streams.

(* the first frame of a datagram, trailing bytes dropped *)
Definition first_frame (d : bytes) : list bytes :=
  if (16 <=? blen d) && (4 + field d 0 <=? blen d) then [firstn (Z.to_nat (4 + field d 0)) d] else [].

(* w is an interleaving of the lists ls *)
Inductive merge {A} : list (list A) -> list A -> Prop :=
| merge_nil ls : Forall (fun l => l = []) ls -> merge ls []
| merge_pick ls1 x l ls2 w : merge (ls1 ++ l :: ls2) w -> merge (ls1 ++ (x :: l) :: ls2) (x :: w).

(* only messages are handed on between connecting and closing *)
Definition hands_on (e : sev) : Prop := match e with SDispatch _ | SPipe _ _ => True | _ => False end.

(* successful calls of the reply functions, with what they wrote *)
Inductive replying {V} (E : env V) : list bytes -> Prop :=
| by_Reply mar id src hs ws : Reply E mar id src hs None = (Ok tt, ws) -> replying E ws
| by_ReplyWithMarshaller mo id src hs ws : ReplyWithMarshaller E mo id src hs None = (Ok tt, ws) -> replying E ws
| by_JSON mar id src hs ws : ctxJSON E mar id src hs None = (Ok tt, ws) -> replying E ws
| by_XML mar id src hs ws : ctxXML E mar id src hs None = (Ok tt, ws) -> replying E ws
| by_TOML mar id src hs ws : ctxTOML E mar id src hs None = (Ok tt, ws) -> replying E ws
| by_YAML mar id src hs ws : ctxYAML E mar id src hs None = (Ok tt, ws) -> replying E ws
| by_ProtoBuf mar id src hs ws : ctxProtoBuf E mar id src hs None = (Ok tt, ws) -> replying E ws
| by_JSONURL c src w ws w' : JSONURLPattern E c src None w = (Ok tt, ws, w') -> replying E ws
| by_ProtoURL c src w ws w' : ProtobufURLPattern E c src None w = (Ok tt, ws, w') -> replying E ws.

(* what one handler wrote with a series of replies *)
Inductive handler_writes {V} (E : env V) : list bytes -> Prop :=
| no_reply : handler_writes E []
| one_more ws l : replying E ws -> handler_writes E l -> handler_writes E (ws ++ l).

(* no handler or middleware panics *)
Definition panic_free (behave : hdl -> list act) : Prop := forall h, ~ In APanic (behave h).

(* the header length is one that reading the header copes with *)
Definition sane_header_length (b : bytes) : Prop := blen b < 12 \/ 0 <= signed (field b 8) < 2 ^ 31 - 16.
