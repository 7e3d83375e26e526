(* Model of reading blocks from an io.Reader: packx.go:87-132, 432-510, utils.go:248-250.
   No proofs in this file. *)
From Verif Require Export WireModel.

(* What an io.Reader will do, in order.  [RData bs]: bs arrive together (a Read with a
   smaller buffer takes a prefix and leaves the rest; bs = [] is a Read returning 0, nil).
   [RFail e]: from here on every Read returns 0, e (a closed or failed connection keeps
   failing).  [RDataFail bs e]: the Read that takes the last of bs also returns e (allowed by
   the io.Reader contract), later Reads return 0, e.  End of the list: Read blocks for ever. *)
Inductive revent : Type :=
| RData (bs : bytes)
| RFail (e : gerr)
| RDataFail (bs : bytes) (e : gerr).
Definition reader := list revent.

(* one reader.Read(buf) with len(buf) = k: bytes delivered, error, remaining reader;
   None = blocks. *)
Definition read_one (k : nat) (r : reader) : option (bytes * option gerr * reader) :=
  match r with
  | [] => None
  | RFail e :: r' => Some ([], Some e, RFail e :: r')
  | RData bs :: r' =>
      if (List.length bs <=? k)%nat then Some (bs, None, r')
      else Some (firstn k bs, None, RData (skipn k bs) :: r')
  | RDataFail bs e :: r' =>
      if (List.length bs <=? k)%nat then Some (bs, Some e, RFail e :: r')
      else Some (firstn k bs, None, RDataFail (skipn k bs) e :: r')
  end.

(* outcome of a blocking read operation *)
Inductive rdres (A : Type) : Type :=
| RdOk (a : A)
| RdErr (e : gerr)
| RdPanic
| RdBlocked.
Arguments RdOk {A}. Arguments RdErr {A}. Arguments RdPanic {A}. Arguments RdBlocked {A}.

(* packx.go:491-510 readUntil: [need] = len(buf) - offset > 0, [acc] = buf[0:offset].
   The bytes of a Read that also returned an error are dropped with it.
   The loop is fuelled; ReaderFacts.v proves S (length r) iterations suffice. *)
Fixpoint readUntil_loop (fuel : nat) (need : nat) (acc : bytes) (r : reader) : rdres bytes * reader :=
  match fuel with
  | O => (RdBlocked, r)
  | S f =>
      match read_one need r with
      | None => (RdBlocked, r)
      | Some (_, Some e, r') => (RdErr (match e with EEOF => EEOF | _ => EWrap e end), r')
      | Some (bs, None, r') =>
          let need' := (need - List.length bs)%nat in
          if (need' =? 0)%nat then (RdOk (acc ++ bs), r') else readUntil_loop f need' (acc ++ bs) r'
      end
  end.

(* packx.go:492-494: an empty buffer is filled without reading *)
Definition readUntil (k : nat) (r : reader) : rdres bytes * reader :=
  if (k =? 0)%nat then (RdOk [], r) else readUntil_loop (S (List.length r)) k [] r.

(* if e == io.EOF { return nil, e }; return nil, errorx.Wrap(e)  (packx.go:438-441) *)
Definition eof_or_wrap (e : gerr) : gerr := match e with EEOF => EEOF | _ => EWrap e end.

(* packx.go:448 / 480: make([]byte, length, length) panics for a negative length.
   Then read the content and append it to the length bytes (450-456, 481-488). *)
Definition read_content (info : bytes) (length : Z) (r : reader) : rdres bytes * reader :=
  if length <? 0 then (RdPanic, r) else
  match readUntil (Z.to_nat length) r with
  | (RdOk content, r') => (RdOk (info ++ content), r')
  | (RdErr e, r') => (RdErr (eof_or_wrap e), r')
  | (RdPanic, r') => (RdPanic, r')
  | (RdBlocked, r') => (RdBlocked, r')
  end.

(* packx.go:432-457 UnpackToBlockFromReader; reader is not nil *)
Definition UnpackToBlockFromReader (r : reader) : rdres bytes * reader :=
  match readUntil 4 r with
  | (RdOk info, r') =>
      match LengthOf (of_bytes info) with
      | Ok length => read_content info length r'
      | Err e => (RdErr e, r')
      | Panic => (RdPanic, r')
      end
  | (RdErr e, r') => (RdErr (eof_or_wrap e), r')
  | (RdPanic, r') => (RdPanic, r')
  | (RdBlocked, r') => (RdBlocked, r')
  end.

(* packx.go:459-489; maxByTe is an int converted to int32 at line 476 *)
Definition UnpackToBlockFromReaderLimit (maxByte : Z) (r : reader) : rdres bytes * reader :=
  match readUntil 4 r with
  | (RdOk info, r') =>
      match LengthOf (of_bytes info) with
      | Ok length =>
          if to_int32 maxByte <? length then (RdErr (EMsg "recv message beyond max byte length limit"), r')
          else read_content info length r'
      | Err e => (RdErr e, r')
      | Panic => (RdPanic, r')
      end
  | (RdErr e, r') => (RdErr (eof_or_wrap e), r')
  | (RdPanic, r') => (RdPanic, r')
  | (RdBlocked, r') => (RdBlocked, r')
  end.

(* packx.go:123-125, 87-89 and utils.go:248-250 (Recv) *)
Definition FirstBlockOf (r : reader) : rdres bytes * reader := UnpackToBlockFromReader r.

(* packx.go:90-95 and 127-132: maxByte <= 0 means no limit *)
Definition FirstBlockOfLimitMaxByte (maxByte : Z) (r : reader) : rdres bytes * reader :=
  if maxByte <=? 0 then UnpackToBlockFromReader r else UnpackToBlockFromReaderLimit maxByte r.

(* packx.go:98-119 UnPackFromReader: id, header, body bytes of the first block *)
Definition rd_of_res {A} (x : res A) : rdres A :=
  match x with Ok a => RdOk a | Err e => RdErr e | Panic => RdPanic end.

Definition UnPackFromReader (hc : hcodec) (r : reader) : rdres (Z * header * bytes) * reader :=
  match UnpackToBlockFromReader r with
  | (RdOk buf, r') =>
      (rd_of_res (messageID <- MessageIDOf (of_bytes buf) ;;
                  header <- HeaderOf hc (of_bytes buf) ;;
                  body <- BodyBytesOf (of_bytes buf) ;;
                  Ok (messageID, header, gbytes body)), r')
  | (RdErr e, r') => (RdErr e, r')
  | (RdPanic, r') => (RdPanic, r')
  | (RdBlocked, r') => (RdBlocked, r')
  end.
