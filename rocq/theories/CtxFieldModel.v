(* Model of how goroutines use the fields of the contexts of one TCP connection, raw connection or
   datagram: context.go:25-75 (the fields), 79-104 (copyContext), 131-173, 243-418, 505-604, 609-689,
   733-784 (methods) and tcpx.go:448-483, 526-606, 682-706, 852-1014, 1027-1118
   (the goroutines the server starts).  Which fields are accessed, in which order, under ctx.L or not;
   loops are any number of rounds and every branch may be taken.
   The lock is ctx.L, which a context shares with its copies, as it shares the integer behind
   userState.  A composite literal (NewContext, copyContext) is written before anyone knows its
   address: these writes are left out.  Whoever finds a context in the pool does so after Online has
   put it there: what others then do with it (SendToUsername, Stop) is modelled as goroutines that
   Online starts.  Left out: the fields of the TcpX (FieldModel), the pool's map (SpecRace), what lies
   behind the sync.Maps, channels and the connection.  No proofs in this file. *)
From Verif Require Export AccessModel.

Inductive cfield :=
| CConn | CL | CPacketConn | CAddr | CPerConn | CPerRequest | CPackx | CPoolRef | CRecvEnd | CRecvAuth
| CUserState | CConnReader | CConnWriter | CStream | COffset | CHandlers.

(* context.go:25-75 in order of declaration *)
Definition all_fields : list cfield :=
  [CConn; CL; CPacketConn; CAddr; CPerConn; CPerRequest; CPackx; CPoolRef; CRecvEnd; CRecvAuth;
   CUserState; CConnReader; CConnWriter; CStream; COffset; CHandlers].

(* field f of context number c; the integer behind the userState of all of them *)
Inductive cloc := Of (c : nat) (f : cfield) | UserState.

Notation code := (acts cloc).

(* several fields of c one after another *)
Definition rd (c : nat) (l : list cfield) (k : code) : code := fold_right (fun f k => PRd (Of c f) k) k l.

(* *ctx as an argument or value receiver: copyContext (context.go:79), ClientIP, Network, RouterType *)
Definition whole (c : nat) (k : code) : code := rd c all_fields k.

Section Methods.
  Context (udp : bool).

  (* context.go:243-254 ConnectionProtocolType *)
  Definition protocol (c : nat) (k : code) : code := rd c (if udp then [CConn; CAddr; CPacketConn] else [CConn]) k.
  (* context.go:354-366, 395-410: a value of the connection, for UDP of the request *)
  Definition conn_value (c : nat) (k : code) : code := protocol c (rd c [if udp then CPerRequest else CPerConn] k).
  (* context.go:163-173 Offline, 370-376 Username *)
  Definition Offline (c : nat) (k : code) : code := rd c [CPoolRef] (conn_value c (rd c [CPoolRef] k)).
  (* context.go:276-303; [pool]: poolRef is set *)
  Definition CloseConn (pool : bool) (c : nat) (k : code) : code :=
    protocol c (rd c [if udp then CPacketConn else CConn] (rd c [CRecvEnd; CRecvEnd; CPoolRef]
      ((if pool then Offline c else fun k => k) (rd c [CL] (PLock (rd c [CUserState] (PWr UserState (rd c [CL] (PUnlock k))))))))).
  (* context.go:590-605 (IsOffline, IsOnline) *)
  Definition IsOnline (c : nat) (k : code) : code := rd c [CL] (PRLock (rd c [CL; CUserState] (PRd UserState (PRUnlock k)))).
  (* context.go:505-521 replyBuf below Reply: the packer, then the connection *)
  Definition Reply (c : nat) (k : code) : code := rd c [CPackx] (protocol c (rd c (if udp then [CPacketConn; CAddr] else [CConn]) k)).

  (* methods an application calls on a context it was handed *)
  Inductive cmethod :=
  | MOffline | MCloseConn (pool : bool) | MSetDeadline | MBind | MConnValue | MRequestValue | MReply
  | MClientIP                         (* also Network and RouterType *)
  | MAbort | MNext | MReset | MResetOffset | MIsOnline | MRecvHeartBeat | MGetPoolRef | MRecvAuth
  | MURLPattern | MInitReaderAndWriter | MSendToUsername | MAssignStream.
  Definition call (m : cmethod) (c : nat) (k : code) : code :=
    match m with
    | MOffline => Offline c k
    | MCloseConn pool => CloseConn pool c k
    | MSetDeadline => protocol c (rd c [if udp then CPacketConn else CConn] k)      (* context.go:306-345 *)
    | MBind => rd c [CPackx; CStream] k                                           (* context.go:347, 609-617 *)
    | MConnValue => conn_value c k
    | MRequestValue => rd c [CPerRequest] k                                       (* context.go:412-418 *)
    | MReply => Reply c k
    | MClientIP => whole c k                                                      (* context.go:523-549, 682-688 *)
    | MAbort => PWr (Of c COffset) k                                              (* context.go:552-554 *)
    | MNext => rd c [COffset] (PWr (Of c COffset) (rd c [CHandlers; COffset] k))  (* context.go:559-569 *)
    | MResetOffset => PWr (Of c COffset) k
    | MReset => PWr (Of c CPerRequest) (PWr (Of c COffset) (rd c [CHandlers] (PWr (Of c CHandlers) k)))   (* context.go:574-582 *)
    | MIsOnline => IsOnline c k
    | MRecvHeartBeat => conn_value c k                                            (* context.go:621-641 *)
    | MGetPoolRef => rd c [CL] (PRLock (rd c [CL; CPoolRef] (PRUnlock k)))        (* context.go:662-666 *)
    | MRecvAuth => rd c [CRecvAuth] k                                             (* context.go:668-679 *)
    | MURLPattern => rd c [CPerRequest; CStream; CPerRequest] (Reply c k)         (* context.go:733-784 *)
    | MInitReaderAndWriter =>                                                     (* context.go:256-273 *)
        protocol c (if udp then protocol c k else rd c [CConn] (PWr (Of c CConnReader) (rd c [CConn] (PWr (Of c CConnWriter) k))))
    | MSendToUsername => rd c [CPoolRef; CPoolRef] k                              (* context.go:645-654 *)
    | MAssignStream => PWr (Of c CStream) k                                       (* ctx.Stream = ... *)
    end.

  (* [co_loss]: OnHeartbeatLoss is set; [co_back]: handlers start goroutines that go on using the
     context; [co_pool]: contexts go Online *)
  Record copts := Copts { co_loss : bool; co_back : bool; co_pool : bool }.

  Inductive cpart :=
  | Foreign (c : nat)     (* someone who found context c in the pool *)
  | User (c : nat)        (* a handler, middleware or callback that was given context c *)
  | Handling (n : nat)    (* handleMiddleware and below for context n *)
  | Piped (n m : nat)     (* handlePipe for the contexts n, .., m-1 *)
  | Watch                 (* a watcher of the connection *)
  | Reading (n : nat)     (* the reader, whose next copies are n, n+1, .. *)
  | Batch (n m : nat)     (* the reader inside a batch that began with copy n *)
  | RawConn.

  Inductive cruns (o : copts) : cpart -> code -> Prop :=
  (* --- context.go:645-660; tcpx.go:1179-1182 --- *)
  | x_end c : cruns o (Foreign c) PEnd
  | x_send c k : cruns o (Foreign c) k -> cruns o (Foreign c) (IsOnline c (Reply c k))
  | x_close c pool k : cruns o (Foreign c) k -> cruns o (Foreign c) (CloseConn pool c k)
  | x_more c p k : cruns o (Foreign c) p -> cruns o (Foreign c) k -> cruns o (Foreign c) (PGo p k)
  (* --- the application --- *)
  | u_end c : cruns o (User c) PEnd
  | u_call c m k : cruns o (User c) k -> cruns o (User c) (call m c k)
  | u_back c p k : co_back o = true -> cruns o (User c) p -> cruns o (User c) k -> cruns o (User c) (PGo p k)
  (* context.go:131-141 Online *)
  | u_online c p k : co_pool o = true -> cruns o (Foreign c) p -> cruns o (User c) k ->
      cruns o (User c) (conn_value c (rd c [CPoolRef; CPoolRef] (PGo p k)))
  (* --- tcpx.go:853-992: nobody handles it; one handler alone; or the chain is put together, run, and the context reset --- *)
  | h_none n : cruns o (Handling n) (whole n (rd n [CStream] PEnd))
  | h_alone n p : cruns o (User n) p -> cruns o (Handling n) (whole n (rd n [CStream] p))
  | h_chain n p : cruns o (User n) p ->
      cruns o (Handling n) (whole n (rd n [CStream; CHandlers; CHandlers] (PWr (Of n CHandlers) (rd n [CHandlers]
        (call MNext n (pthen p (call MReset n PEnd)))))))
  (* tcpx.go:994-999 *)
  | h_piped_end n : cruns o (Piped n n) PEnd
  | h_piped n m p k : cruns o (Handling n) p -> cruns o (Piped (S n) m) k -> cruns o (Piped n m) (pthen p k)
  (* --- tcpx.go:1027-1118: receiving from the channels, closing, or OnHeartbeatLoss with a copy (number 1) --- *)
  | w_end : cruns o Watch PEnd
  | w_chan k : cruns o Watch k -> cruns o Watch (rd 0 [CRecvEnd; CRecvAuth] k)
  | w_beat k : cruns o Watch k -> cruns o Watch (conn_value 0 (rd 0 [CRecvEnd] k))
  | w_go k : cruns o Watch k -> cruns o Watch (PGo k PEnd)
  | w_close pool : cruns o Watch (CloseConn pool 0 PEnd)
  | w_loss p pool : co_loss o = true -> cruns o (User 1) p -> cruns o Watch (whole 0 (pthen p (CloseConn pool 0 PEnd)))
  (* --- tcpx.go:552-606 --- *)
  | d_end n pool : cruns o (Reading n) (rd 0 [CPackx; CConn] (PWr (Of 0 CStream) (CloseConn pool 0 PEnd)))
  | d_end_told n p pool : cruns o (User 0) p ->
      cruns o (Reading n) (rd 0 [CPackx; CConn] (PWr (Of 0 CStream) (pthen p (CloseConn pool 0 PEnd))))
  | d_message n p k : cruns o (Handling n) p -> cruns o (Reading (S n)) k ->
      cruns o (Reading n) (rd 0 [CPackx; CConn] (PWr (Of 0 CStream) (whole 0 (rd n [CStream] (PGo p k)))))
  | d_pipe n k : cruns o (Batch n (S n)) k ->
      cruns o (Reading n) (rd 0 [CPackx; CConn] (PWr (Of 0 CStream) (whole 0 (rd n [CStream] k))))
  | d_more n m k : cruns o (Batch n (S m)) k ->
      cruns o (Batch n m) (rd 0 [CPackx; CConn] (PWr (Of 0 CStream) (whole 0 k)))
  | d_piped n m p k : cruns o (Piped n m) p -> cruns o (Reading m) k -> cruns o (Batch n m) (PGo p k)
  (* --- tcpx.go:466-483, 1001-1014; [q]: OnClose --- *)
  | w_raw p q pool : cruns o (User 2) p -> cruns o (User 0) q ->
      cruns o RawConn (call MInitReaderAndWriter 0 (whole 0 (rd 2 [CHandlers; CHandlers] (PWr (Of 2 CHandlers) (rd 2 [CHandlers]
        (call MNext 2 (pthen p (call MReset 2 (pthen q (CloseConn pool 0 PEnd)))))))))).
End Methods.

(* tcpx.go:531-606: NewContext, the pool, OnConnect, the watchers, the reader.  Copies 1 and up to
   the first message's number belong to the watchers *)
Inductive tcp_conn (o : copts) : code -> Prop :=
| t_conn (pool : bool) oc ws r : cruns false o (User 0) oc -> Forall (cruns false o Watch) ws -> cruns false o (Reading 2) r ->
    tcp_conn o ((if pool then PWr (Of 0 CPoolRef) else fun k => k) (pthen oc (fold_right PGo (PGo r PEnd) ws))).

(* tcpx.go:453-483 *)
Inductive raw_conn (o : copts) : code -> Prop :=
| t_raw (pool : bool) oc ws r : cruns false o (User 0) oc -> Forall (cruns false o Watch) ws -> cruns false o RawConn r ->
    raw_conn o ((if pool then PWr (Of 0 CPoolRef) else fun k => k) (pthen oc (fold_right PGo (PGo r PEnd) ws))).

(* tcpx.go:682-706: the watchers are started before the context has its pool and its stream; the
   context itself (number 0) is handled *)
Inductive udp_datagram (o : copts) (ws : list code) : code -> Prop :=
| t_udp (pool : bool) h : Forall (cruns true o Watch) ws -> cruns true o (Handling 0) h ->
    udp_datagram o ws (fold_right PGo ((if pool then PWr (Of 0 CPoolRef) else fun k => k) (PWr (Of 0 CStream) (PGo h PEnd))) ws).
