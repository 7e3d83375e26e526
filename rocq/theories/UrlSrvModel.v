(* Model of the calls a server makes on its URLMux and of the places that are recorded for its
   routes: tcpx.go:346-362, mux.go:72-81, url-mux.go:41-70.  No proofs in this file. *)
From Verif Require Export UrlMuxModel.

(* A registration call of the API together with the place of the application it is made from,
   written file:line. *)
Definition sited : Type := (string * op)%type.

(* url-mux.go:43 runtime.Caller(1): the line that calls AddURLPatternHandler.  The only two calls in
   the library are tcpx.go:351 and mux.go:74; [dir] is where the library's source was when it was
   compiled. *)
Definition at_tcpx (dir : string) : string := (dir ++ "/tcpx.go:351")%string.
Definition at_mux (dir : string) : string := (dir ++ "/mux.go:74")%string.

(* tcpx.go:346-362 Any as calls on the URLMux: a list of more than one handler is added at
   tcpx.go:351 and again, through Mux.Any, at mux.go:74; without handlers it panics before either.
   Mux.Any's test of isReadOnly (mux.go:73) passes: no method of TcpX locks the mux (BareModel.v has
   AllowAdd).  The panic of AddURLAnchor (tcpx.go:361) comes after both.  No other call of the API
   touches the URLMux. *)
Definition url_calls (dir : string) (c : sited) : list uop :=
  match snd c with
  | OAny p [] => []
  | OAny p [f] => [UAdd p [f] (at_mux dir)]
  | OAny p l => [UAdd p l (at_tcpx dir); UAdd p l (at_mux dir)]
  | _ => []
  end.
(* the server's URLMux after a history of calls, the newest first *)
Definition srv_urls (dir : string) (h : list sited) : urlmux := urun (flat_map (url_calls dir) (rev h)).
