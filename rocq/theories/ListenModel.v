(* Model of what the listening functions open and return: newListener (tls.go:15-25), LoadTLSFile
   (tcpx.go:1266-1275), ListenAndServe, ListenAndServeRaw, ListenAndServeTCP, ListenAndServeUDP
   (tcpx.go:367-486, 489-609, 633-712) up to what ends their loops.  No proofs in this file.
   net.Listen, net.ListenPacket succeed or fail ([ok]); tls.Listen also fails on a configuration without
   certificates.  What crypto/tls does to the bytes is not modelled. *)
From Verif Require Export MuxModel StrModel.

(* a *tls.Config: does it give certificates *)
Record tls_config := Tls { has_certificate : bool }.
(* how the bytes of the accepted connections travel *)
Inductive transport := InClear | Encrypted.
(* tls.go:15-25 *)
Definition newListener (cfg : option tls_config) (ok : bool) : option transport :=
  match cfg with
  | None => if ok then Some InClear else None
  | Some c => if ok && has_certificate c then Some Encrypted else None
  end.
(* tcpx.go:1266-1275: the pair of files loads, or not; the new TLSConfig, and whether an error *)
Definition LoadTLSFile (cfg : option tls_config) (loads : bool) : option tls_config * bool :=
  if loads then (Some (Tls true), false) else (cfg, true).

(* why an accept loop was left: State() was STATE_STOP (517), Accept failed (521-524), a panic in
   the loop, that is in OnConnect (490-496, where the unnamed result stays nil) *)
Inductive why_left := Stopped | AcceptFailed | LoopPanicked.
(* how a listening function ends *)
Inductive las := ReturnsErr | ReturnsNil | PanicsOut | NeverReturns.
Definition after_loop (left : option why_left) : las := match left with Some _ => ReturnsNil | None => NeverReturns end.

(* tcpx.go:499-507; the result: how the call ends, what was opened *)
Definition ListenAndServeTCP (cfg : option tls_config) (ok : bool) (left : option why_left) : las * option transport :=
  let l := match cfg with None => (if ok then Some InClear else None) | Some _ => newListener cfg ok end in
  match l with
  | None => (ReturnsErr, None)
  | Some t => (after_loop left, Some t)
  end.
(* tcpx.go:429-433 *)
Definition ListenAndServeRaw (cfg : option tls_config) (ok : bool) (left : option why_left) : las * option transport :=
  if ok then (after_loop left, Some InClear) else (ReturnsErr, None).
(* tcpx.go:634-641, 709; sizes: how many maxBufferSize arguments *)
Definition ListenAndServeUDP (cfg : option tls_config) (sizes : nat) (ok : bool) : las * option transport :=
  if Nat.ltb 1 sizes then (PanicsOut, None) else
  if ok then (NeverReturns, Some InClear) else (PanicsOut, None).
(* tcpx.go:367-394 *)
Definition ListenAndServe (m : mux) (cfg : option tls_config) (network : bytes) (ok : bool) (left : option why_left) : las * option transport :=
  if checkPrepare m then
    match ListenAndServe_choice network with
    | Ok ServeTCP => ListenAndServeTCP cfg ok left
    | Ok ServeUDP => ListenAndServeUDP cfg 0 ok
    | Ok _ => (ReturnsErr, None)
    | _ => (PanicsOut, None)
    end
  else (PanicsOut, None).
