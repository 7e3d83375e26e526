(* Model of the tls example: examples/modules/tls/server/main.go:8-26 and client/main.go:9-61.  No proofs in
   this file.  What crypto/tls does to the bytes, and the certificates, are not modelled: the bytes written
   by one end are what the other end reads, in whatever pieces. *)
From Verif Require Export ListenModel ServerModel BindModel.

(* server/main.go:9-12; function 1 = the handler, whose only effect is to print "recv a login" *)
Definition tls_server : mux := build [OAny "/login/" [User 1]].
Definition tls_behave (f : hdl) : list act := match f with User 1 => [AEff 1] | _ => [] end.
(* server/main.go:19-27.  [loads]: the two files are a certificate and its key; [ok]: the port is free; [left]:
   why the accept loop is left, if it is.  An error of either call is a panic. *)
Definition tls_main (loads ok : bool) (left : option why_left) : las * option transport :=
  let (cfg, e) := LoadTLSFile None loads in
  if e then (PanicsOut, None)
  else match ListenAndServe tls_server cfg (str_bytes "tcp") ok left with
       | (ReturnsErr, t) => (PanicsOut, t)
       | r => r
       end.
(* client/main.go:54-60: what a client writes after it has connected; then it closes (53) *)
Definition tls_client {V} (E : env V) : res bytes := MessagePack E (NewURLPatternMessage "/login/" None) None.
