(* Model of the deadline settings: TcpX.SetDeadline/SetReadDeadline/SetWriteDeadline (tcpx.go:138-168),
   where the listening functions apply them (tcpx.go:448-451, 526-529, 648-650), the methods of Context
   (context.go:305-345) and what a passed read deadline does to the two receive loops
   (tcpx.go:564-573, 662-681).  No proofs in this file. *)
From Verif Require Export CtxModel.

(* a time.Time: None is the zero value, which for a net.Conn means "no deadline"; other instants by number *)
Definition instant := option Z.

(* net.Conn and net.PacketConn: SetDeadline sets both *)
Record sdl := SDL { sd_read : instant; sd_write : instant }.
Inductive dset := DBoth (t : instant) | DRead (t : instant) | DWrite (t : instant).
Definition sock_set (o : dset) (d : sdl) : sdl :=
  match o with
  | DBoth t => SDL t t
  | DRead t => SDL t (sd_write d)
  | DWrite t => SDL (sd_read d) t
  end.

(* tcpx.go:44-47, 138-168: the three fields of TcpX *)
Record tdl := TDL { td_dead : instant; td_read : instant; td_write : instant }.
Definition srv_set (o : dset) (s : tdl) : tdl :=
  match o with
  | DBoth t => TDL t (td_read s) (td_write s)
  | DRead t => TDL (td_dead s) t (td_write s)
  | DWrite t => TDL (td_dead s) (td_read s) t
  end.

(* tcpx.go:449-451, 527-529 for an accepted connection, 648-650 for the UDP socket: three calls in a row *)
Definition apply_dl (s : tdl) : sdl :=
  sock_set (DWrite (td_write s)) (sock_set (DRead (td_read s)) (sock_set (DBoth (td_dead s)) (SDL None None))).

(* a read begun at [now] fails with a timeout when the read deadline is not in the future *)
Definition expired (t : instant) (now : Z) : bool := match t with Some x => x <=? now | None => false end.

(* sockets by number; contexts by number, each with its socket.  The contexts of one UDP socket
   share it (tcpx.go:682), a TCP context has its own. *)
Record sock := SK { sk_udp : bool; sk_dl : sdl; sk_open : bool }.
Record dworld := DW { dw_srv : tdl; dw_socks : list sock; dw_ctxs : list nat }.
Definition dworld0 : dworld := DW (TDL None None None) [] [].

Inductive dop :=
| DServer (o : dset)            (* srv.SetDeadline ... *)
| DAccept                       (* a TCP connection is accepted; its context *)
| DListen                       (* ListenAndServeUDP opens its socket *)
| DCtx (c : nat) (o : dset)     (* ctx.SetDeadline ... on context c *)
| DRecv (k : nat) (now : Z).    (* the receive loop of socket k reads at time now, bytes being there *)

Definition dstep (w : dworld) (o : dop) : dworld :=
  match o with
  | DServer o => DW (srv_set o (dw_srv w)) (dw_socks w) (dw_ctxs w)
  | DAccept => DW (dw_srv w) (dw_socks w ++ [SK false (apply_dl (dw_srv w)) true]) (dw_ctxs w ++ [List.length (dw_socks w)])
  | DListen => DW (dw_srv w) (dw_socks w ++ [SK true (apply_dl (dw_srv w)) true]) (dw_ctxs w)
  | DCtx c o =>
      (* context.go:306-345: on ctx.Conn or ctx.PacketConn *)
      match nth_error (dw_ctxs w) c with
      | Some k => match nth_error (dw_socks w) k with
                  | Some s => DW (dw_srv w) (upd (dw_socks w) k (SK (sk_udp s) (sock_set o (sk_dl s)) (sk_open s))) (dw_ctxs w)
                  | None => w
                  end
      | None => w
      end
  | DRecv k now =>
      match nth_error (dw_socks w) k with
      | Some s =>
          if sk_open s then
            if expired (sd_read (sk_dl s)) now then
              (* UDP 675-677: logged, `continue`; TCP 566-571: the loop ends and CloseConn runs (560) *)
              if sk_udp s then w
              else DW (dw_srv w) (upd (dw_socks w) k (SK false (sk_dl s) false)) (dw_ctxs w)
            else if sk_udp s then DW (dw_srv w) (dw_socks w) (dw_ctxs w ++ [k])     (* a context per datagram, 684 *)
            else w
          else w
      | None => w
      end
  end.

(* newest step first *)
Fixpoint drun (h : list dop) : dworld :=
  match h with [] => dworld0 | o :: p => dstep (drun p) o end.
