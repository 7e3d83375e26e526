(* What a history of context calls means, computed from the history alone (newest call first):
   which requests belong to which connection, which values each scope holds. *)
From Verif Require Export CtxModel.

(* how a context came into being *)
Inductive who := Root                (* the connection's own context *)
               | Req (c : nat)       (* a message read on connection c *)
               | Gram.               (* a datagram *)

(* the contexts made by a history, in order *)
Fixpoint born (h : list cop) : list who :=
  match h with
  | [] => []
  | CAccept :: p => born p ++ [Root]
  | CDatagram _ :: p => born p ++ [Gram]
  | CRead x _ :: p =>
      match nth_error (born p) x with
      | Some Root => born p ++ [Req x]
      | Some (Req c) => born p ++ [Req c]
      | _ => born p
      end
  | _ :: p => born p
  end.

Definition exists_ctx (h : list cop) (x : nat) : bool := Nat.ltb x (List.length (born h)).

(* the bytes of the message context x is about *)
Fixpoint stream_of (h : list cop) (x : nat) : gslice :=
  match h with
  | [] => of_bytes []
  | CDatagram s :: p => if Nat.eqb x (List.length (born p)) then s else stream_of p x
  | CRead y s :: p =>
      match nth_error (born p) y with
      | Some Gram | None => stream_of p x
      | _ => if Nat.eqb x (List.length (born p)) || Nat.eqb x y then s else stream_of p x
      end
  | _ :: p => stream_of p x
  end.

(* Reset was called on context x *)
Fixpoint was_reset (h : list cop) (x : nat) : bool :=
  match h with
  | [] => false
  | CReset y :: p => (Nat.eqb x y && exists_ctx p x) || was_reset p x
  | _ :: p => was_reset p x
  end.

(* The two kinds of storage: one per TCP connection, one private to a context. *)
Inductive slot := SConn (c : nat) | SPriv (x : nat).
Definition slot_eqb (a b : slot) : bool :=
  match a, b with
  | SConn c, SConn d => Nat.eqb c d
  | SPriv x, SPriv y => Nat.eqb x y
  | _, _ => false
  end.

(* which storage a context's per-connection calls use *)
Definition conn_slot (h : list cop) (x : nat) : option slot :=
  match nth_error (born h) x with
  | Some Root => Some (SConn x)
  | Some (Req c) => Some (SConn c)
  | Some Gram => Some (SPriv x)
  | None => None
  end.
(* which storage its per-request calls use: a message's context uses its connection's storage
   until Reset *)
Definition req_slot (h : list cop) (x : nat) : option slot :=
  match nth_error (born h) x with
  | Some (Req c) => if was_reset h x then Some (SPriv x) else Some (SConn c)
  | Some _ => Some (SPriv x)
  | None => None
  end.
Definition is_slot (o : option slot) (s : slot) : bool :=
  match o with Some t => slot_eqb t s | None => false end.

(* the calls of HeartBeatChan so far, on contexts that exist *)
Fixpoint beats_made (h : list cop) : nat :=
  match h with
  | [] => O
  | CHeart x :: p => if exists_ctx p x then S (beats_made p) else beats_made p
  | _ :: p => beats_made p
  end.
Definition is_chan (o : option cval) : bool := match o with Some (VChan _) => true | _ => false end.
Definition is_string (o : option cval) : bool := match o with Some (VStr _) => true | _ => false end.

Section S.
  Context (hc : hcodec).

  (* the value under key k in a storage after a history *)
  Fixpoint val (h : list cop) (s : slot) (k : ckey) : option cval :=
    match h with
    | [] => None
    | o :: p =>
        let old := val p s k in
        match o with
        | CSetConn x k' v => if is_slot (conn_slot p x) s && keqb k k' && negb (reserved k') then Some v else old
        | CSetReq x k' v => if is_slot (req_slot p x) s && keqb k k' then Some v else old
        | CSetUser x u => if is_slot (conn_slot p x) s && keqb k (KStr "tcpx-username") then Some (VStr u) else old
        | CRouter x =>
            if is_slot (req_slot p x) s && keqb k (KStr "router_type") && negb (is_string old)
            then match own_router_type hc (stream_of p x) with Ok t => Some (VStr t) | _ => old end else old
        | CURL x =>
            if is_slot (req_slot p x) s && keqb k (KStr "url_pattern") && negb (is_string old)
            then match URLPatternOf hc (stream_of p x) with Ok t => Some (VStr t) | _ => old end else old
        | CReset x => if slot_eqb (SPriv x) s && exists_ctx p x then None else old
        | CHeart x =>
            if is_slot (conn_slot p x) s && keqb k (KStr "tcpx-heart-beat-channel") && negb (is_chan old)
            then Some (VChan (beats_made p)) else old
        | _ => old
        end
    end.
End S.

(* the routing a message asks for, in terms of its decoded header and its id *)
Definition asked_routing (h : header) (id : Z) : routing :=
  match hget "Router-Type" h with
  | Some (JStr t) =>
      if String.eqb t "URL_PATTERN" then
        match hget "Router-Pattern-Value" h with
        | Some (JStr u) => ByURL u
        | None => ByURL ""
        | Some _ => ByNothing
        end
      else if String.eqb t "MESSAGE_ID" then ById id else ByNothing
  | _ => ById id
  end.

(* the routing that type t gives to a message with the given header and id *)
Definition routing_by (t : string) (hd : header) (id : Z) : routing :=
  if String.eqb t "MESSAGE_ID" then ById id
  else if String.eqb t "URL_PATTERN" then
    match hget "Router-Pattern-Value" hd with Some (JStr u) => ByURL u | None => ByURL "" | Some _ => ByNothing end
  else ByNothing.

(* the pattern a header carries; None: something that is not a string *)
Definition asked_pattern (hd : header) : option string :=
  match hget "Router-Pattern-Value" hd with Some (JStr u) => Some u | None => Some EmptyString | Some _ => None end.

(* the TCP connection a context belongs to *)
Definition conn_of (h : list cop) (x : nat) : option nat :=
  match nth_error (born h) x with Some Root => Some x | Some (Req c) => Some c | _ => None end.

(* the context a call is made on *)
Definition subject (o : cop) : option nat :=
  match o with
  | CAccept | CDatagram _ => None
  | CRead x _ | CSetConn x _ _ | CSetReq x _ _ | CSetUser x _ | CRouter x | CURL x | CReset x | CHeart x => Some x
  end.

(* the value most recently stored under k for connection c by the per-connection setters *)
Fixpoint last_conn_store (h : list cop) (c : nat) (k : ckey) : option cval :=
  match h with
  | [] => None
  | CSetConn x k' v :: p =>
      match conn_of p x with
      | Some d => if Nat.eqb d c && keqb k k' && negb (reserved k') then Some v else last_conn_store p c k
      | None => last_conn_store p c k
      end
  | CSetUser x u :: p =>
      match conn_of p x with
      | Some d => if Nat.eqb d c && keqb k (KStr "tcpx-username") then Some (VStr u) else last_conn_store p c k
      | None => last_conn_store p c k
      end
  | CHeart x :: p =>
      match conn_of p x with
      | Some d => if Nat.eqb d c && keqb k (KStr "tcpx-heart-beat-channel") && negb (is_chan (last_conn_store p c k))
                  then Some (VChan (beats_made p)) else last_conn_store p c k
      | None => last_conn_store p c k
      end
  | _ :: p => last_conn_store p c k
  end.

(* calls that store under key k explicitly (HeartBeatChan: when it finds no channel there) *)
Definition names_key (k : ckey) (o : cop) : bool :=
  match o with
  | CSetConn _ k' _ => keqb k k'
  | CSetReq _ k' _ => keqb k k'
  | CSetUser _ _ => keqb k (KStr "tcpx-username")
  | CHeart _ => keqb k (KStr "tcpx-heart-beat-channel")
  | _ => false
  end.
Definition request_sets (k : ckey) (o : cop) : bool :=
  match o with CSetReq _ k' _ => keqb k k' | _ => false end.

(* what a reply function returns after its one write: nil when the write had no error, and otherwise
   that error, wrapped at least once *)
Definition write_outcome (werr : option gerr) (r : res unit) : Prop :=
  match werr with None => r = Ok tt | Some e => r = Err (EWrap e) \/ r = Err (EWrap (EWrap e)) end.
