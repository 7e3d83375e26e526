(* Model of the servers of examples/modules/middleware: anchor-middleware/main.go:9-65,
   router-middleware/main.go:9-64 and global-middleware/main.go:10-28.  No proofs in this file. *)
From Verif Require Export BindModel.

(* what the handlers do that can be seen, as effects of the chain *)
Definition eServerError : Z := 500.     (* c.JSON(tcpx.SERVER_ERROR, ...) *)
Definition eMissing : Z := 403.         (* c.JSON(tcpx.NOT_AUTH, "not found auth ...") *)
Definition eInvalid : Z := 4030.        (* c.JSON(tcpx.NOT_AUTH, "auth fail, ...") *)
Definition eBadBody : Z := 20.          (* c.JSON(2, the error of Bind) *)
Definition ePrintLogin : Z := 1.        (* fmt.Println("login success") *)
Definition eToken : Z := 2.             (* c.JSON(2, "login success" with the token) *)
Definition ePrintAfter : Z := 3.        (* fmt.Println("after login, do log") *)

Section Guard.
  Context {V : Type} (E : env V) (zero : V).

  (* anchor-middleware/main.go:20-49, the same function in router-middleware/main.go:19-48.
     Comparing the interface value auth with the string is false for values of other types. *)
  Definition beforeLogin (s : gslice) : list act :=
    match HeaderOf (e_hdr E) s with
    | Panic => [APanic]
    | Err _ => [AEff eServerError; AAbort]
    | Ok header =>
        match hget "Authorization" header with
        | None => [AEff eMissing; AAbort]
        | Some (JStr auth) => if String.eqb auth "a client secret key" then [ANext; AEff ePrintAfter] else [AEff eInvalid; AAbort]
        | Some _ => [AEff eInvalid; AAbort]
        end
    end.
  (* anchor-middleware/main.go:50-65; [zero] = the User{} decoded into.  srv.Packx is JSON (NewTcpX(nil)). *)
  Definition login (c : ctx) : list act :=
    match Bind E (JsonMarshaller E) c (Some zero) with
    | Panic => [APanic]
    | Err _ => [AEff eBadBody]
    | Ok _ => [AEff ePrintLogin; AEff eToken]
    end.
  (* functions: 0 = beforeLogin, 1 = login *)
  Definition guard_behave (c : ctx) (h : hdl) : list act :=
    match h with User 0 => beforeLogin (c_stream c) | User 1 => login c | _ => [] end.

  (* anchor-middleware/main.go:10-12, router-middleware/main.go:10-11; the calls newest first *)
  Definition anchor_server : mux := build [OAdd 1 [] (User 1); OUse "before-login" (User 0)].
  Definition router_server : mux := build [OAdd 1 [User 0] (User 1)].
  (* no OnConnect: requests start at offset -1 *)
  Definition guard_handles (m : mux) (c : ctx) (w : world) := handleMiddleware (e_hdr E) m (guard_behave c) (-1) c w.
End Guard.

(* ------------------------------------------------------------------ *)
(* global-middleware/main.go:10-28: srv.UseGlobal(countRequestTime); srv.AddHandler(3, getRequestTime) *)
Definition count_server : mux := build [OAdd 3 [] (User 1); OGlobal [User 0]].

(* handling one message: the global middleware, then the handler *)
Definition count_steps (p : plan) : list hdl := match p with RunChain l => l | Direct f => [f] | _ => [] end.

(* requestTimes is an int32 shared by the handling goroutines.  atomic.AddInt32 is one step; so is
   reading it for the reply (24-26; the read is not atomic, its race is not modelled). *)
Record cst := Cst { k_times : Z; k_todo : list (list hdl); k_replies : list (nat * Z) }.
Inductive kev := KArrive (id : Z) | KStep (g : nat).
Definition kstep (e : kev) (s : cst) : option cst :=
  match e with
  | KArrive id => Some (Cst (k_times s) (k_todo s ++ [count_steps (plan_of (ById id) count_server)]) (k_replies s))
  | KStep g =>
      match nth_error (k_todo s) g with
      | Some (User 0 :: r) => Some (Cst (to_int32 (k_times s + 1)) (upd (k_todo s) g r) (k_replies s))
      | Some (User 1 :: r) => Some (Cst (k_times s) (upd (k_todo s) g r) (k_replies s ++ [(g, k_times s)]))
      | _ => None
      end
  end.
Fixpoint krun (l : list kev) (s : cst) : option cst :=
  match l with [] => Some s | e :: r => match kstep e s with Some s' => krun r s' | None => None end end.
Definition cst0 : cst := Cst 0 [] [].
