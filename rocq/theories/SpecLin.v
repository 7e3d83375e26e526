(* What it means that calls made at the same time act as if made one after another. *)
From Verif Require Export LinModel SpecPool.

(* the calls as PoolModel has them, in one step *)
Definition call_op (k : qcall) : list pop :=
  match k with
  | QOnline c u => [POnline c u]
  | QOffline c => [POffline c]
  | QClose c => [PClose c]
  | QGet _ _ => []
  end.
Definition at_once (k : qcall) (w : pworld) : qres * pworld :=
  match k with
  | QOnline c u => let (r, w') := pstep (POnline c u) w in (RRet r, w')
  | QOffline c => let (r, w') := pstep (POffline c) w in (RRet r, w')
  | QClose c => let (r, w') := pstep (PClose c) w in (RRet r, w')
  | QGet q u => (RCtx (GetClientPool w q u), w)
  end.

(* a log in which every call has, besides its beginning and its end, an instant at which it takes
   effect; newest first *)
Inductive iev := CBegins (t : nat) (k : qcall) | CActs (t : nat) (k : qcall) (r : qres) | CReturns (t : nat) (k : qcall) (r : qres).
Definition by_thread (t : nat) (e : iev) : bool := match e with CBegins t' _ | CActs t' _ _ | CReturns t' _ _ => Nat.eqb t' t end.
Definition visible (e : iev) : list qev :=
  match e with CBegins t k => [EInv t k] | CActs _ _ _ => [] | CReturns t k r => [ERes t k r] end.
Definition instants (e : iev) : list (qcall * qres) := match e with CActs _ k r => [(k, r)] | _ => [] end.

(* of one goroutine: every call that has ended took effect once, between its beginning and its end,
   with the result it returned; the last may be still going on, having taken effect or not *)
Inductive in_turn (t : nat) : list iev -> Prop :=
| it_nil : in_turn t []
| it_call k r l : in_turn t l -> in_turn t (CReturns t k r :: CActs t k r :: CBegins t k :: l).
Inductive in_turn_open (t : nat) : list iev -> Prop :=
| ito_idle l : in_turn t l -> in_turn_open t l
| ito_begun k l : in_turn t l -> in_turn_open t (CBegins t k :: l)
| ito_done k r l : in_turn t l -> in_turn_open t (CActs t k r :: CBegins t k :: l).

(* the calls l, newest first, made one after another in memory w0, give these results and leave w *)
Inductive one_after_another (w0 : pworld) : list (qcall * qres) -> pworld -> Prop :=
| oaa_nil : one_after_another w0 [] w0
| oaa_call k r l w w' : one_after_another w0 l w -> at_once k w = (r, w') -> one_after_another w0 ((k, r) :: l) w'.

(* what was seen can be explained by calls taking effect at single instants, which leave w *)
Definition linearizes (w0 : pworld) (log : list qev) (w : pworld) : Prop :=
  exists l, flat_map visible l = log /\ (forall t, in_turn_open t (filter (by_thread t) l)) /\
    one_after_another w0 (flat_map instants l) w.

(* goroutine t is inside call k *)
Definition inside (log : list qev) (t : nat) (k : qcall) : Prop :=
  exists l2 l1, log = l2 ++ EInv t k :: l1 /\ forall k' r, ~ In (ERes t k' r) l2.
Definition on_conn (k : qcall) : option nat :=
  match k with QOnline c _ | QOffline c | QClose c => Some c | QGet _ _ => None end.
Definition renames (k : qcall) : bool := match k with QOnline _ _ => true | _ => false end.
(* no connection is given a name while another call on it is going on *)
Definition apart (log : list qev) : Prop :=
  forall l2 t k l1 t' k', log = l2 ++ EInv t k :: l1 -> inside l1 t' k' -> on_conn k = on_conn k' -> on_conn k <> None ->
    renames k = false /\ renames k' = false.
(* all calls have returned *)
Definition returned (s : qstate) : Prop := forall t x, nth_error (qs_threads s) t = Some x -> x = QT None [].
(* l, newest first: the calls of all goroutines in some order that keeps the order of each *)
Definition some_order (calls : list (list qcall)) (l : list (nat * qcall)) : Prop :=
  forall t, map snd (filter (fun x => Nat.eqb (fst x) t) l) = rev (nth t calls []).
(* a connection that is given a name by one goroutine is used by no other *)
Definition own_conns (calls : list (list qcall)) : Prop :=
  forall t t' c u k, t <> t' -> In (QOnline c u) (nth t calls []) -> In k (nth t' calls []) -> on_conn k <> Some c.
