(* Vocabulary for registering while serving. *)
From Verif Require Export RegModel.

Definition regs (os : list op) : list mcall := map MReg os.       (* oldest first *)

(* the registering goroutine is about to write a location that request i is about to read *)
Definition reg_race (s : mrun) : Prop :=
  exists rd wr eff p i rt q l, r_prog s = MAcc rd wr eff :: p /\ In l wr /\
    nth_error (r_reqs s) i = Some (rt, q) /\ In l (qreads q).

(* the same for a given location *)
Definition race_on (l : loc) (s : mrun) : Prop :=
  exists rd wr eff p i rt q, r_prog s = MAcc rd wr eff :: p /\ In l wr /\
    nth_error (r_reqs s) i = Some (rt, q) /\ In l (qreads q).

(* request i has chosen what to run *)
Definition chosen (s : mrun) (i : nat) (rt : routing) (p : plan) : Prop := nth_error (r_reqs s) i = Some (rt, QDone p).

(* nothing is being registered *)
Definition idle (s : mrun) : Prop := r_prog s = [] /\ r_calls s = [].

(* every request has chosen *)
Definition all_chosen (s : mrun) : Prop := forall i rt q, nth_error (r_reqs s) i = Some (rt, q) -> exists p, q = QDone p.

(* two muxes hold the same at a location *)
Definition same_at (x : loc) (m m' : mux) : Prop :=
  match x with
  | LHandlers => m_handlers m = m_handlers m'
  | LSelf => m_self m = m_self m'
  | LIds => m_ids m = m_ids m'
  | LGlobals => m_globals m = m_globals m'
  | LAnchors => m_anchors m = m_anchors m'
  | LAMap => m_amap m = m_amap m'
  | LUrls => m_urls m = m_urls m'
  | LUrlIds => m_urlids m = m_urlids m'
  | LHb => m_hb_on m = m_hb_on m' /\ m_hb_id m = m_hb_id m' /\ m_hb_through m = m_hb_through m'
  | LAuth => m_auth_on m = m_auth_on m' /\ m_auth_id m = m_auth_id m' /\ m_auth_through m = m_auth_through m'
  | LOnMsg => m_onmsg m = m_onmsg m'
  end.

(* the outcome of a request's next step can be changed by changing that location alone *)
Definition matters (q : qpc) (x : loc) : Prop :=
  exists m m' l, (forall y, y <> x -> same_at y m m') /\ qstep m l q <> qstep m' l q.

(* a step of the registering goroutine changes only what it is said to write, and what it writes and
   whether it panics depends only on the counter and on what it is said to access *)
Definition keeps_to (i : mi) : Prop :=
  match i with
  | MAcc rd wr eff =>
      (forall m x, ~ In x wr -> same_at x m (fst (eff m))) /\
      (forall m m', m_seed m = m_seed m' -> (forall x, In x (rd ++ wr) -> same_at x m m') ->
         snd (eff m) = snd (eff m') /\ forall x, In x wr -> same_at x (fst (eff m)) (fst (eff m')))
  | _ => True
  end.

(* it does write what it is said to write *)
Definition writes (i : mi) (x : loc) : Prop :=
  match i with MAcc _ wr _ => In x wr | _ => False end.
Definition changes (i : mi) (x : loc) : Prop :=
  match i with MAcc _ _ eff => exists m, ~ same_at x m (fst (eff m)) | _ => False end.
