(* What C132 means, over BareModel's calls.  No proofs in this file. *)
From Verif Require Export BareModel.

(* the calls made leave the lock and the Mux itself alone *)
Definition stays_locked (l : list xop) : Prop := forall b, ~ In (XAllow b) l /\ ~ In XNil l.

(* a request for id is given to its handler without any chain: the heartbeat or auth id, unless that
   goes through the middlewares *)
Definition directly (m : mux) (id : Z) : Prop :=
  (id = m_hb_id m /\ m_hb_through m = false) \/ (id = m_auth_id m /\ m_auth_through m = false).

(* id has a handler that needs an index and has none *)
Definition id_unindexed (m : mux) (id : Z) : Prop := aget id (m_handlers m) <> None /\ ~ directly m id /\ aget id (m_ids m) = None.
Definition url_unindexed (m : mux) (u : string) : Prop := aget u (m_urls m) <> None /\ aget u (m_urlids m) = None.

(* register a handler through the mux: AddHandleFunc, CurrentAnchorIndex, AddMessageIDAnchor, stopping at
   a panic *)
Definition by_hand (id : Z) (f : hdl) (t : tx) : xout :=
  xthen (xstep (XFunc id f) t) (fun t1 => xthen (xstep XTick t1) (fun t2 => xstep (XAnchorID id (m_seed (t_m t2))) t2)).
(* the same for a url pattern *)
Definition url_by_hand (p : string) (l : list hdl) (t : tx) : xout :=
  xthen (xstep (XAny p l) t) (fun t1 => xthen (xstep XTick t1) (fun t2 => xstep (XAnchorURL p (m_seed (t_m t2))) t2)).

(* m' has what NewMux gives in place of the mux of m; heartbeat, auth and OnMessage are the server's
   own fields and stay *)
Definition emptied (m m' : mux) : Prop :=
  m_seed m' = 1 /\ m_handlers m' = [] /\ m_globals m' = [] /\ m_self m' = [] /\ m_anchors m' = [] /\ m_amap m' = [] /\ m_ids m' = [] /\
  m_urls m' = [] /\ m_urlids m' = [] /\ m_hb_on m' = m_hb_on m /\ m_hb_id m' = m_hb_id m /\ m_hb_through m' = m_hb_through m /\
  m_auth_on m' = m_auth_on m /\ m_auth_id m' = m_auth_id m /\ m_auth_through m' = m_auth_through m /\ m_onmsg m' = m_onmsg m.
