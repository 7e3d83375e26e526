(* The statements of C130: which messages a connection carried and what its application stores,
   and what the addresses of a message are. *)
From Verif Require Export FineModel SpecEnd.

(* the messages of a connection, and the streams its application calls are made for *)
Definition carried (gs : list gor) (s : gslice) : Prop :=
  exists g, In g gs /\ match g with GMessages l => exists m, In m l /\ fm_stream m = s | GApp s' _ => s = s' end.

(* every one of them is a message, of this router type *)
Definition all_of_type (hc : hcodec) (gs : list gor) (t : string) : Prop :=
  forall s, carried gs s -> exists id hd, is_message hc s id hd /\ asked_type hd = t.
Definition all_messages (hc : hcodec) (gs : list gor) : Prop :=
  forall s, carried gs s -> exists id hd, is_message hc s id hd.

(* some call may store v under k *)
Inductive may_set (k : ckey) (v : cval) : hprog -> Prop :=
| ms_here p : may_set k v (HSet k v p)
| ms_set k' v' p : may_set k v p -> may_set k v (HSet k' v' p)
| ms_get k' f x : may_set k v (f x) -> may_set k v (HGet k' f)
| ms_router f t : may_set k v (f t) -> may_set k v (HRouter f)
| ms_url f r : may_set k v (f r) -> may_set k v (HURL f).
Definition app_sets (gs : list gor) (k : ckey) (v : cval) : Prop :=
  exists g, In g gs /\
    match g with GMessages l => exists m r, In m l /\ may_set k v (fm_handler m r) | GApp _ p => may_set k v p end.
Definition app_leaves (gs : list gor) (k : ckey) : Prop := forall v, ~ app_sets gs k v.

(* where a router type can come from: the map as it was, a message's header, the application *)
Definition type_source (hc : hcodec) (m : smap) (gs : list gor) (t : string) : Prop :=
  aget (KStr "router_type") m = Some (VStr t) \/
  (exists s id hd, carried gs s /\ is_message hc s id hd /\ asked_type hd = t) \/
  app_sets gs (KStr "router_type") (VStr t).

(* likewise a pattern *)
Definition pattern_source (hc : hcodec) (m : smap) (gs : list gor) (u : string) : Prop :=
  aget (KStr "url_pattern") m = Some (VStr u) \/
  (exists s id hd, carried gs s /\ is_message hc s id hd /\ asked_pattern hd = Some u) \/
  app_sets gs (KStr "url_pattern") (VStr u).

(* a goroutine runs from where it is to its end without any other one taking a step *)
Fixpoint alone (p : prog) (m : smap) : list obs * smap :=
  match p with
  | PStop => ([], m)
  | PLoad k f => alone (f (aget k m)) m
  | PStore k v p' => alone p' (aset k v m)
  | PSay o p' => let '(l, m') := alone p' m in (o :: l, m')
  end.
(* goroutines one after the other *)
Fixpoint in_turn (hc : hcodec) (gs : list gor) (m : smap) : list obs :=
  match gs with [] => [] | g :: gs' => let '(l, m') := alone (gorP hc g) m in l ++ in_turn hc gs' m' end.
