(** * Specification vocabulary for isolation between clients *)
From Verif Require Export SpecSys.

(** The handlers that belong to device [d]. *)
Definition uses_intf (d : device) (r : href) : Prop := exists f, f ∈ d_interfaces d /\ if_handler f = r.
Definition uses_dev (d : device) (r : href) : Prop := d_handler d = Some r.

(** No handler of [d] ever also belongs to a device with another bus id. *)
Definition private (d : device) (ds : list device) (evs : list event) : Prop :=
  forall e1 e2 d', evs = e1 ++ e2 -> d' ∈ ledger ds e1 -> d_bus_id d' <> d_bus_id d ->
    (forall r, uses_intf d r -> ~ uses_intf d' r) /\ (forall r, uses_dev d r -> ~ uses_dev d' r).

(** The application does not touch the handlers of [d]. *)
Definition app_leaves {H} (d : device) (ls : list (label H)) : Prop :=
  Forall (fun l => match l with LApp r _ => ~ uses_intf d r | _ => True end) ls.

(** The submits of connection [t] and what they were answered, in order. *)
Definition own_submits (t : tid) (evs : list event) : list (submit * outcome response) :=
  omap (fun e => match e with
                 | EvServe u (CmdSubmit sb) r => if u =? t then Some (sb, r) else None
                 | _ => None
                 end) evs.

(** Serving these submits one after the other, with nobody else around. *)
Inductive alone {H} (dbg : bool) (d : device)
  : world H -> list (submit * outcome response) -> world H -> Prop :=
| alone_nil w : alone dbg d w [] w
| alone_snoc w l w1 sb r w2 : alone dbg d w l w1 -> serve_submit dbg w1 (Some d) sb = (r, w2) ->
    alone dbg d w (l ++ [(sb, r)]) w2.

(** The handlers of [d] are in the same state. *)
Definition same_for {H} (d : device) (w w' : world H) : Prop :=
  (forall r, uses_intf d r -> w_intf w r = w_intf w' r) /\ (forall r, uses_dev d r -> w_dev w r = w_dev w' r).
