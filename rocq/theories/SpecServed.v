(** * What a connection has been told, seen from the server's side *)
From Verif Require Export SpecNet.

(** The commands served for connection [t] so far, in order, with the results. *)
Definition served (t : tid) (evs : list event) : list (command * outcome response) :=
  omap (fun e => match e with EvServe u c r => if u =? t then Some (c, r) else None | _ => None end) evs.

(** [b] is the message that carries the result [r] of command [c]: there is a response, [b] is its
    encoding (see C07 and C08), and it is one reply of the kind [c] asks for. *)
Definition carries (dbg : bool) (cr : command * outcome response) (b : list N) : Prop :=
  answers cr.1 b /\ exists x, cr.2 = Val x /\ response_to_bytes dbg x = Val b.

(** [sent] consists of the messages for [l]; of the last one possibly only a part, or nothing. *)
Definition carried (dbg : bool) (l : list (command * outcome response)) (sent : list N) : Prop :=
  exists bs part, sent = mjoin bs ++ part /\
    ((Forall2 (carries dbg) l bs /\ part = []) \/
     exists l' cr, l = l' ++ [cr] /\ Forall2 (carries dbg) l' bs /\
       (part = [] \/ exists b, carries dbg cr b /\ part `prefix_of` b)).
