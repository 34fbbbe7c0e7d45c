(** * The accept loop: [server] (src/lib.rs:526-549)

    [server] binds a listener and then accepts for ever.  Every accepted socket is handed to a
    task of its own ([tokio::spawn], detached: neither the end nor a panic of that task, nor the
    end of [server] itself, reaches the others).  Simplification: the operating system's queue of
    pending connections is not modelled; whether [accept] yields a socket or an error is up to
    the environment. *)
From Verif Require Export Sys.

(** Where the future of [server] stands. *)
Inductive listener :=
| LsUnbound        (* not yet bound (:527) *)
| LsAccepting      (* at [listener.accept().await] (:531) *)
| LsPanicked       (* [expect("bind to addr")] has panicked (:527) *)
| LsDropped.       (* the application has dropped the future *)

Record asys (H : handlers) := mkAsys { a_listener : listener; a_sys : sys H }.
Arguments mkAsys {H} _ _.
Arguments a_listener {H} _.
Arguments a_sys {H} _.

Inductive alabel (H : handlers) :=
| ABindOk
| ABindErr (code : N)
| AAccept (t : tid)                (* accept yields a socket, task [t] is spawned (:532-539) *)
| AAcceptErr (code : N)            (* accept fails (:541-543) *)
| ADropServer                      (* the application drops the future of [server] *)
| ASys (l : label H).              (* anything else happens *)
Arguments ABindOk {H}.
Arguments ABindErr {H} code.
Arguments AAccept {H} t.
Arguments AAcceptErr {H} code.
Arguments ADropServer {H}.
Arguments ASys {H} l.

Section Step.
  Context {H : handlers} (dbg : bool).

  (** One step.  [LConnect] is replaced by [AAccept]: clients come through the listener only. *)
  Definition astep (a : asys H) (l : alabel H) : option (asys H * list event) :=
    match l, a_listener a with
    | ABindOk, LsUnbound => Some (mkAsys LsAccepting (a_sys a), [])
    | ABindErr _, LsUnbound => Some (mkAsys LsPanicked (a_sys a), [])
    | AAccept t, LsAccepting =>
        match step dbg (a_sys a) (LConnect t) with
        | Some (s, ev) => Some (mkAsys LsAccepting s, ev)
        | None => None
        end
    | AAcceptErr _, LsAccepting => Some (a, [])                       (* :542, warn and loop *)
    | ADropServer, (LsUnbound | LsAccepting) => Some (mkAsys LsDropped (a_sys a), [])
    | ASys (LConnect _), _ => None
    | ASys l', x =>
        match step dbg (a_sys a) l' with
        | Some (s, ev) => Some (mkAsys x s, ev)
        | None => None
        end
    | _, _ => None
    end.

  Fixpoint arun (a : asys H) (ls : list (alabel H)) : option (asys H * list event) :=
    match ls with
    | [] => Some (a, [])
    | l :: ls' => match astep a l with
                  | None => None
                  | Some (a1, e1) => match arun a1 ls' with
                                     | None => None
                                     | Some (a2, e2) => Some (a2, e1 ++ e2)
                                     end
                  end
    end.
End Step.

(** [tokio::spawn(server(addr, Arc::new(UsbIpServer::new_simulated(ds))))] *)
Definition init_asys {H} (ds : list device) (w : world H) : asys H := mkAsys LsUnbound (init_sys ds w).
