(** * The program that shares the devices of its host (examples/host.rs) *)
From Verif Require Export Prog HostEnum HostHandlers.

(** examples/host.rs:8-11.  [listed]: what libusb lists, [w]: the handlers the devices get, each
    with its libusb handle.  A panic of [new_from_host] ends the program before it listens. *)
Definition host_main (dbg : bool) (listed : option (list (option rusb_handle))) (w : world rusb_h)
    : outcome (asys rusb_h) :=
  obind (new_from_host dbg listed) (fun ds => Val (init_asys ds w)).

(** examples/host.rs:13-16: from then on the main task only sleeps; what happens is what the
    listener and the connections do. *)
Definition host_step (dbg : bool) (a : asys rusb_h) (l : alabel rusb_h) : option (asys rusb_h * list event) :=
  if server_label l then astep dbg a l else None.

Fixpoint host_run (dbg : bool) (a : asys rusb_h) (ls : list (alabel rusb_h)) : option (asys rusb_h * list event) :=
  match ls with
  | [] => Some (a, [])
  | l :: ls' => match host_step dbg a l with
                | None => None
                | Some (a1, e1) => match host_run dbg a1 ls' with
                                   | None => None
                                   | Some (a2, e2) => Some (a2, e1 ++ e2)
                                   end
                end
  end.
