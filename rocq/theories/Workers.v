(** * Worker threads: the accept loop and the connections on a tokio runtime with [W] workers

    [tokio::spawn] (src/lib.rs:536, examples/host.rs:11) runs [server] and every [handler] on the
    worker threads of the runtime.  A handler call is synchronous code (src/device.rs:471-527,
    [handler.lock().unwrap()] and [handle_urb]): until it returns, its thread runs nothing else.
    libusb transfers block up to their time-out of one second (src/host.rs:29-79).
    Accept.v lets everything run at any time; here a step of a spawned task needs a thread that is
    not inside a handler call.  The application's own calls (add_device, remove_device, its use of
    handlers) run on its own thread, as in [#[tokio::main]] (multi-thread flavour), and locks are
    granted by whoever releases them.  Simplifications: [block_in_place] and other ways to add
    threads are not used by the library; all steps but handler calls are short. *)
From Verif Require Export Accept.

Record tsys (H : handlers) := mkTsys {
  x_asys : asys H;
  x_busy : list tid }.              (* the tasks inside a handler call, each on a thread of its own *)
Arguments mkTsys {H} _ _.
Arguments x_asys {H} _.
Arguments x_busy {H} _.

Inductive tlabel (H : handlers) :=
| TStep (l : alabel H)
| TEnter (t : tid)                  (* a thread enters the handler call of [t] *)
| TReturn (t : tid).                (* that call returns, and the task goes on to its next await *)
Arguments TStep {H} l.
Arguments TEnter {H} t.
Arguments TReturn {H} t.

Section Step.
  Context {H : handlers} (dbg : bool) (W : N).

  (** A spawned task does this; it needs a thread. *)
  Definition on_worker (a : asys H) (l : alabel H) : bool :=
    match l with
    | ASys (LAdd _ _) | ASys (LRemove _ _) | ASys (LApp _ _) | ASys LGrantUsed | ASys LGrantAvail => false
    | ASys (LRun t) =>
        match y_tasks (a_sys a) !! t with
        | Some (mkTask (PAddAvailW _ | PRemAvailW _ | PRemUsedR _) _) => false
        | _ => true
        end
    | ADropServer => false
    | _ => true
    end.
  (** The task has been granted what it needs to serve a submit (src/lib.rs:411, 465-500). *)
  Definition at_call (s : sys H) (t : tid) : bool :=
    match y_tasks s !! t with
    | Some (mkTask (PUsedR (CmdSubmit _)) _) => lk_holds t MRead (y_used s)
    | _ => false
    end.
  Definition is_busy (x : tsys H) (t : tid) : bool := bool_decide (t ∈ x_busy x).
  Definition a_worker_is_free (x : tsys H) : bool := len (x_busy x) <? W.

  Definition tstep (x : tsys H) (l : tlabel H) : option (tsys H * list event) :=
    match l with
    | TEnter t =>
        if at_call (a_sys (x_asys x)) t && negb (is_busy x t) && a_worker_is_free x
        then Some (mkTsys (x_asys x) (t :: x_busy x), []) else None
    | TReturn t =>
        if is_busy x t then
          match astep dbg (x_asys x) (ASys (LRun t)) with
          | Some (a, ev) => Some (mkTsys a (List.filter (fun u => negb (u =? t)) (x_busy x)), ev)
          | None => None
          end
        else None
    | TStep l' =>
        if (negb (on_worker (x_asys x) l') || a_worker_is_free x)
           && match l' with ASys (LRun t) => negb (is_busy x t) | _ => true end
        then match astep dbg (x_asys x) l' with
             | Some (a, ev) => Some (mkTsys a (x_busy x), ev)
             | None => None
             end
        else None
    end.

  Fixpoint trun (x : tsys H) (ls : list (tlabel H)) : option (tsys H * list event) :=
    match ls with
    | [] => Some (x, [])
    | l :: ls' => match tstep x l with
                  | None => None
                  | Some (x1, e1) => match trun x1 ls' with
                                     | None => None
                                     | Some (x2, e2) => Some (x2, e1 ++ e2)
                                     end
                  end
    end.
End Step.

Definition init_tsys {H} (ds : list device) (w : world H) : tsys H := mkTsys (init_asys ds w) [].
