(** * The whole server: concurrent connections and API calls (src/lib.rs)

    A small-step model of any number of [handler] tasks (one per connection,
    src/lib.rs:527-549) running concurrently with calls of [add_device] and
    [remove_device], synchronised by the two [tokio::sync::RwLock]s of
    [UsbIpServer].  A schedule is a list of labels.

    tokio's RwLock is a FIFO semaphore: a request is queued; the first request in
    the queue is granted as soon as it is compatible with the current holders;
    nobody overtakes.  Acquiring an uncontended lock is "enqueue, grant".
    Guards are dropped when their scope ends, also by [?] and by unwinding
    (tokio locks are not poisoned).  Everything between two awaits runs in one
    step: the data it touches is protected by the locks it holds, and handler
    state by the handler's mutex, which is never held across an await (Fine.v drops
    this and PropsFine.v proves that nothing changes). *)
From Verif Require Export Conn.

Notation tid := N (only parsing).

Inductive mode := MRead | MWrite.
Global Instance mode_eq_dec : EqDecision mode.
Proof. solve_decision. Defined.

Record rwlock := mkLock {
  lk_holders : list (tid * mode);
  lk_queue : list (tid * mode) }.          (* first in, first out *)

Definition lk_free : rwlock := mkLock [] [].

Definition is_read (m : mode) : bool := match m with MRead => true | MWrite => false end.

(** May a request for mode [m] be granted while [hs] hold the lock? *)
Definition compatible (m : mode) (hs : list (tid * mode)) : bool :=
  match m with
  | MRead => forallb (fun h => is_read (snd h)) hs
  | MWrite => match hs with [] => true | _ => false end
  end.

(** [lock.read()] / [lock.write()]: join the queue. *)
Definition lk_request (t : tid) (m : mode) (l : rwlock) : rwlock :=
  mkLock (lk_holders l) (lk_queue l ++ [(t, m)]).

(** The first waiter gets the lock, if possible. *)
Definition lk_grant (l : rwlock) : option rwlock :=
  match lk_queue l with
  | (t, m) :: q => if compatible m (lk_holders l)
                   then Some (mkLock ((t, m) :: lk_holders l) q) else None
  | [] => None
  end.

(** Dropping a task's guard. *)
Definition lk_release (t : tid) (l : rwlock) : rwlock :=
  mkLock (List.filter (fun h => negb (fst h =? t)) (lk_holders l)) (lk_queue l).

Definition lk_holds (t : tid) (m : mode) (l : rwlock) : bool :=
  bool_decide ((t, m) ∈ lk_holders l).

(** Where a task is suspended. *)
Inductive pc :=
(** handler *)
| PRead                                (* src/lib.rs:392, holds no lock *)
| PUsedR (c : command)                 (* :411 used.read() *)
| PDevAvailR (st : N)                  (* :419 available.read(), holds used(R) *)
| PImpStart (st : N) (busid : bytes)   (* :432-434 used(R) dropped, used.write() not yet called *)
| PImpUsedW (st : N) (busid : bytes)   (* :434 used.write() *)
| PImpAvailW (st : N) (busid : bytes)  (* :435 available.write(), holds used(W) *)
| PWrite (b : bytes)                   (* :422-424, 454, 507, 519 write_all, keeps its guards *)
| PRelUsedW (e : io_error)             (* :395 used.write() *)
| PRelAvailW (e : io_error)            (* :396 available.write(), holds used(W) *)
| PEnd (r : conn_end)
(** add_device *)
| PAddAvailW (d : device)              (* :357 *)
| PAdded
(** remove_device *)
| PRemAvailW (id : rstring)            (* :361 available.write() *)
| PRemUsedR (id : rstring)             (* :368 used.read(), holds available(W) *)
| PRemoved (r : ioresult unit).

(** A task; [t_cur] is [current_import_device_id] (unused by API calls). *)
Record task := mkTask { t_pc : pc; t_cur : option rstring }.

Record sys (H : handlers) := mkSys {
  y_server : server;
  y_world : world H;
  y_used : rwlock;
  y_avail : rwlock;
  y_tasks : gmap tid task }.
Arguments mkSys {H} _ _ _ _ _.
Arguments y_server {H} _.
Arguments y_world {H} _.
Arguments y_used {H} _.
Arguments y_avail {H} _.
Arguments y_tasks {H} _.

Inductive label (H : handlers) :=
(** environment *)
| LConnect (t : tid)                   (* a client connects (:532-539) *)
| LRecv (t : tid) (c : command)        (* a whole command has been read *)
| LReadErr (t : tid) (e : io_error)    (* reading failed *)
| LReadPanic (t : tid)                 (* a debug_assert in the reader failed *)
| LSent (t : tid)                      (* write_all finished *)
| LSendErr (t : tid) (e : io_error)    (* write_all failed *)
| LAdd (t : tid) (d : device)          (* the application calls add_device *)
| LRemove (t : tid) (id : rstring)     (* the application calls remove_device *)
| LApp (r : href) (f : IS H -> IS H)   (* the application uses a handler under its mutex *)
(** internal *)
| LGrantUsed
| LGrantAvail
| LRun (t : tid).                      (* run from a granted lock to the next await *)
Arguments LConnect {H} t.
Arguments LRecv {H} t c.
Arguments LReadErr {H} t e.
Arguments LReadPanic {H} t.
Arguments LSent {H} t.
Arguments LSendErr {H} t e.
Arguments LAdd {H} t d.
Arguments LRemove {H} t id.
Arguments LApp {H} r f.
Arguments LGrantUsed {H}.
Arguments LGrantAvail {H}.
Arguments LRun {H} t.

(** What an execution exposes.  [EvServe], [EvRelease], [EvAdd], [EvRemove] mark
    the instant an operation takes effect; [EvSent] the completion of a reply;
    [EvEnd] the end of a connection. *)
Inductive event :=
| EvServe (t : tid) (c : command) (r : outcome response)
| EvRelease (t : tid) (id : rstring)
| EvAdd (t : tid) (d : device)
| EvRemove (t : tid) (id : rstring) (r : ioresult unit)
| EvSent (t : tid) (b : bytes)
| EvEnd (t : tid) (r : conn_end).

Section Step.
  Context {H : handlers} (dbg : bool).

  Definition set_task (s : sys H) (t : tid) (k : task) : sys H :=
    mkSys (y_server s) (y_world s) (y_used s) (y_avail s) (<[t := k]> (y_tasks s)).
  Definition set_server (s : sys H) (sv : server) : sys H :=
    mkSys sv (y_world s) (y_used s) (y_avail s) (y_tasks s).
  Definition set_world (s : sys H) (w : world H) : sys H :=
    mkSys (y_server s) w (y_used s) (y_avail s) (y_tasks s).
  Definition set_used (s : sys H) (l : rwlock) : sys H :=
    mkSys (y_server s) (y_world s) l (y_avail s) (y_tasks s).
  Definition set_avail (s : sys H) (l : rwlock) : sys H :=
    mkSys (y_server s) (y_world s) (y_used s) l (y_tasks s).

  Definition want_used (s : sys H) (t : tid) (m : mode) : sys H :=
    set_used s (lk_request t m (y_used s)).
  Definition want_avail (s : sys H) (t : tid) (m : mode) : sys H :=
    set_avail s (lk_request t m (y_avail s)).
  (** all guards of [t] go out of scope *)
  Definition drop_guards (s : sys H) (t : tid) : sys H :=
    set_avail (set_used s (lk_release t (y_used s))) (lk_release t (y_avail s)).

  (** src/lib.rs:403-408 *)
  Definition read_end (e : io_error) : conn_end :=
    match e with EUnexpectedEof => EndOk | _ => EndErr e end.

  (** Hand a computed response to [write_to_socket]: [to_bytes] may panic. *)
  Definition respond (s : sys H) (t : tid) (cur : option rstring) (c : command)
      (r : outcome response) : sys H * list event :=
    match obind r (response_to_bytes dbg) with
    | Val b => (set_task s t (mkTask (PWrite b) cur), [EvServe t c r])
    | Panic p => (set_task (drop_guards s t) t (mkTask (PEnd (EndPanic p)) cur),
                  [EvServe t c r; EvEnd t (EndPanic p)])
    | Diverge => (set_task (drop_guards s t) t (mkTask (PEnd EndDiverge) cur),
                  [EvServe t c r; EvEnd t EndDiverge])
    end.

  (** A task that has been granted the lock it waits for runs to its next await. *)
  Definition run_task (s : sys H) (t : tid) (k : task) : option (sys H * list event) :=
    let cur := t_cur k in
    match t_pc k with
    | PUsedR c =>
        if lk_holds t MRead (y_used s) then
          match c with
          | OpReqDevlist st =>
              Some (set_task (want_avail s t MRead) t (mkTask (PDevAvailR st) cur), [])
          | OpReqImport st busid =>                              (* :430-432 *)
              Some (set_task (set_used s (lk_release t (y_used s))) t (mkTask (PImpStart st busid) None), [])
          | CmdSubmit sb =>                                      (* :465-507 *)
              let '(r, w') := serve_submit dbg (y_world s)
                                (current_device (y_server s) cur) sb in
              Some (respond (set_world s w') t cur c r)
          | CmdUnlink h _ => Some (respond s t cur c (Val (serve_unlink h)))  (* :516-519 *)
          end
        else None
    | PDevAvailR st =>                                           (* :419-424 *)
        if lk_holds t MRead (y_avail s)
        then Some (respond s t cur (OpReqDevlist st)
                     (Val (op_rep_devlist (sv_available (y_server s)))))
        else None
    | PImpStart st busid =>                                      (* :434 *)
        Some (set_task (want_used s t MWrite) t (mkTask (PImpUsedW st busid) cur), [])
    | PImpUsedW st busid =>
        if lk_holds t MWrite (y_used s)
        then Some (set_task (want_avail s t MWrite) t (mkTask (PImpAvailW st busid) cur), [])
        else None
    | PImpAvailW st busid =>                                     (* :436-454 *)
        if lk_holds t MWrite (y_avail s) then
          let '(sv', r) := import_device (y_server s) busid in
          Some (respond (set_server s sv') t (d_bus_id <$> r) (OpReqImport st busid)
                  (Val (import_response r)))
        else None
    | PRelUsedW e =>
        if lk_holds t MWrite (y_used s)
        then Some (set_task (want_avail s t MWrite) t (mkTask (PRelAvailW e) cur), [])
        else None
    | PRelAvailW e =>                                            (* :397-408 *)
        if lk_holds t MWrite (y_avail s) then
          match cur with
          | None => None                         (* not reachable: :394 requires Some *)
          | Some id =>
              match release_device (y_server s) id with
              | Val sv' =>
                  Some (set_task (drop_guards (set_server s sv') t) t
                          (mkTask (PEnd (read_end e)) cur),
                        [EvRelease t id; EvEnd t (read_end e)])
              | Panic p =>
                  Some (set_task (drop_guards s t) t (mkTask (PEnd (EndPanic p)) cur),
                        [EvEnd t (EndPanic p)])
              | Diverge => None
              end
          end
        else None
    | PAddAvailW d =>                                            (* :357 *)
        if lk_holds t MWrite (y_avail s)
        then Some (set_task (drop_guards (set_server s (add_device (y_server s) d)) t) t
                     (mkTask PAdded cur), [EvAdd t d])
        else None
    | PRemAvailW id =>                                           (* :363-365 *)
        if lk_holds t MWrite (y_avail s) then
          match remove_available (y_server s) id with
          | Some sv' => Some (set_task (drop_guards (set_server s sv') t) t
                                (mkTask (PRemoved (IOk tt)) cur), [EvRemove t id (IOk tt)])
          | None => Some (set_task (want_used s t MRead) t (mkTask (PRemUsedR id) cur), [])
          end
        else None
    | PRemUsedR id =>                                            (* :366-382 *)
        if lk_holds t MRead (y_used s) then
          let r := IErr (remove_missing (y_server s) id) in
          Some (set_task (drop_guards s t) t (mkTask (PRemoved r) cur), [EvRemove t id r])
        else None
    | PRead | PWrite _ | PEnd _ | PAdded | PRemoved _ => None
    end.

  Definition step (s : sys H) (l : label H) : option (sys H * list event) :=
    match l with
    | LConnect t =>
        match y_tasks s !! t with
        | None => Some (set_task s t (mkTask PRead None), [])    (* :390-392 *)
        | Some _ => None
        end
    | LRecv t c =>
        match y_tasks s !! t with
        | Some (mkTask PRead cur) =>
            Some (set_task (want_used s t MRead) t (mkTask (PUsedR c) cur), [])
        | _ => None
        end
    | LReadErr t e =>                                            (* :393-409 *)
        match y_tasks s !! t with
        | Some (mkTask PRead None) =>
            Some (set_task s t (mkTask (PEnd (read_end e)) None), [EvEnd t (read_end e)])
        | Some (mkTask PRead (Some id)) =>
            Some (set_task (want_used s t MWrite) t (mkTask (PRelUsedW e) (Some id)), [])
        | _ => None
        end
    | LReadPanic t =>
        match y_tasks s !! t with
        | Some (mkTask PRead cur) =>
            if dbg then Some (set_task s t (mkTask (PEnd (EndPanic PDebugAssert)) cur),
                              [EvEnd t (EndPanic PDebugAssert)])
            else None
        | _ => None
        end
    | LSent t =>
        match y_tasks s !! t with
        | Some (mkTask (PWrite b) cur) =>
            Some (set_task (drop_guards s t) t (mkTask PRead cur), [EvSent t b])
        | _ => None
        end
    | LSendErr t e =>
        match y_tasks s !! t with
        | Some (mkTask (PWrite _) cur) =>
            Some (set_task (drop_guards s t) t (mkTask (PEnd (EndErr e)) cur),
                  [EvEnd t (EndErr e)])
        | _ => None
        end
    | LAdd t d =>
        match y_tasks s !! t with
        | None => Some (set_task (want_avail s t MWrite) t (mkTask (PAddAvailW d) None), [])
        | Some _ => None
        end
    | LRemove t id =>
        match y_tasks s !! t with
        | None => Some (set_task (want_avail s t MWrite) t (mkTask (PRemAvailW id) None), [])
        | Some _ => None
        end
    | LApp r f =>
        let c := w_intf (y_world s) r in
        if c_poisoned c then None                  (* the application's lock().unwrap() panics *)
        else Some (set_world s (set_intf (y_world s) r (mkCell false (f (c_state c)))), [])
    | LGrantUsed =>
        match lk_grant (y_used s) with Some l => Some (set_used s l, []) | None => None end
    | LGrantAvail =>
        match lk_grant (y_avail s) with Some l => Some (set_avail s l, []) | None => None end
    | LRun t =>
        match y_tasks s !! t with
        | Some k => run_task s t k
        | None => None
        end
    end.

  (** Run a schedule; [None] if some label is not enabled. *)
  Fixpoint run (s : sys H) (ls : list (label H)) : option (sys H * list event) :=
    match ls with
    | [] => Some (s, [])
    | l :: ls' => match step s l with
                  | None => None
                  | Some (s1, e1) => match run s1 ls' with
                                     | None => None
                                     | Some (s2, e2) => Some (s2, e1 ++ e2)
                                     end
                  end
    end.
End Step.

(** A server just created, with no connection yet. *)
Definition init_sys {H} (ds : list device) (w : world H) : sys H :=
  mkSys (new_simulated ds) w lk_free lk_free ∅.

Definition is_internal {H} (l : label H) : bool :=
  match l with LGrantUsed | LGrantAvail | LRun _ => true | _ => false end.
