(** * Dropping futures (src/lib.rs)

    [handler], [add_device] and [remove_device] are public async functions: the application that
    calls them may drop the future at any await, by [select!], [timeout], [JoinHandle::abort] or
    by shutting the runtime down.  ([server] itself, src/lib.rs:527-549, never does.)  The locals
    are then dropped: lock guards are released, a queued lock request leaves the queue (also if
    it has been granted but not yet polled), and no other code of the crate runs: [handler]
    has no [Drop] guard, so in particular the release at src/lib.rs:394-401 is skipped.
    Handler code is not interrupted: between two awaits a task cannot be cancelled. *)
From Verif Require Export Sys.

(** All claims of [t] on a lock, granted or queued, are withdrawn. *)
Definition lk_forget (t : tid) (l : rwlock) : rwlock :=
  mkLock (List.filter (fun h => negb (fst h =? t)) (lk_holders l))
         (List.filter (fun h => negb (fst h =? t)) (lk_queue l)).

(** Is the task suspended at an await?  ([PImpStart] lies between two awaits.) *)
Definition at_await (p : pc) : bool :=
  match p with PImpStart _ _ | PEnd _ | PAdded | PRemoved _ => false | _ => true end.

Inductive xlabel (H : handlers) :=
| XStep (l : label H)
| XCancel (t : tid).                   (* the application drops the future of task [t] *)
Arguments XStep {H} l.
Arguments XCancel {H} t.

Section Step.
  Context {H : handlers} (dbg : bool).

  Definition drop_future (s : sys H) (t : tid) : option (sys H * list event) :=
    match y_tasks s !! t with
    | Some (mkTask p cur) =>
        if at_await p
        then Some (mkSys (y_server s) (y_world s) (lk_forget t (y_used s)) (lk_forget t (y_avail s))
                     (<[t := mkTask (PEnd EndCancelled) cur]> (y_tasks s)),
                   [EvEnd t EndCancelled])
        else None
    | None => None
    end.

  Definition xstep (s : sys H) (x : xlabel H) : option (sys H * list event) :=
    match x with XStep l => step dbg s l | XCancel t => drop_future s t end.

  Fixpoint xrun (s : sys H) (xs : list (xlabel H)) : option (sys H * list event) :=
    match xs with
    | [] => Some (s, [])
    | x :: xs' => match xstep s x with
                  | None => None
                  | Some (s1, e1) => match xrun s1 xs' with
                                     | None => None
                                     | Some (s2, e2) => Some (s2, e1 ++ e2)
                                     end
                  end
    end.
End Step.
