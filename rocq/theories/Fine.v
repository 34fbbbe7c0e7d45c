(** * The concurrent server, one shared access per step (src/lib.rs)

    Sys.v lets a task run from one await to the next in a single step.  On tokio's
    multi-threaded runtime other tasks run at the same time.  Here every lock
    request, every guard dropped, every look into or update of the two device
    collections, and every handler call is a step of its own, and between any two
    of them all other tasks may do theirs.  A handler call is one step because it
    holds the handler's mutex from beginning to end (src/device.rs:471, 478, 507,
    514, 523; at most one per URB).  What a task computes from its own variables
    alone is part of the preceding step.

    PropsFine.v proves that the two models have the same executions. *)
From Verif Require Export Sys SpecSys.

(** Where a task is. *)
Inductive fpc :=
| FAt (p : pc)                              (* at an await, or ended, as in Sys.v *)
| FLook (c : command) (dev : option device) (* :412-414 done: [current_import_device] *)
| FList (st : N) (ds : list device)         (* :422: the list has been copied *)
| FImpRemoved (st : N) (busid : bytes) (d : device)      (* :440 done *)
| FImpInserted (st : N) (busid : bytes) (id : rstring)   (* :442-443 done *)
| FRelRemoved (e : io_error) (d : device)   (* :397 done *)
| FDrop (ls : list lockname) (p : pc).      (* the guards still to be dropped; then [p] *)

Record ftask := mkFT { ft_pc : fpc; ft_cur : option rstring }.

Record fsys (H : handlers) := mkF {
  f_server : server;
  f_world : world H;
  f_used : rwlock;
  f_avail : rwlock;
  f_tasks : gmap tid ftask }.
Arguments mkF {H} _ _ _ _ _.
Arguments f_server {H} _.
Arguments f_world {H} _.
Arguments f_used {H} _.
Arguments f_avail {H} _.
Arguments f_tasks {H} _.

Section FStep.
  Context {H : handlers} (dbg : bool).

  Definition fset_task (f : fsys H) (t : tid) (p : fpc) (cur : option rstring) : fsys H :=
    mkF (f_server f) (f_world f) (f_used f) (f_avail f) (<[t := mkFT p cur]> (f_tasks f)).
  Definition fset_server (f : fsys H) (sv : server) : fsys H :=
    mkF sv (f_world f) (f_used f) (f_avail f) (f_tasks f).
  Definition fset_world (f : fsys H) (w : world H) : fsys H :=
    mkF (f_server f) w (f_used f) (f_avail f) (f_tasks f).
  Definition fset_lock (f : fsys H) (n : lockname) (l : rwlock) : fsys H :=
    match n with
    | Used => mkF (f_server f) (f_world f) l (f_avail f) (f_tasks f)
    | Available => mkF (f_server f) (f_world f) (f_used f) l (f_tasks f)
    end.
  Definition flock (f : fsys H) (n : lockname) : rwlock :=
    match n with Used => f_used f | Available => f_avail f end.
  Definition fwant (f : fsys H) (n : lockname) (t : tid) (m : mode) : fsys H :=
    fset_lock f n (lk_request t m (flock f n)).

  (** Locals are dropped in the reverse order of their declaration. *)
  Definition fdrop (f : fsys H) (t : tid) (p : pc) (cur : option rstring) : fsys H :=
    fset_task f t (FDrop [Available; Used] p) cur.

  Definition frespond (f : fsys H) (t : tid) (cur : option rstring) (c : command)
      (r : outcome response) : fsys H * list event :=
    match obind r (response_to_bytes dbg) with
    | Val b => (fset_task f t (FAt (PWrite b)) cur, [EvServe t c r])
    | Panic p => (fdrop f t (PEnd (EndPanic p)) cur, [EvServe t c r; EvEnd t (EndPanic p)])
    | Diverge => (fdrop f t (PEnd EndDiverge) cur, [EvServe t c r; EvEnd t EndDiverge])
    end.

  Definition frun_task (f : fsys H) (t : tid) (k : ftask) : option (fsys H * list event) :=
    let cur := ft_cur k in
    match ft_pc k with
    | FAt (PUsedR c) =>                                          (* :411-414 *)
        if lk_holds t MRead (f_used f)
        then Some (fset_task f t (FLook c (current_device (f_server f) cur)) cur, [])
        else None
    | FLook (OpReqDevlist st) _ =>                               (* :419 *)
        Some (fset_task (fwant f Available t MRead) t (FAt (PDevAvailR st)) cur, [])
    | FLook (OpReqImport st busid) _ =>                          (* :430-432 *)
        Some (fset_task (fset_lock f Used (lk_release t (f_used f))) t (FAt (PImpStart st busid)) None, [])
    | FLook (CmdSubmit sb) dev =>                                (* :465-507 *)
        let '(r, w') := serve_submit dbg (f_world f) dev sb in
        Some (frespond (fset_world f w') t cur (CmdSubmit sb) r)
    | FLook (CmdUnlink h n) _ =>                                 (* :516-519 *)
        Some (frespond f t cur (CmdUnlink h n) (Val (serve_unlink h)))
    | FAt (PDevAvailR st) =>                                     (* :422 *)
        if lk_holds t MRead (f_avail f)
        then Some (fset_task f t (FList st (sv_available (f_server f))) cur, [])
        else None
    | FList st ds => Some (frespond f t cur (OpReqDevlist st) (Val (op_rep_devlist ds)))
    | FAt (PImpStart st busid) =>                                (* :434 *)
        Some (fset_task (fwant f Used t MWrite) t (FAt (PImpUsedW st busid)) cur, [])
    | FAt (PImpUsedW st busid) =>                                (* :435 *)
        if lk_holds t MWrite (f_used f)
        then Some (fset_task (fwant f Available t MWrite) t (FAt (PImpAvailW st busid)) cur, [])
        else None
    | FAt (PImpAvailW st busid) =>                               (* :438-440 *)
        if lk_holds t MWrite (f_avail f) then
          match take_first (fun d => bool_decide (until_nul busid = utf8 (d_bus_id d)))
                  (sv_available (f_server f)) with
          | Some (d, rest) =>
              Some (fset_task (fset_server f (mkServer rest (sv_used (f_server f)))) t
                      (FImpRemoved st busid d) cur, [])
          | None => Some (frespond f t None (OpReqImport st busid) (Val op_rep_import_fail))
          end
        else None
    | FImpRemoved st busid d =>                                  (* :441-443 *)
        Some (fset_task (fset_server f (mkServer (sv_available (f_server f))
                           (<[d_bus_id d := d]> (sv_used (f_server f))))) t
                (FImpInserted st busid (d_bus_id d)) cur, [])
    | FImpInserted st busid id =>                                (* :444-454 *)
        match sv_used (f_server f) !! id with
        | Some d => Some (frespond f t (Some id) (OpReqImport st busid) (Val (op_rep_import_success d)))
        | None => None                                           (* :444 unwrap; not reachable *)
        end
    | FAt (PRelUsedW e) =>                                       (* :396 *)
        if lk_holds t MWrite (f_used f)
        then Some (fset_task (fwant f Available t MWrite) t (FAt (PRelAvailW e)) cur, [])
        else None
    | FAt (PRelAvailW e) =>                                      (* :397 *)
        if lk_holds t MWrite (f_avail f) then
          match cur with
          | None => None
          | Some id =>
              match sv_used (f_server f) !! id with
              | Some d => Some (fset_task (fset_server f (mkServer (sv_available (f_server f))
                                   (delete id (sv_used (f_server f))))) t (FRelRemoved e d) cur, [])
              | None => Some (fdrop f t (PEnd (EndPanic PUnreachable)) cur,
                              [EvEnd t (EndPanic PUnreachable)])
              end
          end
        else None
    | FRelRemoved e d =>                                         (* :398-408 *)
        match cur with
        | None => None
        | Some id =>
            Some (fdrop (fset_server f (mkServer (sv_available (f_server f) ++ [d]) (sv_used (f_server f)))) t
                    (PEnd (read_end e)) cur, [EvRelease t id; EvEnd t (read_end e)])
        end
    | FAt (PAddAvailW d) =>                                      (* :357 *)
        if lk_holds t MWrite (f_avail f)
        then Some (fdrop (fset_server f (add_device (f_server f) d)) t PAdded cur, [EvAdd t d])
        else None
    | FAt (PRemAvailW id) =>                                     (* :363-368 *)
        if lk_holds t MWrite (f_avail f) then
          match remove_available (f_server f) id with
          | Some sv' => Some (fdrop (fset_server f sv') t (PRemoved (IOk tt)) cur, [EvRemove t id (IOk tt)])
          | None => Some (fset_task (fwant f Used t MRead) t (FAt (PRemUsedR id)) cur, [])
          end
        else None
    | FAt (PRemUsedR id) =>                                      (* :369-382; used.read() is a temporary *)
        if lk_holds t MRead (f_used f) then
          let r := IErr (remove_missing (f_server f) id) in
          Some (fset_task f t (FDrop [Used; Available] (PRemoved r)) cur, [EvRemove t id r])
        else None
    | FDrop (n :: ls) p => Some (fset_task (fset_lock f n (lk_release t (flock f n))) t (FDrop ls p) cur, [])
    | FDrop [] p => Some (fset_task f t (FAt p) cur, [])
    | FAt (PRead | PWrite _ | PEnd _ | PAdded | PRemoved _) => None
    end.

  Definition fstep (f : fsys H) (l : label H) : option (fsys H * list event) :=
    match l with
    | LConnect t =>
        match f_tasks f !! t with
        | None => Some (fset_task f t (FAt PRead) None, [])
        | Some _ => None
        end
    | LRecv t c =>
        match f_tasks f !! t with
        | Some (mkFT (FAt PRead) cur) => Some (fset_task (fwant f Used t MRead) t (FAt (PUsedR c)) cur, [])
        | _ => None
        end
    | LReadErr t e =>
        match f_tasks f !! t with
        | Some (mkFT (FAt PRead) None) => Some (fset_task f t (FAt (PEnd (read_end e))) None, [EvEnd t (read_end e)])
        | Some (mkFT (FAt PRead) (Some id)) =>
            Some (fset_task (fwant f Used t MWrite) t (FAt (PRelUsedW e)) (Some id), [])
        | _ => None
        end
    | LReadPanic t =>
        match f_tasks f !! t with
        | Some (mkFT (FAt PRead) cur) =>
            if dbg then Some (fset_task f t (FAt (PEnd (EndPanic PDebugAssert))) cur, [EvEnd t (EndPanic PDebugAssert)])
            else None
        | _ => None
        end
    | LSent t =>
        match f_tasks f !! t with
        | Some (mkFT (FAt (PWrite b)) cur) => Some (fdrop f t PRead cur, [EvSent t b])
        | _ => None
        end
    | LSendErr t e =>
        match f_tasks f !! t with
        | Some (mkFT (FAt (PWrite _)) cur) => Some (fdrop f t (PEnd (EndErr e)) cur, [EvEnd t (EndErr e)])
        | _ => None
        end
    | LAdd t d =>
        match f_tasks f !! t with
        | None => Some (fset_task (fwant f Available t MWrite) t (FAt (PAddAvailW d)) None, [])
        | Some _ => None
        end
    | LRemove t id =>
        match f_tasks f !! t with
        | None => Some (fset_task (fwant f Available t MWrite) t (FAt (PRemAvailW id)) None, [])
        | Some _ => None
        end
    | LApp r g =>
        let c := w_intf (f_world f) r in
        if c_poisoned c then None
        else Some (fset_world f (set_intf (f_world f) r (mkCell false (g (c_state c)))), [])
    | LGrantUsed => match lk_grant (f_used f) with Some l => Some (fset_lock f Used l, []) | None => None end
    | LGrantAvail => match lk_grant (f_avail f) with Some l => Some (fset_lock f Available l, []) | None => None end
    | LRun t => match f_tasks f !! t with Some k => frun_task f t k | None => None end
    end.

  Fixpoint frun (f : fsys H) (ls : list (label H)) : option (fsys H * list event) :=
    match ls with
    | [] => Some (f, [])
    | l :: ls' => match fstep f l with
                  | None => None
                  | Some (f1, e1) => match frun f1 ls' with
                                     | None => None
                                     | Some (f2, e2) => Some (f2, e1 ++ e2)
                                     end
                  end
    end.
End FStep.

Definition init_fsys {H} (ds : list device) (w : world H) : fsys H :=
  mkF (new_simulated ds) w lk_free lk_free ∅.
