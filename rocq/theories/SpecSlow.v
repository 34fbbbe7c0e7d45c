(** * Handlers that take long: vocabulary of C80

    A handler call is part of the step in which a granted CMD_SUBMIT is served (Sys.v, [LRun]).
    A call that takes time is that step not having happened yet: the task holds the read guard of
    the in-use table (src/lib.rs:411) all the while (src/lib.rs:465-500). *)
From Verif Require Export SpecSys.

(** [u] is inside [handle_urb] for the submit [sb] on its device [d]. *)
Definition in_handler {H} (s : sys H) (u : tid) (sb : submit) (d : device) : Prop :=
  exists id, y_tasks s !! u = Some (mkTask (PUsedR (CmdSubmit sb)) (Some id)) /\
    sv_used (y_server s) !! id = Some d /\ (u, MRead) ∈ lk_holders (y_used s).
(** The call does not return during [ls]. *)
Definition does_not_return {H} (u : tid) (ls : list (label H)) : Prop :=
  Forall (fun l => match l with LRun t => t <> u | _ => True end) ls.
(** Nothing can happen without a client, the application, or the return of [u]'s call. *)
Definition stuck_but {H} (dbg : bool) (s : sys H) (u : tid) : Prop :=
  forall l, is_internal l = true -> match l with LRun t => t <> u | _ => True end -> step dbg s l = None.
