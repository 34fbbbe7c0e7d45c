(** * Specification: dropping futures *)
From Verif Require Export Cancel SpecLin.

(** An execution with cancellations: every label with the events its step produced. *)
Inductive xexecution {H} (dbg : bool) : sys H -> list (xlabel H * list event) -> sys H -> Prop :=
| xe_nil s : xexecution dbg s [] s
| xe_cons s1 x ev s2 tr s3 : xstep dbg s1 x = Some (s2, ev) -> xexecution dbg s2 tr s3 ->
    xexecution dbg s1 ((x, ev) :: tr) s3.
Definition xops_of_step {H} (x : xlabel H * list event) : list (operation H) :=
  (match x.1 with XStep (LApp r f) => [OApp r f] | _ => [] end) ++ (OEvent <$> x.2).
Definition xops_of {H} (tr : list (xlabel H * list event)) : list (operation H) := tr ≫= xops_of_step.

(** Neither holding a lock nor waiting for one. *)
Definition no_claim {H} (s : sys H) (t : tid) : Prop :=
  forall m, (t, m) ∉ lk_holders (y_used s) ++ lk_queue (y_used s) /\
            (t, m) ∉ lk_holders (y_avail s) ++ lk_queue (y_avail s).

(** The tasks an application guards with timeouts: a client that does not read, and a call of
    [remove_device] that waits for the in-use table. *)
Definition overdue {H} (s : sys H) (t : tid) : Prop :=
  writing s t \/ exists id cur, y_tasks s !! t = Some (mkTask (PRemUsedR id) cur).

(** [s] goes to [s'] by itself, except that the overdue tasks [ts] are cancelled on the way. *)
Inductive with_timeouts {H} (dbg : bool) : sys H -> list tid -> sys H -> Prop :=
| wt_done s : with_timeouts dbg s [] s
| wt_step s l s1 ev ts s' : is_internal l = true -> step dbg s l = Some (s1, ev) ->
    with_timeouts dbg s1 ts s' -> with_timeouts dbg s ts s'
| wt_cancel s t s1 ev ts s' : overdue s t -> drop_future s t = Some (s1, ev) ->
    with_timeouts dbg s1 ts s' -> with_timeouts dbg s (t :: ts) s'.
