(** * Infinite executions and fairness

    A server that never stops: an infinite execution of the concurrent model, and what
    a scheduler and the clients owe it. *)
From Verif Require Export SpecSys.

(** State before the i-th step, its label, the events it produces. *)
Record trace (H : handlers) := mkTrace {
  x_state : nat -> sys H;
  x_label : nat -> label H;
  x_events : nat -> list event }.
Arguments mkTrace {H} _ _ _.
Arguments x_state {H} _ _.
Arguments x_label {H} _ _.
Arguments x_events {H} _ _.

Definition unending {H} (dbg : bool) (s : sys H) (x : trace H) : Prop :=
  x_state x 0%nat = s /\
  forall i, step dbg (x_state x i) (x_label x i) = Some (x_state x (S i), x_events x i).

(** The runtime is fair to tasks and locks: a task that can go on, or a lock that can be
    granted, is not passed over forever. *)
Definition fair {H} (dbg : bool) (x : trace H) : Prop :=
  forall l, is_internal l = true ->
    forall i, exists j, (i <= j)%nat /\ (x_label x j = l \/ step dbg (x_state x j) l = None).
(** Clients read: no reply is being written forever. *)
Definition clients_read {H} (x : trace H) : Prop :=
  forall i t, writing (x_state x i) t -> exists j, (i <= j)%nat /\ ~ writing (x_state x j) t.
(** No call of remove_device has to look among the devices in use. *)
Definition removes_found {H} (x : trace H) : Prop :=
  forall i t id cur, y_tasks (x_state x i) !! t <> Some (mkTask (PRemUsedR id) cur).

(** From step [i] on, sooner or later one of the events in [P] occurs. *)
Definition comes_to {H} (x : trace H) (i : nat) (P : event -> Prop) : Prop :=
  exists j e, (i <= j)%nat /\ e ∈ x_events x j /\ P e.
