(** * Vocabulary of C88: what debug builds check and release builds do not *)
From Verif Require Export SpecSys Net.

(** The panics that only a debug build adds: a failed [debug_assert!], an arithmetic overflow. *)
Definition a_check (p : panic) : Prop := p = PDebugAssert \/ p = POverflow.

(** The debug build [x] computes what the release build [y] computes, unless a check stops it. *)
Definition or_stops {A} (x y : outcome A) : Prop := (exists p, a_check p /\ x = Panic p) \/ x = y.

(** No connection of this execution was stopped by a check. *)
Definition unchecked (ev : list event) : Prop := forall t p, EvEnd t (EndPanic p) ∈ ev -> ~ a_check p.

(** Two sockets that differ at most in the rest of the reader (whose code differs between builds). *)
Definition same_traffic (a b : sock) : Prop :=
  k_in a = k_in b /\ k_end a = k_end b /\ k_buf a = k_buf b /\ k_pos a = k_pos b /\
  k_got a = k_got b /\ k_sent a = k_sent b.
(** Handlers that do not themselves fail a check. *)
Definition unchecked_handlers (H : handlers) : Prop :=
  (forall st f e tbl s req st' p, i_step H st f e tbl s req = CallPanic st' p -> ~ a_check p) /\
  (forall st tbl s req st' p, d_step H st tbl s req = CallPanic st' p -> ~ a_check p).
