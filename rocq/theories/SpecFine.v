(** * How an instant of the fine-grained server relates to the coarser model *)
From Verif Require Export Fine.

(** The instants at which every task is at an await (or has ended) are the states of Sys.v. *)
Definition settled {H} (f : fsys H) : Prop :=
  forall t k, f_tasks f !! t = Some k -> exists p, ft_pc k = FAt p.
Definition as_fine {H} (s : sys H) : fsys H :=
  mkF (y_server s) (y_world s) (y_used s) (y_avail s) ((fun k => mkFT (FAt (t_pc k)) (t_cur k)) <$> y_tasks s).

(** What clients and application do in a schedule. *)
Definition outside {H} (ls : list (label H)) : list (label H) := List.filter (fun l => negb (is_internal l)) ls.

(** Nothing can happen without a client or the application. *)
Definition fstuck {H} (dbg : bool) (f : fsys H) : Prop :=
  forall l, is_internal l = true -> fstep dbg f l = None.

(** The same state with other contents of one of the collections. *)
Definition with_avail {H} (f : fsys H) (l : list device) : fsys H :=
  mkF (mkServer l (sv_used (f_server f))) (f_world f) (f_used f) (f_avail f) (f_tasks f).
Definition with_used {H} (f : fsys H) (m : gmap rstring device) : fsys H :=
  mkF (mkServer (sv_available (f_server f)) m) (f_world f) (f_used f) (f_avail f) (f_tasks f).
(** A task that has a guard of the lock. *)
Definition guarded {H} (f : fsys H) (n : lockname) (t : tid) : Prop := t ∈ (lk_holders (flock f n)).*1.
