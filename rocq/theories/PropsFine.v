(** * Properties of the fine-grained server: every shared access a step of its own *)
From Verif Require Import Examples FineProofs PropsSys.

(** ** C72 *)
(** Whatever the threads do between the awaits, what clients and application can see is an
    execution of the coarser model: same inputs, same events in the same order, same handler states,
    and, whenever all tasks are at awaits, the same state altogether. *)
Theorem C72_no_new_behaviour : forall H dbg ds (w : world H) ls f evs,
  frun dbg (init_fsys ds w) ls = Some (f, evs) -> exists ls' s,
  run dbg (init_sys ds w) ls' = Some (s, evs) /\ outside ls' = outside ls /\ y_world s = f_world f /\
  (settled f -> f = as_fine s).
Proof.
  intros H dbg ds w ls f evs E. destruct (sim_run_all _ _ _ _ _ _ (sim_init ds w) (locks_init ds w) E) as (ls' & s & R & O & S & _).
  exists ls', s. split_and!; try done; [apply S|]. by apply sim_settled.
Qed.
Print Assumptions C72_no_new_behaviour.
(** Conversely every execution of the coarser model is one of the fine-grained server. *)
Theorem C72_no_lost_behaviour : forall H dbg ds (w : world H) ls s evs,
  run dbg (init_sys ds w) ls = Some (s, evs) -> exists ls',
  frun dbg (init_fsys ds w) ls' = Some (as_fine s, evs) /\ outside ls' = outside ls.
Proof. intros H dbg ds w ls s evs E. rewrite <- as_fine_init. by apply expand_run. Qed.
Print Assumptions C72_no_lost_behaviour.
(** Left alone, the threads stop after finitely many steps, all of them at awaits, in a state in
    which the coarser model is stuck too: nothing is added to the causes of waiting that C34-C36 name. *)
Theorem C72_progress : forall H dbg ds (w : world H) ls f evs,
  frun dbg (init_fsys ds w) ls = Some (f, evs) ->
  (exists bound, forall ls' f' evs', frun dbg f ls' = Some (f', evs') ->
     Forall (fun l => is_internal l = true) ls' -> (length ls' <= bound)%nat) /\
  (exists ls' f' evs', frun dbg f ls' = Some (f', evs') /\ Forall (fun l => is_internal l = true) ls' /\ fstuck dbg f') /\
  (fstuck dbg f -> exists ls' s, run dbg (init_sys ds w) ls' = Some (s, evs) /\ f = as_fine s /\ stuck dbg s).
Proof.
  intros H dbg ds w ls f evs E. split; [|split].
  - exists (fwork f). intros ls' f' evs' E' Hi. pose proof (finternal_run _ _ _ _ _ E' Hi). lia.
  - apply freach_stuck.
  - intros Hs. destruct (sim_run_all _ _ _ _ _ _ (sim_init ds w) (locks_init ds w) E) as (ls' & s & R & _ & S & _).
    pose proof (sim_settled _ _ S (fstuck_settled _ _ _ S Hs)) as ->. exists ls', s. split_and!; try done. by apply fstuck_stuck.
Qed.
Print Assumptions C72_progress.
(** An instant the coarser model does not have: the device being imported is in neither collection,
    while a call of [add_device] and another connection are on their way. *)
Definition half_imported : list (label ex_h) :=
  [LConnect 1; LConnect 2; LRecv 1 (OpReqImport 0 (field_of id_a)); LGrantUsed; LRun 1; LRun 1; LRun 1; LGrantUsed;
   LRun 1; LGrantAvail; LRun 1; LAdd 5 dev_b; LRecv 2 (OpReqDevlist 0)].
Definition fsys0 : fsys ex_h := init_fsys [ex_dev] ex_world.
Definition fafter (r : option (fsys ex_h * list event)) (P : fsys ex_h -> list event -> Prop) : Prop :=
  match r with Some (f, evs) => P f evs | None => False end.
Lemma fafter_run (r : option (fsys ex_h * list event)) P : fafter r P -> exists f evs, r = Some (f, evs) /\ P f evs.
Proof. destruct r as [[f evs]|]; [|done]. intros HP. by exists f, evs. Qed.
Example C72_example : exists f evs, frun false fsys0 half_imported = Some (f, evs) /\
  all_devices (f_server f) = [] /\ ~ settled f /\
  exists f' evs', frun false f [LRun 1; LRun 1; LSent 1; LRun 1; LRun 1; LRun 1] = Some (f', evs') /\
    held (evs ++ evs') 1 = Some ex_dev /\ settled f'.
Proof.
  destruct (fafter_run (frun false fsys0 half_imported) (fun f evs => sv_available (f_server f) = [] /\
    in_use (f_server f) = [] /\
    ft_pc <$> f_tasks f !! 1 = Some (FImpRemoved 0 (field_of id_a) ex_dev) /\
    fafter (frun false f [LRun 1; LRun 1; LSent 1; LRun 1; LRun 1; LRun 1]) (fun f' evs' => held (evs ++ evs') 1 = Some ex_dev /\
      forallb (fun kv => match ft_pc kv.2 with FAt _ => true | _ => false end) (map_to_list (f_tasks f')) = true)))
    as (f & evs & E & H1 & H1' & H2 & H3); [vm_compute; auto|].
  exists f, evs. split; [done|]. split; [unfold all_devices; by rewrite H1, H1'|]. split.
  - intros Hs. destruct (f_tasks f !! 1) as [k|] eqn:Ek; [|done]. destruct (Hs _ _ Ek) as [p Hp]. cbn in H2. by rewrite Hp in H2.
  - apply fafter_run in H3 as (f' & evs' & E' & Hh & Hs). exists f', evs'. split_and!; [done|done|].
    intros t k Ek. apply elem_of_map_to_list, elem_of_list_In in Ek. rewrite forallb_forall in Hs. specialize (Hs _ Ek). cbn in Hs.
    destruct (ft_pc k) as [p| | | | | |]; try done. by exists p.
Qed.

(** ** C73 *)
(** The two device collections are only touched under their locks: a step of a task that has no
    guard does the same whatever the collection contains, and leaves it as it is. *)
Theorem C73_guarded : forall H dbg ds (w : world H) ls f evs l,
  frun dbg (init_fsys ds w) ls = Some (f, evs) ->
  ((forall t, l = LRun t -> ~ guarded f Available t) -> forall x,
     fstep dbg (with_avail f x) l = match fstep dbg f l with Some (f', ev) => Some (with_avail f' x, ev) | None => None end) /\
  ((forall t, l = LRun t -> ~ guarded f Used t) -> forall x,
     fstep dbg (with_used f x) l = match fstep dbg f l with Some (f', ev) => Some (with_used f' x, ev) | None => None end).
Proof.
  intros H dbg ds w ls f evs l E. destruct (sim_run_all _ _ _ _ _ _ (sim_init ds w) (locks_init ds w) E) as (_ & s & _ & _ & S & HL).
  split; intros Hg x; [by eapply avail_untouched|by eapply used_untouched].
Qed.
Print Assumptions C73_guarded.
(** They are only changed under the write lock, which excludes all other guards of that lock. *)
Theorem C73_writers : forall H dbg ds (w : world H) ls f evs l f' ev,
  frun dbg (init_fsys ds w) ls = Some (f, evs) -> fstep dbg f l = Some (f', ev) ->
  (sv_available (f_server f') <> sv_available (f_server f) ->
     exists t, l = LRun t /\ lk_holders (f_avail f) = [(t, MWrite)]) /\
  (sv_used (f_server f') <> sv_used (f_server f) ->
     exists t, l = LRun t /\ lk_holders (f_used f) = [(t, MWrite)]).
Proof.
  intros H dbg ds w ls f evs l f' ev E Es. destruct (sim_run_all _ _ _ _ _ _ (sim_init ds w) (locks_init ds w) E) as (_ & s & _ & _ & S & HL).
  destruct (writers_only _ _ _ _ _ _ S HL Es) as [W1 W2].
  split; intros Hne; [destruct (W1 Hne) as (t & -> & Hw)|destruct (W2 Hne) as (t & -> & Hw)]; exists t; (split; [done|]);
    by apply (excls_run _ _ _ _ _ E (excls_init ds w)).
Qed.
Print Assumptions C73_writers.
(** In the middle of the import above, task 1 has both guards and task 2 none. *)
Example C73_example : exists f evs, frun false fsys0 half_imported = Some (f, evs) /\
  lk_holders (f_used f) = [(1, MWrite)] /\ lk_holders (f_avail f) = [(1, MWrite)] /\
  ~ guarded f Used 2 /\ ~ guarded f Available 2 /\
  exists f' ev, fstep false f (LRun 1) = Some (f', ev) /\ sv_used (f_server f') <> sv_used (f_server f).
Proof.
  destruct (fafter_run (frun false fsys0 half_imported) (fun f evs =>
    lk_holders (f_used f) = [(1, MWrite)] /\ lk_holders (f_avail f) = [(1, MWrite)] /\ sv_used (f_server f) !! id_a = None /\
    fafter (fstep false f (LRun 1)) (fun f' _ => sv_used (f_server f') !! id_a = Some ex_dev)))
    as (f & evs & E & H1 & H2 & H3 & H4); [vm_compute; auto|].
  exists f, evs. split_and!; try done.
  - unfold guarded. cbn. rewrite H1. cbn. rewrite elem_of_list_singleton. done.
  - unfold guarded. cbn. rewrite H2. cbn. rewrite elem_of_list_singleton. done.
  - apply fafter_run in H4 as (f' & ev & Es & H4). exists f', ev. split; [done|]. congruence.
Qed.
