(** * Properties C77-C79: futures dropped by the application *)
From Verif Require Import Examples PropsSys CancelProofs.

(** ** C77: dropping a future at any await harms nobody else *)
Theorem C77_safe : forall H dbg ds (w : world H) xs s evs,
  xrun dbg (init_sys ds w) xs = Some (s, evs) -> distinct_ids ds evs ->
  (forall t t' d d', held evs t = Some d -> held evs t' = Some d' -> d_bus_id d = d_bus_id d' -> t = t') /\
  (forall t d, held evs t = Some d -> sv_used (y_server s) !! d_bus_id d = Some d) /\
  Permutation (all_devices (y_server s)) (ledger ds evs) /\ NoDup (d_bus_id <$> all_devices (y_server s)).
Proof.
  intros H dbg ds w xs s evs E Hd. pose proof (xdev_run _ _ _ _ _ _ E Hd) as HI.
  split; [apply (di_excl _ _ _ HI)|]. split; [apply (di_held _ _ _ HI)|]. split; [apply (di_ledger _ _ _ HI)|].
  rewrite (fmap_perm d_bus_id _ _ (di_ledger _ _ _ HI)). by apply distinct_last.
Qed.
Print Assumptions C77_safe.

(** A connection still reaches the handlers of the device it holds, and no other. *)
Theorem C77_submits_use_held_device : forall H dbg ds (w : world H) xs s evs x s' ev t sb r,
  xrun dbg (init_sys ds w) xs = Some (s, evs) -> distinct_ids ds evs ->
  xstep dbg s x = Some (s', ev) -> EvServe t (CmdSubmit sb) r ∈ ev ->
  serve_submit dbg (y_world s) (held evs t) sb = (r, y_world s') /\ y_server s' = y_server s.
Proof.
  intros H dbg ds w xs s evs x s' ev t sb r E Hd Es He. destruct x as [l|u]; cbn in Es.
  - destruct (ev_submit _ _ _ _ _ _ _ _ (step_move _ _ _ _ _ Es) He) as (cur & _ & Et & Er & Esv & _).
    pose proof (xdev_run _ _ _ _ _ _ E Hd) as HI. split; [|done].
    pose proof (di_cur _ _ _ HI _ _ Et eq_refl eq_refl) as Hc. cbn in Hc. subst cur.
    destruct (held evs t) as [d|] eqn:Hh; cbn in Er; [|done].
    by rewrite (di_held _ _ _ HI _ _ Hh) in Er.
  - destruct (drop_inv _ _ _ _ Es) as (p & cur & _ & _ & -> & _). apply elem_of_list_singleton in He. done.
Qed.
Print Assumptions C77_submits_use_held_device.

(** What a cancelled call does: its locks and its place in the queues are given up, the devices
    and the handlers stay as they are, nobody else loses or gains a lock or a place. *)
Theorem C77_others_unaffected : forall H dbg ds (w : world H) xs s evs t s' ev,
  xrun dbg (init_sys ds w) xs = Some (s, evs) -> xstep dbg s (XCancel t) = Some (s', ev) ->
  no_claim s' t /\ y_server s' = y_server s /\ y_world s' = y_world s /\
  forall u, u <> t -> y_tasks s' !! u = y_tasks s !! u /\ held (evs ++ ev) u = held evs u /\
    forall n m, ((u, m) ∈ lk_holders (lock_of s' n) <-> (u, m) ∈ lk_holders (lock_of s n)) /\
                ((u, m) ∈ lk_queue (lock_of s' n) <-> (u, m) ∈ lk_queue (lock_of s n)).
Proof.
  intros H dbg ds w xs s evs t s' ev E Es. cbn in Es.
  destruct (drop_inv _ _ _ _ Es) as (p & cur & Et & _ & -> & E1 & E2 & Eu & Ea & Ek).
  split.
  { intros m. rewrite Eu, Ea. split; apply (fnone_claims (lk_forget _ _)); apply forget_none. }
  split; [done|]. split; [done|]. intros u Nu. split; [rewrite Ek; by rewrite lookup_insert_ne|].
  split; [rewrite held_app; cbn; by apply held_other|].
  intros n m. destruct n; cbn [lock_of]; rewrite ?Eu, ?Ea; cbn [lk_forget lk_holders lk_queue];
    rewrite !filter_out; cbn [fst]; tauto.
Qed.
Print Assumptions C77_others_unaffected.
Theorem C77_no_locks : forall H dbg ds (w : world H) xs s evs t r cur,
  xrun dbg (init_sys ds w) xs = Some (s, evs) -> y_tasks s !! t = Some (mkTask (PEnd r) cur) -> no_claim s t.
Proof.
  intros H dbg ds w xs s evs t r cur E Et m. destruct (xrun_inv _ _ _ _ _ _ E) as [HL _].
  destruct (fp_of s t _ _ HL Et) as [Fu Fa]. cbn [used_fp avail_fp] in *. split; by apply fnone_claims.
Qed.
Print Assumptions C77_no_locks.

(** A cancelled call has taken effect as a whole or not at all: the operations that did, in order,
    executed one after the other by the sequential functions give the same answers, devices and
    handler states. *)
Theorem C77_all_or_nothing : forall H dbg ds (w : world H) tr s,
  xexecution dbg (init_sys ds w) tr s ->
  exists q, does_all dbg (mkSeq (new_simulated ds) w (fun _ => None)) (xops_of tr) q /\
    q_server q = y_server s /\ q_world q = y_world s /\
    forall t c cur, y_tasks s !! t = Some (mkTask (PUsedR c) cur) -> q_cur q t = cur.
Proof.
  intros H dbg ds w tr s E.
  destruct (lin_xexecution dbg _ tr s (mkSeq (new_simulated ds) w (fun _ => None)) E) as (q & Hq & Hr).
  - apply locks_init.
  - intros t id cur Et. cbn in Et. by rewrite lookup_empty in Et.
  - by split.
  - exists q. split; [done|]. split; [apply Hr|]. split; [apply Hr|]. intros t c cur Et. by apply (rp_cur _ _ Hr _ _ Et).
Qed.
Print Assumptions C77_all_or_nothing.
(** Every schedule is an execution in this sense. *)
Theorem C77_executions : forall H dbg (s s' : sys H) xs evs,
  xrun dbg s xs = Some (s', evs) <-> exists tr, xexecution dbg s tr s' /\ tr.*1 = xs /\ mjoin tr.*2 = evs.
Proof.
  intros H dbg s s' xs evs. split.
  - revert s evs. induction xs as [|x xs IH]; intros s evs E; cbn in E.
    + injection E as <- <-. exists []. split; [constructor|done].
    + destruct (xstep dbg s x) as [[s1 e1]|] eqn:E1; [|done].
      destruct (xrun dbg s1 xs) as [[s2 e2]|] eqn:E2; [|done]. injection E as <- <-.
      destruct (IH _ _ E2) as (tr & Ht & <- & <-). exists ((x, e1) :: tr).
      split; [by econstructor|done].
  - intros (tr & E & <- & <-). induction E as [s|s1 x ev s2 tr s3 E _ IH]; [done|].
    cbn. by rewrite E, IH.
Qed.
Print Assumptions C77_executions.

(** Client 2 waits for the table to import a device, client 1 holds it while its reply is being
    written; dropping client 1's future lets client 2 go on; dropping the future of client 3, which
    waits behind client 2, changes nothing for client 2. *)
Definition cancelled_run : list (xlabel ex_h) :=
  (XStep <$> [LConnect 1; LConnect 2; LConnect 3] ++ do_list 1 ++
     [LRecv 2 (OpReqImport 0 (field_of id_a)); LGrantUsed; LRun 2; LRun 2; LRecv 3 (OpReqDevlist 0)])
  ++ [XCancel 3; XCancel 1] ++ (XStep <$> [LGrantUsed; LRun 2; LGrantAvail; LRun 2; LSent 2]).
Example C77_example : forall dbg, exists s evs,
  xrun dbg sys0 cancelled_run = Some (s, evs) /\ distinct_ids [ex_dev; dev_b] evs /\
  held evs 2 = Some ex_dev /\ at_pc s 1 = Some (PEnd EndCancelled) /\ at_pc s 3 = Some (PEnd EndCancelled).
Proof.
  intros dbg.
  destruct (after_run (xrun dbg sys0 cancelled_run) (fun s evs => distinct_b [ex_dev; dev_b] evs = true /\
    held evs 2 = Some ex_dev /\ at_pc s 1 = Some (PEnd EndCancelled) /\ at_pc s 3 = Some (PEnd EndCancelled)))
    as (s & evs & E & Hd & Hr); [destruct dbg; vm_compute; auto|].
  exists s, evs. split; [done|]. split; [by apply distinct_b_spec|done].
Qed.

(** ** C78: ... but the device imported by a dropped connection is lost *)

(** Whoever holds a device when it is cancelled loses it for ever: it stays in the in-use table,
    is never listed or handed out again and cannot be removed. *)
Theorem C78_cancel_leaks : forall H dbg ds (w : world H) xs s evs t d s1 ev xs' s' evs',
  xrun dbg (init_sys ds w) xs = Some (s, evs) -> held evs t = Some d ->
  xstep dbg s (XCancel t) = Some (s1, ev) -> xrun dbg s1 xs' = Some (s', evs') ->
  distinct_ids ds (evs ++ ev ++ evs') ->
  sv_used (y_server s') !! d_bus_id d = Some d /\
  (forall d', d' ∈ sv_available (y_server s') -> d_bus_id d' <> d_bus_id d) /\
  (forall u d', held (evs ++ ev ++ evs') u = Some d' -> d_bus_id d' <> d_bus_id d) /\
  (forall u n f d', EvServe u (OpReqImport n f) (Val (OpRepImport 0 (Some d'))) ∈ evs' -> d_bus_id d' <> d_bus_id d) /\
  (forall u r, EvRemove u (d_bus_id d) r ∈ evs' -> r = IErr (EDeviceInUse (d_bus_id d))).
Proof.
  intros H dbg ds w xs s evs t d s1 ev xs' s' evs' E Hh Es E' Hd. rewrite app_assoc in Hd.
  assert (E1 : xrun dbg (init_sys ds w) (xs ++ [XCancel t]) = Some (s1, evs ++ ev)).
  { rewrite xrun_app, E. cbn [xrun]. rewrite Es. by rewrite app_nil_r. }
  pose proof (xdev_run _ _ _ _ _ _ E (distinct_app _ _ _ (distinct_app _ _ _ Hd))) as HI.
  cbn in Es. destruct (drop_inv _ _ _ _ Es) as (p & cur & Et & _ & -> & Esv & _).
  assert (Hu : sv_used (y_server s1) !! d_bus_id d = Some d) by (rewrite Esv; by apply (di_held _ _ _ HI _ _ Hh)).
  assert (Hn : forall u d', held (evs ++ [EvEnd t EndCancelled]) u = Some d' -> d_bus_id d' <> d_bus_id d).
  { intros u d' Hx Hid. apply held_cancel in Hx as [Nu Hx]. apply Nu. by eapply (di_excl _ _ _ HI). }
  destruct (leak_xrun _ _ _ _ _ _ _ _ _ _ _ E1 E' Hd Hu Hn) as (Hu' & H1 & H2 & H3).
  split; [done|]. split; [|split; [by rewrite app_assoc|done]].
  pose proof (xrun_app_intro _ _ _ _ _ _ _ _ E1 E') as E2. pose proof (xdev_run _ _ _ _ _ _ E2 Hd) as HI2.
  intros d' Hd' Hid. rewrite <- Hid, avail_not_used in Hu'; [done| |by apply (di_filed _ _ _ HI2)|done].
  by apply (C77_safe _ _ _ _ _ _ _ E2 Hd).
Qed.
Print Assumptions C78_cancel_leaks.
(** The concrete case: import, then the application drops the future (shutdown, timeout). *)
Definition dropped_client : list (xlabel ex_h) :=
  (XStep <$> [LConnect 1] ++ do_import 1 id_a ++ [LSent 1]) ++ [XCancel 1].
Theorem C78_cancel_returns_device_refuted : forall dbg, exists s evs,
  xrun dbg sys0 dropped_client = Some (s, evs) /\ distinct_ids [ex_dev; dev_b] evs /\
  EvServe 1 (OpReqImport 0 (field_of id_a)) (Val (OpRepImport 0 (Some ex_dev))) ∈ evs /\
  forall xs' s' evs', xrun dbg s xs' = Some (s', evs') -> distinct_ids [ex_dev; dev_b] (evs ++ evs') ->
    (forall d', d' ∈ sv_available (y_server s') -> d_bus_id d' <> id_a) /\
    (forall u n f d', EvServe u (OpReqImport n f) (Val (OpRepImport 0 (Some d'))) ∈ evs' -> d_bus_id d' <> id_a) /\
    (forall u r, EvRemove u id_a r ∈ evs' -> r = IErr (EDeviceInUse id_a)).
Proof.
  intros dbg.
  destruct (after_run (xrun dbg sys0 (XStep <$> [LConnect 1] ++ do_import 1 id_a ++ [LSent 1]))
    (fun s evs => held evs 1 = Some ex_dev /\ EvServe 1 (OpReqImport 0 (field_of id_a)) (Val (OpRepImport 0 (Some ex_dev))) ∈ evs /\
       distinct_b [ex_dev; dev_b] (evs ++ [EvEnd 1 EndCancelled]) = true /\ at_pc s 1 = Some PRead))
    as (s & evs & E & Hh & He & Hd & Hp).
  { destruct dbg; vm_compute; (split; [done|]; split; [in_list|done]). }
  apply at_pc_task in Hp as [cur Hp].
  assert (Ec : exists s1, xstep dbg s (XCancel 1) = Some (s1, [EvEnd 1 EndCancelled])).
  { cbn [xstep]. unfold drop_future. rewrite Hp. cbn. eauto. }
  destruct Ec as (s1 & Ec). exists s1, (evs ++ [EvEnd 1 EndCancelled]).
  split; [unfold dropped_client; rewrite xrun_app, E; cbn [xrun]; by rewrite Ec|].
  split; [by apply distinct_b_spec|]. split; [apply elem_of_app; by left|].
  intros xs' s' evs' E' Hd'. rewrite <- app_assoc in Hd'.
  destruct (C78_cancel_leaks _ _ _ _ _ _ _ _ _ _ _ _ _ _ E Hh Ec E' Hd') as (_ & H1 & _ & H2 & H3). done.
Qed.
Print Assumptions C78_cancel_returns_device_refuted.
(** What is true: a cancelled call loses nothing but the device it held -- a device in use that
    nobody holds afterwards was not held by anybody before, or it was held by the cancelled
    connection -- and the list of available devices is not touched. *)
Theorem C78_only_held_device_lost_partial : forall H dbg ds (w : world H) xs s evs t s' ev d,
  xrun dbg (init_sys ds w) xs = Some (s, evs) -> distinct_ids ds (evs ++ ev) ->
  xstep dbg s (XCancel t) = Some (s', ev) -> d ∈ all_devices (y_server s) ->
  d ∈ all_devices (y_server s') /\ (d ∈ sv_available (y_server s') <-> d ∈ sv_available (y_server s)) /\
  (((exists u, held evs u = Some d) /\ ~ (exists u, held (evs ++ ev) u = Some d)) <-> held evs t = Some d).
Proof.
  intros H dbg ds w xs s evs t s' ev d E Hd Es Hin. cbn in Es.
  pose proof (xdev_run _ _ _ _ _ _ E (distinct_app _ _ _ Hd)) as HI.
  destruct (drop_inv _ _ _ _ Es) as (p & cur & Et & _ & -> & Esv & _). rewrite Esv.
  split; [done|]. split; [done|]. split.
  - intros [[u Hu] Hno]. destruct (decide (u = t)) as [->|Nu]; [done|].
    destruct Hno. exists u. rewrite held_app. cbn. by rewrite held_other.
  - intros Hh. split; [by exists t|]. intros [u Hu]. apply held_cancel in Hu as [Nu Hu].
    apply Nu. by eapply (di_excl _ _ _ HI).
Qed.
Print Assumptions C78_only_held_device_lost_partial.
Example C78_example : forall dbg, exists s evs s' ev,
  xrun dbg sys0 (XStep <$> [LConnect 1] ++ do_import 1 id_a ++ [LSent 1]) = Some (s, evs) /\
  xstep dbg s (XCancel 1) = Some (s', ev) /\ held evs 1 = Some ex_dev /\ distinct_ids [ex_dev; dev_b] (evs ++ ev).
Proof.
  intros dbg.
  destruct (after_run (xrun dbg sys0 (XStep <$> [LConnect 1] ++ do_import 1 id_a ++ [LSent 1]))
    (fun s evs => held evs 1 = Some ex_dev /\
       distinct_b [ex_dev; dev_b] (evs ++ [EvEnd 1 EndCancelled]) = true /\ at_pc s 1 = Some PRead))
    as (s & evs & E & Hh & Hd & Hp); [destruct dbg; vm_compute; auto|].
  apply at_pc_task in Hp as [cur Hp]. exists s, evs. eexists _, _. split; [exact E|].
  split; [cbn [xstep]; unfold drop_future; rewrite Hp; reflexivity|]. split; [done|]. by apply distinct_b_spec.
Qed.

(** ** C79: timeouts on replies and on remove_device are enough *)

(** From every reachable state, if the application only drops calls that write to a client or
    [remove_device] calls that wait for the in-use table, then, without any client doing anything,
    everybody gets through: nothing is waiting for a lock any more, every [add_device] call has
    returned, and every closed connection has ended by itself. *)
Theorem C79_timeouts_suffice : forall H dbg ds (w : world H) xs s evs,
  xrun dbg (init_sys ds w) xs = Some (s, evs) ->
  exists ts s', with_timeouts dbg s ts s' /\
  (forall t p cur, y_tasks s' !! t = Some (mkTask p cur) ->
     p = PRead \/ (exists b, p = PWrite b) \/ (exists r, p = PEnd r) \/ p = PAdded \/ exists r, p = PRemoved r) /\
  (forall t d cur, y_tasks s !! t = Some (mkTask (PAddAvailW d) cur) -> exists c, y_tasks s' !! t = Some (mkTask PAdded c)) /\
  (forall t e cur, y_tasks s !! t = Some (mkTask (PRelUsedW e) cur) \/ y_tasks s !! t = Some (mkTask (PRelAvailW e) cur) ->
     exists r c, y_tasks s' !! t = Some (mkTask (PEnd r) c) /\ r <> EndCancelled).
Proof.
  intros H dbg ds w xs s evs E. destruct (xrun_inv _ _ _ _ _ _ E) as (HL & _ & HR).
  destruct (timeouts_suffice dbg s HL HR) as (ts & s' & W & Hs & Hn). exists ts, s'. split; [done|].
  assert (HD : forall t p cur, y_tasks s' !! t = Some (mkTask p cur) ->
     p = PRead \/ (exists b, p = PWrite b) \/ (exists r, p = PEnd r) \/ p = PAdded \/ exists r, p = PRemoved r).
  { intros t p cur Et. apply (not_pending_done s' t p cur Et (Hn t)). intros f b ->. by eapply stuck_no_start. }
  split; [done|]. split.
  - intros t d cur Et.
    destruct (with_timeouts_keeps dbg s s' ts t (fun p => p = PAddAvailW d \/ p = PAdded) W) as (p & c & Ep & Hp).
    + intros p c Hp s1 s2 l ev E1 Hi Ha M. destruct M; try discriminate Hi; cbn in Ha; try discriminate Ha; injection Ha as ->;
        match goal with E2 : y_tasks s1 !! t = Some (mkTask ?q _) |- _ => tryif constr_eq q p then fail else (rewrite E1 in E2; injection E2 as -> ->) end;
        destruct Hp as [Hp|Hp]; try discriminate Hp.
      eexists _, _. split; [apply lookup_insert|by right].
    + by intros p [-> | ->].
    + eexists _, _. split; [exact Et|by left].
    + destruct Hp as [-> | ->]; [|by exists c]. exfalso. apply (Hn t). eexists _, _. split; [done|]. by eexists.
  - intros t e cur Et.
    destruct (with_timeouts_keeps dbg s s' ts t (fun p => p = PRelUsedW e \/ p = PRelAvailW e \/
       exists r, p = PEnd r /\ r <> EndCancelled) W) as (p & c & Ep & Hp).
    + intros p c Hp s1 s2 l ev E1 Hi Ha M. destruct M; try discriminate Hi; cbn in Ha; try discriminate Ha; injection Ha as ->;
        match goal with E2 : y_tasks s1 !! t = Some (mkTask ?q _) |- _ => tryif constr_eq q p then fail else (rewrite E1 in E2; injection E2 as -> ->) end;
        destruct Hp as [Hp|[Hp|(r' & Hp & _)]]; try discriminate Hp; try injection Hp as ->.
      * eexists _, _. split; [apply lookup_insert|]. by right; left.
      * eexists _, _. split; [apply lookup_insert|]. right; right. eexists. split; [done|]. by destruct e.
      * eexists _, _. split; [apply lookup_insert|]. right; right. by eexists.
    + intros p Hp. destruct Hp as [-> |[-> |(r & -> & _)]]; done.
    + destruct Et as [Et|Et]; eexists _, _; (split; [exact Et|]); [by left|by right; left].
    + destruct Hp as [-> |[-> |(r & -> & Hr)]]; [| |by exists r, c];
        exfalso; apply (Hn t); eexists _, _; (split; [done|]); by eexists.
Qed.
Print Assumptions C79_timeouts_suffice.
(** The deadlock of C34, resolved by dropping the [remove_device] call. *)
Example C79_example : forall dbg, exists s evs,
  xrun dbg sys0 ((XStep <$> deadlock_rel) ++ [XCancel 5] ++ (XStep <$> [LGrantAvail; LRun 1])) = Some (s, evs) /\
  at_pc s 1 = Some (PEnd EndOk) /\ d_bus_id <$> sv_available (y_server s) = [id_b; id_a].
Proof.
  intros dbg. apply after_run. destruct dbg; vm_compute; auto.
Qed.
