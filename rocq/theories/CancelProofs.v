(** * Dropping futures: the invariants of the server are preserved *)
From Verif Require Export SpecCancel ConcProofs LiveProofs LinProofs.

Lemma claims_forget_sub t l : sublist (claims (lk_forget t l)) (claims l).
Proof. unfold claims, lk_forget. cbn. apply sublist_app; apply filter_out_sub. Qed.
Lemma tr_forget t l : lock_ok l -> trans t l (lk_forget t l).
Proof.
  intros [Hn Hw]. split; [split|].
  - eapply sublist_NoDup; [apply fmap_sublist, claims_forget_sub|done].
  - intros u Hu. cbn in *. apply filter_out in Hu as [Hu Ne]. cbn in Ne. rewrite (Hw _ Hu). cbn.
    destruct (N.eqb_spec u t); [done|done].
  - intros u f Nu Hf. unfold fp_ok, claims in *. cbn [lk_forget lk_holders lk_queue].
    destruct f; try (intros Hx; apply Hf; revert Hx); rewrite ?elem_of_list_fmap, ?elem_of_app in *.
    + intros ([v m] & Ev & Hx). exists (v, m). split; [done|]. rewrite elem_of_app in *.
      rewrite !filter_out in Hx. tauto.
    + rewrite !filter_out. cbn. tauto.
    + rewrite filter_out. cbn. tauto.
    + destruct Hf as ([v m'] & -> & Hx). exists (v, m'). split; [done|]. by rewrite filter_out.
    + intros ([v m] & Ev & Hx). exists (v, m). split; [done|]. rewrite !filter_out in Hx. tauto.
Qed.
Lemma forget_none t l : fp_ok (lk_forget t l) t FNone.
Proof.
  cbn. unfold claims, lk_forget. cbn. intros Hx. apply elem_of_list_fmap in Hx as ([v m] & Ev & Hx).
  cbn in Ev. subst v. rewrite elem_of_app, !filter_out in Hx. cbn in Hx. tauto.
Qed.

Lemma drop_inv {H} (s s' : sys H) t ev : drop_future s t = Some (s', ev) ->
  exists p cur, y_tasks s !! t = Some (mkTask p cur) /\ at_await p = true /\ ev = [EvEnd t EndCancelled] /\
    y_server s' = y_server s /\ y_world s' = y_world s /\
    y_used s' = lk_forget t (y_used s) /\ y_avail s' = lk_forget t (y_avail s) /\
    y_tasks s' = <[t := mkTask (PEnd EndCancelled) cur]> (y_tasks s).
Proof.
  unfold drop_future. destruct (y_tasks s !! t) as [[p cur]|] eqn:E; [|done].
  destruct (at_await p) eqn:Ea; [|done]. intros [= <- <-]. by exists p, cur.
Qed.

Lemma locks_cancel {H} (s s' : sys H) t ev : drop_future s t = Some (s', ev) -> locks_ok s -> locks_ok s'.
Proof.
  intros E HL. destruct (drop_inv _ _ _ _ E) as (p & cur & Et & _ & _ & _ & _ & Eu & Ea & Ek).
  pose proof HL as (Lu & La & _).
  eapply (locks_upd s s' t _ HL Ek); rewrite ?Eu, ?Ea;
    [by apply tr_forget|by apply tr_forget|exact (forget_none t (y_used s))|exact (forget_none t (y_avail s))].
Qed.
Lemma dev_cancel {H} ds (s s' : sys H) evs t ev : drop_future s t = Some (s', ev) -> dev_inv ds s evs ->
  dev_inv ds s' (evs ++ ev).
Proof.
  intros E HI. destruct (drop_inv _ _ _ _ E) as (p & cur & Et & _ & -> & Es & _ & _ & _ & Ek).
  assert (Hh : held (evs ++ [EvEnd t EndCancelled]) t = None) by (rewrite held_app; cbn; apply held_same).
  apply (dev_frame ds s s' evs _ t _ HI Es Ek); try done.
  - intros u Nu. rewrite held_app. cbn. by apply held_other.
  - by right.
Qed.
Lemma rem_cancel {H} (s s' : sys H) t ev : drop_future s t = Some (s', ev) -> rem_ok s -> rem_ok s'.
Proof.
  intros E HR. destruct (drop_inv _ _ _ _ E) as (p & cur & Et & _ & _ & Es & _ & _ & _ & Ek).
  by eapply (rem_same s); [done|exact Ek|left|].
Qed.
Lemma rel_cancel {H} (s s' : sys H) t ev : drop_future s t = Some (s', ev) -> rel_ok s -> rel_ok s'.
Proof.
  intros E HR. destruct (drop_inv _ _ _ _ E) as (p & cur & Et & _ & _ & Es & _ & _ & _ & Ek).
  by eapply (rel_upd s); [done|exact Ek|].
Qed.

(** ** Runs *)
Lemma xrun_app {H} dbg (s : sys H) l1 l2 :
  xrun dbg s (l1 ++ l2) = match xrun dbg s l1 with
                          | None => None
                          | Some (s1, e1) => match xrun dbg s1 l2 with
                                             | None => None
                                             | Some (s2, e2) => Some (s2, e1 ++ e2)
                                             end
                          end.
Proof.
  revert s. induction l1 as [|x l1 IH]; intros s; cbn.
  - by destruct (xrun dbg s l2) as [[? ?]|].
  - destruct (xstep dbg s x) as [[s1 e1]|]; [|done]. rewrite IH.
    destruct (xrun dbg s1 l1) as [[s2 e2]|]; [|done]. destruct (xrun dbg s2 l2) as [[s3 e3]|]; [|done].
    by rewrite app_assoc.
Qed.
Lemma xrun_app_intro {H} dbg (s s1 s2 : sys H) l1 l2 e1 e2 :
  xrun dbg s l1 = Some (s1, e1) -> xrun dbg s1 l2 = Some (s2, e2) -> xrun dbg s (l1 ++ l2) = Some (s2, e1 ++ e2).
Proof. intros E1 E2. by rewrite xrun_app, E1, E2. Qed.
Lemma xrun_ind {H} dbg (s0 : sys H) (P : list (xlabel H) -> sys H -> list event -> Prop) :
  P [] s0 [] ->
  (forall xs s ev x s' ev', xrun dbg s0 xs = Some (s, ev) -> P xs s ev -> xstep dbg s x = Some (s', ev') ->
     P (xs ++ [x]) s' (ev ++ ev')) ->
  forall xs s ev, xrun dbg s0 xs = Some (s, ev) -> P xs s ev.
Proof.
  intros H0 Hs. induction xs as [|x xs IH] using rev_ind; intros s ev E.
  - cbn in E. by injection E as <- <-.
  - rewrite xrun_app in E. destruct (xrun dbg s0 xs) as [[s1 e1]|] eqn:E1; [|done]. cbn in E.
    destruct (xstep dbg s1 x) as [[s2 e2]|] eqn:E2; [|done]. injection E as <- <-.
    rewrite app_nil_r. eapply Hs; eauto.
Qed.

Lemma xstep_locks {H} dbg (s s' : sys H) x ev : xstep dbg s x = Some (s', ev) -> locks_ok s -> locks_ok s'.
Proof. destruct x; cbn; [by eapply locks_step|by apply locks_cancel]. Qed.
Lemma xrun_inv {H} dbg ds (w : world H) xs s evs : xrun dbg (init_sys ds w) xs = Some (s, evs) ->
  locks_ok s /\ rem_ok s /\ rel_ok s.
Proof.
  revert xs s evs. apply (xrun_ind dbg (init_sys ds w) (fun _ s _ => locks_ok s /\ rem_ok s /\ rel_ok s)).
  - split; [apply locks_init|]. split; intros t *; cbn; by rewrite lookup_empty.
  - intros xs s ev x s' ev' _ (HL & HM & HR) E. split; [by eapply xstep_locks|]. destruct x as [l|t]; cbn in E.
    + apply step_move in E. split; [by eapply rem_move|by eapply rel_move].
    + split; [by eapply rem_cancel|by eapply rel_cancel].
Qed.
Lemma xdev_run {H} dbg ds (w : world H) xs s evs : xrun dbg (init_sys ds w) xs = Some (s, evs) ->
  distinct_ids ds evs -> dev_inv ds s evs.
Proof.
  revert xs s evs. apply (xrun_ind dbg (init_sys ds w) (fun _ s evs => distinct_ids ds evs -> dev_inv ds s evs)).
  - intros _. apply dev_init.
  - intros xs s ev x s' ev' Hr IH E Hd. pose proof (distinct_app _ _ _ Hd) as Hd'. specialize (IH Hd').
    destruct x as [l|t]; cbn in E; [|by eapply dev_cancel].
    eapply dev_move; [by apply step_move| |done|by apply distinct_last].
    by apply (xrun_inv _ _ _ _ _ _ Hr).
Qed.

(** ** Leaks *)
Lemma held_cancel evs t u d : held (evs ++ [EvEnd t EndCancelled]) u = Some d -> u <> t /\ held evs u = Some d.
Proof. rewrite held_app. cbn. destruct (N.eqb_spec u t); [done|done]. Qed.

Lemma leak_xrun {H} dbg ds (w : world H) xs s evs xs' s' evs' id d :
  xrun dbg (init_sys ds w) xs = Some (s, evs) -> xrun dbg s xs' = Some (s', evs') ->
  distinct_ids ds (evs ++ evs') -> sv_used (y_server s) !! id = Some d ->
  (forall t d', held evs t = Some d' -> d_bus_id d' <> id) ->
  sv_used (y_server s') !! id = Some d /\
  (forall t n f d', EvServe t (OpReqImport n f) (Val (OpRepImport 0 (Some d'))) ∈ evs' -> d_bus_id d' <> id) /\
  (forall t r, EvRemove t id r ∈ evs' -> r = IErr (EDeviceInUse id)) /\
  (forall t d', held (evs ++ evs') t = Some d' -> d_bus_id d' <> id).
Proof.
  intros E0 E' Hd Hu Hnh. revert xs' s' evs' E' Hd.
  match goal with |- forall ls1 s1 e1, _ -> @?Q ls1 s1 e1 => apply (xrun_ind dbg s Q) end.
  - intros _. rewrite app_nil_r. split; [done|]. split; [intros t n f d' E; by apply elem_of_nil in E|].
    split; [intros t r E; by apply elem_of_nil in E|done].
  - intros xs1 s1 e1 x s2 e2 E1 IH E2 Hd. rewrite app_assoc in Hd. pose proof (distinct_app _ _ _ Hd) as Hd1.
    destruct (IH Hd1) as (I1 & I2 & I3 & I4).
    pose proof (xdev_run dbg ds w (xs ++ xs1) s1 (evs ++ e1) (xrun_app_intro _ _ _ _ _ _ _ _ E0 E1) Hd1) as HI.
    assert (J : sv_used (y_server s2) !! id = Some d /\
      (forall t n f d', EvServe t (OpReqImport n f) (Val (OpRepImport 0 (Some d'))) ∈ e2 -> d_bus_id d' <> id) /\
      (forall t r, EvRemove t id r ∈ e2 -> r = IErr (EDeviceInUse id)) /\
      (forall t d', held ((evs ++ e1) ++ e2) t = Some d' -> d_bus_id d' <> id)).
    { destruct x as [l|t]; cbn in E2.
      - exact (leak_move _ _ _ _ _ _ _ _ _ (step_move _ _ _ _ _ E2) HI (distinct_last _ _ Hd1) I1 I4).
      - destruct (drop_inv _ _ _ _ E2) as (p & cur & Et & _ & -> & Es & _). rewrite Es.
        split; [done|]. split; [intros ? ? ? ? Hx; apply elem_of_list_singleton in Hx; done|].
        split; [intros ? ? Hx; apply elem_of_list_singleton in Hx; done|].
        intros u d' Hx. apply held_cancel in Hx as [_ Hx]. by eapply I4. }
    destruct J as (J1 & J2 & J3 & J4). split; [done|]. split; [|split].
    + intros t n f d'. rewrite elem_of_app. intros [?|?]; eauto.
    + intros t r. rewrite elem_of_app. intros [?|?]; eauto.
    + by rewrite app_assoc.
Qed.

(** ** Atomicity *)
Lemma lin_xexecution {H} dbg (s : sys H) tr s' (q : seqst H) : xexecution dbg s tr s' -> locks_ok s -> rem_ok s ->
  represents s q -> exists q', does_all dbg q (xops_of tr) q' /\ represents s' q'.
Proof.
  intros E. revert q. induction E as [s|s1 x ev s2 tr s3 E _ IH]; intros q HL HM HR.
  - exists q. split; [constructor|done].
  - assert (J : exists q1, does_all dbg q (xops_of_step (x, ev)) q1 /\ represents s2 q1 /\ rem_ok s2).
    { destruct x as [l|t]; cbn in E.
      - pose proof (step_move _ _ _ _ _ E) as M. destruct (lin_step _ _ _ _ _ _ M HM HR) as (q1 & D1 & R1).
        exists q1. split; [exact D1|]. split; [done|by eapply rem_move].
      - pose proof (rem_cancel _ _ _ _ E HM) as HM2.
        destruct (drop_inv _ _ _ _ E) as (p & cur & Et & _ & -> & Es & Ew & _ & _ & Ek).
        eexists. split; [econstructor; [apply do_end|constructor]|]. split; [|done].
        eapply (rp_upd s1 s2 q); try done; try (cbn [q_server q_world]; rewrite ?Es, ?Ew; apply HR).
        intros u Nu. cbn. by apply upd_other. }
    destruct J as (q1 & D1 & R1 & HM2).
    destruct (IH q1 (xstep_locks _ _ _ _ _ E HL) HM2 R1) as (q2 & D2 & R2).
    exists q2. split; [|done]. by eapply does_all_app.
Qed.

(** ** Timeouts *)
Lemma filter_length_le {A} (f : A -> bool) (l : list A) : (length (List.filter f l) <= length l)%nat.
Proof. induction l as [|x l IH]; cbn; [lia|]. destruct (f x); cbn; lia. Qed.

Definition alive (p : pc) : nat := if at_await p then 1%nat else match p with PImpStart _ _ => 1%nat | _ => 0%nat end.
Definition population (m : gmap tid task) : nat := list_sum ((fun kv => alive (t_pc kv.2)) <$> map_to_list m).
Lemma population_insert m t k : m !! t = None -> population (<[t := k]> m) = (alive (t_pc k) + population m)%nat.
Proof.
  intros E. unfold population. rewrite (list_sum_perm _ _ (fmap_perm _ _ _ (map_to_list_insert m t k E))). done.
Qed.
Lemma population_update m t k k' : m !! t = Some k ->
  (population (<[t := k']> m) + alive (t_pc k) = population m + alive (t_pc k'))%nat.
Proof.
  intros E. rewrite <- (insert_delete m t k E) at 2. rewrite <- insert_delete_insert.
  rewrite !population_insert by apply lookup_delete. lia.
Qed.
Lemma alive_pos {H} (s s' : sys H) t k k' : y_tasks s !! t = Some k -> alive (t_pc k) = 1%nat ->
  y_tasks s' = <[t := k']> (y_tasks s) -> (population (y_tasks s') <= population (y_tasks s))%nat.
Proof.
  intros E Ek ->. pose proof (population_update _ _ _ k' E). unfold alive in *. repeat case_match; lia.
Qed.
Lemma internal_population {H} dbg (s : sys H) l s' ev : step dbg s l = Some (s', ev) -> is_internal l = true ->
  (population (y_tasks s') <= population (y_tasks s))%nat.
Proof.
  intros E Hi. apply step_move in E. destruct E; try discriminate Hi; try (cbn; lia);
    try (eapply alive_pos; [eassumption|reflexivity|reflexivity]);
    match goal with A : answered _ _ _ _ _ _ _ _ |- _ => destruct A end;
    (eapply (alive_pos s); [eassumption|reflexivity|reflexivity]).
Qed.
Lemma cancel_measure {H} (s s' : sys H) t ev : drop_future s t = Some (s', ev) ->
  (S (work s' + population (y_tasks s')) <= work s + population (y_tasks s))%nat.
Proof.
  intros E. destruct (drop_inv _ _ _ _ E) as (p & cur & Et & Ha & _ & _ & _ & Eu & Ea & Ek).
  unfold work. rewrite Ek, Eu, Ea. cbn [lk_forget lk_queue].
  pose proof (population_update _ _ _ (mkTask (PEnd EndCancelled) cur) Et) as P.
  pose proof (total_update _ _ _ (mkTask (PEnd EndCancelled) cur) Et) as T.
  cbn [t_pc alive rank] in P, T. unfold alive in P. rewrite Ha in P. cbn in P, T.
  pose proof (filter_length_le (fun h : tid * mode => negb (h.1 =? t)) (lk_queue (y_used s))).
  pose proof (filter_length_le (fun h : tid * mode => negb (h.1 =? t)) (lk_queue (y_avail s))). lia.
Qed.

Lemma overdue_cancel {H} (s : sys H) t : overdue s t -> exists s' ev, drop_future s t = Some (s', ev).
Proof. unfold drop_future. intros [(b & cur & E)|(id & cur & E)]; rewrite E; cbn; eauto. Qed.

(** In a stuck state with somebody waiting, some task is overdue. *)
Lemma stuck_overdue {H} dbg (s : sys H) t : locks_ok s -> rel_ok s -> stuck dbg s -> pending s t ->
  exists u, overdue s u.
Proof.
  intros HL HR Hs Hp.
  destruct (stuck_cause dbg s t HL HR Hs Hp) as [(u & Hu & _)|[(r & id & c & ? & ? & ? & ? & ? & Er & _)|(r & id & c & Er & _)]].
  - exists u. by left.
  - exists r. right. by exists id, c.
  - exists r. right. by exists id, c.
Qed.
Lemma pending_dec {H} (s : sys H) : (exists t, pending s t) \/ (forall t, ~ pending s t).
Proof.
  destruct (list_find (fun kv : tid * task => is_Some (waits_for (t_pc kv.2))) (map_to_list (y_tasks s))) as [[i [t k]]|] eqn:E.
  - apply list_find_Some in E as (El & Hw & _). left. exists t. destruct k as [p cur]. exists p, cur.
    split; [|exact Hw]. apply elem_of_map_to_list. by eapply elem_of_list_lookup_2.
  - apply list_find_None in E. right. intros t (p & cur & Et & Hw).
    rewrite Forall_forall in E. apply (E (t, mkTask p cur)); [by apply elem_of_map_to_list|done].
Qed.

Lemma timeouts_suffice {H} dbg (s : sys H) : locks_ok s -> rel_ok s ->
  exists ts s', with_timeouts dbg s ts s' /\ stuck dbg s' /\ forall t, ~ pending s' t.
Proof.
  remember (work s + population (y_tasks s))%nat as n eqn:En. revert s En.
  induction n as [n IH] using lt_wf_ind. intros s -> HL HR.
  destruct (stuck_dec dbg s) as [Hs|(l & s1 & ev & Hi & E)].
  - destruct (pending_dec s) as [[t Ht]|Hn]; [|exists [], s; split; [constructor|done]].
    destruct (stuck_overdue dbg s t HL HR Hs Ht) as [u Hu].
    destruct (overdue_cancel s u Hu) as (s1 & ev & E).
    destruct (IH _ (cancel_measure _ _ _ _ E) s1 eq_refl (locks_cancel _ _ _ _ E HL) (rel_cancel _ _ _ _ E HR)) as (ts & s' & W & D).
    exists (u :: ts), s'. split; [by econstructor|done].
  - assert (Hlt : (work s1 + population (y_tasks s1) < work s + population (y_tasks s))%nat).
    { pose proof (internal_step _ _ _ _ _ E Hi). pose proof (internal_population _ _ _ _ _ E Hi). lia. }
    destruct (IH _ Hlt s1 eq_refl (locks_step _ _ _ _ _ E HL) (rel_move _ _ _ _ _ (step_move _ _ _ _ _ E) HR)) as (ts & s' & W & D).
    exists ts, s'. split; [by econstructor|done].
Qed.
(** Every task that is not cancelled on the way is finished, idle or writing at the end. *)
Lemma not_pending_done {H} (s : sys H) t p cur : y_tasks s !! t = Some (mkTask p cur) -> ~ pending s t ->
  (forall f b, p <> PImpStart f b) ->
  p = PRead \/ (exists b, p = PWrite b) \/ (exists r, p = PEnd r) \/ p = PAdded \/ exists r, p = PRemoved r.
Proof.
  intros E Hn Hi. destruct p; eauto; try (exfalso; apply Hn; eexists _, _; split; [done|]; cbn; by eexists).
  - by destruct (Hi st busid).
  - eauto 6.
Qed.
Lemma stuck_no_start {H} dbg (s : sys H) t st busid cur : stuck dbg s -> y_tasks s !! t <> Some (mkTask (PImpStart st busid) cur).
Proof. intros Hs E. specialize (Hs (LRun t) eq_refl). cbn in Hs. rewrite E in Hs. done. Qed.

(** A task that is not overdue is not cancelled; it goes its own way. *)
Lemma with_timeouts_keeps {H} dbg (s s' : sys H) ts t (P : pc -> Prop) : with_timeouts dbg s ts s' ->
  (forall p cur, P p -> forall (s1 s2 : sys H) l ev, y_tasks s1 !! t = Some (mkTask p cur) -> is_internal l = true -> actor l = Some t ->
     move dbg s1 l s2 ev -> exists p' cur', y_tasks s2 !! t = Some (mkTask p' cur') /\ P p') ->
  (forall p, P p -> match p with PWrite _ | PRemUsedR _ => False | _ => True end) ->
  (exists p cur, y_tasks s !! t = Some (mkTask p cur) /\ P p) ->
  exists p cur, y_tasks s' !! t = Some (mkTask p cur) /\ P p.
Proof.
  intros W Hstep Hno. induction W as [s|s l s1 ev ts s' Hi E W IH|s u s1 ev ts s' Ho E W IH]; intros (p & cur & Et & Hp).
  - eauto.
  - apply IH. pose proof (step_move _ _ _ _ _ E) as M. destruct (decide (actor l = Some t)) as [Ha|Ha].
    + by eapply Hstep.
    + exists p, cur. split; [|done]. by rewrite (move_bystander _ _ _ _ _ t M Ha).
  - apply IH. destruct (drop_inv _ _ _ _ E) as (p' & cur' & Eu & _ & _ & _ & _ & _ & _ & Ek).
    assert (Nu : u <> t).
    { intros ->. specialize (Hno _ Hp). destruct Ho as [(b & c & Eo)|(id & c & Eo)]; rewrite Et in Eo; injection Eo as -> _; done. }
    exists p, cur. split; [|done]. rewrite Ek. by rewrite lookup_insert_ne.
Qed.
