(** * Nobody starves: proofs *)
From Verif Require Export SpecFair LiveProofs.

(** ** How a lock changes in a step *)
Inductive lchange (a : option tid) (l : rwlock) : rwlock -> Prop :=
| lc_same : lchange a l l
| lc_grant l' : lk_grant l = Some l' -> lchange a l l'
| lc_request t m : a = Some t -> lchange a l (lk_request t m l)
| lc_release t : a = Some t -> lchange a l (lk_release t l).

Lemma move_lock {H} dbg (s : sys H) lb s' ev n : move dbg s lb s' ev ->
  lchange (actor lb) (lock_of s n) (lock_of s' n).
Proof.
  intros M. destruct n; destruct M; cbn; try (by constructor); try (by apply lc_grant);
    match goal with A : answered _ _ _ _ _ _ _ _ |- _ => destruct A; cbn; by constructor end.
Qed.
Lemma grant_inv l l' : lk_grant l = Some l' -> exists t m q, lk_queue l = (t, m) :: q /\
  compatible m (lk_holders l) = true /\ lk_holders l' = (t, m) :: lk_holders l /\ lk_queue l' = q.
Proof.
  unfold lk_grant. destruct (lk_queue l) as [|[t m] q]; [done|]. destruct (compatible m _) eqn:Ec; [|done].
  intros [= <-]. by exists t, m, q.
Qed.
Lemma lchange_holder a l l' t m : lchange a l l' -> a <> Some t -> (t, m) ∈ lk_holders l -> (t, m) ∈ lk_holders l'.
Proof.
  intros [|l0 E|u m' ->|u ->] Ha Hh; try done.
  - apply grant_inv in E as (u & m' & q & _ & _ & -> & _). by right.
  - cbn. apply filter_out. split; [done|]. cbn. congruence.
Qed.
Lemma lchange_queue a l l' q1 x q2 : lchange a l l' -> lk_queue l = q1 ++ x :: q2 ->
  lk_grant l = Some l' \/ (exists q2', lk_queue l' = q1 ++ x :: q2') /\ sublist (lk_holders l') (lk_holders l).
Proof.
  intros [|l0 E|u m' ->|u ->] Hq.
  - right. split; [by eexists|done].
  - by left.
  - right. split; [|done]. cbn. rewrite Hq. exists (q2 ++ [(u, m')]). by rewrite <- app_assoc.
  - right. split; [by eexists|]. apply filter_out_sub.
Qed.
Lemma compatible_sub m hs hs' : sublist hs' hs -> compatible m hs = true -> compatible m hs' = true.
Proof.
  intros Hs Hc. destruct m.
  - cbn in *. rewrite forallb_forall in *. intros y Hy. apply Hc. apply elem_of_list_In. apply elem_of_list_In in Hy.
    eapply elem_of_submseteq; [done|]. by apply sublist_submseteq.
  - apply compatible_write in Hc as ->. by apply sublist_nil_r in Hs as ->.
Qed.
Lemma grant_sub l l' x q q' : lk_grant l <> None -> lk_queue l = x :: q -> lk_queue l' = x :: q' ->
  sublist (lk_holders l') (lk_holders l) -> lk_grant l' <> None.
Proof.
  unfold lk_grant. intros Hg Eq Eq' Hs. rewrite Eq in Hg. rewrite Eq'. destruct x as [t m]. destruct (compatible m (lk_holders l)) eqn:Ec; [|done].
  by rewrite (compatible_sub _ _ _ Hs Ec).
Qed.

(** ** One execution *)
Lemma later {H} (x : trace H) i j (P : event -> Prop) : (i <= j)%nat -> comes_to x j P -> comes_to x i P.
Proof. intros Hij (k & e & Hk & He & HP). exists k, e. split; [lia|done]. Qed.
(** [P] stays until [Q] happens. *)
Lemma walk (P Q : nat -> Prop) : (forall i, P i -> P (S i) \/ Q i) ->
  forall i j, (i <= j)%nat -> P i -> P j \/ exists k, (i <= k < j)%nat /\ P k /\ Q k.
Proof.
  intros HS i j Hij HP. induction j as [|j IH].
  - left. by assert (i = 0)%nat as -> by lia.
  - destruct (decide (i = S j)) as [->|Hne]; [by left|]. destruct IH as [HPj|(k & Hk & HPk & HQ)]; [lia| |].
    + destruct (HS j HPj) as [|HQ]; [by left|right]. exists j. split; [lia|done].
    + right. exists k. split; [lia|done].
Qed.

Section Fair.
Context {H : handlers} (dbg : bool) (x : trace H).
Notation st := (x_state x).
Notation lab := (x_label x).
Hypothesis Hrun : forall i, step dbg (st i) (lab i) = Some (st (S i), x_events x i).
Hypothesis Hfair : fair dbg x.
Hypothesis Hread : clients_read x.
Hypothesis Hrem : removes_found x.
Hypothesis Hlock : forall i, locks_ok (st i).
Hypothesis Hrel : forall i, rel_ok (st i).

Lemma mv i : move dbg (st i) (lab i) (st (S i)) (x_events x i).
Proof. apply step_move, Hrun. Qed.

Lemma ensures l (P Q : nat -> Prop) : is_internal l = true ->
  (forall i, P i -> step dbg (st i) l <> None) -> (forall i, P i -> lab i = l -> Q i) ->
  (forall i, P i -> P (S i) \/ Q i) -> forall i, P i -> exists j, (i <= j)%nat /\ P j /\ Q j.
Proof.
  intros Hl He Hd HS i HP. destruct (Hfair l Hl i) as (j & Hij & Hj).
  destruct (walk P Q HS i j Hij HP) as [HPj|(k & Hk & HPk & HQ)].
  - exists j. split; [done|]. split; [done|]. destruct Hj as [Hj|Hj]; [by apply Hd|by destruct (He j HPj)].
  - exists k. split; [lia|done].
Qed.

(** A task that has what it waits for runs. *)
Lemma runs i t p cur n m : y_tasks (st i) !! t = Some (mkTask p cur) -> waits_for p = Some (n, m) ->
  (t, m) ∈ lk_holders (lock_of (st i) n) ->
  exists j, (i <= j)%nat /\ y_tasks (st j) !! t = Some (mkTask p cur) /\ lab j = LRun t.
Proof.
  intros E Hw Hh.
  destruct (ensures (LRun t) (fun j => y_tasks (st j) !! t = Some (mkTask p cur) /\ (t, m) ∈ lk_holders (lock_of (st j) n))
    (fun j => lab j = LRun t) eq_refl) with (i := i) as (j & Hj & [Ej _] & Hl); [| |clear i E Hh|done|by exists j].
  - intros j [Ej Hj]. by eapply run_enabled.
  - done.
  - intros j [Ej Hj]. destruct (decide (actor (lab j) = Some t)) as [Ha|Ha].
    + right. pose proof (mv j) as M. destruct M; cbn in Ha; try discriminate; injection Ha as ->; try done;
        rewrite Ej in *; try done; match goal with A : Some _ = Some _ |- _ => injection A as -> _ end; done.
    + left. split; [by rewrite (move_bystander _ _ _ _ _ _ (mv j) Ha)|]. eapply lchange_holder; [apply (move_lock _ _ _ _ _ n (mv j))|done|done].
Qed.

(** A reply ends, and with it its guards. *)
Lemma write_done i t : writing (st i) t -> exists j, (i <= j)%nat /\ forall n, t ∉ (lk_holders (lock_of (st j) n)).*1.
Proof.
  intros Hw. destruct (Hread i t Hw) as (j & Hij & Hn).
  destruct (walk (fun k => writing (st k) t) (fun k => forall n, t ∉ (lk_holders (lock_of (st (S k)) n)).*1)) with (i := i) (j := j)
    as [|(k & Hk & _ & HQ)]; [clear i j Hw Hij Hn|done|done|done|].
  - intros j Hw. destruct (decide (actor (lab j) = Some t)) as [Ha|Ha].
    2:{ left. unfold writing. by rewrite (move_bystander _ _ _ _ _ _ (mv j) Ha). }
    destruct Hw as (b & cur & E). pose proof (mv j) as M. right.
    assert (Hrl : forall l, t ∉ (lk_holders (lk_release t l)).*1).
    { intros l Hx. apply elem_of_list_fmap in Hx as ([y m] & -> & Hx). cbn in Hx. by apply filter_out in Hx as [_ ?]. }
    destruct M; cbn in Ha; try discriminate; injection Ha as ->; try congruence; intros []; cbn; apply Hrl.
  - exists (S k). split; [lia|done].
Qed.

Definition leaves (n : lockname) : Prop :=
  forall i t m, (t, m) ∈ lk_holders (lock_of (st i) n) -> exists j, (i <= j)%nat /\ t ∉ (lk_holders (lock_of (st j) n)).*1.

Definition grant_label (n : lockname) : label H := match n with Used => LGrantUsed | Available => LGrantAvail end.
Lemma grant_step s n : lk_grant (lock_of s n) <> None -> step dbg s (grant_label n) <> None.
Proof. destruct n; cbn; by destruct (lk_grant _). Qed.
Lemma grant_taken i n : lab i = grant_label n -> lk_grant (lock_of (st i) n) = Some (lock_of (st (S i)) n).
Proof.
  intros E. pose proof (Hrun i) as R. rewrite E in R. destruct n; cbn in *; destruct (lk_grant _); try done; by injection R as <- _.
Qed.

Lemma sublist_lt {A} (l k : list A) y : sublist l k -> y ∈ k -> y ∉ l -> (length l < length k)%nat.
Proof.
  intros Hs Hk Hl. apply sublist_submseteq in Hs. destruct (decide (length k <= length l)%nat) as [Hle|]; [|lia].
  apply submseteq_Permutation_length_le in Hs as Hp; [|done]. by rewrite Hp in Hl.
Qed.

(** If every holder leaves, everybody in the queue is served. *)
Lemma queue_served n : leaves n -> forall p k i q1 t m q2, length q1 = p -> length (lk_holders (lock_of (st i) n)) = k ->
  lk_queue (lock_of (st i) n) = q1 ++ (t, m) :: q2 -> exists j, (i <= j)%nat /\ (t, m) ∈ lk_holders (lock_of (st j) n).
Proof.
  intros HLv p. induction p as [p IHp] using lt_wf_ind. intros k. induction k as [k IHk] using lt_wf_ind.
  intros i q1 t m q2 Hp Hk Hq.
  set (Q := fun j => lk_grant (lock_of (st j) n) = Some (lock_of (st (S j)) n)).
  assert (Hstep : forall j q2, lk_queue (lock_of (st j) n) = q1 ++ (t, m) :: q2 -> Q j ->
    exists j', (j <= j')%nat /\ (t, m) ∈ lk_holders (lock_of (st j') n)).
  { intros j q Ej Hg. apply grant_inv in Hg as (u & mu & q' & Eq & _ & Eh & Eq'). rewrite Ej in Eq.
    destruct q1 as [|y q1]; cbn in Eq.
    - injection Eq as -> -> ->. exists (S j). split; [lia|]. rewrite Eh. left.
    - injection Eq as -> <-. destruct (IHp (length q1)) with (i := S j) (k := length (lk_holders (lock_of (st (S j)) n))) (q1 := q1) (t := t) (m := m) (q2 := q)
        as (j' & Hj' & Hh); [cbn in Hp; lia|done|done|done|]. exists j'. split; [lia|done]. }
  destruct (lk_grant (lock_of (st i) n)) as [l'|] eqn:Eg.
  - (* the lock can be given to the head of the queue *)
    destruct (ensures (grant_label n) (fun j => lk_grant (lock_of (st j) n) <> None /\ exists q2, lk_queue (lock_of (st j) n) = q1 ++ (t, m) :: q2) Q)
      with (i := i) as (j & Hj & [_ [q Ej]] & HQ).
    + by destruct n.
    + intros j [Hg _]. by apply grant_step.
    + intros j _ Hl. by apply grant_taken.
    + intros j [Hg [q Ej]]. destruct (lchange_queue _ _ _ _ _ _ (move_lock _ _ _ _ _ n (mv j)) Ej) as [Hq'|[[q' Eq'] Hs]]; [by right|left].
      split; [|by exists q']. destruct q1 as [|y q1]; cbn in *; by eapply grant_sub.
    + split; [by rewrite Eg|by exists q2].
    + destruct (Hstep j q Ej HQ) as (j' & Hj' & Hh). exists j'. split; [lia|done].
  - (* somebody has to leave *)
    assert (Hne : lk_holders (lock_of (st i) n) <> []).
    { apply grant_none; [done|]. rewrite Hq. by destruct q1. }
    destruct (lk_holders (lock_of (st i) n)) as [|[u mu] hs] eqn:Eh; [done|].
    destruct (HLv i u mu) as (j & Hij & Hu); [rewrite Eh; left|].
    destruct (walk (fun j => (exists q2, lk_queue (lock_of (st j) n) = q1 ++ (t, m) :: q2) /\ sublist (lk_holders (lock_of (st j) n)) ((u, mu) :: hs)) Q)
      with (i := i) (j := j) as [[[q Ej] Hs]|(k' & Hk' & [[q Ek] _] & HQ)].
    + intros j' [[q Ej] Hs]. destruct (lchange_queue _ _ _ _ _ _ (move_lock _ _ _ _ _ n (mv j')) Ej) as [Hq'|[Eq' Hs']]; [by right|left].
      split; [done|]. by etrans.
    + done.
    + split; [by exists q2|]. by rewrite Eh.
    + assert (Hlt : (length (lk_holders (lock_of (st j) n)) < k)%nat).
      { rewrite <- Hk. apply (sublist_lt _ _ (u, mu)); [done|left|]. intros Hx. apply Hu. by apply (elem_of_list_fmap_1 fst) in Hx. }
      destruct (IHk _ Hlt j q1 t m q Hp eq_refl Ej) as (j' & Hj' & Hh). exists j'. split; [lia|done].
    + destruct (Hstep k' q Ek HQ) as (j' & Hj' & Hh). exists j'. split; [lia|done].
Qed.

(** A task that waits runs, sooner or later. *)
Lemma waiter_runs n i t p cur m : leaves n -> y_tasks (st i) !! t = Some (mkTask p cur) -> waits_for p = Some (n, m) ->
  exists j, (i <= j)%nat /\ y_tasks (st j) !! t = Some (mkTask p cur) /\ lab j = LRun t.
Proof.
  intros HLv E Hw. destruct (fp_of (st i) t p cur (Hlock i) E) as [Fu Fa].
  assert (Hc : (t, m) ∈ claims (lock_of (st i) n)).
  { pose proof (Hrem i t) as Hr. destruct p; try discriminate Hw; injection Hw as <- <-; done. }
  unfold claims in Hc. apply elem_of_app in Hc as [Hc|Hc]; [by eapply runs|].
  apply elem_of_list_split in Hc as (q1 & q2 & Hq).
  destruct (queue_served n HLv _ _ i q1 t m q2 eq_refl eq_refl Hq) as (j & Hij & Hh).
  destruct (walk (fun j => y_tasks (st j) !! t = Some (mkTask p cur)) (fun j => lab j = LRun t)) with (i := i) (j := j)
    as [Ej|(k & Hk & Ek & HQ)]; [|done|done| |].
  - intros k Ek. destruct (decide (actor (lab k) = Some t)) as [Ha|Ha].
    + right. pose proof (mv k) as M. destruct M; cbn in Ha; try discriminate; injection Ha as ->; try done;
        rewrite Ek in *; try done; match goal with A : Some _ = Some _ |- _ => injection A as -> _ end; done.
    + left. by rewrite (move_bystander _ _ _ _ _ _ (mv k) Ha).
  - destruct (runs j t p cur n m Ej Hw Hh) as (j' & Hj' & ? & ?). exists j'. split; [lia|done].
  - exists k. split; [lia|done].
Qed.

Lemma gone_release t l : t ∉ (lk_holders (lk_release t l)).*1.
Proof. intros Hx. apply elem_of_list_fmap in Hx as ([y m] & -> & Hx). cbn in Hx. by apply filter_out in Hx as [_ ?]. Qed.
Ltac same_task Ej := rewrite Ej in *; match goal with A : Some _ = Some _ |- _ => injection A as ? ?; subst end.

(** ** The available list *)
Lemma run_avail j t p cur m : y_tasks (st j) !! t = Some (mkTask p cur) -> waits_for p = Some (Available, m) -> lab j = LRun t ->
  writing (st (S j)) t \/ forall n, t ∉ (lk_holders (lock_of (st (S j)) n)).*1.
Proof.
  intros Ej Hw. pose proof (Hrem (S j) t) as Hr. revert Hr. destruct (mv j); intros Hr Hl; try discriminate Hl; injection Hl as ->;
    try (same_task Ej; discriminate Hw);
    try (right; intros []; cbn; apply gone_release);
    try (match goal with A : answered _ _ _ _ _ _ _ _ |- _ => destruct A end;
      [left; eexists _, _; cbn; apply lookup_insert|right; intros []; cbn; apply gone_release]).
  exfalso. eapply Hr. cbn. apply lookup_insert.
Qed.
Lemma avail_leaves : leaves Available.
Proof.
  intros i t m Hh. destruct (holder_task _ _ _ _ (Hlock i) Hh) as (p & cur & E & [Hw|[[b ->]|[[? _]|[_ [id ->]]]]]).
  - destruct (runs _ _ _ _ _ _ E Hw Hh) as (j & Hij & Ej & Hl). destruct (run_avail _ _ _ _ _ Ej Hw Hl) as [Hwr|Hn].
    + destruct (write_done _ _ Hwr) as (k & Hk & Hn). exists k. split; [lia|apply (Hn Available)].
    + exists (S j). split; [lia|apply (Hn Available)].
  - destruct (write_done i t) as (k & Hk & Hn); [by eexists _, _|]. exists k. split; [lia|apply (Hn Available)].
  - done.
  - by destruct (Hrem i t id cur).
Qed.
Lemma waiter_avail i t p cur m : y_tasks (st i) !! t = Some (mkTask p cur) -> waits_for p = Some (Available, m) ->
  exists j, (i <= j)%nat /\ y_tasks (st j) !! t = Some (mkTask p cur) /\ lab j = LRun t.
Proof. apply waiter_runs, avail_leaves. Qed.

(** ** The in-use table *)
Lemma run_used j t p cur m : y_tasks (st j) !! t = Some (mkTask p cur) -> waits_for p = Some (Used, m) -> lab j = LRun t ->
  writing (st (S j)) t \/ t ∉ (lk_holders (y_used (st (S j)))).*1 \/
  exists p' cur' m', y_tasks (st (S j)) !! t = Some (mkTask p' cur') /\ waits_for p' = Some (Available, m').
Proof.
  intros Ej Hw. pose proof (Hrem j t) as Hr. destruct (mv j); intros Hl; try discriminate Hl; injection Hl as ->;
    try (same_task Ej; discriminate Hw);
    try (match goal with A : answered _ _ _ _ _ _ _ _ |- _ => destruct A end;
      [left; eexists _, _; cbn; apply lookup_insert|right; left; cbn; apply gone_release]);
    try (right; left; cbn; apply gone_release);
    right; right; eexists _, _, _; (split; [cbn; apply lookup_insert|reflexivity]).
Qed.
Lemma used_leaves : leaves Used.
Proof.
  assert (HA : forall i t p cur m, y_tasks (st i) !! t = Some (mkTask p cur) -> waits_for p = Some (Available, m) ->
    exists j, (i <= j)%nat /\ t ∉ (lk_holders (y_used (st j))).*1).
  { intros i t p cur m E Hw. destruct (waiter_avail _ _ _ _ _ E Hw) as (j & Hij & Ej & Hl).
    destruct (run_avail _ _ _ _ _ Ej Hw Hl) as [Hwr|Hn].
    - destruct (write_done _ _ Hwr) as (k & Hk & Hn). exists k. split; [lia|apply (Hn Used)].
    - exists (S j). split; [lia|apply (Hn Used)]. }
  intros i t m Hh. destruct (holder_task _ _ _ _ (Hlock i) Hh) as (p & cur & E & [Hw|[[b ->]|[[_ [m' Hw]]|[? _]]]]).
  - destruct (runs _ _ _ _ _ _ E Hw Hh) as (j & Hij & Ej & Hl).
    destruct (run_used _ _ _ _ _ Ej Hw Hl) as [Hwr|[Hn|(p' & cur' & m' & E' & Hw')]].
    + destruct (write_done _ _ Hwr) as (k & Hk & Hn). exists k. split; [lia|apply (Hn Used)].
    + exists (S j). split; [lia|done].
    + destruct (HA _ _ _ _ _ E' Hw') as (k & Hk & Hn). exists k. split; [lia|done].
  - destruct (write_done i t) as (k & Hk & Hn); [by eexists _, _|]. exists k. split; [lia|apply (Hn Used)].
  - by eapply HA.
  - done.
Qed.
Lemma waiter_used i t p cur m : y_tasks (st i) !! t = Some (mkTask p cur) -> waits_for p = Some (Used, m) ->
  exists j, (i <= j)%nat /\ y_tasks (st j) !! t = Some (mkTask p cur) /\ lab j = LRun t.
Proof. apply waiter_runs, used_leaves. Qed.
Lemma start_runs i t n f cur : y_tasks (st i) !! t = Some (mkTask (PImpStart n f) cur) ->
  exists j, (i <= j)%nat /\ y_tasks (st j) !! t = Some (mkTask (PImpStart n f) cur) /\ lab j = LRun t.
Proof.
  intros E. destruct (ensures (LRun t) (fun j => y_tasks (st j) !! t = Some (mkTask (PImpStart n f) cur)) (fun j => lab j = LRun t) eq_refl)
    with (i := i) as (j & Hj & Ej & Hl); [| |clear i E|done|by exists j].
  - intros j Ej. cbn. by rewrite Ej.
  - done.
  - intros j Ej. destruct (decide (actor (lab j) = Some t)) as [Ha|Ha].
    + right. destruct (mv j); cbn in Ha; try discriminate; injection Ha as ->; try done; congruence.
    + left. by rewrite (move_bystander _ _ _ _ _ _ (mv j) Ha).
Qed.

(** ** What each request comes to *)
Definition serves (t : tid) (c : command) (e : event) : Prop := exists r, e = EvServe t c r.
Lemma avail_serves i t p cur c : y_tasks (st i) !! t = Some (mkTask p cur) ->
  (exists n, p = PDevAvailR n /\ c = OpReqDevlist n) \/ (exists n f, p = PImpAvailW n f /\ c = OpReqImport n f) ->
  comes_to x i (serves t c).
Proof.
  intros E Hp. assert (exists m, waits_for p = Some (Available, m)) as [m Hw].
  { destruct Hp as [(n & -> & _)|(n & f & -> & _)]; by eexists. }
  destruct (waiter_avail _ _ _ _ _ E Hw) as (j & Hij & Ej & Hl). revert Hl.
  assert (HE : forall j e, (i <= j)%nat -> e ∈ x_events x j -> serves t c e -> comes_to x i (serves t c)).
  { intros k e Hk He Hs. by exists k, e. }
  specialize (HE j). revert HE.
  destruct (mv j); intros HE Hl; try discriminate Hl; injection Hl as ->;
    same_task Ej; destruct Hp as [(n' & Hp & ->)|(n' & f' & Hp & ->)]; try discriminate Hp; injection Hp; intros; subst;
    match goal with A : answered _ _ _ _ _ _ _ _ |- _ => destruct A; (eapply HE; [done|left|by eexists]) end.
Qed.
Lemma import_serves i t n f cur : y_tasks (st i) !! t = Some (mkTask (PImpStart n f) cur) ->
  comes_to x i (serves t (OpReqImport n f)).
Proof.
  intros E. destruct (start_runs _ _ _ _ _ E) as (j & Hij & Ej & Hl).
  assert (E1 : y_tasks (st (S j)) !! t = Some (mkTask (PImpUsedW n f) cur)).
  { revert Hl. destruct (mv j); intros Hl; try discriminate Hl; injection Hl as ->; try congruence.
    same_task Ej. cbn. apply lookup_insert. }
  destruct (waiter_used _ _ _ _ _ E1 eq_refl) as (k & Hjk & Ek & Hl').
  assert (E2 : y_tasks (st (S k)) !! t = Some (mkTask (PImpAvailW n f) cur)).
  { revert Hl'. destruct (mv k); intros Hl'; try discriminate Hl'; injection Hl' as ->; try congruence.
    same_task Ek. cbn. apply lookup_insert. }
  apply (later x i (S k)); [lia|]. eapply avail_serves; [done|]. right. by eexists _, _.
Qed.
Lemma command_served i t c cur : y_tasks (st i) !! t = Some (mkTask (PUsedR c) cur) -> comes_to x i (serves t c).
Proof.
  intros E. destruct (waiter_used _ _ _ _ _ E eq_refl) as (j & Hij & Ej & Hl).
  assert (HE : forall e, e ∈ x_events x j -> serves t c e -> comes_to x i (serves t c)).
  { intros e He Hs. by exists j, e. }
  assert (HN : forall p cur', y_tasks (st (S j)) !! t = Some (mkTask p cur') ->
    (exists n, p = PDevAvailR n /\ c = OpReqDevlist n) \/ (exists n f, p = PImpStart n f /\ c = OpReqImport n f) ->
    comes_to x i (serves t c)).
  { intros p cur' E' [(n & -> & ->)|(n & f & -> & ->)]; apply (later x i (S j)); try lia.
    - eapply avail_serves; [done|]. left. by eexists.
    - by eapply import_serves. }
  revert HE HN Hl. destruct (mv j); intros HE HN Hl; try discriminate Hl; injection Hl as ->; try congruence; same_task Ej;
    try (match goal with A : answered _ _ _ _ _ _ _ _ |- _ => destruct A end; (eapply HE; [left|by eexists])).
  - eapply HN; [cbn; apply lookup_insert|]. left. by eexists.
  - eapply HN; [cbn; apply lookup_insert|]. right. by eexists _, _.
Qed.
Lemma release_ends i t e cur : y_tasks (st i) !! t = Some (mkTask (PRelUsedW e) cur) ->
  comes_to x i (fun ev => exists r, ev = EvEnd t r).
Proof.
  intros E. destruct (waiter_used _ _ _ _ _ E eq_refl) as (j & Hij & Ej & Hl).
  assert (E2 : y_tasks (st (S j)) !! t = Some (mkTask (PRelAvailW e) cur)).
  { revert Hl. destruct (mv j); intros Hl; try discriminate Hl; injection Hl as ->; try congruence.
    same_task Ej. cbn. apply lookup_insert. }
  destruct (waiter_avail _ _ _ _ _ E2 eq_refl) as (k & Hjk & Ek & Hl').
  assert (HE : forall ev r, ev ∈ x_events x k -> ev = EvEnd t r -> comes_to x i (fun ev => exists r, ev = EvEnd t r)).
  { intros ev r He ->. exists k, (EvEnd t r). split; [lia|]. split; [done|by eexists]. }
  revert HE Hl'. destruct (mv k); intros HE Hl'; try discriminate Hl'; injection Hl' as ->; try congruence; same_task Ek;
    eapply HE; [right; left|reflexivity|left|reflexivity].
Qed.
Lemma add_done i t d cur : y_tasks (st i) !! t = Some (mkTask (PAddAvailW d) cur) -> comes_to x i (fun ev => ev = EvAdd t d).
Proof.
  intros E. destruct (waiter_avail _ _ _ _ _ E eq_refl) as (k & Hjk & Ek & Hl).
  assert (HE : EvAdd t d ∈ x_events x k -> comes_to x i (fun ev => ev = EvAdd t d)).
  { intros He. by exists k, (EvAdd t d). }
  revert HE Hl. destruct (mv k); intros HE Hl; try discriminate Hl; injection Hl as ->; try congruence; same_task Ek.
  apply HE. left.
Qed.
Lemma remove_done i t id cur : y_tasks (st i) !! t = Some (mkTask (PRemAvailW id) cur) ->
  comes_to x i (fun ev => ev = EvRemove t id (IOk tt)).
Proof.
  intros E. destruct (waiter_avail _ _ _ _ _ E eq_refl) as (k & Hjk & Ek & Hl).
  assert (HE : EvRemove t id (IOk tt) ∈ x_events x k -> comes_to x i (fun ev => ev = EvRemove t id (IOk tt))).
  { intros He. by exists k, (EvRemove t id (IOk tt)). }
  pose proof (Hrem (S k) t id) as Hr.
  revert Hr HE Hl. destruct (mv k); intros Hr HE Hl; try discriminate Hl; injection Hl as ->; try congruence; same_task Ek.
  - apply HE. left.
  - exfalso. eapply Hr. cbn. apply lookup_insert.
Qed.
Lemma reply_done i t b cur : y_tasks (st i) !! t = Some (mkTask (PWrite b) cur) ->
  comes_to x i (fun ev => ev = EvSent t b \/ exists e, ev = EvEnd t (EndErr e)).
Proof using Hrun Hread.
  clear Hlock Hrel Hrem Hfair.
  intros E. destruct (Hread i t) as (j & Hij & Hn); [by eexists _, _|].
  destruct (walk (fun k => y_tasks (st k) !! t = Some (mkTask (PWrite b) cur))
    (fun k => exists ev, ev ∈ x_events x k /\ (ev = EvSent t b \/ exists e, ev = EvEnd t (EndErr e)))) with (i := i) (j := j)
    as [Ej|(k & Hk & _ & ev & He & Hev)]; [clear i j E Hij Hn|done|done| |].
  - intros k E. destruct (decide (actor (lab k) = Some t)) as [Ha|Ha].
    2:{ left. by rewrite (move_bystander _ _ _ _ _ _ (mv k) Ha). }
    right. destruct (mv k); cbn in Ha; try discriminate; injection Ha as ->; try congruence; same_task E; eexists; (split; [left|]).
    + by left.
    + right. by eexists.
  - destruct Hn. by eexists _, _.
  - exists k, ev. split; [lia|done].
Qed.
End Fair.
