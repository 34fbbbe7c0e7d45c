(** * Deadlock, progress and stalling *)
From Verif Require Export ConcProofs.

(** A releasing task has something to release, whatever the bus ids. *)
Definition rel_ok {H} (s : sys H) : Prop :=
  forall t p cur, y_tasks s !! t = Some (mkTask p cur) -> releasing p = true -> is_Some cur.
Lemma rel_upd {H} (s s' : sys H) t k : rel_ok s -> y_tasks s' = <[t := k]> (y_tasks s) ->
  (releasing (t_pc k) = true -> is_Some (t_cur k)) -> rel_ok s'.
Proof.
  intros HR Et Hk u p cur. rewrite Et. destruct (decide (u = t)) as [->|Nu].
  - rewrite lookup_insert. intros [= ->]. by apply Hk.
  - rewrite lookup_insert_ne by congruence. apply HR.
Qed.
Lemma rel_move {H} dbg (s : sys H) l s' ev : move dbg s l s' ev -> rel_ok s -> rel_ok s'.
Proof.
  intros M HR.
  destruct M; try (eapply (rel_upd s); [done|reflexivity|done]); try done;
    try match goal with A : answered _ _ _ _ _ _ _ _ |- _ =>
      destruct A; (eapply (rel_upd s); [done|reflexivity|done]) end.
  eapply (rel_upd s); [done|reflexivity|]. intros _. cbn. by eapply (HR t).
Qed.
Lemma rel_run {H} dbg ds (w : world H) ls s evs : run dbg (init_sys ds w) ls = Some (s, evs) -> rel_ok s.
Proof.
  revert ls s evs. apply (run_ind dbg (init_sys ds w) (fun _ s _ => rel_ok s)).
  - intros t p cur. cbn. by rewrite lookup_empty.
  - intros ls s ev l s' ev' Hr IH Hs. by eapply rel_move; [apply step_move|].
Qed.

(** ** Deadlock between remove_device and an import or release *)
Definition holding_used_w (p : pc) : Prop :=
  match p with PImpAvailW _ _ | PRelAvailW _ => True | _ => False end.
Definition dead {H} (s : sys H) (t u : tid) : Prop :=
  exists id p c1 c2, y_tasks s !! t = Some (mkTask (PRemUsedR id) c1) /\
    y_tasks s !! u = Some (mkTask p c2) /\ holding_used_w p.

Lemma dead_locks {H} (s : sys H) t u : locks_ok s -> dead s t u ->
  (u, MWrite) ∈ lk_holders (y_used s) /\ (t, MWrite) ∈ lk_holders (y_avail s) /\ t <> u.
Proof.
  intros HL (id & p & c1 & c2 & Et & Eu & Hp). destruct (fp_of s t _ _ HL Et) as [_ Fa], (fp_of s u _ _ HL Eu) as [Fu _].
  split; [by destruct p|]. split; [done|]. intros ->. rewrite Et in Eu. injection Eu as <- _. done.
Qed.
Lemma dead_move {H} dbg (s : sys H) t u l s' ev : locks_ok s -> dead s t u -> move dbg s l s' ev ->
  y_tasks s' !! t = y_tasks s !! t /\ y_tasks s' !! u = y_tasks s !! u /\ Forall (fun e => ~ effect e) ev.
Proof.
  intros HL HD M. destruct (dead_locks _ _ _ HL HD) as (Hu & Ht & Ntu).
  destruct HD as (id & p & c1 & c2 & Et & Eu & Hp). pose proof HL as (Lu & La & _).
  assert (Na : forall v m, (v, m) ∈ lk_holders (y_avail s) -> v = t) by (intros v m Hv; by eapply (writer_alone _ _ _ _ La)).
  assert (Nu : forall v m, (v, m) ∈ lk_holders (y_used s) -> v = u) by (intros v m Hv; by eapply (writer_alone _ _ _ _ Lu)).
  assert (Hno : forall v, actor l = Some v -> v <> t /\ v <> u).
  { intros v Hv. destruct M; cbn in Hv; try discriminate; injection Hv as ->;
      try (split; intros ->; [rewrite Et in *; discriminate|rewrite Eu in *; simplify_eq; try (by destruct Hp); done]).
    all: match goal with E : lk_holds _ _ _ = true |- _ => apply lk_holds_in in E as Hh end.
    all: split; intros ->; [rewrite Et in *|rewrite Eu in *]; simplify_eq; try (by destruct Hp);
      try (by apply Ntu; symmetry; eapply Na); try (by apply Ntu; eapply Nu). }
  assert (Bt : y_tasks s' !! t = y_tasks s !! t) by (apply (move_bystander _ _ _ _ _ _ M); intros E; by apply Hno in E as [? _]).
  assert (Bu : y_tasks s' !! u = y_tasks s !! u) by (apply (move_bystander _ _ _ _ _ _ M); intros E; by apply Hno in E as [_ ?]).
  split; [done|]. split; [done|].
  destruct M; try (repeat constructor; by intros []); exfalso;
    specialize (Hno _ eq_refl) as [Hno1 Hno2];
    match goal with E : lk_holds _ _ _ = true |- _ => apply lk_holds_in in E as Hh end;
    (by apply Hno1; eapply Na) || (by apply Hno2; eapply Nu).
Qed.
Lemma dead_run {H} dbg (s : sys H) t u ls s' evs : locks_ok s -> dead s t u -> run dbg s ls = Some (s', evs) ->
  y_tasks s' !! t = y_tasks s !! t /\ y_tasks s' !! u = y_tasks s !! u /\ Forall (fun e => ~ effect e) evs.
Proof.
  intros HL HD. revert ls s' evs.
  assert (HE : forall ls s' evs, run dbg s ls = Some (s', evs) -> locks_ok s' /\ 
    (y_tasks s' !! t = y_tasks s !! t /\ y_tasks s' !! u = y_tasks s !! u /\ Forall (fun e => ~ effect e) evs)).
  { match goal with |- forall ls1 s1 e1, _ -> @?Q ls1 s1 e1 => apply (run_ind dbg s Q) end.
    - split; [done|]. auto.
    - intros ls s1 e1 l s2 e2 Hr (HL1 & H1 & H2 & H3) Hs. split; [by eapply locks_step|].
      assert (HD1 : dead s1 t u) by (unfold dead in *; by rewrite H1, H2).
      destruct (dead_move dbg s1 t u l s2 e2 HL1 HD1 (step_move _ _ _ _ _ Hs)) as (J1 & J2 & J3).
      rewrite J1, J2. split; [done|]. split; [done|]. by apply Forall_app. }
  intros ls s' evs E. apply HE in E as [_ E]. exact E.
Qed.

(** ** Termination of internal steps *)
Definition rank (p : pc) : nat :=
  match p with
  | PUsedR _ => 6
  | PImpStart _ _ => 5
  | PImpUsedW _ _ | PRelUsedW _ | PRemAvailW _ => 3
  | PDevAvailR _ | PImpAvailW _ _ | PRelAvailW _ | PAddAvailW _ | PRemUsedR _ => 1
  | _ => 0
  end%nat.
Definition total (m : gmap tid task) : nat := list_sum ((fun kv => rank (t_pc kv.2)) <$> map_to_list m).
Definition work {H} (s : sys H) : nat :=
  (total (y_tasks s) + length (lk_queue (y_used s)) + length (lk_queue (y_avail s)))%nat.

Lemma list_sum_perm l k : Permutation l k -> list_sum l = list_sum k.
Proof. unfold list_sum. induction 1; cbn [fold_right] in *; lia. Qed.
Lemma total_insert m t k : m !! t = None -> total (<[t := k]> m) = (rank (t_pc k) + total m)%nat.
Proof.
  intros E. unfold total. rewrite (list_sum_perm _ _ (fmap_perm _ _ _ (map_to_list_insert m t k E))). done.
Qed.
Lemma total_update m t k k' : m !! t = Some k -> (total (<[t := k']> m) + rank (t_pc k) = total m + rank (t_pc k'))%nat.
Proof.
  intros E. rewrite <- (insert_delete m t k E) at 2. rewrite <- insert_delete_insert.
  rewrite !total_insert by apply lookup_delete. lia.
Qed.
Lemma work_task {H} (s s' : sys H) t k k' : y_tasks s !! t = Some k -> y_tasks s' = <[t := k']> (y_tasks s) ->
  (length (lk_queue (y_used s')) + length (lk_queue (y_avail s')) + rank (t_pc k') + 1 <=
   length (lk_queue (y_used s)) + length (lk_queue (y_avail s)) + rank (t_pc k))%nat ->
  (S (work s') <= work s)%nat.
Proof. intros E Et Hl. unfold work. rewrite Et. pose proof (total_update _ _ _ k' E). lia. Qed.

Lemma internal_step {H} dbg (s : sys H) l s' ev : step dbg s l = Some (s', ev) -> is_internal l = true ->
  (S (work s') <= work s)%nat.
Proof.
  intros E Hi. apply step_move in E. destruct E; try discriminate Hi;
    try (eapply (work_task s); [eassumption|reflexivity|];
         cbn [want_used want_avail set_used set_avail set_task set_server drop_guards y_used y_avail lk_request lk_release lk_queue t_pc rank];
         rewrite ?app_length; cbn [length]; lia);
    try (match goal with A : answered _ _ _ _ _ _ _ _ |- _ => destruct A end;
         (eapply (work_task s); [eassumption|reflexivity|];
         cbn [want_used want_avail set_used set_avail set_task set_server set_world drop_guards y_used y_avail lk_request lk_release lk_queue t_pc rank];
         lia)).
  - unfold lk_grant in *. unfold work. cbn [set_used y_tasks y_used y_avail]. destruct (y_used s) as [hs [|[t m] q]]; [done|].
    cbn [lk_queue lk_holders] in *. destruct (compatible m hs); [|done]. injection H0 as <-. cbn. lia.
  - unfold lk_grant in *. unfold work. cbn [set_avail y_tasks y_used y_avail]. destruct (y_avail s) as [hs [|[t m] q]]; [done|].
    cbn [lk_queue lk_holders] in *. destruct (compatible m hs); [|done]. injection H0 as <-. cbn. lia.
Qed.
Lemma internal_run {H} dbg (s : sys H) ls s' ev : run dbg s ls = Some (s', ev) ->
  Forall (fun l => is_internal l = true) ls -> (length ls + work s' <= work s)%nat.
Proof.
  revert s s' ev. induction ls as [|l ls IH]; intros s s' ev E Hi; cbn in E.
  - injection E as <- <-. cbn. lia.
  - apply Forall_cons in Hi as [Hl Hi]. destruct (step dbg s l) as [[s1 e1]|] eqn:E1; [|done].
    destruct (run dbg s1 ls) as [[s2 e2]|] eqn:E2; [|done]. injection E as <- <-.
    apply internal_step in E1; [|done]. apply IH in E2; [|done]. cbn. lia.
Qed.
(** So from every state some internal schedule leads to a stuck state. *)
Definition internal_labels {H} (s : sys H) : list (label H) :=
  LGrantUsed :: LGrantAvail :: (LRun <$> (map_to_list (y_tasks s)).*1).
Lemma stuck_dec {H} dbg (s : sys H) : stuck dbg s \/ exists l s' ev, is_internal l = true /\ step dbg s l = Some (s', ev).
Proof.
  destruct (list_find (fun l => is_Some (step dbg s l)) (internal_labels s)) as [[i l]|] eqn:E.
  - apply list_find_Some in E as (El & [[s' ev] Es] & _). right. exists l, s', ev. split; [|done].
    apply elem_of_list_lookup_2 in El. unfold internal_labels in El.
    apply elem_of_cons in El as [->|El]; [done|]. apply elem_of_cons in El as [->|El]; [done|].
    by apply elem_of_list_fmap in El as (t & -> & _).
  - left. apply list_find_None in E. intros l Hl. rewrite Forall_forall in E.
    destruct l; try discriminate Hl.
    + apply eq_None_not_Some, E. left.
    + apply eq_None_not_Some, E. right. left.
    + cbn. destruct (y_tasks s !! t) as [k|] eqn:Et; [|done].
      specialize (E (LRun t)). cbn in E. rewrite Et in E. apply eq_None_not_Some, E.
      right. right. apply elem_of_list_fmap_1. apply elem_of_list_fmap. exists (t, k). split; [done|].
      by apply elem_of_map_to_list.
Qed.
Lemma reach_stuck {H} dbg (s : sys H) : exists ls s' ev, run dbg s ls = Some (s', ev) /\
  Forall (fun l => is_internal l = true) ls /\ stuck dbg s'.
Proof.
  remember (work s) as n eqn:En. revert s En. induction n as [n IH] using lt_wf_ind. intros s ->.
  destruct (stuck_dec dbg s) as [Hs|(l & s1 & e1 & Hl & E1)].
  - exists [], s, []. auto.
  - pose proof (internal_step _ _ _ _ _ E1 Hl) as Hw.
    destruct (IH (work s1) ltac:(lia) s1 eq_refl) as (ls & s' & ev & E & Hi & Hs).
    exists (l :: ls), s', (e1 ++ ev). cbn. rewrite E1, E. auto.
Qed.

(** ** Who a stuck task waits for *)
Lemma grant_none l : lk_grant l = None -> lk_queue l <> [] -> lk_holders l <> [].
Proof.
  unfold lk_grant. destruct l as [hs [|[t m] q]]; cbn; [done|]. intros E _ ->. by destruct m.
Qed.
Lemma run_enabled {H} dbg (s : sys H) t p cur n m : rel_ok s -> y_tasks s !! t = Some (mkTask p cur) ->
  waits_for p = Some (n, m) -> (t, m) ∈ lk_holders (lock_of s n) -> step dbg s (LRun t) <> None.
Proof.
  intros HR E Hw Hh. cbn. rewrite E. unfold run_task. cbn [t_pc t_cur].
  apply lk_holds_in in Hh. destruct p; try discriminate Hw; injection Hw as <- <-; cbn in Hh; rewrite Hh; try done.
  - destruct c; try done. destruct (serve_submit _ _ _ _). done.
  - destruct (import_device _ _). done.
  - destruct (HR _ _ _ E eq_refl) as [id ->]. unfold release_device. by destruct (_ !! id).
  - by destruct (remove_available _ _).
Qed.
Lemma waiting_queued {H} dbg (s : sys H) t p cur n m : locks_ok s -> rel_ok s -> stuck dbg s ->
  y_tasks s !! t = Some (mkTask p cur) -> waits_for p = Some (n, m) ->
  exists v m', (v, m') ∈ lk_holders (lock_of s n) /\ (forall q c, y_tasks s !! v = Some (mkTask q c) -> waits_for q <> Some (n, m')).
Proof.
  intros HL HR Hs E Hw. destruct (fp_of s t p cur HL E) as [Fu Fa].
  assert (Hc : (t, m) ∈ claims (lock_of s n)).
  { destruct p; try discriminate Hw; injection Hw as <- <-; done. }
  assert (Hq : lk_queue (lock_of s n) <> []).
  { intros Hq. unfold claims in Hc. rewrite Hq, app_nil_r in Hc.
    apply (run_enabled dbg s t p cur n m HR E Hw Hc). by apply Hs. }
  assert (Hg : lk_grant (lock_of s n) = None).
  { destruct n; cbn; [specialize (Hs LGrantUsed eq_refl)|specialize (Hs LGrantAvail eq_refl)]; cbn in Hs; by destruct (lk_grant _). }
  pose proof (grant_none _ Hg Hq) as Hh. destruct (lk_holders (lock_of s n)) as [|[v m'] hs] eqn:Eh; [done|].
  exists v, m'. split; [left|]. intros q c Eq Hq'.
  apply (run_enabled dbg s v q c n m' HR Eq Hq'); [rewrite Eh; left|]. by apply Hs.
Qed.
Lemma holder_task {H} (s : sys H) v m n : locks_ok s -> (v, m) ∈ lk_holders (lock_of s n) ->
  exists p cur, y_tasks s !! v = Some (mkTask p cur) /\
    (waits_for p = Some (n, m) \/ (exists b, p = PWrite b) \/
     (n = Used /\ exists m', waits_for p = Some (Available, m')) \/ (n = Available /\ exists id, p = PRemUsedR id)).
Proof.
  intros HL Hh. pose proof HL as (Lu & La & Hf). destruct (Hf v) as [Fu Fa]. unfold pc_of in *.
  apply holders_in in Hh as Hc.
  destruct (y_tasks s !! v) as [[p cur]|] eqn:E.
  2:{ exfalso. destruct n; [by eapply fnone_claims in Fu|by eapply fnone_claims in Fa]. }
  exists p, cur. split; [done|]. cbn in Fu, Fa.
  destruct n; destruct p; cbn in Fu, Fa; try (by exfalso; eapply fnone_claims in Fu); try (by exfalso; eapply fnone_claims in Fa);
    try (right; left; by eexists); try (right; right; left; split; [done|]; by eexists);
    try (right; right; right; split; [done|]; by eexists);
    left; cbn; do 2 f_equal; first [eapply (claims_fun _ _ _ _ Lu); done|eapply (claims_fun _ _ _ _ La); done].
Qed.
(** In a stuck state, a waiting task waits for a lock held by a task that is writing to its
    socket -- or there is a remove_device call waiting for the in-use table while some
    connection that has it waits for the available list. *)
Lemma stuck_cause {H} dbg (s : sys H) t : locks_ok s -> rel_ok s -> stuck dbg s -> pending s t ->
  (exists u, writing s u /\ behind s t u) \/
  (exists r id c1 v p c2 m1 m2, y_tasks s !! r = Some (mkTask (PRemUsedR id) c1) /\
     y_tasks s !! v = Some (mkTask p c2) /\ waits_for p = Some (Available, m1) /\ (v, m2) ∈ lk_holders (y_used s)) \/
  (exists r id c1, y_tasks s !! r = Some (mkTask (PRemUsedR id) c1) /\ exists u, writing s u /\ behind s r u).
Proof.
  intros HL HR Hs (p & cur & E & [[n m] Hw]).
  (* first for tasks that wait for the available list *)
  assert (HA : forall t p cur m, y_tasks s !! t = Some (mkTask p cur) -> waits_for p = Some (Available, m) ->
    (exists u, writing s u /\ u ∈ (lk_holders (y_avail s)).*1) \/
    (exists r id c1, y_tasks s !! r = Some (mkTask (PRemUsedR id) c1))).
  { intros t' p' cur' m' E' Hw'. destruct (waiting_queued dbg s t' p' cur' Available m' HL HR Hs E' Hw') as (v & mv & Hv & Hnw).
    destruct (holder_task s v mv Available HL Hv) as (pv & cv & Ev & [Hc|[[b ->]|[[? _]|[_ [id ->]]]]]); [|left|done|right].
    - by destruct (Hnw _ _ Ev).
    - exists v. split; [by exists b, cv|]. by apply (elem_of_list_fmap_1 fst) in Hv.
    - by exists v, id, cv. }
  assert (HW : forall u, writing s u -> u ∈ (lk_holders (y_used s)).*1).
  { intros u (b & c & Eu). by destruct (fp_of s u _ _ HL Eu). }
  assert (HU : forall t p cur m, y_tasks s !! t = Some (mkTask p cur) -> waits_for p = Some (Used, m) ->
    (exists u, writing s u) \/
    (exists r id c1 v p c2 m1 m2, y_tasks s !! r = Some (mkTask (PRemUsedR id) c1) /\
     y_tasks s !! v = Some (mkTask p c2) /\ waits_for p = Some (Available, m1) /\ (v, m2) ∈ lk_holders (y_used s))).
  { intros t' p' cur' m' E' Hw'. destruct (waiting_queued dbg s t' p' cur' Used m' HL HR Hs E' Hw') as (v & mv & Hv & Hnw).
    destruct (holder_task s v mv Used HL Hv) as (pv & cv & Ev & [Hc|[[b ->]|[[_ [ma Ha]]|[? _]]]]).
    - by destruct (Hnw _ _ Ev).
    - left. by exists v, b, cv.
    - destruct (HA _ _ _ _ Ev Ha) as [(u & Hu & _)|(r & id & c1 & Er)]; [left; by exists u|right].
      by exists r, id, c1, v, pv, cv, ma, mv.
    - done. }
  destruct n.
  - destruct (HU _ _ _ _ E Hw) as [(u & Hu)|Hr]; [left|by right; left].
    exists u. split; [done|]. exists p, cur, Used, m. split; [done|]. split; [done|]. by apply HW.
  - destruct (HA _ _ _ _ E Hw) as [(u & Hu & Hh)|(r & id & c1 & Er)].
    + left. exists u. split; [done|]. by exists p, cur, Available, m.
    + right. destruct (HU _ _ _ _ Er eq_refl) as [(u & Hu)|Hr]; [right|by left].
      exists r, id, c1. split; [done|]. exists u. split; [done|]. exists (PRemUsedR id), c1, Used, MRead.
      split; [done|]. split; [done|]. by apply HW.
Qed.

(** ** A client that does not read *)
(** [t] has not been granted the lock and [u], or a writer that waits for [u], is in front of it. *)
Definition kept_out {H} (s : sys H) (t u : tid) : Prop :=
  t ∉ (lk_holders (y_used s)).*1 /\
  ((u, MWrite) ∈ lk_holders (y_used s) \/
   exists q1 v q2, lk_queue (y_used s) = q1 ++ (v, MWrite) :: q2 /\ t ∉ q1.*1).
Definition stall_state {H} (s : sys H) (t u : tid) : Prop :=
  writing s u /\ t <> u /\ t ∉ (lk_holders (y_used s)).*1 /\
  ((u, MWrite) ∈ lk_holders (y_used s) \/
   exists q1 v q2, lk_queue (y_used s) = q1 ++ (v, MWrite) :: q2 /\ t ∉ q1.*1).

Lemma writing_move {H} dbg (s : sys H) l s' ev u : move dbg s l s' ev -> writing s u ->
  match l with LSent t | LSendErr t _ => t <> u | _ => True end -> actor l <> Some u.
Proof.
  intros M (b & c & Eu) Hl Ha. destruct M; cbn in Ha; try discriminate; injection Ha as ->; try done; congruence.
Qed.
(** How the used lock may change in a step. *)
Lemma used_lock_move {H} dbg (s : sys H) l s' ev : move dbg s l s' ev ->
  y_used s' = y_used s \/ lk_grant (y_used s) = Some (y_used s') \/
  exists a, actor l = Some a /\
    ((exists m, y_used s' = lk_request a m (y_used s)) \/ y_used s' = lk_release a (y_used s) \/
     (exists m, y_used s' = lk_request a m (lk_release a (y_used s)))).
Proof.
  intros M. destruct M; try (by left); try (by right; left);
    try (right; right; eexists; split; [reflexivity|]; first [left; eexists; reflexivity | right; left; reflexivity | right; right; eexists; reflexivity]).
  all: match goal with A : answered _ _ _ _ _ _ _ _ |- _ => destruct A; [by left|] end;
    right; right; eexists; (split; [reflexivity|]); right; left; reflexivity.
Qed.
Lemma kept_out_move {H} dbg (s : sys H) l s' ev t u mu : move dbg s l s' ev -> locks_ok s ->
  (u, mu) ∈ lk_holders (y_used s) -> kept_out s t u -> actor l <> Some u ->
  (u, mu) ∈ lk_holders (y_used s') /\ kept_out s' t u.
Proof.
  intros M HL Hu (Hnt & Hc) Hau. pose proof HL as (Lu & _ & _). unfold kept_out.
  destruct (used_lock_move _ _ _ _ _ M) as [-> |[Hg|(a & Ha & Hu')]].
  - by split.
  - unfold lk_grant in Hg. destruct (y_used s) as [hs q] eqn:Eq. cbn [lk_queue lk_holders] in *.
    destruct q as [|[h m] q]; [done|]. destruct (compatible m hs) eqn:Ec; [|done]. injection Hg as <-. cbn [lk_queue lk_holders].
    assert (m = MRead) as ->. { destruct m; [done|]. apply compatible_write in Ec as ->. by apply elem_of_nil in Hu. }
    split; [by right|].
    destruct Hc as [Hc|(q1 & v & q2 & Hq & Hn)].
    + by apply (compatible_read _ Ec) in Hc.
    + destruct q1 as [|x q1]; [done|]. injection Hq as <- ->. cbn in Hn. rewrite not_elem_of_cons in Hn.
      split; [rewrite fmap_cons, not_elem_of_cons; by destruct Hn|]. right. exists q1, v, q2. by destruct Hn.
  - assert (Nau : u <> a) by congruence.
    assert (Hrq : forall m l0, (t ∉ (lk_holders l0).*1 /\ ((u, MWrite) ∈ lk_holders l0 \/
        exists q1 v q2, lk_queue l0 = q1 ++ (v, MWrite) :: q2 /\ t ∉ q1.*1)) ->
        t ∉ (lk_holders (lk_request a m l0)).*1 /\ ((u, MWrite) ∈ lk_holders (lk_request a m l0) \/
        exists q1 v q2, lk_queue (lk_request a m l0) = q1 ++ (v, MWrite) :: q2 /\ t ∉ q1.*1)).
    { intros m l0 [H1 H2]. split; [done|]. destruct H2 as [H2|(q1 & v & q2 & Hq & Hn)]; [by left|right].
      exists q1, v, (q2 ++ [(a, m)]). split; [|done]. cbn. rewrite Hq, <- app_assoc. done. }
    assert (Hrl : t ∉ (lk_holders (lk_release a (y_used s))).*1 /\ ((u, MWrite) ∈ lk_holders (lk_release a (y_used s)) \/
        exists q1 v q2, lk_queue (lk_release a (y_used s)) = q1 ++ (v, MWrite) :: q2 /\ t ∉ q1.*1)).
    { split.
      - intros Hx. apply Hnt. apply elem_of_list_fmap in Hx as ([x m] & -> & Hx). cbn in Hx.
        apply filter_out in Hx as [Hx _]. by apply (elem_of_list_fmap_1 fst) in Hx.
      - destruct Hc as [Hc|Hc]; [left|by right]. cbn. by rewrite filter_out. }
    destruct Hu' as [[m ->]|[->|[m ->]]].
    + split; [done|]. by apply Hrq.
    + split; [cbn; by rewrite filter_out|done].
    + split; [cbn; by rewrite filter_out|]. by apply Hrq.
Qed.
Lemma stall_move {H} dbg (s : sys H) l s' ev t u : move dbg s l s' ev -> locks_ok s -> stall_state s t u ->
  match l with LSent t | LSendErr t _ => t <> u | _ => True end -> stall_state s' t u.
Proof.
  intros M HL (Hw & Ntu & Hb) Hl. pose proof (writing_move _ _ _ _ _ _ M Hw Hl) as Hau.
  assert (Hw' : writing s' u) by (unfold writing; by rewrite (move_bystander _ _ _ _ _ _ M Hau)).
  assert (Hu : exists m, (u, m) ∈ lk_holders (y_used s)).
  { destruct Hw as (b & c & Eu). destruct (fp_of s u _ _ HL Eu) as [Fu _]. cbn in Fu.
    apply elem_of_list_fmap in Fu as ([x m] & -> & Fu). by exists m. }
  destruct Hu as [m Hu]. split; [done|]. split; [done|]. by eapply (kept_out_move _ _ _ _ _ _ _ _ M).
Qed.
Lemma serve_holds {H} dbg (s : sys H) l s' ev t c r : move dbg s l s' ev -> locks_ok s ->
  EvServe t c r ∈ ev -> t ∈ (lk_holders (y_used s)).*1.
Proof.
  intros M HL E.
  assert (Hx : forall p cur m, y_tasks s !! t = Some (mkTask p cur) -> used_fp (Some p) = FHas m -> t ∈ (lk_holders (y_used s)).*1).
  { intros p cur m Et Hp. destruct (fp_of s t p cur HL Et) as [Fu _]. rewrite Hp in Fu. by apply (elem_of_list_fmap_1 fst) in Fu. }
  destruct M; try (by ev_in E);
    match goal with A : answered _ _ _ _ _ _ _ _ |- _ => destruct A; ev_in E; injection E as <- _ _ end;
    match goal with E : lk_holds _ _ _ = true |- _ => apply lk_holds_in in E as Hh end;
    first [by apply (elem_of_list_fmap_1 fst) in Hh | by eapply Hx].
Qed.
Lemma stall_run {H} dbg (s : sys H) ls s' evs t u : locks_ok s -> stall_state s t u ->
  run dbg s ls = Some (s', evs) -> stalled u ls -> forall c r, EvServe t c r ∉ evs.
Proof.
  revert s evs. induction ls as [|l ls IH]; intros s evs HL HS E Hst c r; cbn in E.
  - injection E as <- <-. apply not_elem_of_nil.
  - apply Forall_cons in Hst as [Hl Hst]. destruct (step dbg s l) as [[s1 e1]|] eqn:E1; [|done].
    destruct (run dbg s1 ls) as [[s2 e2]|] eqn:E2; [|done]. injection E as <- <-.
    pose proof (step_move _ _ _ _ _ E1) as M. rewrite elem_of_app. intros [He|He].
    + pose proof (serve_holds _ _ _ _ _ _ _ _ M HL He) as Hh. by destruct HS as (_ & _ & ? & _).
    + by eapply (IH s1 e2 (locks_step _ _ _ _ _ E1 HL) (stall_move _ _ _ _ _ _ _ M HL HS Hl) E2 Hst).
Qed.
(** The same while [u] makes no step of its own, wherever it is, as long as it holds the lock. *)
Lemma kept_out_run {H} dbg (s : sys H) ls s' evs t u mu : locks_ok s -> (u, mu) ∈ lk_holders (y_used s) -> kept_out s t u ->
  run dbg s ls = Some (s', evs) -> Forall (fun l => actor l <> Some u) ls -> forall c r, EvServe t c r ∉ evs.
Proof.
  revert s evs. induction ls as [|l ls IH]; intros s evs HL Hu HS E Hst c r; cbn in E.
  - injection E as <- <-. apply not_elem_of_nil.
  - apply Forall_cons in Hst as [Hl Hst]. destruct (step dbg s l) as [[s1 e1]|] eqn:E1; [|done].
    destruct (run dbg s1 ls) as [[s2 e2]|] eqn:E2; [|done]. injection E as <- <-.
    pose proof (step_move _ _ _ _ _ E1) as M. rewrite elem_of_app. intros [He|He].
    + pose proof (serve_holds _ _ _ _ _ _ _ _ M HL He) as Hh. by destruct HS as (? & _).
    + destruct (kept_out_move _ _ _ _ _ _ _ _ M HL Hu HS Hl) as [Hu' HS'].
      by eapply (IH s1 e2 (locks_step _ _ _ _ _ E1 HL) Hu' HS' E2 Hst).
Qed.
