(** * Nobody starves (C74) *)
From Verif Require Import Examples FairProofs PropsSys.

(** ** C74 *)
Lemma unending_ok {H} dbg ds (w : world H) x : unending dbg (init_sys ds w) x ->
  forall i, locks_ok (x_state x i) /\ rel_ok (x_state x i).
Proof.
  intros [H0 HS] i. induction i as [|i [IL IR]].
  - rewrite H0. split; [apply locks_init|]. by eapply (rel_run dbg ds w []).
  - split; [by eapply locks_step|]. by eapply rel_move; [apply step_move|].
Qed.
(** In every infinite execution with a fair scheduler, with clients that read their replies and
    no remove_device call that finds nothing, every command received is served, every connection
    whose client is gone ends, every add_device and remove_device call takes effect. *)
Theorem C74_no_starvation : forall H dbg ds (w : world H) x,
  unending dbg (init_sys ds w) x -> fair dbg x -> clients_read x -> removes_found x -> forall i t,
  (forall c, x_label x i = LRecv t c -> comes_to x i (fun e => exists r, e = EvServe t c r)) /\
  (forall err, x_label x i = LReadErr t err -> comes_to x i (fun e => exists r, e = EvEnd t r)) /\
  (forall d, x_label x i = LAdd t d -> comes_to x i (fun e => e = EvAdd t d)) /\
  (forall id, x_label x i = LRemove t id -> comes_to x i (fun e => e = EvRemove t id (IOk tt))).
Proof.
  intros H dbg ds w x HU HF HR HM i t. pose proof (unending_ok _ _ _ _ HU) as HI. destruct HU as [_ HS].
  assert (HL : forall i, locks_ok (x_state x i)) by (intros k; apply HI).
  assert (HE : forall i, rel_ok (x_state x i)) by (intros k; apply HI).
  assert (M : move dbg (x_state x i) (x_label x i) (x_state x (S i)) (x_events x i)) by apply step_move, HS. split_and!.
  - intros c El. assert (exists cur, y_tasks (x_state x (S i)) !! t = Some (mkTask (PUsedR c) cur)) as [cur E].
    { revert El. destruct M; intros [=]; subst. eexists. cbn. apply lookup_insert. }
    apply (later x i (S i)); [lia|]. by eapply (command_served dbg x).
  - intros e El. assert (EvEnd t (read_end e) ∈ x_events x i \/ exists cur, y_tasks (x_state x (S i)) !! t = Some (mkTask (PRelUsedW e) cur)) as [Ev|[cur E]].
    { revert El. destruct M; intros [=]; subst; [left; left|right]. eexists. cbn. apply lookup_insert. }
    + exists i, (EvEnd t (read_end e)). split; [done|]. split; [done|by eexists].
    + apply (later x i (S i)); [lia|]. by eapply (release_ends dbg x).
  - intros d El. assert (exists cur, y_tasks (x_state x (S i)) !! t = Some (mkTask (PAddAvailW d) cur)) as [cur E].
    { revert El. destruct M; intros [=]; subst. eexists. cbn. apply lookup_insert. }
    apply (later x i (S i)); [lia|]. by eapply (add_done dbg x).
  - intros id El. assert (exists cur, y_tasks (x_state x (S i)) !! t = Some (mkTask (PRemAvailW id) cur)) as [cur E].
    { revert El. destruct M; intros [=]; subst. eexists. cbn. apply lookup_insert. }
    apply (later x i (S i)); [lia|]. by eapply (remove_done dbg x).
Qed.
Print Assumptions C74_no_starvation.
(** Every command served leads to a complete reply or to the end of the connection. *)
Theorem C74_replies : forall H dbg ds (w : world H) x,
  unending dbg (init_sys ds w) x -> clients_read x -> forall i t c r, EvServe t c r ∈ x_events x i ->
  comes_to x i (fun e => (exists b, e = EvSent t b) \/ exists r, e = EvEnd t r).
Proof.
  intros H dbg ds w x [_ HS] HR i t c r He.
  assert (M : move dbg (x_state x i) (x_label x i) (x_state x (S i)) (x_events x i)) by apply step_move, HS.
  assert ((exists r, EvEnd t r ∈ x_events x i) \/ exists b cur, y_tasks (x_state x (S i)) !! t = Some (mkTask (PWrite b) cur))
    as [[r' Ev]|(b & cur & E)].
  { revert He. destruct M; intros He; try (by ev_in He);
      match goal with A : answered _ _ _ _ _ _ _ _ |- _ => destruct A; ev_in He; injection He as <- _ _ end;
      first [right; eexists _, _; cbn; apply lookup_insert | left; eexists; right; left]. }
  - exists i, (EvEnd t r'). split; [done|]. split; [done|]. right. by eexists.
  - destruct (reply_done dbg x HS HR (S i) t b cur E) as (j & e & Hj & Hin & Hev). exists j, e. split; [lia|]. split; [done|].
    destruct Hev as [->|[e' ->]]; [left|right]; by eexists.
Qed.
Print Assumptions C74_replies.

(** *** Building infinite executions for the examples *)
Section Follow.
Context {H : handlers} (dbg : bool) (s0 : sys H) (lab : nat -> label H).
Fixpoint st_of (i : nat) : sys H :=
  match i with
  | O => s0
  | S i' => match step dbg (st_of i') (lab i') with Some (s, _) => s | None => st_of i' end
  end.
Definition follow : trace H :=
  mkTrace st_of lab (fun i => match step dbg (st_of i) (lab i) with Some (_, e) => e | None => [] end).
Lemma follow_unending : (forall i, step dbg (st_of i) (lab i) <> None) -> unending dbg s0 follow.
Proof.
  intros Hs. split; [done|]. intros i. cbn. specialize (Hs i). by destruct (step dbg (st_of i) (lab i)) as [[s e]|].
Qed.
Fixpoint run_all (P : sys H -> bool) (s : sys H) (ls : list (label H)) : bool :=
  P s && match ls with
         | [] => true
         | l :: ls' => match step dbg s l with Some (s1, _) => run_all P s1 ls' | None => false end
         end.
Lemma follow_all P i ls : (forall k, (k < length ls)%nat -> ls !! k = Some (lab (i + k)%nat)) ->
  run_all P (st_of i) ls = true -> forall k, (k <= length ls)%nat -> P (st_of (i + k)) = true.
Proof.
  revert i. induction ls as [|l ls IH]; intros i Hl Hr k Hk; cbn in Hr; apply andb_true_iff in Hr as [Hp Hr].
  - assert (k = 0)%nat as -> by (cbn in Hk; lia). by rewrite Nat.add_0_r.
  - destruct k as [|k]; [by rewrite Nat.add_0_r|].
    pose proof (Hl 0%nat ltac:(cbn; lia)) as Hl0. cbn in Hl0. rewrite Nat.add_0_r in Hl0. injection Hl0 as ->.
    destruct (step dbg (st_of i) (lab i)) as [[s1 e1]|] eqn:E1; [|done].
    assert (Es : st_of (S i) = s1) by (cbn; by rewrite E1). rewrite <- Es in Hr. rewrite <- Nat.add_succ_comm.
    apply IH; [|done|cbn in Hk; lia]. intros k' Hk'. rewrite Nat.add_succ_comm. apply (Hl (S k')). cbn. lia.
Qed.
(** The next [length ls] labels are those of [ls]. *)
Lemma follow_run i ls : (forall k, (k < length ls)%nat -> ls !! k = Some (lab (i + k)%nat)) ->
  forall s e, run dbg (st_of i) ls = Some (s, e) ->
  st_of (i + length ls) = s /\ (forall k, (k < length ls)%nat -> step dbg (st_of (i + k)%nat) (lab (i + k)%nat) <> None) /\
  (forall k ev, (k < length ls)%nat -> ev ∈ x_events follow (i + k)%nat -> ev ∈ e).
Proof.
  revert i. induction ls as [|l ls IH]; intros i Hl s e E; cbn in E.
  - injection E as <- <-. cbn. rewrite Nat.add_0_r. split; [done|]. split; intros; lia.
  - pose proof (Hl 0%nat ltac:(cbn; lia)) as Hl0. cbn in Hl0. rewrite Nat.add_0_r in Hl0. injection Hl0 as ->.
    destruct (step dbg (st_of i) (lab i)) as [[s1 e1]|] eqn:E1; [|done].
    destruct (run dbg s1 ls) as [[s2 e2]|] eqn:E2; [|done]. injection E as <- <-.
    assert (Es : st_of (S i) = s1) by (cbn; by rewrite E1). rewrite <- Es in E2.
    destruct (IH (S i)) with (s := s2) (e := e2) as (I1 & I2 & I3); [|done|].
    { intros k Hk. rewrite Nat.add_succ_comm. apply (Hl (S k)). cbn. lia. }
    cbn [length]. rewrite <- Nat.add_succ_comm. split; [done|]. split.
    + intros [|k] Hk; [by rewrite Nat.add_0_r, E1|]. rewrite <- Nat.add_succ_comm. apply I2. lia.
    + intros [|k] ev Hk Hin.
      * rewrite Nat.add_0_r in Hin. cbn in Hin. rewrite E1 in Hin. apply elem_of_app. by left.
      * rewrite <- Nat.add_succ_comm in Hin. apply elem_of_app. right. apply (I3 k ev); [lia|done].
Qed.
End Follow.
(** A schedule after which nothing can move, then clients connect and stay silent, for ever. *)
Definition then_idle {H} (ls : list (label H)) (i : nat) : label H :=
  match ls !! i with Some l => l | None => LConnect (1000 + N.of_nat i) end.
Definition low {H} (s : sys H) : Prop := forall t, 1000 <= t -> y_tasks s !! t = None.
Lemma stuck_connect {H} dbg (s : sys H) t : y_tasks s !! t = None -> stuck dbg s ->
  stuck dbg (set_task s t (mkTask PRead None)).
Proof.
  intros Ht Hs l Hl. specialize (Hs l Hl). destruct l as [| | | | | | | | | | |u]; try discriminate Hl; cbn in *.
  - by destruct (lk_grant _).
  - by destruct (lk_grant _).
  - destruct (decide (u = t)) as [->|Hu]; [by rewrite lookup_insert|]. rewrite lookup_insert_ne by congruence.
    destruct (y_tasks s !! u) as [k|]; [|done]. destruct k as [p cur]. unfold run_task in *. cbn [t_pc t_cur] in *.
    destruct p; try done; cbn in *; destruct (lk_holds _ _ _); try done;
      repeat match goal with
      | H : context [match ?c with _ => _ end] |- _ => destruct c; try discriminate H
      end; done.
Qed.
Lemma then_idle_ok {H} dbg (s0 : sys H) ls s e : run dbg s0 ls = Some (s, e) -> stuck dbg s -> low s ->
  let x := follow dbg s0 (then_idle ls) in
  unending dbg s0 x /\ fair dbg x /\ (forall i ev, ev ∈ x_events x i -> ev ∈ e) /\
  forall k t, y_tasks (x_state x (length ls + k)%nat) !! t = y_tasks s !! t \/
              y_tasks (x_state x (length ls + k)%nat) !! t = Some (mkTask PRead None).
Proof.
  intros E Hs Hlow x.
  destruct (follow_run dbg s0 (then_idle ls) 0 ls) with (s := s) (e := e) as (E1 & E2 & E3); [|done|].
  { intros k Hk. cbn. unfold then_idle. destruct (ls !! k) eqn:El; [done|]. apply lookup_ge_None in El. lia. }
  cbn [Nat.add] in *.
  assert (HK : forall k, let i := (length ls + k)%nat in
    stuck dbg (st_of dbg s0 (then_idle ls) i) /\
    (forall t, 1000 + N.of_nat i <= t -> y_tasks (st_of dbg s0 (then_idle ls) i) !! t = None) /\
    (forall t, y_tasks (st_of dbg s0 (then_idle ls) i) !! t = y_tasks s !! t \/
               y_tasks (st_of dbg s0 (then_idle ls) i) !! t = Some (mkTask PRead None))).
  { induction k as [|k (I1 & I2 & I3)].
    - cbn. rewrite Nat.add_0_r, E1. split; [done|]. split; [|by left]. intros t Ht. apply Hlow. lia.
    - rewrite Nat.add_succ_r. set (i := (length ls + k)%nat) in *. cbn [st_of].
      assert (El : then_idle ls i = LConnect (1000 + N.of_nat i)) by (unfold then_idle; by rewrite lookup_ge_None_2 by (unfold i; lia)).
      rewrite El. cbn [step]. rewrite (I2 (1000 + N.of_nat i)) by lia. split; [by apply stuck_connect; [apply I2; lia|]|]. split.
      + intros t Ht. cbn. rewrite lookup_insert_ne by lia. apply I2. lia.
      + intros t. cbn. destruct (decide (t = 1000 + N.of_nat i)) as [->|Ht]; [right; by rewrite lookup_insert|].
        rewrite lookup_insert_ne by congruence. apply I3. }
  assert (Hlab : forall k, then_idle ls (length ls + k) = LConnect (1000 + N.of_nat (length ls + k))).
  { intros k. unfold then_idle. by rewrite lookup_ge_None_2 by lia. }
  split; [apply follow_unending|split; [|split]].
  - intros i. destruct (decide (i < length ls)%nat); [by apply E2|].
    assert (i = length ls + (i - length ls))%nat as -> by lia. rewrite Hlab. cbn [step].
    destruct (HK (i - length ls)%nat) as (_ & I2 & _). by rewrite I2 by lia.
  - intros l Hl i. exists (length ls + i)%nat. split; [lia|]. right. by apply (HK i).
  - intros i ev Hin. destruct (decide (i < length ls)%nat); [by apply (E3 i)|]. exfalso. cbn in Hin.
    assert (Ei : i = (length ls + (i - length ls))%nat) by lia. rewrite Ei, Hlab in Hin. cbn [step] in Hin.
    destruct (HK (i - length ls)%nat) as (_ & I2 & _). rewrite I2 in Hin by lia. by apply elem_of_nil in Hin.
  - intros k t. apply (HK k).
Qed.
(** A schedule, then another one that leads back to where it started, over and over. *)
Definition then_loop {H} (ls cyc : list (label H)) (i : nat) : label H :=
  match ls !! i with
  | Some l => l
  | None => default LGrantUsed (cyc !! ((i - length ls) mod length cyc)%nat)
  end.
Lemma then_loop_ok {H} dbg (s0 : sys H) ls cyc s e e' P : run dbg s0 ls = Some (s, e) -> run dbg s cyc = Some (s, e') ->
  cyc <> [] -> run_all dbg P s0 ls = true -> run_all dbg P s cyc = true -> let x := follow dbg s0 (then_loop ls cyc) in
  unending dbg s0 x /\ (forall i, exists j, (i <= j)%nat /\ x_state x j = s) /\ forall i, P (x_state x i) = true.
Proof.
  intros E E' Hc P1 P2 x.
  assert (Hls : forall k, (k < length ls)%nat -> ls !! k = Some (then_loop ls cyc k)).
  { intros k Hk. unfold then_loop. destruct (ls !! k) eqn:El; [done|]. apply lookup_ge_None in El. lia. }
  destruct (follow_run dbg s0 (then_loop ls cyc) 0 ls Hls) with (s := s) (e := e) as (E1 & E2 & _); [done|].
  cbn [Nat.add] in *.
  assert (Hlen : (0 < length cyc)%nat) by (destruct cyc; cbn; [done|lia]).
  assert (Hlab : forall n k, (k < length cyc)%nat -> cyc !! k = Some (then_loop ls cyc (length ls + n * length cyc + k))).
  { intros n k Hk. unfold then_loop. rewrite (lookup_ge_None_2 ls) by nia.
    replace (length ls + n * length cyc + k - length ls)%nat with (k + n * length cyc)%nat by nia.
    rewrite Nat.mod_add, Nat.mod_small by lia. destruct (cyc !! k) eqn:Ek; [done|]. apply lookup_ge_None in Ek. lia. }
  assert (HK : forall n, st_of dbg s0 (then_loop ls cyc) (length ls + n * length cyc) = s).
  { induction n as [|n IH]; [cbn; by rewrite Nat.add_0_r|].
    destruct (follow_run dbg s0 (then_loop ls cyc) (length ls + n * length cyc) cyc) with (s := s) (e := e') as (C1 & _).
    - intros k Hk. by apply Hlab.
    - by rewrite IH.
    - etrans; [|exact C1]. f_equal. cbn [Nat.mul]. lia. }
  assert (Hi : forall i, (length ls <= i)%nat -> exists n k, i = (length ls + n * length cyc + k)%nat /\ (k < length cyc)%nat).
  { intros i Hi. exists ((i - length ls) / length cyc)%nat, ((i - length ls) mod length cyc)%nat.
    split; [|apply Nat.mod_upper_bound; lia]. pose proof (Nat.div_mod (i - length ls) (length cyc) ltac:(lia)) as Hdm.
    rewrite Nat.mul_comm in Hdm. lia. }
  split; [apply follow_unending|split].
  - intros i. destruct (decide (i < length ls)%nat) as [|Hnl]; [by apply E2|].
    destruct (Hi i) as (n & k & -> & Hk); [lia|].
    destruct (follow_run dbg s0 (then_loop ls cyc) (length ls + n * length cyc) cyc) with (s := s) (e := e') as (_ & C2 & _).
    + intros k' Hk'. by apply Hlab.
    + by rewrite HK.
    + by apply C2.
  - intros i. exists (length ls + i * length cyc)%nat. split; [nia|]. apply HK.
  - intros i. destruct (decide (i < length ls)%nat) as [|Hnl].
    + apply (follow_all dbg s0 (then_loop ls cyc) P 0 ls); [done|done|lia].
    + destruct (Hi i) as (n & k & -> & Hk); [lia|].
      apply (follow_all dbg s0 (then_loop ls cyc) P (length ls + n * length cyc) cyc); [|by rewrite HK|lia].
      intros k' Hk'. by apply Hlab.
Qed.
Definition stuck_b {H} (dbg : bool) (s : sys H) : bool :=
  forallb (fun l => match step dbg s l with None => true | Some _ => false end) (internal_labels s).
Lemma stuck_b_spec {H} dbg (s : sys H) : stuck_b dbg s = true -> stuck dbg s.
Proof.
  intros Hb. destruct (stuck_dec dbg s) as [Hs|(l & s' & ev & Hl & E)]; [done|]. exfalso.
  assert (Hin : l ∈ internal_labels s).
  { unfold internal_labels. destruct l; try discriminate Hl; [left|right; left|do 2 right]. cbn in E.
    destruct (y_tasks s !! t) as [k|] eqn:Ek; [|done]. apply elem_of_list_fmap_1. apply elem_of_list_fmap. exists (t, k).
    split; [done|]. by apply elem_of_map_to_list. }
  apply elem_of_list_In in Hin. pose proof (proj1 (forallb_forall _ _) Hb l Hin) as Hx. cbn in Hx. by rewrite E in Hx.
Qed.
Definition tasks_b {H} (P : tid -> pc -> bool) (s : sys H) : bool :=
  forallb (fun kv => P kv.1 (t_pc kv.2)) (map_to_list (y_tasks s)).
Lemma tasks_b_spec {H} P (s : sys H) : tasks_b P s = true -> forall t p cur, y_tasks s !! t = Some (mkTask p cur) -> P t p = true.
Proof.
  intros Hb t p cur Et. apply elem_of_map_to_list, elem_of_list_In in Et. by pose proof (proj1 (forallb_forall _ _) Hb _ Et).
Qed.
Definition low_b {H} (s : sys H) : bool := tasks_b (fun t _ => t <? 1000) s.
Lemma low_b_spec {H} (s : sys H) : low_b s = true -> low s.
Proof.
  intros Hb t Ht. destruct (y_tasks s !! t) as [[p cur]|] eqn:Et; [|done].
  pose proof (tasks_b_spec _ _ Hb _ _ _ Et) as Hx. cbn in Hx. lia.
Qed.
Definition found_b {H} (s : sys H) : bool := tasks_b (fun _ p => match p with PRemUsedR _ => false | _ => true end) s.

Definition same {H} (s s' : sys H) : Prop :=
  y_server s = y_server s' /\ y_world s = y_world s' /\ y_used s = y_used s' /\ y_avail s = y_avail s' /\
  map_to_list (y_tasks s) = map_to_list (y_tasks s').
Lemma same_eq {H} (s s' : sys H) : same s s' -> s = s'.
Proof.
  destruct s, s'. unfold same. cbn. intros (-> & -> & -> & -> & E). f_equal. apply map_to_list_inj. by rewrite E.
Qed.

(** Neither condition can be dropped.  A remove_device call that does not find its device may stop
    the server for ever (the deadlock of C34), although everybody reads: *)
Theorem C74_failed_remove_starves : forall dbg, exists x, unending dbg sys0 x /\ fair dbg x /\ clients_read x /\
  exists i c, x_label x i = LRecv 1 c /\ ~ comes_to x 0 (fun e => exists r, e = EvServe 1 c r).
Proof.
  intros dbg.
  destruct (after_run (run dbg sys0 deadlock_imp) (fun s e => e = [] /\ stuck_b dbg s = true /\ low_b s = true /\ nobody_writes s = true))
    as (s & e & E & -> & Hs & Hl & Hw); [destruct dbg; vm_compute; auto|].
  destruct (then_idle_ok dbg sys0 deadlock_imp s [] E (stuck_b_spec _ _ Hs) (low_b_spec _ Hl)) as (HU & HF & HE & HT).
  eexists. split; [exact HU|]. split; [exact HF|]. split.
  - intros i t _. exists (length deadlock_imp + i)%nat. split; [lia|]. intros (b & cur & Ht).
    destruct (HT i t) as [Hx|Hx]; rewrite Hx in Ht; [|done]. by eapply (nobody_writes_spec _ Hw); eexists _, _.
  - exists 1%nat, (OpReqImport 0 (field_of id_a)). split; [done|]. intros (j & ev & _ & Hin & _). apply HE in Hin. by apply elem_of_nil in Hin.
Qed.
Print Assumptions C74_failed_remove_starves.
(** A client that does not read its device list keeps everybody else waiting (C36): *)
Theorem C74_slow_client_starves : forall dbg, exists x, unending dbg sys0 x /\ fair dbg x /\ removes_found x /\
  exists i c, x_label x i = LRecv 2 c /\ ~ comes_to x 0 (fun e => exists r, e = EvServe 2 c r).
Proof.
  intros dbg.
  destruct (after_run (run dbg sys0 slow) (fun s e => only 1 e = true /\ stuck_b dbg s = true /\ low_b s = true /\
    run_all dbg found_b sys0 slow = true)) as (s & e & E & Ho & Hs & Hl & Hf); [destruct dbg; vm_compute; auto|].
  destruct (then_idle_ok dbg sys0 slow s e E (stuck_b_spec _ _ Hs) (low_b_spec _ Hl)) as (HU & HF & HE & HT).
  assert (Hls : forall k, (k < length slow)%nat -> slow !! k = Some (then_idle slow (0 + k))).
  { intros k Hk. cbn [Nat.add]. unfold then_idle. destruct (slow !! k) eqn:El; [done|]. apply lookup_ge_None in El. lia. }
  pose proof (follow_all dbg sys0 (then_idle slow) found_b 0 slow Hls Hf) as HA. cbn [Nat.add] in HA.
  eexists. split; [exact HU|]. split; [exact HF|]. split.
  - intros i t id cur Ht. destruct (decide (i <= length slow)%nat) as [Hi|Hi].
    + pose proof (tasks_b_spec _ _ (HA i Hi) _ _ _ Ht) as Hx. done.
    + replace i with (length slow + (i - length slow))%nat in Ht by lia.
      destruct (HT (i - length slow)%nat t) as [Hx|Hx]; rewrite Hx in Ht; [|done].
      pose proof (HA (length slow) (Nat.le_refl _)) as Hb.
      destruct (follow_run dbg sys0 (then_idle slow) 0 slow Hls s e E) as (Es & _). cbn [Nat.add] in Es. rewrite Es in Hb.
      pose proof (tasks_b_spec _ _ Hb _ _ _ Ht) as Hy. done.
  - exists 7%nat, (OpReqImport 0 (field_of id_a)). split; [done|]. intros (j & ev & _ & Hin & r & ->). apply HE in Hin.
    apply elem_of_list_In in Hin. pose proof (proj1 (forallb_forall _ _) Ho _ Hin) as Hx. done.
Qed.
Print Assumptions C74_slow_client_starves.

(** An execution that meets all conditions: connection 1 imports a device; the application removes
    the other one and adds it again; then, for ever, connection 2 asks for the list of devices
    while connection 1 asks for its device's descriptor. *)
Definition ex_get_desc : submit := submit_cmd 1 0 18 [128; 6; 0; 1; 0; 0; 18; 0] [].
Definition busy_start : list (label ex_h) :=
  [LConnect 1; LConnect 2] ++ do_import 1 id_a ++ [LSent 1] ++ rem_one 5 id_b ++ add_one 6 dev_b.
Definition busy_round : list (label ex_h) :=
  [LRecv 2 (OpReqDevlist 0); LRecv 1 (CmdSubmit ex_get_desc); LGrantUsed; LRun 2; LGrantUsed; LGrantAvail; LRun 2; LRun 1;
   LSent 2; LSent 1].
Example C74_example : forall dbg, let x := follow dbg sys0 (then_loop busy_start busy_round) in
  unending dbg sys0 x /\ fair dbg x /\ clients_read x /\ removes_found x.
Proof.
  intros dbg x.
  destruct (after_run (run dbg sys0 busy_start) (fun s e => stuck_b dbg s = true /\ nobody_writes s = true /\
    run_all dbg found_b sys0 busy_start = true /\ run_all dbg found_b s busy_round = true /\
    after (run dbg s busy_round) (fun s' _ => same s' s)))
    as (s & e & E & Hs & Hw & Hf & Hf' & Hc); [destruct dbg; vm_compute; split_and!; reflexivity|].
  apply after_run in Hc as (s' & e' & E' & ->%same_eq).
  destruct (then_loop_ok dbg sys0 busy_start busy_round s e e' found_b E E' ltac:(done) Hf Hf') as (HU & HS & HF).
  split; [exact HU|]. split; [|split].
  - intros l Hl i. destruct (HS i) as (j & Hj & Ej). exists j. split; [done|]. right.
    change (x_state x j) with (x_state (follow dbg sys0 (then_loop busy_start busy_round)) j). rewrite Ej. by apply (stuck_b_spec _ _ Hs).
  - intros i t _. destruct (HS i) as (j & Hj & Ej). exists j. split; [done|].
    change (x_state x j) with (x_state (follow dbg sys0 (then_loop busy_start busy_round)) j). rewrite Ej. by apply nobody_writes_spec.
  - intros i t id cur Ht. pose proof (tasks_b_spec _ _ (HF i) _ _ _ Ht) as Hx. done.
Qed.
