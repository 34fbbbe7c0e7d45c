(** * The byte-level server left alone (C84) *)
From Verif Require Import Examples PropsSys NetProofs LiveProofs PropsNet NetLive.

(** No execution of internal steps is infinite, from any state whatsoever. *)
Theorem C84_terminates : forall H dbg (n : net H),
  Acc (fun n2 n1 => exists l ev, n_internal l = true /\ nstep dbg n1 l = Some (n2, ev)) n.
Proof. intros. apply internal_acc. Qed.
Print Assumptions C84_terminates.
Theorem C84_rest_is_reached : forall H dbg (n : net H), exists ls n' evs,
  nrun dbg n ls = Some (n', evs) /\ Forall (fun l => n_internal l = true) ls /\ at_rest dbg n'.
Proof. intros. apply reach_rest. Qed.
Print Assumptions C84_rest_is_reached.
(** Where it ends: every call has returned, every connection that has not ended is
    reading, its client has not closed the stream, every complete message has been
    answered in full and what is left is not a complete message. *)
Theorem C84_rest_means_answered : forall H dbg ds (w : world H) ls n evs,
  nrun dbg (init_net ds w) ls = Some (n, evs) -> Forall byte_label ls -> at_rest dbg n ->
  (forall u id cur, y_tasks (n_sys n) !! u <> Some (mkTask (PRemUsedR id) cur)) ->
  forall t p cur, y_tasks (n_sys n) !! t = Some (mkTask p cur) ->
    (exists r, p = PEnd r) \/ p = PAdded \/ (exists r, p = PRemoved r) \/
    p = PRead /\ exists k l rest, n_socks n !! t = Some k /\ k_end k = None /\
      messages dbg (k_got k) l.*1 rest /\ Forall (fun cb => answers cb.1 cb.2) l /\ k_sent k = mjoin l.*2 /\
      (forall m rest' c, rest = m ++ rest' -> ~ cmd_layout dbg m c).
Proof.
  intros H dbg ds w ls n evs E B R Hr t p cur Ht.
  pose proof (talks_run _ _ _ _ _ E (talks_init dbg ds w)) as T.
  assert (C : covered n).
  { eapply covered_run; [exact E|]. intros u q c Hu. cbn in Hu. by rewrite lookup_empty in Hu. }
  assert (G : got_bytes n).
  { eapply nrun_readable in E as [G _]; [exact G|apply talks_init| |done].
    intros u k Hk. cbn in Hk. by rewrite lookup_empty in Hk. }
  destruct (nrun_sys _ _ _ _ _ E) as (ls' & E').
  assert (S : stuck dbg (n_sys n)).
  { intros l Hl. specialize (R (NSys l) Hl). destruct l; try discriminate Hl; cbn [nstep socket_label] in R;
      unfold sys_step in R; by destruct (step dbg (n_sys n) _) as [[? ?]|]. }
  assert (W : forall u, ~ writing (n_sys n) u).
  { intros u (b & c & Hu). destruct (C u _ _ Hu eq_refl) as [k Hk].
    destruct (T u k Hk) as (q & c' & Hu' & _ & Tk). rewrite Hu in Hu'. injection Hu' as <- <-.
    destruct (Tk (G u k Hk)) as (l & inp & mid & _ & _ & _ & (x & _ & _ & _ & Hp)).
    destruct k as [ki kf kr kb kp kg ks]. cbn [k_pos] in Hp.
    pose proof (R (NWrite u 1) eq_refl) as R1. pose proof (R (NFlushed u) eq_refl) as R2. cbn [nstep] in R1, R2.
    rewrite Hk, Hu in R1, R2. destruct (N.eqb_spec kp (len b)) as [Ep|Ep].
    - unfold sys_step in R2. cbn [step n_sys set_sock] in R2. by rewrite Hu in R2.
    - destruct (N.leb_spec 1 1); [|lia]. destruct (N.leb_spec (kp + 1) (len b)); [done|lia]. }
  destruct (C35_completes _ _ _ _ _ _ _ [] _ [] E' eq_refl S Hr W t p cur Ht) as [->|X]; [|naive_solver].
  right. right. right. split; [done|]. destruct (C t _ _ Ht eq_refl) as [k Hk].
  destruct (stuck_reader dbg n t k cur) as (l & rest & (M & A & Sn & _) & Ke & Nc); auto.
  { by apply (G t). }
  exists k, l, rest. rewrite app_nil_r in Sn. done.
Qed.
Print Assumptions C84_rest_means_answered.
(** The session of C64: in the middle of a reply the server is not at rest; when the
    reply is out and the two bytes that came after the request have been read, it is,
    with both readers inside a message. *)
Definition session2_rest : list (nlabel ex_h) := [NWrite 2 220; NFlushed 2] ++ polls 2 2.
Example C84_example : Forall byte_label session2 /\ Forall (fun l => n_internal l = true) session2_rest /\
  exists n evs n' evs', nrun false net0 session2 = Some (n, evs) /\ nrun false n session2_rest = Some (n', evs') /\
    ~ at_rest false n /\ at_rest false n' /\
    (forall u id cur, y_tasks (n_sys n') !! u <> Some (mkTask (PRemUsedR id) cur)) /\
    heard n' 1 = Some (PRead, 3%nat, 0%nat) /\ heard n' 2 = Some (PRead, 42%nat, 320%nat).
Proof.
  split; [|split].
  - unfold session2, session1, polls. rewrite !Forall_app. split_and!; try apply Forall_replicate; try done.
    all: repeat (constructor; [cbn; try done|]); try constructor. all: apply Forall_u8; vm_compute; reflexivity.
  - repeat constructor.
  - destruct (nafter_run (nrun false net0 session2) (fun n _ =>
      nafter (nrun false n [NWrite 2 220]) (fun _ _ => True) /\
      nafter (nrun false n session2_rest) (fun n' _ => rest_b false n' = true /\
        forallb (fun kv => match t_pc kv.2 with PRemUsedR _ => false | _ => true end) (map_to_list (y_tasks (n_sys n'))) = true /\
        heard n' 1 = Some (PRead, 3%nat, 0%nat) /\ heard n' 2 = Some (PRead, 42%nat, 320%nat))))
      as (n & evs & E & (X & Y)); [vm_compute; auto 10|].
    apply nafter_run in Y as (n' & evs' & E' & R & P & H1 & H2).
    exists n, evs, n', evs'. split; [exact E|]. split; [exact E'|]. split; [|split; [|split; [|split; [exact H1|exact H2]]]].
    + intros Q. specialize (Q (NWrite 2 220) eq_refl). cbn [nrun] in X. by rewrite Q in X.
    + by apply rest_b_ok.
    + intros u id cur Hu%elem_of_map_to_list. rewrite forallb_forall in P. by specialize (P _ (proj1 (elem_of_list_In _ _) Hu)).
Qed.
