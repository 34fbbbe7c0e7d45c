(** * Clients that vanish (C103) *)
From Verif Require Import Examples SysFacts DevProofs ConcProofs LiveProofs PropsSys PropsFair.

(** Nothing is heard of connection [t] any more: no message, no end of file, no error.  This is
    what the server sees of a client whose machine or network is gone. *)
Definition nothing_heard {H} (t : tid) (ls : list (label H)) : Prop :=
  Forall (fun l => match l with LRecv u _ | LReadErr u _ | LReadPanic u => u <> t | _ => True end) ls.

Lemma silent_actor {H} dbg (s s' : sys H) l ev t cur : move dbg s l s' ev -> y_tasks s !! t = Some (mkTask PRead cur) ->
  match l with LRecv u _ | LReadErr u _ | LReadPanic u => u <> t | _ => True end -> actor l <> Some t.
Proof.
  intros M Ht Hl Ha. destruct M; cbn in Ha, Hl; try discriminate Ha; try (injection Ha as ->); try done; cbn in *; congruence.
Qed.

Lemma gone_step {H} dbg ds (w : world H) ls s evs l s' ev t d cur : run dbg (init_sys ds w) ls = Some (s, evs) ->
  step dbg s l = Some (s', ev) -> distinct_ids ds evs -> y_tasks s !! t = Some (mkTask PRead cur) -> held evs t = Some d ->
  match l with LRecv u _ | LReadErr u _ | LReadPanic u => u <> t | _ => True end ->
  y_tasks s' !! t = Some (mkTask PRead cur) /\ held (evs ++ ev) t = Some d /\ Forall (fun e => ev_tid e <> t) ev /\
  (forall u n f st d', EvServe u (OpReqImport n f) (Val (OpRepImport st (Some d'))) ∈ ev -> d_bus_id d' <> d_bus_id d) /\
  (forall u r, EvRemove u (d_bus_id d) r ∈ ev -> r = IErr (EDeviceInUse (d_bus_id d))).
Proof.
  intros E Es Hd Ht Hh Hl. pose proof (step_move _ _ _ _ _ Es) as M. pose proof (silent_actor _ _ _ _ _ _ _ M Ht Hl) as Ha.
  pose proof (dev_run _ _ _ _ _ _ E Hd) as HI. pose proof (di_held _ _ _ HI _ _ Hh) as Hu.
  assert (Hn : forall x, x ∈ sv_available (y_server s) -> d_bus_id x <> d_bus_id d).
  { intros x Hx Hid. rewrite <- Hid, (avail_not_used _ x) in Hu; [done| |by apply (di_filed _ _ _ HI)|done].
    rewrite (fmap_perm d_bus_id _ _ (di_ledger _ _ _ HI)). by apply distinct_last. }
  split; [by rewrite (move_bystander _ _ _ _ _ _ M Ha)|]. split; [by rewrite (held_step _ _ _ _ _ _ _ M Ha)|].
  split; [eapply Forall_impl; [by eapply move_events|]; cbn; intros e He; congruence|]. split.
  - intros u n f st d' He. destruct (ev_import _ _ _ _ _ _ _ _ _ M He) as (c & x & _ & _ & _ & Ei & Er & _).
    assert (x = Some d') as -> by (destruct x; injection Er; congruence).
    apply import_some in Ei as (l1 & l2 & (Ea & _) & _). apply Hn. rewrite Ea. apply elem_of_app. right. left.
  - intros u r He. destruct (ev_remove _ _ _ _ _ _ _ _ M He) as (_ & _ & _ & _ & [(_ & Hr & _)|(_ & _ & ->)]).
    + apply remove_available_some in Hr as (x & l1 & l2 & (Ea & Hx & _) & _). exfalso. apply (Hn x); [|done].
      rewrite Ea. apply elem_of_app. right. left.
    + f_equal. unfold remove_missing. destruct (existsb _ _) eqn:Ee; [done|].
      rewrite <- not_true_iff_false in Ee. destruct Ee. apply existsb_exists. exists (d_bus_id d, d).
      split; [by apply elem_of_list_In, elem_of_map_to_list|]. unfold str_eqb. by apply bool_decide_eq_true.
Qed.

(** A connection that waits for its client's next message keeps its device for as long as nothing
    is heard, whatever everybody else does: nobody can import the device, and the application
    cannot remove it. *)
Theorem C103_kept_while_silent : forall H dbg ds (w : world H) ls s evs t cur d ls' s' evs',
  run dbg (init_sys ds w) ls = Some (s, evs) -> y_tasks s !! t = Some (mkTask PRead cur) -> held evs t = Some d ->
  run dbg s ls' = Some (s', evs') -> distinct_ids ds (evs ++ evs') -> nothing_heard t ls' ->
  held (evs ++ evs') t = Some d /\ (forall r, EvEnd t r ∉ evs') /\
  (forall u n f st d', EvServe u (OpReqImport n f) (Val (OpRepImport st (Some d'))) ∈ evs' -> d_bus_id d' <> d_bus_id d) /\
  (forall u r, EvRemove u (d_bus_id d) r ∈ evs' -> r = IErr (EDeviceInUse (d_bus_id d))).
Proof.
  intros H dbg ds w ls s evs t cur d ls' s' evs' E Ht Hh E' Hd Hs.
  assert (X : y_tasks s' !! t = Some (mkTask PRead cur) /\ held (evs ++ evs') t = Some d /\ Forall (fun e => ev_tid e <> t) evs' /\
    (forall u n f st d', EvServe u (OpReqImport n f) (Val (OpRepImport st (Some d'))) ∈ evs' -> d_bus_id d' <> d_bus_id d) /\
    (forall u r, EvRemove u (d_bus_id d) r ∈ evs' -> r = IErr (EDeviceInUse (d_bus_id d)))).
  { revert ls' s' evs' E' Hd Hs. match goal with |- forall ls1 s1 e1, _ -> @?Q ls1 s1 e1 => apply (run_ind dbg s Q) end.
    - intros _ _. rewrite app_nil_r. split_and!; try done.
      + intros u n f st d' X. by apply elem_of_nil in X.
      + intros u r X. by apply elem_of_nil in X.
    - intros ls1 s1 e1 l s2 e2 E1 IH E2 Hd Hs. rewrite app_assoc in Hd. pose proof (distinct_app _ _ _ Hd) as Hd1.
      unfold nothing_heard in Hs. rewrite Forall_app, Forall_singleton in Hs. destruct Hs as [Hs Hl].
      destruct (IH Hd1 Hs) as (I1 & I2 & I3 & I4 & I5).
      destruct (gone_step dbg ds w (ls ++ ls1) s1 (evs ++ e1) l s2 e2 t d cur) as (J1 & J2 & J3 & J4 & J5); auto.
      { by eapply run_app_intro. }
      split; [done|]. rewrite app_assoc. split; [done|]. split; [by apply Forall_app|]. split.
      + intros u n f st d'. rewrite elem_of_app. intros [?|?]; eauto.
      + intros u r. rewrite elem_of_app. intros [?|?]; eauto. }
  destruct X as (_ & X1 & X2 & X3 & X4). split; [done|]. split; [|done].
  intros r Hr. rewrite Forall_forall in X2. by apply (X2 _ Hr).
Qed.
Print Assumptions C103_kept_while_silent.

(** So the natural claim, that a device comes back some time after its client has vanished, is
    false: from this point, with nothing heard of client 1, it never does. *)
Definition imported_1 : list (label ex_h) := [LConnect 1] ++ do_import 1 id_a ++ [LSent 1].
Theorem C103_vanished_refuted : forall dbg, exists s evs cur,
  run dbg sys0 imported_1 = Some (s, evs) /\ y_tasks s !! 1 = Some (mkTask PRead cur) /\ held evs 1 = Some ex_dev /\
  forall ls' s' evs', run dbg s ls' = Some (s', evs') -> distinct_ids [ex_dev; dev_b] (evs ++ evs') -> nothing_heard 1 ls' ->
    ex_dev ∉ sv_available (y_server s') /\
    (forall u n f st, EvServe u (OpReqImport n f) (Val (OpRepImport st (Some ex_dev))) ∉ evs').
Proof.
  intros dbg.
  destruct (after_run (run dbg sys0 imported_1) (fun s evs => at_pc s 1 = Some PRead /\ held evs 1 = Some ex_dev))
    as (s & evs & E & T & Hh); [destruct dbg; vm_compute; auto|].
  apply at_pc_task in T as [cur T]. exists s, evs, cur. split; [exact E|]. split; [exact T|]. split; [exact Hh|].
  intros ls' s' evs' E' Hd Hs.
  destruct (C103_kept_while_silent _ _ _ _ _ _ _ _ _ _ _ _ _ E T Hh E' Hd Hs) as (H1 & _ & H2 & _). split.
  - intros Hin. pose proof (run_app_intro _ _ _ _ _ _ _ _ E E') as E2. clear E E'. pose proof (dev_run _ _ _ _ _ _ E2 Hd) as HI.
    pose proof (di_held _ _ _ HI _ _ H1) as Hu. rewrite (avail_not_used _ ex_dev) in Hu; [done| |by apply (di_filed _ _ _ HI)|done].
    by apply (C25_conserved _ _ _ _ _ _ _ E2 Hd).
  - intros u n f st Hin. by apply (H2 _ _ _ _ _ Hin).
Qed.
Print Assumptions C103_vanished_refuted.

(** What does hold: once the network reports the loss (the read fails), the device is back when the
    server has done what it can, unless a client that does not read its device list (C36) or a
    [remove_device] call (C34) is in the way. *)
Theorem C103_reported_partial : forall H dbg ds (w : world H) ls s evs t cur d ls1 s1 evs1 e ls2 s2 evs2,
  run dbg (init_sys ds w) ls = Some (s, evs) -> y_tasks s !! t = Some (mkTask PRead cur) -> held evs t = Some d ->
  run dbg s ls1 = Some (s1, evs1) -> nothing_heard t ls1 ->
  run dbg s1 (LReadErr t e :: ls2) = Some (s2, evs2) -> distinct_ids ds ((evs ++ evs1) ++ evs2) ->
  stuck dbg s2 -> (forall u, ~ writing s2 u) -> (forall u id c, y_tasks s2 !! u <> Some (mkTask (PRemUsedR id) c)) ->
  EvRelease t (d_bus_id d) ∈ evs2 /\ exists r, read_result e r /\ EvEnd t r ∈ evs2.
Proof.
  intros H dbg ds w ls s evs t cur d ls1 s1 evs1 e ls2 s2 evs2 E Ht Hh E1 Hs E2 Hd Hst Hw Hr.
  destruct (C103_kept_while_silent _ _ _ _ _ _ _ _ _ _ _ _ _ E Ht Hh E1 (distinct_app _ _ _ Hd) Hs) as (H1 & _).
  by eapply (C26_completes_partial H dbg ds w (ls ++ ls1) s1 (evs ++ evs1)); [by eapply run_app_intro|..].
Qed.
Print Assumptions C103_reported_partial.

(** Client 1 imports and vanishes; client 2 asks for the device and does not get it; then the read of connection 1 fails. *)
Definition gone_1 : list (label ex_h) := [LConnect 2] ++ do_import 2 id_a ++ [LSent 2].
Definition reported_1 : list (label ex_h) := [LReadErr 1 EUnexpectedEof; LGrantUsed; LRun 1; LGrantAvail; LRun 1].
Example C103_example : forall dbg, nothing_heard 1 gone_1 /\
  exists s evs s1 evs1 s2 evs2, run dbg sys0 imported_1 = Some (s, evs) /\ at_pc s 1 = Some PRead /\ held evs 1 = Some ex_dev /\
    run dbg s gone_1 = Some (s1, evs1) /\ EvServe 2 (OpReqImport 0 (field_of id_a)) (Val (OpRepImport 1 None)) ∈ evs1 /\
    run dbg s1 reported_1 = Some (s2, evs2) /\ EvRelease 1 id_a ∈ evs2 /\ distinct_ids [ex_dev; dev_b] ((evs ++ evs1) ++ evs2) /\ stuck dbg s2.
Proof.
  intros dbg. split; [by repeat constructor|].
  destruct (after_run (run dbg sys0 imported_1) (fun s evs => at_pc s 1 = Some PRead /\ held evs 1 = Some ex_dev /\
    after (run dbg s gone_1) (fun s1 evs1 => evs1 = [EvServe 2 (OpReqImport 0 (field_of id_a)) (Val (OpRepImport 1 None)); EvSent 2 [1; 17; 0; 3; 0; 0; 0; 1]] /\
      after (run dbg s1 reported_1) (fun s2 evs2 => evs2 = [EvRelease 1 id_a; EvEnd 1 EndOk] /\
        distinct_b [ex_dev; dev_b] ((evs ++ evs1) ++ evs2) = true /\ stuck_b dbg s2 = true))))
    as (s & evs & E & T & Hh & X); [destruct dbg; vm_compute; auto 10|].
  apply after_run in X as (s1 & evs1 & E1 & V & Y). apply after_run in Y as (s2 & evs2 & E2 & Ev & Hd & St).
  exists s, evs, s1, evs1, s2, evs2. split; [exact E|]. split; [exact T|]. split; [exact Hh|]. split; [exact E1|].
  split; [|split; [exact E2|split; [|split]]].
  - rewrite V. left.
  - rewrite Ev. left.
  - by apply distinct_b_spec.
  - by apply stuck_b_spec.
Qed.
