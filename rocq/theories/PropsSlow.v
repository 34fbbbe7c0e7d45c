(** * A handler that takes long (C80) *)
From Verif Require Import Examples LiveProofs PropsSys SpecSlow.

(** ** C80 *)
(** While the call lasts, [u] makes no step. *)
Lemma in_handler_actor {H} dbg (s : sys H) ls s' evs u : 
  (exists c cur, y_tasks s !! u = Some (mkTask (PUsedR c) cur)) ->
  run dbg s ls = Some (s', evs) -> does_not_return u ls -> Forall (fun l => actor l <> Some u) ls.
Proof.
  revert s evs. induction ls as [|l ls IH]; intros s evs (c & cur & Et) E Hn; [constructor|].
  apply Forall_cons in Hn as [Hl Hn]. cbn in E. destruct (step dbg s l) as [[s1 e1]|] eqn:E1; [|done].
  destruct (run dbg s1 ls) as [[s2 e2]|] eqn:E2; [|done]. injection E as -> <-. apply step_move in E1 as M.
  assert (Ha : actor l <> Some u).
  { intros Ha. destruct M; cbn in Ha, Hl; try discriminate Ha; injection Ha as Ha; subst; congruence. }
  constructor; [done|]. eapply (IH s1 e2); [|exact E2|exact Hn]. rewrite (move_bystander _ _ _ _ _ _ M Ha). by exists c, cur.
Qed.
(** As long as [u]'s handler does not return, a task [t] that has to wait behind an import or a
    release is not served, whatever everybody does; [t] need not even have sent its request, or
    connected, yet. *)
Theorem C80_stall : forall H dbg ds (w : world H) ls s evs t u sb d ls' s' evs',
  run dbg (init_sys ds w) ls = Some (s, evs) -> in_handler s u sb d ->
  t ∉ (lk_holders (y_used s)).*1 ->
  (exists q1 v q2, lk_queue (y_used s) = q1 ++ (v, MWrite) :: q2 /\ t ∉ q1.*1) ->
  run dbg s ls' = Some (s', evs') -> does_not_return u ls' -> forall c r, EvServe t c r ∉ evs'.
Proof.
  intros H dbg ds w ls s evs t u sb d ls' s' evs' E (id & Et & _ & Hh) Hn Hq E' Hd.
  eapply (kept_out_run dbg s ls' s' evs' t u MRead); [by apply (rem_run _ _ _ _ _ _ E)|done| |done|].
  - split; [done|]. by right.
  - eapply in_handler_actor; [|done|done]. by eexists _, _.
Qed.
Print Assumptions C80_stall.
(** Connection 1 has imported the first device and sent an URB whose handler takes long;
    connection 2 asks for the second device. *)
Definition slow_handler : list (label ex_h) :=
  [LConnect 1; LConnect 2] ++ do_import 1 id_a ++ [LSent 1] ++
  [LRecv 1 (CmdSubmit ex_in); LGrantUsed; LRecv 2 (OpReqImport 0 (field_of id_b)); LGrantUsed; LRun 2; LRun 2].
Theorem C80_slow_handler_refuted : forall dbg, exists s evs d,
  run dbg sys0 slow_handler = Some (s, evs) /\ in_handler s 1 ex_in d /\
  forall t ls' s' evs', t <> 1 -> run dbg s ls' = Some (s', evs') -> does_not_return 1 ls' ->
    forall c r, EvServe t c r ∉ evs'.
Proof.
  intros dbg.
  destruct (after_run (run dbg sys0 slow_handler) (fun s _ => y_tasks s !! 1 = Some (mkTask (PUsedR (CmdSubmit ex_in)) (Some id_a)) /\
    (d_bus_id <$> sv_used (y_server s) !! id_a) = Some id_a /\
    lk_holders (y_used s) = [(1, MRead)] /\ lk_queue (y_used s) = [(2, MWrite)])) as (s & evs & E & Hp & Hu & Hh & Hq);
    [destruct dbg; vm_compute; auto|].
  destruct (sv_used (y_server s) !! id_a) as [d|] eqn:Ed; [|done].
  assert (Hi : in_handler s 1 ex_in d).
  { exists id_a. split; [done|]. split; [done|]. rewrite Hh. left. }
  exists s, evs, d. split; [done|]. split; [done|]. intros t ls' s' evs' Ht E' Hs.
  eapply (C80_stall ex_h dbg [ex_dev; dev_b] ex_world slow_handler s evs t 1 ex_in d ls' s' evs' E Hi); [| |exact E'|exact Hs].
  - rewrite Hh. cbn. rewrite elem_of_list_singleton. done.
  - exists [], 2, []. rewrite Hq. split; [done|]. apply not_elem_of_nil.
Qed.
Print Assumptions C80_slow_handler_refuted.
(** What is true: as long as nobody wants to import or release, every other connection is served
    while the call lasts; *)
Theorem C80_others_served_partial : forall H dbg ds (w : world H) ls s evs u sb d,
  run dbg (init_sys ds w) ls = Some (s, evs) -> in_handler s u sb d -> stuck_but dbg s u ->
  (forall v, (v, MWrite) ∉ lk_holders (y_used s) ++ lk_queue (y_used s)) ->
  forall t c cur, t <> u -> y_tasks s !! t <> Some (mkTask (PUsedR c) cur).
Proof.
  intros H dbg ds w ls s evs u sb d E _ Hs Hn t c cur Htu Et. destruct (rem_run _ _ _ _ _ _ E) as [HL _].
  destruct (fp_of s t _ _ HL Et) as [Fu _]. cbn in Fu. unfold claims in Fu.
  assert (Hg : lk_grant (y_used s) = None).
  { specialize (Hs LGrantUsed eq_refl I). cbn in Hs. by destruct (lk_grant _). }
  assert (Hq : lk_queue (y_used s) <> []).
  { intros Hq. rewrite Hq, app_nil_r in Fu.
    apply (run_enabled dbg s t _ cur Used MRead (rel_run _ _ _ _ _ _ E) Et eq_refl Fu). by apply Hs. }
  unfold lk_grant in Hg. destruct (lk_queue (y_used s)) as [|[v m] q]; [done|].
  assert (m = MRead) as ->.
  { destruct m; [done|]. destruct (Hn v). apply elem_of_app. right. left. }
  assert (Hc : compatible MRead (lk_holders (y_used s)) = true); [|by rewrite Hc in Hg].
  apply forallb_forall. intros [v' m'] Hin. destruct m'; [done|]. destruct (Hn v'). apply elem_of_app. left.
  by apply elem_of_list_In.
Qed.
Print Assumptions C80_others_served_partial.
(** and in any case the application can add and remove devices meanwhile, unless a client does
    not read its reply or an earlier remove_device found nothing. *)
Theorem C80_application_partial : forall H dbg ds (w : world H) ls s evs u sb d,
  run dbg (init_sys ds w) ls = Some (s, evs) -> in_handler s u sb d -> stuck_but dbg s u ->
  (forall v, ~ writing s v) -> (forall v id cur, y_tasks s !! v <> Some (mkTask (PRemUsedR id) cur)) ->
  forall t p cur m, y_tasks s !! t = Some (mkTask p cur) -> waits_for p <> Some (Available, m).
Proof.
  intros H dbg ds w ls s evs u sb d E (id & Eu & _ & Hh) Hs Hw Hr t p cur m Et Hp.
  destruct (rem_run _ _ _ _ _ _ E) as [HL _]. pose proof (rel_run _ _ _ _ _ _ E) as HR.
  assert (Hrun : forall v q c m', y_tasks s !! v = Some (mkTask q c) -> waits_for q = Some (Available, m') ->
    (v, m') ∉ lk_holders (y_avail s)).
  { intros v q c m' Ev Hq Hv. apply (run_enabled dbg s v q c Available m' HR Ev Hq Hv). apply Hs; [done|].
    intros ->. rewrite Eu in Ev. injection Ev as <- <-. done. }
  destruct (fp_of s t p cur HL Et) as [_ Fa].
  assert (Hc : (t, m) ∈ claims (y_avail s)) by (destruct p; try discriminate Hp; injection Hp as <-; done).
  assert (Hg : lk_grant (y_avail s) = None).
  { specialize (Hs LGrantAvail eq_refl I). cbn in Hs. by destruct (lk_grant _). }
  assert (Hq : lk_queue (y_avail s) <> []).
  { intros Hq. unfold claims in Hc. rewrite Hq, app_nil_r in Hc. by eapply Hrun. }
  pose proof (grant_none _ Hg Hq) as Hne. destruct (lk_holders (y_avail s)) as [|[v mv] hs] eqn:Eh; [done|].
  assert (Hv : (v, mv) ∈ lk_holders (lock_of s Available)) by (cbn; rewrite Eh; left).
  destruct (holder_task s v mv Available HL Hv) as (pv & cv & Ev & [Hx|[[b ->]|[[? _]|[_ [i ->]]]]]).
  - rewrite <- Eh in Hrun. by eapply Hrun.
  - apply (Hw v). by exists b, cv.
  - done.
  - by eapply Hr.
Qed.
Print Assumptions C80_application_partial.
(** While connection 1 is in its handler, connection 2 uses its own device, and add_device works;
    then nothing is left to do but to return from the handler. *)
Definition stuck_but_b {H} (dbg : bool) (s : sys H) (u : tid) : bool :=
  forallb (fun l => match l with LRun t => t =? u | _ => false end ||
                    match step dbg s l with None => true | Some _ => false end) (internal_labels s).
Lemma stuck_but_b_spec {H} dbg (s : sys H) u : stuck_but_b dbg s u = true -> stuck_but dbg s u.
Proof.
  intros Hb l Hl Hu. destruct (step dbg s l) as [[s' ev]|] eqn:E; [|done]. exfalso.
  assert (Hin : l ∈ internal_labels s).
  { unfold internal_labels. destruct l; try discriminate Hl; [left|right; left|do 2 right]. cbn in E.
    destruct (y_tasks s !! t) as [k|] eqn:Et; [|done]. apply elem_of_list_fmap. exists t. split; [done|].
    apply elem_of_list_fmap. exists (t, k). split; [done|]. by apply elem_of_map_to_list. }
  apply elem_of_list_In in Hin. pose proof (proj1 (forallb_forall _ _) Hb _ Hin) as Hx. cbv beta in Hx. rewrite E in Hx.
  destruct l; try done. rewrite orb_false_r in Hx. lia.
Qed.
Example C80_example : forall dbg, exists s evs d,
  run dbg sys0 ([LConnect 1; LConnect 2] ++ do_import 1 id_a ++ [LSent 1] ++ do_import 2 id_b ++ [LSent 2] ++
    [LRecv 1 (CmdSubmit ex_in); LGrantUsed] ++ do_submit 2 ex_in ++ [LSent 2; LAdd 5 ex_dev; LGrantAvail; LRun 5]) = Some (s, evs) /\
  in_handler s 1 ex_in d /\ EvServe 2 (CmdSubmit ex_in) (Val ex_in_reply) ∈ evs /\ EvAdd 5 ex_dev ∈ evs /\
  stuck_but dbg s 1 /\ lk_holders (y_used s) ++ lk_queue (y_used s) = [(1, MRead)] /\ (forall v, ~ writing s v).
Proof.
  intros dbg.
  destruct (after_run (run dbg sys0 ([LConnect 1; LConnect 2] ++ do_import 1 id_a ++ [LSent 1] ++ do_import 2 id_b ++ [LSent 2] ++
    [LRecv 1 (CmdSubmit ex_in); LGrantUsed] ++ do_submit 2 ex_in ++ [LSent 2; LAdd 5 ex_dev; LGrantAvail; LRun 5])) (fun s evs =>
    y_tasks s !! 1 = Some (mkTask (PUsedR (CmdSubmit ex_in)) (Some id_a)) /\
    (d_bus_id <$> sv_used (y_server s) !! id_a) = Some id_a /\
    lk_holders (y_used s) ++ lk_queue (y_used s) = [(1, MRead)] /\ lk_holders (y_used s) = [(1, MRead)] /\
    EvServe 2 (CmdSubmit ex_in) (Val ex_in_reply) ∈ evs /\ EvAdd 5 ex_dev ∈ evs /\
    stuck_but_b dbg s 1 = true /\ forallb (fun k => match t_pc k.2 with PWrite _ => false | _ => true end) (map_to_list (y_tasks s)) = true))
    as (s & evs & E & Hp & Hu & Hc & Hh & H1 & H2 & Hs & Hw); [destruct dbg; vm_compute; split_and!; auto; in_list|].
  destruct (sv_used (y_server s) !! id_a) as [d|] eqn:Ed; [|done].
  exists s, evs, d. split; [done|]. split.
  { exists id_a. split; [done|]. split; [done|]. rewrite Hh. left. }
  split; [done|]. split; [done|]. split; [by apply stuck_but_b_spec|]. split; [done|].
  intros v (b & c & Ev). apply elem_of_map_to_list, elem_of_list_In in Ev.
  by pose proof (proj1 (forallb_forall _ _) Hw _ Ev).
Qed.
