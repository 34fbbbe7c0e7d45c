(** * Properties of the concurrent server (C24-C38) *)
From Verif Require Import Examples LinProofs.
From Coq Require Strings.String.
Import Strings.String.StringSyntax.

(** ** Concrete schedules for the examples *)
Definition dev_b : device :=
  mkDevice (lit "/sys/bus/0/0/1") (lit "0-0-1") 0 1 3 4660 22136 (mkVersion 1 2 0) 0 0 0 1 1
    [ex_intf] None (mkVersion 2 0 0) (mkEndpoint 128 0 64 0) (mkEndpoint 0 0 64 0) ∅ 1 2 3 4.
Definition id_a : rstring := lit "0-0-0".
Definition id_b : rstring := lit "0-0-1".
Definition do_import (t : tid) (id : rstring) : list (label ex_h) :=
  [LRecv t (OpReqImport 0 (field_of id)); LGrantUsed; LRun t; LRun t; LGrantUsed; LRun t; LGrantAvail; LRun t].
Definition do_list (t : tid) : list (label ex_h) :=
  [LRecv t (OpReqDevlist 0); LGrantUsed; LRun t; LGrantAvail; LRun t].
Definition do_submit (t : tid) (sb : submit) : list (label ex_h) :=
  [LRecv t (CmdSubmit sb); LGrantUsed; LRun t].
Definition do_close (t : tid) : list (label ex_h) :=
  [LReadErr t EUnexpectedEof; LGrantUsed; LRun t; LGrantAvail; LRun t].
Definition sys0 : sys ex_h := init_sys [ex_dev; dev_b] ex_world.

(** What the examples observe of a run. *)
Definition seen (ls : list (label ex_h)) : option (list (tid * option rstring) * list rstring * list rstring) :=
  match run false sys0 ls with
  | Some (s, evs) => Some ((fun t => (t, d_bus_id <$> held evs t)) <$> [1; 2; 3],
                           d_bus_id <$> sv_available (y_server s), d_bus_id <$> in_use (y_server s))
  | None => None
  end.
(** To check a run by computation. *)
Definition after {H} (x : option (sys H * list event)) (P : sys H -> list event -> Prop) : Prop :=
  match x with Some (s, evs) => P s evs | None => False end.
Lemma after_run {H} (x : option (sys H * list event)) P : after x P -> exists s evs, x = Some (s, evs) /\ P s evs.
Proof. destruct x as [[s evs]|]; [|done]. cbn. eauto. Qed.
Definition only (t : tid) (evs : list event) : bool := forallb (fun e => ev_tid e =? t) evs.
Lemma only_held t evs u : only t evs = true -> u <> t -> held evs u = None.
Proof.
  intros Ho Hu. apply (held_bystander [] evs u). apply Forall_forall. intros e He.
  apply elem_of_list_In in He. pose proof (proj1 (forallb_forall _ _) Ho _ He) as Hx. cbn in Hx. lia.
Qed.
Definition at_pc {H} (s : sys H) (t : tid) : option pc := t_pc <$> y_tasks s !! t.
Lemma at_pc_task {H} (s : sys H) t p : at_pc s t = Some p -> exists cur, y_tasks s !! t = Some (mkTask p cur).
Proof. unfold at_pc. destruct (y_tasks s !! t) as [[q c]|]; cbn; intros E; [|done]. injection E as ->. by exists c. Qed.
Definition nobody_writes {H} (s : sys H) : bool :=
  forallb (fun kv => match t_pc kv.2 with PWrite _ => false | _ => true end) (map_to_list (y_tasks s)).
Lemma nobody_writes_spec {H} (s : sys H) : nobody_writes s = true -> forall u, ~ writing s u.
Proof.
  intros Hn u (b & cur & Hu). apply elem_of_map_to_list, elem_of_list_In in Hu.
  by pose proof (proj1 (forallb_forall _ _) Hn _ Hu).
Qed.
Fixpoint nodup_b (l : list rstring) : bool :=
  match l with [] => true | x :: l' => negb (existsb (str_eqb x) l') && nodup_b l' end.
Lemma nodup_b_spec l : nodup_b l = true -> NoDup l.
Proof.
  induction l as [|x l IH]; cbn; [constructor|]. intros [Hx Hl]%andb_true_iff. constructor; [|auto].
  intros Hin. apply negb_true_iff in Hx. rewrite <- not_true_iff_false in Hx. apply Hx. apply existsb_exists.
  exists x. split; [by apply elem_of_list_In|]. by apply bool_decide_eq_true.
Qed.
Fixpoint distinct_b (ds : list device) (evs : list event) : bool :=
  nodup_b (d_bus_id <$> ds) && match evs with [] => true | e :: evs' => distinct_b (ledger1 ds e) evs' end.
Lemma distinct_b_spec ds evs : distinct_b ds evs = true -> distinct_ids ds evs.
Proof.
  revert ds. induction evs as [|e evs IH]; intros ds Hb e1 e2 E; apply andb_true_iff in Hb as [Hn Hb].
  - destruct e1; [|done]. by apply nodup_b_spec.
  - destruct e1 as [|x e1]; [by apply nodup_b_spec|]. injection E as <- E. by eapply (IH _ Hb).
Qed.

(** ** C24 *)
Lemma answered_first {H} dbg (s s' : sys H) t cur c r p u c' r' q :
  answered dbg s t cur c r s' (p ++ EvServe u c' r' :: q) -> p = [].
Proof.
  intros A. remember (p ++ EvServe u c' r' :: q) as ev eqn:Ev. inversion A; subst.
  - destruct p as [|x [|y p]]; done.
  - destruct p as [|x [|y [|z p]]]; done.
Qed.
Theorem C24_exclusive : forall H dbg ds (w : world H) ls s evs,
  run dbg (init_sys ds w) ls = Some (s, evs) -> distinct_ids ds evs ->
  (forall t t' d d', held evs t = Some d -> held evs t' = Some d' -> d_bus_id d = d_bus_id d' -> t = t') /\
  (forall evs1 t n f st d evs2,
     evs = evs1 ++ EvServe t (OpReqImport n f) (Val (OpRepImport st (Some d))) :: evs2 ->
     forall t' d', held evs1 t' = Some d' -> d_bus_id d' <> d_bus_id d).
Proof.
  intros H dbg ds w ls s evs E Hd. split.
  - intros. by eapply (di_excl _ _ _ (dev_run _ _ _ _ _ _ E Hd)).
  - intros evs1 t n f st d evs2 Ee t' d' Hh Hid. pose proof Hd as Hd0.
    destruct (run_event _ _ _ _ _ _ _ _ E Ee) as (ls1 & l & ls2 & s1 & s2 & a1 & p & q & b1 & -> & R1 & S1 & R2 & -> & ->).
    pose proof (step_move _ _ _ _ _ S1) as M.
    destruct (ev_import dbg s1 s2 l _ t n f (Val (OpRepImport st (Some d))) M) as (cur & x & _ & _ & _ & Ei & Er & _ & A).
    { apply elem_of_app. right. left. }
    assert (x = Some d) as -> by (destruct x; injection Er; congruence).
    assert (p = []) as -> by (by eapply answered_first).
    rewrite app_nil_r in *. subst evs. apply distinct_app in Hd.
    pose proof (dev_run _ _ _ _ _ _ R1 Hd) as HI.
    pose proof (di_held _ _ _ HI _ _ Hh) as Hu.
    apply import_some in Ei as (l1 & l2 & (Ea & _) & _).
    rewrite Hid, (avail_not_used _ d) in Hu; [done| |by apply (di_filed _ _ _ HI)|].
    + rewrite (fmap_perm d_bus_id _ _ (di_ledger _ _ _ HI)). by apply distinct_last.
    + rewrite Ea. apply elem_of_app. right. left.
Qed.
Print Assumptions C24_exclusive.
(** The handlers a connection reaches are those of the device it holds. *)
Theorem C24_submits_use_held_device : forall H dbg ds (w : world H) ls s evs l s' ev t sb r,
  run dbg (init_sys ds w) ls = Some (s, evs) -> distinct_ids ds evs ->
  step dbg s l = Some (s', ev) -> EvServe t (CmdSubmit sb) r ∈ ev ->
  serve_submit dbg (y_world s) (held evs t) sb = (r, y_world s') /\ y_server s' = y_server s.
Proof.
  intros H dbg ds w ls s evs l s' ev t sb r E Hd Es He.
  destruct (ev_submit _ _ _ _ _ _ _ _ (step_move _ _ _ _ _ Es) He) as (cur & _ & Et & Er & Esv & _).
  pose proof (dev_run _ _ _ _ _ _ E Hd) as HI. split; [|done].
  pose proof (di_cur _ _ _ HI _ _ Et eq_refl eq_refl) as Hc. cbn in Hc. subst cur.
  destruct (held evs t) as [d|] eqn:Hh; cbn in Er; [|done].
  by rewrite (di_held _ _ _ HI _ _ Hh) in Er.
Qed.
Print Assumptions C24_submits_use_held_device.
(** Three clients and two devices: the third client gets nothing. *)
Example C24_example :
  seen ([LConnect 1; LConnect 2; LConnect 3] ++ do_import 1 id_a ++ [LSent 1] ++ do_import 2 id_b ++ [LSent 2]
        ++ do_import 3 id_a ++ [LSent 3])
  = Some ([(1, Some id_a); (2, Some id_b); (3, None)], [], [id_a; id_b]) /\
  exists s evs, run false sys0 ([LConnect 1; LConnect 2] ++ do_import 1 id_a ++ [LSent 1] ++ do_import 2 id_b) = Some (s, evs)
    /\ distinct_ids [ex_dev; dev_b] evs.
Proof.
  split; [vm_compute; reflexivity|].
  destruct (after_run (run false sys0 ([LConnect 1; LConnect 2] ++ do_import 1 id_a ++ [LSent 1] ++ do_import 2 id_b))
    (fun _ evs => distinct_b [ex_dev; dev_b] evs = true)) as (s & evs & E & Hn); [vm_compute; reflexivity|].
  exists s, evs. split; [done|]. by apply distinct_b_spec.
Qed.

(** ** C25 *)
Theorem C25_conserved : forall H dbg ds (w : world H) ls s evs,
  run dbg (init_sys ds w) ls = Some (s, evs) -> distinct_ids ds evs ->
  Permutation (all_devices (y_server s)) (ledger ds evs) /\ NoDup (d_bus_id <$> all_devices (y_server s)).
Proof.
  intros H dbg ds w ls s evs E Hd. pose proof (di_ledger _ _ _ (dev_run _ _ _ _ _ _ E Hd)) as Hp.
  split; [done|]. rewrite (fmap_perm d_bus_id _ _ Hp). by apply distinct_last.
Qed.
Print Assumptions C25_conserved.
Definition add_one (t : tid) (d : device) : list (label ex_h) := [LAdd t d; LGrantAvail; LRun t].
Definition rem_one (t : tid) (id : rstring) : list (label ex_h) := [LRemove t id; LGrantAvail; LRun t].
Example C25_example : exists s evs,
  run false (init_sys [ex_dev] ex_world)
    ([LConnect 1] ++ do_import 1 id_a ++ [LSent 1] ++ add_one 7 dev_b ++ rem_one 8 id_b ++ add_one 9 dev_b) = Some (s, evs)
  /\ distinct_ids [ex_dev] evs /\ ledger [ex_dev] evs = [ex_dev; dev_b]
  /\ sv_available (y_server s) = [dev_b] /\ in_use (y_server s) = [ex_dev].
Proof.
  match goal with |- exists s evs, ?r = _ /\ _ => destruct (after_run r (fun s evs => distinct_b [ex_dev] evs = true /\
    ledger [ex_dev] evs = [ex_dev; dev_b] /\ sv_available (y_server s) = [dev_b] /\ in_use (y_server s) = [ex_dev]))
    as (s & evs & E & Hn & H1) end; [vm_compute; auto|].
  exists s, evs. split; [done|]. split; [by apply distinct_b_spec|done].
Qed.

(** ** C26 *)
(** How [handler] returns when reading failed. *)
Definition read_result (e : io_error) (r : conn_end) : Prop :=
  (e = EUnexpectedEof /\ r = EndOk) \/ (e <> EUnexpectedEof /\ r = EndErr e).
Lemma read_end_result e : read_result e (read_end e).
Proof. unfold read_result, read_end. destruct e; auto. Qed.

(** After the read error the connection either still waits for the locks, or it gave the device
    back in one step; it never ends in any other way.  (That it need not get the locks is shown
    by [C26_released_refuted].) *)
Theorem C26_release_partial : forall H dbg ds (w : world H) ls s evs t d e ls' s' evs',
  run dbg (init_sys ds w) ls = Some (s, evs) -> held evs t = Some d ->
  run dbg s (LReadErr t e :: ls') = Some (s', evs') -> distinct_ids ds (evs ++ evs') ->
  (held (evs ++ evs') t = Some d /\ (forall r, EvEnd t r ∉ evs') /\ pending s' t) \/
  exists ls1 ls2 s1 s2 ev1 ev2 r, ls' = ls1 ++ LRun t :: ls2 /\
    run dbg s (LReadErr t e :: ls1) = Some (s1, ev1) /\
    step dbg s1 (LRun t) = Some (s2, [EvRelease t (d_bus_id d); EvEnd t r]) /\
    run dbg s2 ls2 = Some (s', ev2) /\ read_result e r /\ (forall r', EvEnd t r' ∉ ev1) /\
    sv_available (y_server s2) = sv_available (y_server s1) ++ [d] /\
    sv_used (y_server s2) = delete (d_bus_id d) (sv_used (y_server s1)) /\
    (requestable (d_bus_id d) -> valid_ids (ledger ds (evs ++ ev1)) ->
     exists f sv', length f = 32%nat /\ import_device (y_server s2) f = (sv', Some d)).
Proof.
  intros H dbg ds w ls s evs t d e ls' s' evs' E Hh E' Hd. cbn [run] in E'.
  destruct (step dbg s (LReadErr t e)) as [[sa ea]|] eqn:Ea; [|done].
  destruct (run dbg sa ls') as [[sb eb]|] eqn:Eb; [|done]. injection E' as <- <-.
  pose proof (step_move _ _ _ _ _ Ea) as Ma.
  assert (Hp : exists cur, y_tasks s !! t = Some (mkTask PRead cur)) by (inversion Ma; subst; eauto).
  destruct Hp as [cur Et]. pose proof (dev_run _ _ _ _ _ _ E (distinct_app _ _ _ Hd)) as HI.
  pose proof (di_cur _ _ _ HI _ _ Et eq_refl eq_refl) as Hc. cbn in Hc. rewrite Hh in Hc. cbn in Hc.
  destruct (eof_move _ _ _ _ _ _ _ Ma Et _ Hc) as [Hw ->].
  pose proof (run_step _ _ _ _ _ _ _ _ E Ea) as E1. rewrite app_nil_r in E1.
  destruct (release_run dbg ds w _ sa evs t e d ls' sb eb E1 (or_introl Hw) Hh Eb Hd) as
    [(H1 & H2 & H3)|(ls1 & ls2 & s1 & s2 & ev1 & ev2 & -> & R1 & S1 & R2 & -> & Hu & Hav & Hus & Hne)].
  - left. split; [done|]. split; [done|]. destruct H1 as [H1|H1]; eexists _, _; (split; [exact H1|by eexists]).
  - right. exists ls1, ls2, s1, s2, ev1, ev2, (read_end e). split; [done|]. cbn [run]. rewrite Ea, R1.
    split; [done|]. split; [done|]. split; [done|]. split; [apply read_end_result|]. split; [done|].
    split; [done|]. split; [done|]. intros Hreq Hval.
    assert (E3 : run dbg (init_sys ds w) (((ls ++ [LReadErr t e]) ++ ls1) ++ [LRun t]) =
      Some (s2, (evs ++ ev1) ++ [EvRelease t (d_bus_id d); EvEnd t (read_end e)])).
    { eapply run_step; [|exact S1]. by eapply run_app_intro. }
    assert (Hd2 : distinct_ids ds ((evs ++ ev1) ++ [EvRelease t (d_bus_id d); EvEnd t (read_end e)])).
    { apply (distinct_app ds _ ev2). by rewrite <- !app_assoc. }
    destruct (C25_conserved _ _ _ _ _ _ _ E3 Hd2) as [Hp Hnd]. unfold all_devices in Hp, Hnd.
    rewrite fmap_app in Hnd. apply NoDup_app in Hnd as (Hnd & _ & _).
    exists (field_of (d_bus_id d)).
    destruct (importable (y_server s2) d) as [sv' Hi]; [|done| |done|].
    + rewrite Hav. apply elem_of_app. right. left.
    + unfold valid_ids in *. rewrite ledger_app in Hp. cbn in Hp. rewrite <- Hp in Hval.
      by apply Forall_app in Hval as [? _].
    + exists sv'. split; [|done]. apply field_of_length. apply Hreq.
Qed.
Print Assumptions C26_release_partial.
Example C26_example :
  seen ([LConnect 1] ++ do_import 1 id_a ++ [LSent 1]) = Some ([(1, Some id_a); (2, None); (3, None)], [id_b], [id_a]) /\
  seen ([LConnect 1] ++ do_import 1 id_a ++ [LSent 1] ++ do_close 1) = Some ([(1, None); (2, None); (3, None)], [id_b; id_a], []) /\
  seen ([LConnect 1] ++ do_import 1 id_a ++ [LSent 1] ++ do_close 1 ++ [LConnect 2] ++ do_import 2 id_a)
    = Some ([(1, None); (2, Some id_a); (3, None)], [id_b], [id_a]).
Proof. split_and!; vm_compute; reflexivity. Qed.

(** With the locks free to move, the release does happen. *)
Theorem C26_completes_partial : forall H dbg ds (w : world H) ls s evs t d e ls' s' evs',
  run dbg (init_sys ds w) ls = Some (s, evs) -> held evs t = Some d ->
  run dbg s (LReadErr t e :: ls') = Some (s', evs') -> distinct_ids ds (evs ++ evs') ->
  stuck dbg s' -> (forall u, ~ writing s' u) ->
  (forall u id cur, y_tasks s' !! u <> Some (mkTask (PRemUsedR id) cur)) ->
  EvRelease t (d_bus_id d) ∈ evs' /\ exists r, read_result e r /\ EvEnd t r ∈ evs'.
Proof.
  intros H dbg ds w ls s evs t d e ls' s' evs' E Hh E' Hd Hst Hw Hr.
  destruct (C26_release_partial _ _ _ _ _ _ _ _ _ _ _ _ _ E Hh E' Hd) as
    [(_ & _ & Hp)|(ls1 & ls2 & s1 & s2 & ev1 & ev2 & r & -> & R1 & S1 & R2 & Hres & _)].
  - exfalso. pose proof (run_app_intro _ _ _ _ _ _ _ _ E E') as E2.
    destruct (stuck_cause dbg s' t (proj1 (rem_run _ _ _ _ _ _ E2)) (rel_run _ _ _ _ _ _ E2) Hst Hp) as
      [(u & Hu & _)|[(u & id & c1 & ? & ? & ? & ? & ? & Hu & _)|(u & id & c1 & Hu & _)]].
    + by eapply Hw.
    + by eapply Hr.
    + by eapply Hr.
  - assert (E2 : run dbg s ((LReadErr t e :: ls1) ++ LRun t :: ls2) =
        Some (s', ev1 ++ [EvRelease t (d_bus_id d); EvEnd t r] ++ ev2)).
    { eapply run_app_intro; [exact R1|]. cbn [run]. by rewrite S1, R2. }
    cbn [app] in E2. rewrite E2 in E'. injection E' as <-.
    split; [|exists r; split; [done|]]; apply elem_of_app; right.
    + left.
    + right. left.
Qed.
Print Assumptions C26_completes_partial.

(** Both tasks of the deadlock between [remove_device] and a connection stand still. *)
Lemma dead_quiet {H} dbg (s : sys H) t u ls s' evs : locks_ok s -> dead s t u -> run dbg s ls = Some (s', evs) ->
  forall r, EvEnd u r ∉ evs.
Proof.
  intros HL HD E r He. apply elem_of_list_split in He as (a & b & He).
  destruct (run_event _ _ _ _ _ _ _ _ E He) as (ls1 & l & ls2 & s1 & s2 & a1 & p & q & b1 & -> & R1 & S1 & _).
  pose proof (run_step _ _ _ _ _ _ _ _ R1 S1) as R2.
  destruct (dead_run _ _ _ _ _ _ _ HL HD R2) as (_ & Hu & _).
  destruct (ev_end _ _ _ _ _ u r (step_move _ _ _ _ _ S1)) as (_ & cur & Et).
  { apply elem_of_app. right. left. }
  rewrite Et, lookup_insert in Hu. destruct HD as (id & pc & c1 & c2 & _ & Hp & Hh).
  rewrite Hp in Hu. injection Hu as <- _. done.
Qed.
Lemma held_quiet e1 e2 t : Forall (fun e => ~ effect e) e2 -> (forall r, EvEnd t r ∉ e2) -> held (e1 ++ e2) t = held e1 t.
Proof.
  rewrite held_app. generalize (held e1). induction e2 as [|e e2 IH]; intros h He Hr; [done|].
  apply Forall_cons in He as [He He2]. cbn [foldl]. rewrite IH; [|done|].
  - destruct e; cbn [held1]; try done; try (by destruct He).
    destruct (N.eqb_spec t t0) as [-> |]; [|done]. by destruct (Hr r); left.
  - intros r Hin. apply (Hr r). by right.
Qed.

(** The client of connection 1 disconnects while [remove_device] runs: the device is never released. *)
Definition deadlock_rel : list (label ex_h) :=
  [LConnect 1] ++ do_import 1 id_a ++ [LSent 1; LRemove 5 id_a; LGrantAvail; LReadErr 1 EUnexpectedEof;
   LGrantUsed; LRun 1; LRun 5].
Theorem C26_released_refuted : forall dbg, exists ls s evs d,
  run dbg sys0 ls = Some (s, evs) /\ distinct_ids [ex_dev; dev_b] evs /\
  LReadErr 1 EUnexpectedEof ∈ ls /\ held evs 1 = Some d /\
  forall ls' s' evs', run dbg s ls' = Some (s', evs') ->
    held (evs ++ evs') 1 = Some d /\ (forall r, EvEnd 1 r ∉ evs') /\ Forall (fun e => ~ effect e) evs'.
Proof.
  intros dbg. exists deadlock_rel.
  destruct (after_run (run dbg sys0 deadlock_rel) (fun s evs => at_pc s 5 = Some (PRemUsedR id_a) /\
    at_pc s 1 = Some (PRelAvailW EUnexpectedEof) /\ held evs 1 = Some ex_dev /\ distinct_b [ex_dev; dev_b] evs = true))
    as (s & evs & E & T5 & T1 & Hh & Hd); [destruct dbg; vm_compute; auto|].
  apply at_pc_task in T5 as [c5 T5], T1 as [c1 T1]. exists s, evs, ex_dev.
  assert (HL : locks_ok s) by (apply (rem_run _ _ _ _ _ _ E)).
  assert (HD : dead s 5 1) by (by exists id_a, (PRelAvailW EUnexpectedEof), c5, c1).
  split; [done|]. split; [by apply distinct_b_spec|]. split; [in_list|]. split; [done|].
  intros ls' s' evs' E'. destruct (dead_run _ _ _ _ _ _ _ HL HD E') as (_ & _ & He).
  pose proof (dead_quiet _ _ _ _ _ _ _ HL HD E') as Hq. rewrite held_quiet by done. done.
Qed.
Print Assumptions C26_released_refuted.

(** ** C27 *)
(** Once a device is in the in-use table but held by no connection, it never leaves it. *)
Theorem C27_leak_permanent : forall H dbg ds (w : world H) ls s evs ls' s' evs' id d,
  run dbg (init_sys ds w) ls = Some (s, evs) -> run dbg s ls' = Some (s', evs') ->
  distinct_ids ds (evs ++ evs') -> sv_used (y_server s) !! id = Some d ->
  (forall t d', held evs t = Some d' -> d_bus_id d' <> id) ->
  (forall d', d' ∈ sv_available (y_server s') -> d_bus_id d' <> id) /\
  (forall t n f d', EvServe t (OpReqImport n f) (Val (OpRepImport 0 (Some d'))) ∈ evs' -> d_bus_id d' <> id) /\
  (forall t r, EvRemove t id r ∈ evs' -> r = IErr (EDeviceInUse id)).
Proof.
  intros H dbg ds w ls s evs ls' s' evs' id d E E' Hd Hu Hn.
  destruct (leak_run _ _ _ _ _ _ _ _ _ _ _ E E' Hd Hu Hn) as (Hu' & H1 & H2 & _). split; [|done].
  pose proof (run_app_intro _ _ _ _ _ _ _ _ E E') as E2. pose proof (dev_run _ _ _ _ _ _ E2 Hd) as HI.
  intros d' Hd' <-. rewrite avail_not_used in Hu'; [done| |by apply (di_filed _ _ _ HI)|done].
  by apply (C25_conserved _ _ _ _ _ _ _ E2 Hd).
Qed.
Print Assumptions C27_leak_permanent.

(** How a connection that held [d] can end: only a failed read gives the device back. *)
Theorem C27_ends_partial : forall H dbg ds (w : world H) ls s evs l s' ev t r d,
  run dbg (init_sys ds w) ls = Some (s, evs) -> distinct_ids ds (evs ++ ev) ->
  step dbg s l = Some (s', ev) -> EvEnd t r ∈ ev -> held evs t = Some d ->
  (exists e, read_result e r /\ ev = [EvRelease t (d_bus_id d); EvEnd t r] /\
     sv_available (y_server s') = sv_available (y_server s) ++ [d] /\
     sv_used (y_server s') = delete (d_bus_id d) (sv_used (y_server s))) \/
  (((exists e, l = LSendErr t e /\ r = EndErr e) \/
    (dbg = true /\ l = LReadPanic t /\ r = EndPanic PDebugAssert) \/
    (exists c x, ev = [EvServe t c x; EvEnd t r] /\ (r = EndDiverge \/ exists p, r = EndPanic p))) /\
   sv_used (y_server s') !! d_bus_id d = Some d /\
   forall u d', held (evs ++ ev) u = Some d' -> d_bus_id d' <> d_bus_id d).
Proof.
  intros H dbg ds w ls s evs l s' ev t r d E Hd Es He Hh.
  pose proof (step_move _ _ _ _ _ Es) as M.
  pose proof (dev_run _ _ _ _ _ _ E (distinct_app _ _ _ Hd)) as HI.
  pose proof (run_step _ _ _ _ _ _ _ _ E Es) as E2. pose proof (dev_run _ _ _ _ _ _ E2 Hd) as HI2.
  pose proof (di_held _ _ _ HI _ _ Hh) as Hu.
  assert (Hnone : held (evs ++ ev) t = None).
  { destruct (ev_end _ _ _ _ _ _ _ M He) as (_ & cur & Et). eapply (di_ended _ _ _ HI2); [rewrite Et; apply lookup_insert|done]. }
  assert (Hother : forall u d', held (evs ++ ev) u = Some d' -> u <> t /\ held evs u = Some d').
  { intros u d' Hu'. assert (u <> t) by congruence. split; [done|]. rewrite <- Hu'. symmetry.
    apply held_bystander. pose proof (move_events _ _ _ _ _ M) as Ha.
    assert (Hact : actor l = Some t) by (rewrite Forall_forall in Ha; exact (Ha _ He)).
    eapply Forall_impl; [exact Ha|]. cbn. intros x Hx. congruence. }
  assert (Hfree : forall u d', held (evs ++ ev) u = Some d' -> d_bus_id d' <> d_bus_id d).
  { intros u d' Hu' Hid. destruct (Hother _ _ Hu') as [Hne Hu'']. apply Hne.
    by eapply (di_excl _ _ _ HI). }
  destruct (ev_end _ _ _ _ _ _ _ M He) as [C _]. inversion C as
    [e Et Esv|e id Et Er|e id p Et Er Esv|Hdbg Esv Et|e Et Esv|c x y Hx Hy Hc Esv|n f x y Hx Hy Ei]; subst.
  - pose proof (di_cur _ _ _ HI _ _ Et eq_refl eq_refl) as Hc. rewrite Hh in Hc. done.
  - left. exists e. split; [apply read_end_result|].
    pose proof (di_cur _ _ _ HI _ _ Et eq_refl eq_refl) as Hc. rewrite Hh in Hc. injection Hc as ->.
    unfold release_device in Er. rewrite Hu in Er. apply Val_inj in Er. rewrite <- Er. done.
  - pose proof (di_cur _ _ _ HI _ _ Et eq_refl eq_refl) as Hc. rewrite Hh in Hc. injection Hc as ->.
    unfold release_device in Er. by rewrite Hu in Er.
  - right. split; [right; left; done|]. rewrite Esv. done.
  - right. split; [left; eauto|]. rewrite Esv. done.
  - right. split; [right; right; eauto|]. rewrite Esv. done.
  - right. split; [right; right; eauto|]. split; [|done].
    destruct x as [d'|]; [|apply import_none in Ei as [-> _]; done].
    apply import_some in Ei as (l1 & l2 & (Ea & _) & ->). cbn [sv_used].
    rewrite lookup_insert_ne; [done|]. intros Hid.
    pose proof (avail_not_used (y_server s) d') as Ha. rewrite Hid, Hu in Ha.
    specialize (Ha (proj2 (C25_conserved _ _ _ _ _ _ _ E (distinct_app _ _ _ Hd))) (di_filed _ _ _ HI)).
    rewrite Ea in Ha. specialize (Ha ltac:(apply elem_of_app; right; left)). done.
Qed.
Print Assumptions C27_ends_partial.

(** Importing something else (or failing to) loses the device imported before. *)
Theorem C27_reimport_leaks_partial : forall H dbg ds (w : world H) ls s evs l s' ev t n f x d,
  run dbg (init_sys ds w) ls = Some (s, evs) -> distinct_ids ds (evs ++ ev) ->
  step dbg s l = Some (s', ev) -> EvServe t (OpReqImport n f) x ∈ ev -> held evs t = Some d ->
  sv_used (y_server s') !! d_bus_id d = Some d /\
  forall u d', held (evs ++ ev) u = Some d' -> d_bus_id d' <> d_bus_id d.
Proof.
  intros H dbg ds w ls s evs l s' ev t n f x d E Hd Es He Hh.
  pose proof (step_move _ _ _ _ _ Es) as M. pose proof (distinct_app _ _ _ Hd) as Hd1.
  pose proof (dev_run _ _ _ _ _ _ E Hd1) as HI. pose proof (di_held _ _ _ HI _ _ Hh) as Hu.
  pose proof (run_step _ _ _ _ _ _ _ _ E Es) as E2. pose proof (dev_run _ _ _ _ _ _ E2 Hd) as HI2.
  destruct (ev_import _ _ _ _ _ _ _ _ _ M He) as (cur & o & El & Et & _ & Ei & Ex & _ & A).
  assert (Hfresh : forall d', o = Some d' -> d_bus_id d' <> d_bus_id d).
  { intros d' -> Hid. apply import_some in Ei as (l1 & l2 & (Ea & _) & _).
    pose proof (avail_not_used (y_server s) d' (proj2 (C25_conserved _ _ _ _ _ _ _ E Hd1)) (di_filed _ _ _ HI)) as Ha.
    rewrite Ea, Hid, Hu in Ha. by specialize (Ha ltac:(apply elem_of_app; right; left)). }
  split.
  - destruct o as [d'|]; [|apply import_none in Ei as [-> _]; done].
    apply import_some in Ei as (l1 & l2 & _ & ->). cbn [sv_used].
    rewrite lookup_insert_ne; [done|]. by apply Hfresh.
  - intros u d' Hu' Hid. destruct (decide (u = t)) as [-> |Hne].
    + assert (Hht : held (evs ++ ev) t = o \/ held (evs ++ ev) t = None).
      { rewrite held_app. clear -A Ex. inversion A; subst; destruct o; cbn; rewrite ?N.eqb_refl; auto. }
      destruct Hht as [Hht|Hht]; rewrite Hht in Hu'; [|done]. by eapply Hfresh.
    + rewrite (held_step _ _ _ _ _ _ _ M) in Hu' by (subst l; cbn; congruence).
      apply Hne. by eapply (di_excl _ _ _ HI).
Qed.
Print Assumptions C27_reimport_leaks_partial.

(** A request with an unsupported recipient: serving it panics. *)
Definition ex_bad : submit := submit_cmd 0 0 0 [2; 9; 1; 0; 0; 0; 0; 0] [].
(** Three ways for connection 1 to leave its device behind for good. *)
Definition leaves : list (list (label ex_h)) :=
  [[LSendErr 1 (EHandler 32)];                                   (* the reply cannot be written *)
   LSent 1 :: do_submit 1 ex_bad;                                (* serving a URB panics *)
   LSent 1 :: do_import 1 id_b ++ [LSent 1] ++ do_close 1].      (* import another device, then leave *)
Theorem C27_always_released_refuted : forall dbg l, l ∈ leaves -> exists s evs r,
  run dbg sys0 ([LConnect 1] ++ do_import 1 id_a ++ l) = Some (s, evs) /\
  distinct_ids [ex_dev; dev_b] evs /\
  EvServe 1 (OpReqImport 0 (field_of id_a)) (Val (OpRepImport 0 (Some ex_dev))) ∈ evs /\ EvEnd 1 r ∈ evs /\
  forall ls' s' evs', run dbg s ls' = Some (s', evs') -> distinct_ids [ex_dev; dev_b] (evs ++ evs') ->
    (forall d', d' ∈ sv_available (y_server s') -> d_bus_id d' <> id_a) /\
    (forall t n f d', EvServe t (OpReqImport n f) (Val (OpRepImport 0 (Some d'))) ∈ evs' -> d_bus_id d' <> id_a) /\
    (forall t r, EvRemove t id_a r ∈ evs' -> r = IErr (EDeviceInUse id_a)).
Proof.
  intros dbg l Hl.
  assert (Hv : after (run dbg sys0 ([LConnect 1] ++ do_import 1 id_a ++ l)) (fun s evs =>
    distinct_b [ex_dev; dev_b] evs = true /\
    EvServe 1 (OpReqImport 0 (field_of id_a)) (Val (OpRepImport 0 (Some ex_dev))) ∈ evs /\
    existsb (fun e => match e with EvEnd 1 _ => true | _ => false end) evs = true /\
    sv_used (y_server s) !! id_a = Some ex_dev /\ held evs 1 = None /\ only 1 evs = true)).
  { unfold leaves in Hl. repeat (apply elem_of_cons in Hl as [-> |Hl]); [..|by apply elem_of_nil in Hl];
    destruct dbg; vm_compute; (split; [reflexivity|]); (split; [in_list|]); auto. }
  apply after_run in Hv as (s & evs & E & Hd & Hi & Hr & Hu & Hh & Ho).
  apply existsb_exists in Hr as (e & Hin & He).
  assert (exists r, e = EvEnd 1 r) as [r ->].
  { destruct e as [| | | | |t r]; try done. exists r. destruct t as [|[ | | ]]; done. }
  exists s, evs, r. split; [done|]. split; [by apply distinct_b_spec|]. split; [done|].
  split; [by apply elem_of_list_In|]. intros ls' s' evs' E' Hd'.
  eapply (C27_leak_permanent ex_h dbg [ex_dev; dev_b] ex_world _ s evs ls' s' evs' id_a ex_dev E E' Hd' Hu).
  intros t d'. destruct (decide (t = 1)) as [-> |Ht]; [by rewrite Hh|]. by rewrite (only_held 1).
Qed.
Print Assumptions C27_always_released_refuted.
(** Each way is an instance of the hypotheses of [C27_ends_partial] or [C27_reimport_leaks_partial];
    [C26_example] is one of its first case. *)
Example C27_example : seen ([LConnect 1] ++ do_import 1 id_a ++ [LSendErr 1 (EHandler 32)])
  = Some ([(1, None); (2, None); (3, None)], [id_b], [id_a]).
Proof. vm_compute. reflexivity. Qed.

(** ** C28 *)
Theorem C28_failed_import_partial : forall H dbg ds (w : world H) ls s evs l s' ev t n f,
  run dbg (init_sys ds w) ls = Some (s, evs) -> step dbg s l = Some (s', ev) ->
  forall x, EvServe t (OpReqImport n f) x ∈ ev ->
  (forall d, d ∈ sv_available (y_server s) -> ~ field_names f (d_bus_id d)) ->
  y_server s' = y_server s /\ y_world s' = y_world s /\ x = Val (OpRepImport 1 None) /\
  y_tasks s' !! t = Some (mkTask (PWrite [1;17; 0;3; 0;0;0;1]) None) /\
  forall u, u <> t -> y_tasks s' !! u = y_tasks s !! u /\ held (evs ++ ev) u = held evs u.
Proof.
  intros H dbg ds w ls s evs l s' ev t n f E Es x He Hn. pose proof (step_move _ _ _ _ _ Es) as M.
  destruct (ev_import _ _ _ _ _ _ _ _ _ M He) as (cur & o & El & Et & _ & Ei & Ex & Ew & A).
  assert (o = None) as ->.
  { destruct o as [d|]; [|done]. apply import_iff in Ei as (l1 & l2 & (Ea & Hf & _) & _).
    destruct (Hn d); [|done]. rewrite Ea. apply elem_of_app. right. left. }
  apply import_none in Ei as [Hsv _]. split; [done|]. split; [done|]. split; [done|]. split.
  - subst x. inversion A as [b Hb Es' Ev|e Hb]; subst.
    + apply Val_inj in Hb. subst b. apply lookup_insert.
    + by destruct (Hb [1;17; 0;3; 0;0;0;1]).
  - intros u Hu. split; [eapply move_bystander|eapply held_step]; try exact M; subst l; cbn; congruence.
Qed.
Print Assumptions C28_failed_import_partial.

Definition no_such_id : rstring := lit "9-9-9".
Definition ex_in_reply : response :=
  usbip_ret_submit_success (mkHeader 3 9 65538 1 1) 0 0 [65; 66] [].
(** Connection 1 imports a device and uses it; then it asks for one that does not exist: the
    reply is the failure, but the connection has lost its device, and the same URB now panics. *)
Theorem C28_unchanged_refuted : forall dbg, exists s1 evs1 s2 evs2,
  run dbg sys0 ([LConnect 1] ++ do_import 1 id_a ++ [LSent 1] ++ do_submit 1 ex_in ++ [LSent 1]) = Some (s1, evs1) /\
  (exists r, EvServe 1 (CmdSubmit ex_in) (Val r) ∈ evs1) /\ held evs1 1 = Some ex_dev /\
  run dbg s1 (do_import 1 no_such_id ++ [LSent 1] ++ do_submit 1 ex_in) = Some (s2, evs2) /\
  EvServe 1 (OpReqImport 0 (field_of no_such_id)) (Val (OpRepImport 1 None)) ∈ evs2 /\
  held (evs1 ++ evs2) 1 = None /\
  EvServe 1 (CmdSubmit ex_in) (Panic PUnwrapNone) ∈ evs2 /\ EvEnd 1 (EndPanic PUnwrapNone) ∈ evs2.
Proof.
  intros dbg.
  assert (Hv : after (run dbg sys0 ([LConnect 1] ++ do_import 1 id_a ++ [LSent 1] ++ do_submit 1 ex_in ++ [LSent 1]))
    (fun s1 evs1 => (EvServe 1 (CmdSubmit ex_in) (Val ex_in_reply) ∈ evs1 /\ held evs1 1 = Some ex_dev) /\
     after (run dbg s1 (do_import 1 no_such_id ++ [LSent 1] ++ do_submit 1 ex_in)) (fun s2 evs2 =>
       EvServe 1 (OpReqImport 0 (field_of no_such_id)) (Val (OpRepImport 1 None)) ∈ evs2 /\
       held (evs1 ++ evs2) 1 = None /\
       EvServe 1 (CmdSubmit ex_in) (Panic PUnwrapNone) ∈ evs2 /\ EvEnd 1 (EndPanic PUnwrapNone) ∈ evs2))).
  { destruct dbg; vm_compute; split_and!; try reflexivity; in_list. }
  apply after_run in Hv as (s1 & evs1 & E1 & (Hs & Hh) & Hv). apply after_run in Hv as (s2 & evs2 & E2 & Hv).
  exists s1, evs1, s2, evs2. split; [done|]. split; [by eexists|]. done.
Qed.
Print Assumptions C28_unchanged_refuted.
(** The hypotheses of the partial theorem are met by the failing request above. *)
Example C28_example : forall d, d ∈ [ex_dev; dev_b] -> ~ field_names (field_of no_such_id) (d_bus_id d).
Proof.
  intros d Hd Hf. apply field_names_spec in Hf.
  repeat (apply elem_of_cons in Hd as [-> |Hd]); [..|by apply elem_of_nil in Hd]; by vm_compute in Hf.
Qed.

(** ** C29 *)
Lemma app_two {A} (l : list A) x y : l ++ [x; y] = (l ++ [x]) ++ [y].
Proof. by rewrite <- app_assoc. Qed.
Lemma listed_run {H} dbg ds (w : world H) ls s evs : run dbg (init_sys ds w) ls = Some (s, evs) ->
  distinct_ids ds evs -> listed ds evs (sv_available (y_server s)).
Proof.
  intros E. revert ls s evs E.
  match goal with |- forall ls1 s1 e1, _ -> @?Q ls1 s1 e1 => apply (run_ind dbg (init_sys ds w) Q) end; [constructor|].
  intros ls1 s1 e1 l s' ev E IH Es Hd. specialize (IH (distinct_app _ _ _ Hd)).
  pose proof (step_move _ _ _ _ _ Es) as M. pose proof (dev_run _ _ _ _ _ _ E (distinct_app _ _ _ Hd)) as HI.
  assert (Hans : forall (s0 : sys H) t cur c r, answered dbg s0 t cur c r s' ev ->
    listed ds (e1 ++ [EvServe t c r]) (sv_available (y_server s0)) ->
    listed ds (e1 ++ ev) (sv_available (y_server s'))).
  { intros s0 t cur c r A Hq. destruct (answered_server _ _ _ _ _ _ _ _ A) as (-> & _ & _).
    inversion A; subst; [done|]. rewrite app_two. by apply ls_other. }
  inversion M; subst; rewrite ?app_nil_r; try exact IH; cbn [y_server set_task set_server set_world set_used set_avail
    want_used want_avail drop_guards sv_available add_device]; try (by apply ls_other);
    try (eapply Hans; [eassumption|by apply ls_other]).
  - (* import *)
    eapply Hans; [eassumption|]. cbn [y_server set_server].
    match goal with Ei : import_device _ _ = (_, ?r) |- _ => destruct r as [d|] end.
    + match goal with Ei : import_device _ _ = _ |- _ => apply import_some in Ei as (l1 & l2 & (Ea & _) & ->) end.
      cbn [sv_available import_response op_rep_import_success]. apply ls_import. by rewrite <- Ea.
    + match goal with Ei : import_device _ _ = _ |- _ => apply import_none in Ei as [-> _] end.
      apply ls_other; [done|]. by eexists.
  - (* release *)
    match goal with Et : y_tasks s1 !! ?t = Some (mkTask (PRelAvailW _) (Some ?i)), Er : release_device _ _ = _ |- _ =>
      pose proof (di_cur _ _ _ HI _ _ Et eq_refl eq_refl) as Hc; destruct (held e1 t) as [d|] eqn:Hh; [|done];
      injection Hc as ->; unfold release_device in Er; rewrite (di_held _ _ _ HI _ _ Hh) in Er; apply Val_inj in Er; subst
    end.
    cbn [sv_available]. rewrite app_two. apply ls_other; [|done]. by apply ls_release.
  - by apply ls_add.
  - match goal with Er : remove_available _ _ = _ |- _ => apply remove_available_some in Er as (d & l1 & l2 & (Ea & <- & _) & ->) end.
    cbn [sv_available]. apply ls_remove. by rewrite <- Ea.
Qed.

(** What a device list contains follows from the history: imported devices are missing, released
    and added ones are at the end.  Making the list changes nothing. *)
Theorem C29_list_is_available : forall H dbg ds (w : world H) ls s evs l s' ev t n r,
  run dbg (init_sys ds w) ls = Some (s, evs) -> distinct_ids ds evs ->
  step dbg s l = Some (s', ev) -> EvServe t (OpReqDevlist n) r ∈ ev ->
  y_server s' = y_server s /\ y_world s' = y_world s /\ (forall u, held (evs ++ ev) u = held evs u \/ u = t) /\
  exists ds', listed ds evs ds' /\ r = Val (op_rep_devlist ds') /\
    Forall (fun d => sv_used (y_server s) !! d_bus_id d = None) ds' /\
    (forall x, x ∈ ledger ds evs <-> x ∈ ds' \/ x ∈ in_use (y_server s)).
Proof.
  intros H dbg ds w ls s evs l s' ev t n r E Hd Es He. pose proof (step_move _ _ _ _ _ Es) as M.
  destruct (ev_devlist _ _ _ _ _ _ _ _ M He) as (cur & El & _ & Er & Hsv & Hw & _).
  split; [done|]. split; [done|]. split.
  { intros u. destruct (decide (u = t)); [by right|left]. eapply held_step; [exact M|]. subst l. cbn. congruence. }
  exists (sv_available (y_server s)). split; [by eapply listed_run|]. split; [done|].
  pose proof (dev_run _ _ _ _ _ _ E Hd) as HI. split.
  - apply Forall_forall. intros d Hin. apply avail_not_used; [|apply (di_filed _ _ _ HI)|done].
    by apply (C25_conserved _ _ _ _ _ _ _ E Hd).
  - intros x. rewrite <- (di_ledger _ _ _ HI). unfold all_devices. apply elem_of_app.
Qed.
Print Assumptions C29_list_is_available.
(** The client can read it back. *)
Theorem C29_list_decodable : forall H dbg ds (w : world H) ls s evs l s' ev t n r,
  run dbg (init_sys ds w) ls = Some (s, evs) -> distinct_ids ds evs ->
  step dbg s l = Some (s', ev) -> EvServe t (OpReqDevlist n) r ∈ ev ->
  Forall (fun d => typed_device d /\ fits d /\ (0 ∉ d_path d /\ 0 ∉ d_bus_id d) /\ len (d_interfaces d) <= 255) (ledger ds evs) ->
  len (ledger ds evs) < 4294967296 ->
  exists ds' b cur, listed ds evs ds' /\ y_tasks s' !! t = Some (mkTask (PWrite b) cur) /\
    forall rest, p_devlist (b ++ rest) = Some (client_view <$> ds', rest).
Proof.
  intros H dbg ds w ls s evs l s' ev t n r E Hd Es He Hok Hlen. pose proof (step_move _ _ _ _ _ Es) as M.
  destruct (ev_devlist _ _ _ _ _ _ _ _ M He) as (cur & El & _ & Er & Hsv & Hw & A).
  pose proof (dev_run _ _ _ _ _ _ E Hd) as HI. pose proof (di_ledger _ _ _ HI) as Hp. rewrite <- Hp in Hok.
  unfold len in Hlen. rewrite <- (Permutation_length Hp) in Hlen. unfold all_devices in Hok, Hlen.
  apply Forall_app in Hok as [Hok _]. rewrite app_length in Hlen.
  destruct (C08_devlist_encodable dbg (sv_available (y_server s))) as [b Hb].
  { eapply Forall_impl; [exact Hok|]. cbn. tauto. }
  exists (sv_available (y_server s)), b, cur. split; [by eapply listed_run|]. split.
  - subst r. inversion A as [b' Hb' Es' Ev|e Hb']; subst.
    + cbn [obind] in Hb'. rewrite Hb in Hb'. apply Val_inj in Hb'. subst b'. apply lookup_insert.
    + by destruct (Hb' b).
  - intros rest. eapply C08_devlist_decodable; [exact Hok| |exact Hb]. unfold len. lia.
Qed.
Print Assumptions C29_list_decodable.
(** Listed devices, and no others, can be imported. *)
Theorem C29_listed_iff_importable : forall H dbg ds (w : world H) ls s evs d,
  run dbg (init_sys ds w) ls = Some (s, evs) -> distinct_ids ds evs ->
  valid_ids (ledger ds evs) -> requestable (d_bus_id d) ->
  d ∈ sv_available (y_server s) <->
  exists f sv', length f = 32%nat /\ import_device (y_server s) f = (sv', Some d).
Proof.
  intros H dbg ds w ls s evs d E Hd Hv Hr.
  destruct (C25_conserved _ _ _ _ _ _ _ E Hd) as [Hp Hnd]. unfold valid_ids in Hv. rewrite <- Hp in Hv.
  unfold all_devices in Hv, Hnd. rewrite fmap_app in Hnd. apply NoDup_app in Hnd as (Hnd & _ & _).
  apply Forall_app in Hv as [Hv _]. split.
  - intros Hin. destruct (importable (y_server s) d Hin Hnd Hv Hr) as [sv' Hi].
    exists (field_of (d_bus_id d)), sv'. split; [|done]. apply field_of_length, Hr.
  - intros (f & sv' & _ & Hi). apply import_iff in Hi as (l1 & l2 & (-> & _) & _). apply elem_of_app. right. left.
Qed.
Print Assumptions C29_listed_iff_importable.
Definition lists (ls : list (label ex_h)) : option (list (list rstring)) :=
  match run false sys0 ls with
  | Some (_, evs) => Some (evs ≫= fun e => match e with
                                      | EvServe _ _ (Val (OpRepDevlist _ _ ds)) => [d_bus_id <$> ds]
                                      | _ => [] end)
  | None => None
  end.
Example C29_example :
  lists ([LConnect 1; LConnect 2] ++ do_list 2 ++ [LSent 2] ++ do_import 1 id_a ++ [LSent 1] ++ do_list 2 ++ [LSent 2]
    ++ do_close 1 ++ do_list 2) = Some [[id_a; id_b]; [id_b]; [id_b; id_a]].
Proof. vm_compute. reflexivity. Qed.

(** ** C30 *)
Lemma remove_missing_in_use sv id : (exists d, d ∈ in_use sv /\ d_bus_id d = id) <-> remove_missing sv id = EDeviceInUse id.
Proof.
  unfold remove_missing, in_use. destruct (existsb _ _) eqn:Ex; split; try done.
  - intros _. apply existsb_exists in Ex as ([k d] & Hin & Hid). exists d. split.
    + apply elem_of_list_fmap. exists (k, d). split; [done|]. by apply elem_of_list_In.
    + by apply bool_decide_eq_true in Hid.
  - intros (d & Hin & Hid). apply elem_of_list_fmap in Hin as ([k d'] & -> & Hin).
    apply (not_true_iff_false _) in Ex. destruct Ex. apply existsb_exists. exists (k, d').
    split; [by apply elem_of_list_In|]. by apply bool_decide_eq_true.
Qed.
Theorem C30_remove_device : forall H dbg ds (w : world H) ls s evs l s' ev t id r,
  run dbg (init_sys ds w) ls = Some (s, evs) -> step dbg s l = Some (s', ev) -> EvRemove t id r ∈ ev ->
  sv_used (y_server s') = sv_used (y_server s) /\ y_world s' = y_world s /\
  ((exists d l1 l2, first_such (fun d => d_bus_id d = id) (sv_available (y_server s)) d l1 l2 /\
      r = IOk tt /\ sv_available (y_server s') = l1 ++ l2) \/
   (forall d, d ∈ sv_available (y_server s) -> d_bus_id d <> id) /\
   sv_available (y_server s') = sv_available (y_server s) /\
   (((exists d, d ∈ in_use (y_server s) /\ d_bus_id d = id) /\ (exists e, r = IErr e /\ kind_of e = KOther)) \/
    (~ (exists d, d ∈ in_use (y_server s) /\ d_bus_id d = id) /\ (exists e, r = IErr e /\ kind_of e = KNotFound)))).
Proof.
  intros H dbg ds w ls s evs l s' ev t id r E Es He. pose proof (step_move _ _ _ _ _ Es) as M.
  destruct (ev_remove _ _ _ _ _ _ _ _ M He) as (_ & Hw & _ & _ & [(_ & Hr & ->)|([cur Et] & Hs & ->)]).
  - apply remove_available_some in Hr as (d & l1 & l2 & Hf & ->). split; [done|]. split; [done|]. left.
    by exists d, l1, l2.
  - rewrite Hs. split; [done|]. split; [done|]. right. split.
    + apply (proj2 (rem_run _ _ _ _ _ _ E)) in Et. apply remove_available_none in Et. by apply Forall_forall.
    + split; [done|]. rewrite remove_missing_in_use. unfold remove_missing.
      destruct (existsb _ _); [left|right]; (split; [done|]); by eexists.
Qed.
Print Assumptions C30_remove_device.
Definition removals (ls : list (label ex_h)) : option (list (rstring * ioresult unit)) :=
  match run false sys0 ls with
  | Some (_, evs) => Some (evs ≫= fun e => match e with EvRemove _ id r => [(id, r)] | _ => [] end)
  | None => None
  end.
Definition rem_fail (t : tid) (id : rstring) : list (label ex_h) := [LRemove t id; LGrantAvail; LRun t; LGrantUsed; LRun t].
Example C30_example :
  removals ([LConnect 1] ++ do_import 1 id_a ++ [LSent 1] ++ rem_fail 5 id_a ++ rem_one 6 id_b ++ rem_fail 7 id_b)
  = Some [(id_a, IErr (EDeviceInUse id_a)); (id_b, IOk tt); (id_b, IErr (EDeviceNotFound id_b))].
Proof. vm_compute. reflexivity. Qed.

(** ** C31 *)
Theorem C31_add_device : forall H dbg ds (w : world H) ls s evs l s' ev t d,
  run dbg (init_sys ds w) ls = Some (s, evs) -> step dbg s l = Some (s', ev) -> EvAdd t d ∈ ev ->
  sv_available (y_server s') = sv_available (y_server s) ++ [d] /\
  sv_used (y_server s') = sv_used (y_server s) /\ y_world s' = y_world s /\
  forall u, u <> t -> y_tasks s' !! u = y_tasks s !! u /\ held (evs ++ ev) u = held evs u.
Proof.
  intros H dbg ds w ls s evs l s' ev t d E Es He. pose proof (step_move _ _ _ _ _ Es) as M.
  destruct (ev_add _ _ _ _ _ _ _ M He) as (El & -> & Hw & _). split; [done|]. split; [done|]. split; [done|].
  intros u Hu. split; [eapply move_bystander|eapply held_step]; try exact M; subst l; cbn; congruence.
Qed.
Print Assumptions C31_add_device.
(** The call completes: this is what its own steps do when the lock is free. *)
Theorem C31_add_completes : forall H dbg (s : sys H) t d,
  y_tasks s !! t = None -> lk_holders (y_avail s) = [] -> lk_queue (y_avail s) = [] ->
  exists s', run dbg s [LAdd t d; LGrantAvail; LRun t] = Some (s', [EvAdd t d]) /\
    sv_available (y_server s') = sv_available (y_server s) ++ [d] /\
    lk_holders (y_avail s') = [] /\ lk_queue (y_avail s') = [].
Proof.
  intros H dbg [sv w lu [hs q] ts] t d Ht Hh Hq. cbn in *. subst hs q. rewrite Ht. cbn. rewrite lookup_insert. cbn.
  assert (Hl : lk_holds t MWrite (mkLock [(t, MWrite)] []) = true) by (apply lk_holds_in; left).
  rewrite Hl. eexists. split; [reflexivity|]. cbn. by rewrite N.eqb_refl.
Qed.
Print Assumptions C31_add_completes.
Example C31_example : seen (add_one 7 (mkDevice (lit "p") (lit "x") 0 0 0 0 0 (mkVersion 0 0 0) 0 0 0 0 0 [] None
    (mkVersion 0 0 0) (mkEndpoint 0 0 0 0) (mkEndpoint 0 0 0 0) ∅ 0 0 0 0))
  = Some ([(1, None); (2, None); (3, None)], [id_a; id_b; lit "x"], []).
Proof. vm_compute. reflexivity. Qed.

(** ** C32 *)
(** Two devices with the same bus id: both clients get "their own" device, but the table has room
    for one only.  After the first client left, the second one's disconnect panics, and one device
    is gone. *)
Definition twin : device :=
  mkDevice (lit "/sys/bus/0/0/1") (lit "0-0-0") 0 1 3 4660 22136 (mkVersion 1 2 0) 0 0 0 1 1
    [ex_intf] None (mkVersion 2 0 0) (mkEndpoint 128 0 64 0) (mkEndpoint 0 0 64 0) ∅ 1 2 3 4.
Theorem C32_duplicates_refuted : forall dbg,
  (exists s evs, run dbg (init_sys [ex_dev; twin] ex_world)
       ([LConnect 1; LConnect 2] ++ do_import 1 id_a ++ [LSent 1] ++ do_import 2 id_a ++ [LSent 2]) = Some (s, evs) /\
     held evs 1 = Some ex_dev /\ held evs 2 = Some twin /\ all_devices (y_server s) = [twin]) /\
  (exists s evs, run dbg (init_sys [ex_dev; twin] ex_world)
       ([LConnect 1; LConnect 2] ++ do_import 1 id_a ++ [LSent 1] ++ do_import 2 id_a ++ [LSent 2]
        ++ do_close 1 ++ do_close 2) = Some (s, evs) /\
     EvEnd 2 (EndPanic PUnreachable) ∈ evs /\ all_devices (y_server s) = [twin]).
Proof.
  intros dbg. split.
  - apply after_run. destruct dbg; vm_compute; auto.
  - apply after_run. destruct dbg; vm_compute; (split; [in_list|reflexivity]).
Qed.
Print Assumptions C32_duplicates_refuted.
(** Every device made by [UsbDevice::new] has the same bus id. *)
Theorem C32_new_devices_share_id : forall dbg n, exists d, new_device dbg n = Val d /\ d_bus_id d = id_a.
Proof. intros dbg n. destruct dbg; eexists; (split; [vm_compute; reflexivity|vm_compute; reflexivity]). Qed.
Print Assumptions C32_new_devices_share_id.

(** ** C33 *)
Theorem C33_selection : forall H dbg ds (w : world H) ls s evs l s' ev t n f x,
  run dbg (init_sys ds w) ls = Some (s, evs) -> step dbg s l = Some (s', ev) ->
  EvServe t (OpReqImport n f) x ∈ ev ->
  (exists d l1 l2, first_such (fun d => field_names f (d_bus_id d)) (sv_available (y_server s)) d l1 l2 /\
     x = Val (OpRepImport 0 (Some d)) /\ sv_available (y_server s') = l1 ++ l2 /\
     sv_used (y_server s') = <[d_bus_id d := d]> (sv_used (y_server s))) \/
  ((forall d, d ∈ sv_available (y_server s) -> ~ field_names f (d_bus_id d)) /\
   x = Val (OpRepImport 1 None) /\ y_server s' = y_server s).
Proof.
  intros H dbg ds w ls s evs l s' ev t n f x E Es He. pose proof (step_move _ _ _ _ _ Es) as M.
  destruct (ev_import _ _ _ _ _ _ _ _ _ M He) as (cur & o & _ & _ & _ & Ei & -> & _ & _).
  destruct o as [d|].
  - apply import_iff in Ei as (l1 & l2 & Hf & ->). left. by exists d, l1, l2.
  - apply import_none_iff in Ei as [Hf ->]. right. split; [by apply Forall_forall|done].
Qed.
Print Assumptions C33_selection.
(** The request of [n] bytes that names [id]: at most one id is named by a field. *)
Theorem C33_unambiguous : forall f id id', is_rstring id = true -> is_rstring id' = true ->
  field_names f id -> field_names f id' -> id = id'.
Proof.
  intros f id id' Hv Hv' Hf Hf'. apply field_names_spec in Hf, Hf'. apply utf8_inj; [done..|]. congruence.
Qed.
Print Assumptions C33_unambiguous.
Theorem C33_selectable : forall id, is_rstring id = true ->
  (exists f, length f = 32%nat /\ all_u8 f = true /\ field_names f id) <-> len (utf8 id) <= 32 /\ 0 ∉ utf8 id.
Proof.
  intros id Hv. split.
  - intros (f & Hl & _ & Hn & Hf). split; [|done]. unfold len.
    destruct Hf as [-> |[junk ->]]; [|rewrite app_length in Hl]; lia.
  - intros [Hl Hn]. exists (field_of id). split; [by apply field_of_length|]. split; [|by apply field_of_names].
    apply all_u8_spec. unfold field_of. apply Forall_app. split; [by apply utf8_u8|]. apply Forall_replicate. lia.
Qed.
Print Assumptions C33_selectable.
Example C33_example : field_names (utf8 id_b ++ 0 :: replicate 26 7) id_b /\
  field_names (replicate 32 65) (replicate 32 65) /\
  ~ field_names (utf8 id_b ++ 0 :: replicate 26 7) id_a.
Proof.
  split_and!; rewrite field_names_spec; by vm_compute.
Qed.

(** ** C34 *)
(** A connection starts importing while [remove_device] runs; the same happens with [C26_released_refuted]. *)
Definition deadlock_imp : list (label ex_h) :=
  [LConnect 1; LRecv 1 (OpReqImport 0 (field_of id_a)); LGrantUsed; LRun 1; LRemove 5 no_such_id; LGrantAvail;
   LRun 1; LGrantUsed; LRun 1; LRun 5].
(** Whatever clients, application and scheduler do, nothing is served, released, added or removed
    any more, although nobody is writing to a socket. *)
Theorem C34_deadlock_free_refuted : forall dbg ls, ls ∈ [deadlock_rel; deadlock_imp] -> exists s evs,
  run dbg sys0 ls = Some (s, evs) /\ distinct_ids [ex_dev; dev_b] evs /\
  (forall u, ~ writing s u) /\ pending s 1 /\ pending s 5 /\
  forall ls' s' evs', run dbg s ls' = Some (s', evs') ->
    pending s' 1 /\ pending s' 5 /\ Forall (fun e => ~ effect e) evs'.
Proof.
  intros dbg ls Hls.
  assert (Hv : after (run dbg sys0 ls) (fun s evs => distinct_b [ex_dev; dev_b] evs = true /\ nobody_writes s = true /\
    (at_pc s 5 = Some (PRemUsedR id_a) \/ at_pc s 5 = Some (PRemUsedR no_such_id)) /\
    (at_pc s 1 = Some (PRelAvailW EUnexpectedEof) \/ at_pc s 1 = Some (PImpAvailW 0 (field_of id_a))))).
  { repeat (apply elem_of_cons in Hls as [-> |Hls]); [..|by apply elem_of_nil in Hls]; destruct dbg; vm_compute; auto. }
  apply after_run in Hv as (s & evs & E & Hd & Hw & T5 & T1). exists s, evs. split; [done|].
  split; [by apply distinct_b_spec|]. split; [by apply nobody_writes_spec|].
  assert (HL : locks_ok s) by (apply (rem_run _ _ _ _ _ _ E)).
  assert (HD : dead s 5 1).
  { destruct T5 as [[c5 T5]%at_pc_task|[c5 T5]%at_pc_task], T1 as [[c1 T1]%at_pc_task|[c1 T1]%at_pc_task]; by do 4 eexists. }
  assert (H1 : pending s 1) by (destruct T1 as [[c T1]%at_pc_task|[c T1]%at_pc_task]; do 2 eexists; (split; [exact T1|by eexists])).
  assert (H5 : pending s 5) by (destruct T5 as [[c T5]%at_pc_task|[c T5]%at_pc_task]; do 2 eexists; (split; [exact T5|by eexists])).
  split; [done|]. split; [done|].
  intros ls' s' evs' E'. destruct (dead_run _ _ _ _ _ _ _ HL HD E') as (K5 & K1 & He).
  split; [|split; [|done]]; [destruct H1 as (p & c & Hp & ?)|destruct H5 as (p & c & Hp & ?)];
    exists p, c; rewrite ?K1, ?K5; done.
Qed.
Print Assumptions C34_deadlock_free_refuted.
(** There is no other deadlock: if nothing can move and nobody is writing, then a [remove_device]
    call holds the list of available devices and waits for the in-use table, and somebody holds
    the table and waits for the list. *)
Theorem C34_only_deadlock_partial : forall H dbg ds (w : world H) ls s evs t,
  run dbg (init_sys ds w) ls = Some (s, evs) -> stuck dbg s -> pending s t -> (forall u, ~ writing s u) ->
  exists r id c1 v p c2 m1 m2, y_tasks s !! r = Some (mkTask (PRemUsedR id) c1) /\
    (r, MWrite) ∈ lk_holders (y_avail s) /\
    y_tasks s !! v = Some (mkTask p c2) /\ waits_for p = Some (Available, m1) /\ (v, m2) ∈ lk_holders (y_used s).
Proof.
  intros H dbg ds w ls s evs t E Hs Hp Hw.
  destruct (rem_run _ _ _ _ _ _ E) as [HL _].
  destruct (stuck_cause dbg s t HL (rel_run _ _ _ _ _ _ E) Hs Hp) as
    [(u & Hu & _)|[(r & id & c1 & v & p & c2 & m1 & m2 & Hr & Hv)|(r & id & c1 & _ & u & Hu & _)]].
  - by edestruct Hw.
  - exists r, id, c1, v, p, c2, m1, m2. split; [done|]. split; [|done].
    by destruct (fp_of s r _ _ HL Hr) as [_ Ha].
  - by edestruct Hw.
Qed.
Print Assumptions C34_only_deadlock_partial.
(** Two connections and a [remove_device] call that can all still move. *)
Example C34_example : exists s evs,
  run false sys0 [LConnect 1; LConnect 2; LRecv 1 (OpReqImport 0 (field_of id_a)); LRecv 2 (OpReqDevlist 0);
    LRemove 5 id_b] = Some (s, evs) /\ pending s 1 /\ pending s 2 /\ pending s 5.
Proof.
  destruct (after_run (run false sys0 [LConnect 1; LConnect 2; LRecv 1 (OpReqImport 0 (field_of id_a)); LRecv 2 (OpReqDevlist 0);
    LRemove 5 id_b]) (fun s _ => at_pc s 1 = Some (PUsedR (OpReqImport 0 (field_of id_a))) /\
    at_pc s 2 = Some (PUsedR (OpReqDevlist 0)) /\ at_pc s 5 = Some (PRemAvailW id_b)))
    as (s & evs & E & [c1 T1]%at_pc_task & [c2 T2]%at_pc_task & [c5 T5]%at_pc_task); [vm_compute; auto|].
  exists s, evs. split; [done|]. split_and!; do 2 eexists; (split; [eassumption|by eexists]).
Qed.

(** ** C35 *)
(** From every reachable state, running internal steps only: every such run is finite, with a
    bound known in advance; one that cannot be extended exists; and when no internal step is
    possible any more, then, unless some [remove_device] call waits for the in-use table, each
    operation that is still waiting waits for a lock held by a task that is writing to its socket. *)
Theorem C35_progress : forall H dbg ds (w : world H) ls s evs,
  run dbg (init_sys ds w) ls = Some (s, evs) ->
  (exists bound, forall ls' s' evs', run dbg s ls' = Some (s', evs') ->
     Forall (fun l => is_internal l = true) ls' -> (length ls' <= bound)%nat) /\
  (exists ls' s' evs', run dbg s ls' = Some (s', evs') /\ Forall (fun l => is_internal l = true) ls' /\ stuck dbg s') /\
  (forall ls' s' evs', run dbg s ls' = Some (s', evs') -> stuck dbg s' ->
     (forall u id cur, y_tasks s' !! u <> Some (mkTask (PRemUsedR id) cur)) ->
     forall t, pending s' t -> exists u, writing s' u /\ behind s' t u).
Proof.
  intros H dbg ds w ls s evs E. split; [|split].
  - exists (work s). intros ls' s' evs' E' Hi. pose proof (internal_run _ _ _ _ _ E' Hi). lia.
  - apply reach_stuck.
  - intros ls' s' evs' E' Hs Hr t Hp. pose proof (run_app_intro _ _ _ _ _ _ _ _ E E') as E2.
    destruct (stuck_cause dbg s' t (proj1 (rem_run _ _ _ _ _ _ E2)) (rel_run _ _ _ _ _ _ E2) Hs Hp) as
      [Hu|[(r & id & c1 & ? & ? & ? & ? & ? & Hu & _)|(r & id & c1 & Hu & _)]]; [done|by edestruct Hr|by edestruct Hr].
Qed.
Print Assumptions C35_progress.
(** If moreover nobody is blocked writing, every operation completes. *)
Theorem C35_completes : forall H dbg ds (w : world H) ls s evs ls' s' evs',
  run dbg (init_sys ds w) ls = Some (s, evs) -> run dbg s ls' = Some (s', evs') -> stuck dbg s' ->
  (forall u id cur, y_tasks s' !! u <> Some (mkTask (PRemUsedR id) cur)) -> (forall u, ~ writing s' u) ->
  forall t p cur, y_tasks s' !! t = Some (mkTask p cur) ->
    p = PRead \/ (exists r, p = PEnd r) \/ p = PAdded \/ exists r, p = PRemoved r.
Proof.
  intros H dbg ds w ls s evs ls' s' evs' E E' Hs Hr Hw t p cur Et.
  destruct (waits_for p) as [[n m]|] eqn:Hwf.
  - destruct (proj2 (proj2 (C35_progress _ _ _ _ _ _ _ E)) _ _ _ E' Hs Hr t) as (u & Hu & _); [|by edestruct Hw].
    exists p, cur. split; [done|]. by rewrite Hwf.
  - destruct p; try discriminate Hwf; eauto.
    + specialize (Hs (LRun t) eq_refl). cbn in Hs. by rewrite Et in Hs.
    + destruct (Hw t). by do 2 eexists.
Qed.
Print Assumptions C35_completes.
Example C35_example : exists s evs s' evs',
  run false sys0 [LConnect 1; LConnect 2; LRecv 1 (OpReqImport 0 (field_of id_a)); LRecv 2 (OpReqDevlist 0)] = Some (s, evs) /\
  run false s [LGrantUsed; LGrantUsed; LRun 1; LRun 1; LRun 2; LGrantAvail; LRun 2] = Some (s', evs') /\
  stuck false s' /\ pending s' 1 /\ writing s' 2.
Proof.
  destruct (after_run (run false sys0 [LConnect 1; LConnect 2; LRecv 1 (OpReqImport 0 (field_of id_a)); LRecv 2 (OpReqDevlist 0)])
    (fun s _ => after (run false s [LGrantUsed; LGrantUsed; LRun 1; LRun 1; LRun 2; LGrantAvail; LRun 2]) (fun s' _ =>
      at_pc s' 1 = Some (PImpUsedW 0 (field_of id_a)) /\
      match at_pc s' 2 with Some (PWrite _) => True | _ => False end /\
      (map_to_list (y_tasks s')).*1 = [1; 2] /\
      match step false s' LGrantUsed with None => True | _ => False end /\
      match step false s' LGrantAvail with None => True | _ => False end /\
      match step false s' (LRun 1) with None => True | _ => False end /\
      match step false s' (LRun 2) with None => True | _ => False end)))
    as (s & evs & E & Hv); [vm_compute; auto 10|].
  apply after_run in Hv as (s' & evs' & E' & [c1 T1]%at_pc_task & T2 & Hm & G1 & G2 & G3 & G4).
  exists s, evs, s', evs'. split; [done|]. split; [done|]. split_and!.
  - intros l Hl. destruct l as [| | | | | | | | | | |t]; try discriminate Hl.
    + by destruct (step false s' LGrantUsed).
    + by destruct (step false s' LGrantAvail).
    + destruct (y_tasks s' !! t) as [k|] eqn:Ek; [|cbn; by rewrite Ek].
      apply elem_of_map_to_list, (elem_of_list_fmap_1 fst) in Ek. rewrite Hm in Ek. cbn in Ek.
      repeat (apply elem_of_cons in Ek as [-> |Ek]); [by destruct (step false s' (LRun 1))|by destruct (step false s' (LRun 2))|].
      by apply elem_of_nil in Ek.
  - do 2 eexists. split; [exact T1|by eexists].
  - destruct (at_pc s' 2) as [p|] eqn:Ep; [|done]. destruct p; try done. apply at_pc_task in Ep as [c Ep]. by do 2 eexists.
Qed.

(** ** C36 *)
(** The state of [t]: it waits behind [u], which is writing to its socket. *)
Definition blocked_by {H} (s : sys H) (t u : tid) : Prop :=
  writing s u /\ t <> u /\ t ∉ (lk_holders (y_used s)).*1 /\
  ((u, MWrite) ∈ lk_holders (y_used s) \/
   exists q1 v q2, lk_queue (y_used s) = q1 ++ (v, MWrite) :: q2 /\ t ∉ q1.*1).
(** As long as [u]'s client does not read, [t] is not served, whatever everybody else does; [t] need
    not even have sent its request, or connected, yet. *)
Theorem C36_stall : forall H dbg ds (w : world H) ls s evs t u ls' s' evs',
  run dbg (init_sys ds w) ls = Some (s, evs) -> blocked_by s t u ->
  run dbg s ls' = Some (s', evs') -> stalled u ls' -> forall c r, EvServe t c r ∉ evs'.
Proof. intros H dbg ds w ls s evs t u ls' s' evs' E. by apply stall_run, (rem_run _ _ _ _ _ _ E). Qed.
Print Assumptions C36_stall.
(** Connection 1 asked for the device list and does not read it; connection 2 wants to import. *)
Definition slow : list (label ex_h) :=
  [LConnect 1; LConnect 2] ++ do_list 1 ++ [LRecv 2 (OpReqImport 0 (field_of id_a)); LGrantUsed; LRun 2; LRun 2].
Theorem C36_slow_client_refuted : forall dbg, exists s evs,
  run dbg sys0 slow = Some (s, evs) /\
  forall t ls' s' evs', t <> 1 -> run dbg s ls' = Some (s', evs') -> stalled 1 ls' ->
    forall c r, EvServe t c r ∉ evs'.
Proof.
  intros dbg.
  destruct (after_run (run dbg sys0 slow) (fun s _ => match at_pc s 1 with Some (PWrite _) => True | _ => False end /\
    lk_holders (y_used s) = [(1, MRead)] /\ lk_queue (y_used s) = [(2, MWrite)])) as (s & evs & E & Hp & Hh & Hq);
    [destruct dbg; vm_compute; auto|].
  exists s, evs. split; [done|]. intros t ls' s' evs' Ht E' Hs.
  eapply (C36_stall ex_h dbg [ex_dev; dev_b] ex_world slow s evs t 1 ls' s' evs' E); [|exact E'|exact Hs].
  split_and!; [|done| |].
  - destruct (at_pc s 1) as [p|] eqn:Ep; [|done]. destruct p; try done. apply at_pc_task in Ep as [c Ep]. by do 2 eexists.
  - rewrite Hh. cbn. rewrite elem_of_list_singleton. done.
  - right. exists [], 2, []. rewrite Hq. split; [done|]. apply not_elem_of_nil.
Qed.
Print Assumptions C36_slow_client_refuted.
(** As long as nobody wants to import or release, slow clients do not disturb those that submit
    and unlink URBs: their commands are served. *)
Theorem C36_readers_partial : forall H dbg ds (w : world H) ls s evs,
  run dbg (init_sys ds w) ls = Some (s, evs) -> stuck dbg s ->
  (forall v, (v, MWrite) ∉ lk_holders (y_used s) ++ lk_queue (y_used s)) ->
  forall t c cur, y_tasks s !! t <> Some (mkTask (PUsedR c) cur).
Proof.
  intros H dbg ds w ls s evs E Hs Hn t c cur Et. destruct (rem_run _ _ _ _ _ _ E) as [HL _].
  destruct (fp_of s t _ _ HL Et) as [Fu _]. cbn in Fu. unfold claims in Fu.
  assert (Hg : lk_grant (y_used s) = None).
  { specialize (Hs LGrantUsed eq_refl). cbn in Hs. by destruct (lk_grant _). }
  assert (Hq : lk_queue (y_used s) <> []).
  { intros Hq. rewrite Hq, app_nil_r in Fu.
    apply (run_enabled dbg s t _ cur Used MRead (rel_run _ _ _ _ _ _ E) Et eq_refl Fu). by apply Hs. }
  unfold lk_grant in Hg. destruct (lk_queue (y_used s)) as [|[v m] q]; [done|].
  assert (m = MRead) as ->.
  { destruct m; [done|]. destruct (Hn v). apply elem_of_app. right. left. }
  assert (Hc : compatible MRead (lk_holders (y_used s)) = true); [|by rewrite Hc in Hg].
  apply forallb_forall. intros [v' m'] Hin. destruct m'; [done|]. destruct (Hn v'). apply elem_of_app. left.
  by apply elem_of_list_In.
Qed.
Print Assumptions C36_readers_partial.
(** Connection 1 does not read its device list; connection 2 is served nevertheless. *)
Example C36_example : forall dbg, exists s evs,
  run dbg sys0 ([LConnect 1; LConnect 2] ++ do_import 2 id_a ++ [LSent 2] ++ do_list 1 ++ do_submit 2 ex_in) = Some (s, evs) /\
  EvServe 2 (CmdSubmit ex_in) (Val ex_in_reply) ∈ evs /\ match at_pc s 1 with Some (PWrite _) => True | _ => False end.
Proof. intros dbg. apply after_run. destruct dbg; vm_compute; (split; [in_list|exact I]). Qed.

(** ** C37 *)
Theorem C37_no_locks : forall H dbg ds (w : world H) ls s evs t r cur,
  run dbg (init_sys ds w) ls = Some (s, evs) -> y_tasks s !! t = Some (mkTask (PEnd r) cur) ->
  forall m, (t, m) ∉ lk_holders (y_used s) ++ lk_queue (y_used s) /\
            (t, m) ∉ lk_holders (y_avail s) ++ lk_queue (y_avail s).
Proof.
  intros H dbg ds w ls s evs t r cur E Et m. destruct (rem_run _ _ _ _ _ _ E) as [HL _].
  destruct (fp_of s t _ _ HL Et) as [Fu Fa]. cbn [used_fp avail_fp] in *. split; by apply fnone_claims.
Qed.
Print Assumptions C37_no_locks.
(** When connection [t] ends, for whatever reason, nothing changes for the others. *)
Theorem C37_others_unaffected : forall H dbg ds (w : world H) ls s evs l s' ev t r,
  run dbg (init_sys ds w) ls = Some (s, evs) -> distinct_ids ds (evs ++ ev) ->
  step dbg s l = Some (s', ev) -> EvEnd t r ∈ ev ->
  (exists cur, y_tasks s' !! t = Some (mkTask (PEnd r) cur)) /\
  forall u, u <> t -> y_tasks s' !! u = y_tasks s !! u /\ held (evs ++ ev) u = held evs u /\
    forall d, held evs u = Some d -> sv_used (y_server s') !! d_bus_id d = Some d.
Proof.
  intros H dbg ds w ls s evs l s' ev t r E Hd Es He. pose proof (step_move _ _ _ _ _ Es) as M.
  pose proof (run_step _ _ _ _ _ _ _ _ E Es) as E2. pose proof (dev_run _ _ _ _ _ _ E2 Hd) as HI.
  assert (Hact : actor l = Some t).
  { pose proof (move_events _ _ _ _ _ M) as Ha. rewrite Forall_forall in Ha. exact (Ha _ He). }
  split.
  - destruct (ev_end _ _ _ _ _ _ _ M He) as (_ & cur & ->). exists cur. apply lookup_insert.
  - intros u Hu. assert (Hne : actor l <> Some u) by congruence.
    split; [by eapply move_bystander|]. pose proof (held_step _ _ _ _ _ evs _ M Hne) as Hh. split; [done|].
    intros d Hd'. apply (di_held _ _ _ HI u). by rewrite Hh.
Qed.
Print Assumptions C37_others_unaffected.
(** Connection 1 panics while serving; connection 2 keeps its device, goes on and disconnects cleanly. *)
Example C37_example :
  seen ([LConnect 1; LConnect 2] ++ do_import 1 id_a ++ [LSent 1] ++ do_import 2 id_b ++ [LSent 2] ++ do_submit 1 ex_bad)
    = Some ([(1, None); (2, Some id_b); (3, None)], [], [id_a; id_b]) /\
  seen ([LConnect 1; LConnect 2] ++ do_import 1 id_a ++ [LSent 1] ++ do_import 2 id_b ++ [LSent 2] ++ do_submit 1 ex_bad
        ++ do_submit 2 ex_in ++ [LSent 2] ++ do_close 2)
    = Some ([(1, None); (2, None); (3, None)], [id_b], [id_a]).
Proof. split; vm_compute; reflexivity. Qed.

(** ** C38 *)
Lemma no_task_yet {H} ds (w : world H) t k : y_tasks (init_sys ds w) !! t <> Some k.
Proof. cbn. by rewrite lookup_empty. Qed.
(** The operations of a concurrent execution, in the order in which they took effect, executed one
    after the other by the sequential functions give the same answers and the same devices and
    handler states. *)
Theorem C38_atomic : forall H dbg ds (w : world H) tr s,
  execution dbg (init_sys ds w) tr s ->
  exists q, does_all dbg (mkSeq (new_simulated ds) w (fun _ => None)) (ops_of tr) q /\
    q_server q = y_server s /\ q_world q = y_world s /\
    forall t c cur, y_tasks s !! t = Some (mkTask (PUsedR c) cur) -> q_cur q t = cur.
Proof.
  intros H dbg ds w tr s E.
  destruct (lin_execution dbg _ tr s (mkSeq (new_simulated ds) w (fun _ => None)) E) as (q & Hq & Hr).
  - apply locks_init.
  - intros t id cur Et. exfalso. by apply (no_task_yet ds w t _ Et).
  - split; try done.
  - exists q. split; [done|]. split; [apply Hr|]. split; [apply Hr|]. intros t c cur Et. by apply (rp_cur _ _ Hr _ _ Et).
Qed.
Print Assumptions C38_atomic.
(** Each operation takes effect between its request and its completion: every task's own history
    is legal (one answer per command, sent as the bytes of that answer, and so on). *)
Theorem C38_real_time : forall H dbg ds (w : world H) tr s t,
  execution dbg (init_sys ds w) tr s -> exists b, legal dbg t SNew (items t tr) b.
Proof.
  intros H dbg ds w tr s t E. destruct (stage_execution dbg _ s tr t SNew E) as (b & Hb & _); [|by exists b].
  unfold pc_of. cbn. by rewrite lookup_empty.
Qed.
Print Assumptions C38_real_time.
(** Every schedule is an execution in this sense. *)
Theorem C38_executions : forall H dbg (s s' : sys H) ls evs,
  run dbg s ls = Some (s', evs) <-> exists tr, execution dbg s tr s' /\ tr.*1 = ls /\ mjoin tr.*2 = evs.
Proof.
  intros H dbg s s' ls evs. split; [apply run_execution|]. intros (tr & E & <- & <-). by apply execution_run.
Qed.
Print Assumptions C38_executions.
Example C38_example : exists s evs,
  run false sys0 ([LConnect 1; LConnect 2] ++ [LRecv 1 (OpReqImport 0 (field_of id_a)); LRecv 2 (OpReqImport 0 (field_of id_a));
    LGrantUsed; LGrantUsed; LRun 1; LRun 2; LRun 1; LRun 2; LGrantUsed; LRun 1; LGrantAvail; LRun 1; LSent 1; LGrantUsed; LRun 2;
    LGrantAvail; LRun 2; LSent 2]) = Some (s, evs) /\ held evs 1 = Some ex_dev /\ held evs 2 = None.
Proof. apply after_run. vm_compute. auto. Qed.
