(** * Devices that share a bus id (C32) *)
From Verif Require Import Examples PropsSys SysFacts ConcProofs DupProofs.

(** ** Computable form, for the examples *)
Fixpoint no_clash_b (ids : list rstring) (evs : list event) : bool :=
  match evs with
  | [] => true
  | e :: evs' =>
      match e with
      | EvServe _ (OpReqImport _ _) (Val (OpRepImport _ (Some d))) => negb (existsb (str_eqb (d_bus_id d)) ids)
      | _ => true
      end && no_clash_b (taken1 ids e) evs'
  end.
Lemma no_clash_b_spec evs : no_clash_b [] evs = true -> no_clash evs.
Proof.
  intros Hb evs1 t n f k d evs2 E. unfold taken. revert evs Hb E. generalize (@nil rstring).
  induction evs1 as [|e evs1 IH]; intros ids evs Hb E; subst evs; cbn in Hb; apply andb_true_iff in Hb as [H1 H2].
  - cbn. intros Hin. apply negb_true_iff in H1. rewrite <- not_true_iff_false in H1. apply H1. apply existsb_exists.
    exists (d_bus_id d). split; [by apply elem_of_list_In|]. by apply bool_decide_eq_true.
  - cbn. by eapply IH.
Qed.

(** ** C32 *)
(** What is true: as long as no device is handed out while another one with its bus id is out,
    nobody shares a device, none is lost, every submit reaches the device its connection was
    handed, and giving a device back does not panic. *)
Theorem C32_shared_ids_partial : forall H dbg ds (w : world H) ls s evs,
  run dbg (init_sys ds w) ls = Some (s, evs) -> no_clash evs ->
  (exists l, entrusted ds evs l /\ Permutation (all_devices (y_server s)) l) /\
  (forall t t' d d', held evs t = Some d -> held evs t' = Some d' -> d_bus_id d = d_bus_id d' -> t = t') /\
  (forall t d, held evs t = Some d -> d ∈ in_use (y_server s)) /\
  (forall l s' ev t sb r, step dbg s l = Some (s', ev) -> EvServe t (CmdSubmit sb) r ∈ ev ->
     serve_submit dbg (y_world s) (held evs t) sb = (r, y_world s') /\ y_server s' = y_server s) /\
  (forall l s' t, step dbg s l <> Some (s', [EvEnd t (EndPanic PUnreachable)])).
Proof.
  intros H dbg ds w ls s evs E Hn. pose proof (dup_run _ _ _ _ _ _ E Hn) as HI. split_and!.
  - exact (du_ledger _ _ _ HI).
  - exact (du_excl _ _ _ HI).
  - intros t d Hd. apply in_use_elem. eexists. exact (du_held _ _ _ HI _ _ Hd).
  - intros l s' ev t sb r Es He.
    destruct (ev_submit _ _ _ _ _ _ _ _ (step_move _ _ _ _ _ Es) He) as (cur & _ & Et & Er & Esv & _). split; [|done].
    pose proof (du_cur _ _ _ HI _ _ Et eq_refl eq_refl) as Hc. cbn in Hc. subst cur.
    destruct (held evs t) as [d|] eqn:Hh; cbn in Er; [|done].
    by rewrite (du_held _ _ _ HI _ _ Hh) in Er.
  - intros l s' t Es. apply step_move in Es. remember [EvEnd t (EndPanic PUnreachable)] as ev eqn:Ev.
    destruct Es; try discriminate Ev; try (match goal with A : answered _ _ _ _ _ _ _ _ |- _ => destruct A; discriminate Ev end);
      try (injection Ev as <- Ee; unfold read_end in Ee; repeat case_match; discriminate Ee).
    pose proof (du_cur _ _ _ HI _ _ H0 eq_refl eq_refl) as Hc. cbn in Hc.
    destruct (held evs t0) as [d|] eqn:Hd; [|done]. injection Hc as ->.
    unfold release_device in H2. by rewrite (du_held _ _ _ HI _ _ Hd) in H2.
Qed.
Print Assumptions C32_shared_ids_partial.

(** And the condition is needed: handing out a device whose bus id is out loses the one already
    out under that id, on the spot. *)
Theorem C32_clash_loses_a_device : forall H dbg ds (w : world H) ls s evs l s' ev t n f k d,
  run dbg (init_sys ds w) ls = Some (s, evs) -> no_clash evs ->
  step dbg s l = Some (s', ev) -> EvServe t (OpReqImport n f) (Val (OpRepImport k (Some d))) ∈ ev ->
  d_bus_id d ∈ taken evs ->
  exists d', d_bus_id d' = d_bus_id d /\ d' ∈ in_use (y_server s) /\
    Permutation (all_devices (y_server s)) (d' :: all_devices (y_server s')).
Proof.
  intros H dbg ds w ls s evs l s' ev t n f k d E Hn Es He Hin. pose proof (dup_run _ _ _ _ _ _ E Hn) as HI.
  destruct (ev_import _ _ _ _ _ _ _ _ _ (step_move _ _ _ _ _ Es) He) as (cur & x & _ & _ & _ & Ei & Er & _).
  assert (x = Some d) as -> by (destruct x; injection Er; congruence).
  apply (du_taken _ _ _ HI) in Hin as [d' Hd']. exists d'.
  pose proof (du_filed _ _ _ HI _ _ Hd') as Hid. split; [done|]. split; [apply in_use_elem; eauto|].
  apply import_some in Ei as (l1 & l2 & [Ea _] & Esv). unfold all_devices. rewrite Ea, Esv. cbn [sv_available].
  pose proof (in_use_delete (y_server s) _ d' (sv_available (y_server s)) Hd') as Hp.
  assert (Hq : Permutation (in_use (mkServer (l1 ++ l2) (<[d_bus_id d := d]> (sv_used (y_server s)))))
    (d :: in_use (mkServer (sv_available (y_server s)) (delete (d_bus_id d) (sv_used (y_server s)))))).
  { unfold in_use. cbn [sv_used]. rewrite <- (insert_delete_insert (sv_used (y_server s)) (d_bus_id d) d).
    rewrite map_to_list_insert by apply lookup_delete. done. }
  rewrite Hp, Hq. rewrite <- !app_assoc. cbn.
  rewrite <- !Permutation_middle. constructor.
Qed.
Print Assumptions C32_clash_loses_a_device.

(** With distinct bus ids it never happens. *)
Theorem C32_distinct_ids_never_clash : forall H dbg ds (w : world H) ls s evs,
  run dbg (init_sys ds w) ls = Some (s, evs) -> distinct_ids ds evs -> no_clash evs.
Proof.
  intros H dbg ds w ls. remember (length ls) as m eqn:Em. revert ls Em.
  induction (lt_wf m) as [m _ IH]. intros ls -> s evs E Hd evs1 t n f k d evs2 Ee Hin.
  destruct (run_event _ _ _ _ _ _ _ _ E Ee) as (ls1 & l & ls2 & s1 & s2 & a1 & p & q & b1 & -> & R1 & S1 & _ & -> & ->).
  pose proof (step_move _ _ _ _ _ S1) as M.
  destruct (ev_import dbg s1 s2 l _ t n f (Val (OpRepImport k (Some d))) M) as (cur & x & _ & _ & _ & Ei & Er & _ & A).
  { apply elem_of_app. right. left. }
  assert (x = Some d) as -> by (destruct x; injection Er; congruence).
  assert (p = []) as -> by (by eapply answered_first).
  rewrite app_nil_r in *. subst evs. apply distinct_app in Hd.
  assert (Hn : no_clash a1).
  { eapply (IH (length ls1)); [rewrite app_length; cbn; lia|reflexivity|exact R1|done]. }
  pose proof (dup_run _ _ _ _ _ _ R1 Hn) as HU. pose proof (dev_run _ _ _ _ _ _ R1 Hd) as HI.
  destruct (proj1 (du_taken _ _ _ HU _) Hin) as [d2 Hd2].
  apply import_some in Ei as (l1 & l2 & (Ea & _) & _).
  rewrite (avail_not_used _ d) in Hd2; [done| |by apply (di_filed _ _ _ HI)|].
  - rewrite (fmap_perm d_bus_id _ _ (di_ledger _ _ _ HI)). by apply distinct_last.
  - rewrite Ea. apply elem_of_app. right. left.
Qed.
Print Assumptions C32_distinct_ids_never_clash.

Definition twice_after_close : list (label ex_h) :=
  [LConnect 1; LConnect 2] ++ do_import 1 id_a ++ [LSent 1] ++ do_close 1 ++ do_import 2 id_a ++ [LSent 2].
Example C32_shared_ids_example : exists s evs,
  run true (init_sys [ex_dev; twin] ex_world) twice_after_close = Some (s, evs) /\ no_clash evs /\
  held evs 2 = Some twin /\ all_devices (y_server s) = [ex_dev; twin] /\ ~ distinct_ids [ex_dev; twin] evs.
Proof.
  assert (Hn : forall evs, ~ distinct_ids [ex_dev; twin] evs).
  { intros evs Hd. specialize (Hd [] evs eq_refl). cbn in Hd. apply NoDup_cons in Hd as [Hd _]. apply Hd. left. }
  enough (exists s evs, run true (init_sys [ex_dev; twin] ex_world) twice_after_close = Some (s, evs) /\
    no_clash_b [] evs = true /\ held evs 2 = Some twin /\ all_devices (y_server s) = [ex_dev; twin])
    as (s & evs & E & Hb & R1 & R2) by (exists s, evs; split_and!; auto using no_clash_b_spec).
  apply after_run. vm_compute. auto.
Qed.
Definition before_clash : list (label ex_h) :=
  [LConnect 1; LConnect 2] ++ do_import 1 id_a ++ [LSent 1] ++ removelast (do_import 2 id_a).
Example C32_clash_example : exists s evs,
  run true (init_sys [ex_dev; twin] ex_world) before_clash = Some (s, evs) /\ no_clash evs /\
  id_a ∈ taken evs /\
  after (step true s (LRun 2)) (fun s' ev =>
    ev = [EvServe 2 (OpReqImport 0 (field_of id_a)) (Val (OpRepImport 0 (Some twin)))] /\
    all_devices (y_server s') = [twin]).
Proof.
  enough (exists s evs, run true (init_sys [ex_dev; twin] ex_world) before_clash = Some (s, evs) /\
    no_clash_b [] evs = true /\ taken evs = [id_a] /\
    after (step true s (LRun 2)) (fun s' ev =>
      ev = [EvServe 2 (OpReqImport 0 (field_of id_a)) (Val (OpRepImport 0 (Some twin)))] /\
      all_devices (y_server s') = [twin])) as (s & evs & E & Hb & R1 & R2).
  { exists s, evs. split_and!; auto using no_clash_b_spec. rewrite R1. left. }
  apply after_run. vm_compute. auto.
Qed.
