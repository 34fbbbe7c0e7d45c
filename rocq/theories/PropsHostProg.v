(** * Property C96: the devices of the host do what the clients ask (examples/host.rs) *)
From Verif Require Import Examples PropsHost PropsSys HostProgProofs.
From Coq Require Strings.String.
Import Strings.String.StringSyntax.

Lemma main_devices dbg listed w a0 : host_main dbg listed w = Val a0 ->
  exists ds, new_from_host dbg listed = Val ds /\ a0 = init_asys ds w.
Proof.
  unfold host_main. destruct (new_from_host dbg listed) as [ds|p|] eqn:E; cbn; [|done|done]. intros [= <-]. by exists ds.
Qed.
Lemma listed_distinct dbg listed ds : proper_host listed -> new_from_host dbg listed = Val ds ->
  NoDup (d_bus_id <$> ds) /\ separate_handlers ds.
Proof.
  unfold new_from_host, new_from_host_with_filter. destruct listed as [l|]; intros Hp E.
  - rewrite kept_spec, kept_all in E. destruct (Hp l eq_refl) as [H1 H2]. split.
    + by destruct (C60_distinct_bus_ids dbg l ds H1 H2 E).
    + by apply (proj1 C61_separate_handlers dbg l).
  - apply Val_inj in E as <-. cbn. split; [constructor|]. split; [constructor|]. exists []. split; [done|constructor].
Qed.

(** Whatever the clients do and however they are scheduled: the transfers that the URBs of the
    connections ask for, each on the device that its connection had imported, are determined by
    what was served; every handler has made exactly its share of them, once each and in this
    order, and nothing else; and every client was told what the host answered ([asked]). *)
Theorem C96_transfers : forall dbg listed w a0 ls a evs,
  proper_host listed -> in_order w -> host_main dbg listed w = Val a0 ->
  host_run dbg a0 ls = Some (a, evs) -> Forall (a_readable dbg) ls ->
  exists l, asked w evs l /\ (forall l', asked w evs l' -> l' = l) /\
    forall tg, usable (y_world (a_sys a)) tg /\
      hd_log (host_of (y_world (a_sys a)) tg) = hd_log (host_of w tg) ++ made_by tg l.
Proof.
  intros dbg listed w a0 ls a evs Hp HO E0 E HF. destruct (main_devices _ _ _ _ E0) as (ds & En & ->).
  destruct (listed_distinct _ _ _ Hp En) as [Hn _].
  destruct (host_run_sys _ _ _ _ _ E HF) as (ls' & R & A & B & C). cbn [a_sys init_asys] in R.
  destruct (api_free_run _ _ _ _ _ _ R C) as [_ He].
  assert (Hd : distinct_ids ds evs).
  { intros e1 e2 ->. apply Forall_app in He as [He _]. by rewrite ledger_same. }
  destruct (host_sys_run dbg ds w ls' (a_sys a) evs HO R A B Hd) as (_ & l & HA & D).
  exists l. split; [done|]. split; [intros l' Hl'; by apply (asked_fun w evs)|].
  intros tg. destruct (D tg) as (D1 & D2 & _). by split.
Qed.
Print Assumptions C96_transfers.

(** A target belongs to a device. *)
Definition belongs (tg : target) (d : device) : Prop :=
  match tg with
  | TIntf f => exists g, g ∈ d_interfaces d /\ if_handler g = if_handler f
  | TDev r => d_handler d = Some r
  end.
Lemma separate_belongs ds d d' tg : separate_handlers ds -> NoDup (d_bus_id <$> ds) -> d ∈ ds -> d' ∈ ds ->
  belongs tg d -> belongs tg d' -> d' = d.
Proof.
  intros [S1 (rs & S2 & S3)] _ Hd Hd' B B'. apply elem_of_list_lookup in Hd as [i Hi], Hd' as [j Hj].
  destruct tg as [f|r]; cbn in B, B'.
  - destruct B as (g & Hg & Eg), B' as (g' & Hg' & Eg').
    destruct (decide (i = j)) as [-> |Hne]; [congruence|]. exfalso.
    revert S1. clear S2 S3. revert i j Hi Hj Hne. induction ds as [|x ds IH]; intros i j Hi Hj Hne S1; [done|].
    cbn in S1. rewrite fmap_app in S1. apply NoDup_app in S1 as (S1 & S2 & S3).
    assert (In : forall k y z, ds !! k = Some y -> z ∈ d_interfaces y -> if_handler z ∈ if_handler <$> concat (d_interfaces <$> ds)).
    { intros k y z Hk Hz. apply elem_of_list_fmap. exists z. split; [done|]. apply elem_of_list_In, in_concat. exists (d_interfaces y).
      split; apply elem_of_list_In; [|done]. apply elem_of_list_fmap. exists y. split; [done|]. by eapply elem_of_list_lookup_2. }
    destruct i as [|i], j as [|j]; cbn in Hi, Hj.
    + done.
    + injection Hi as ->. apply (S2 (if_handler g)); [apply elem_of_list_fmap; by exists g|]. rewrite Eg, <- Eg'. by eapply In.
    + injection Hj as ->. apply (S2 (if_handler g')); [apply elem_of_list_fmap; by exists g'|]. rewrite Eg', <- Eg. by eapply In.
    + apply (IH i j Hi Hj); [congruence|done].
  - assert (Hx : forall k y, ds !! k = Some y -> d_handler y = Some r -> rs !! k = Some r).
    { intros k y Hk Hy. assert (Hl : (d_handler <$> ds) !! k = Some (Some r)) by (by rewrite list_lookup_fmap, Hk; cbn; rewrite Hy).
      rewrite S2, list_lookup_fmap in Hl. destruct (rs !! k); cbn in Hl; congruence. }
    pose proof (Hx _ _ Hi B) as X1. pose proof (Hx _ _ Hj B') as X2.
    pose proof (NoDup_lookup _ _ _ _ S3 X1 X2) as ->. congruence.
Qed.
Lemma wants_belongs d sb tg c : wants d sb tg c -> belongs tg d.
Proof.
  intros (e & i & s & A & _ & R & _). destruct R as [f _ ->|f _ _ _ Hf|r _ _ _ Hr]; cbn.
  - destruct (addressed_uses _ _ _ _ A) as (g & Hg & E). by exists g.
  - exists f. split; [|done]. by eapply elem_of_list_lookup_2.
  - done.
Qed.
Lemma asked_entry w evs l d tg c : asked w evs l -> (d, tg, c) ∈ l -> belongs tg d /\ exists e1 e2 t sb r,
  evs = e1 ++ EvServe t (CmdSubmit sb) r :: e2 /\ held e1 t = Some d /\ wants d sb tg c.
Proof.
  induction 1 as [|evs l t sb r d' tg' c' A IH Hh HW _|evs l e A IH Hn]; intros Hin.
  - by apply elem_of_nil in Hin.
  - apply elem_of_app in Hin as [Hin|Hin].
    + destruct (IH Hin) as (B & e1 & e2 & t1 & sb1 & r1 & -> & H1 & H2). split; [done|].
      exists e1, (e2 ++ [EvServe t (CmdSubmit sb) r]), t1, sb1, r1. split; [by rewrite <- app_assoc|done].
    + apply elem_of_list_singleton in Hin as [= -> -> ->]. split; [by eapply wants_belongs|].
      exists evs, [], t, sb, r. done.
  - destruct (IH Hin) as (B & e1 & e2 & t1 & sb1 & r1 & -> & H1 & H2). split; [done|].
    exists e1, (e2 ++ [e]), t1, sb1, r1. split; [by rewrite <- app_assoc|done].
Qed.

(** Every one of these transfers was made by a handler of the very device, one of those the host
    lists, that the client had imported, and of no other device: nobody can make a device do
    anything but the connection that has imported it. *)
Theorem C96_own_device : forall dbg listed w a0 ls a evs ds l d tg c,
  proper_host listed -> host_main dbg listed w = Val a0 -> new_from_host dbg listed = Val ds ->
  host_run dbg a0 ls = Some (a, evs) -> Forall (a_readable dbg) ls -> asked w evs l -> (d, tg, c) ∈ l ->
  d ∈ ds /\ (forall d', d' ∈ ds -> belongs tg d' -> d' = d) /\
  exists e1 e2 t sb r, evs = e1 ++ EvServe t (CmdSubmit sb) r :: e2 /\ held e1 t = Some d /\ wants d sb tg c /\
    forall u, held e1 u = Some d -> u = t.
Proof.
  intros dbg listed w a0 ls a evs ds l d tg c Hp E0 En E HF HA Hin. destruct (main_devices _ _ _ _ E0) as (ds' & En' & ->).
  rewrite En in En'. apply Val_inj in En' as <-. destruct (listed_distinct _ _ _ Hp En) as [Hn Hs].
  destruct (asked_entry _ _ _ _ _ _ HA Hin) as (B & e1 & e2 & t & sb & r & -> & Hh & HW).
  destruct (host_run_sys _ _ _ _ _ E HF) as (ls' & R & A & _ & C). cbn [a_sys init_asys] in R.
  destruct (api_free_run _ _ _ _ _ _ R C) as [_ He]. pose proof He as He'. apply Forall_app in He' as [He1 _].
  assert (Hd : distinct_ids ds (e1 ++ EvServe t (CmdSubmit sb) r :: e2)).
  { intros x1 x2 Ex. rewrite Ex in He. apply Forall_app in He as [He _]. by rewrite ledger_same. }
  destruct (run_event _ _ _ _ _ _ _ _ R eq_refl) as (ls1 & l1 & ls2 & s1 & s2 & a1 & p & q & b1 & -> & R1 & S1 & R2 & -> & ->).
  destruct (serve_first _ _ _ _ _ _ _ _ (step_move _ _ _ _ _ S1) ltac:(apply elem_of_app; right; left)) as (ev' & Ev & _).
  pose proof (ev_submit _ _ _ _ _ _ _ _ (step_move _ _ _ _ _ S1) ltac:(apply elem_of_app; right; left)) as (cur & _ & _ & _ & _ & An).
  assert (p = []) as -> by (by eapply answered_first).
  rewrite app_nil_r in *. pose proof (dev_run _ _ _ _ _ _ R1 (distinct_app _ _ _ Hd)) as HI.
  pose proof (held_in_ledger _ _ _ _ _ HI Hh) as Hl. rewrite ledger_same in Hl by done.
  split; [done|]. split; [intros d' Hd' B'; by eapply separate_belongs|].
  exists a1, (q ++ b1), t, sb, r. split; [done|]. split; [done|]. split; [done|].
  intros u Hu. symmetry. by eapply (di_excl _ _ _ HI).
Qed.
Print Assumptions C96_own_device.

(** Two devices of a host, a third that cannot be opened; two clients that use them at once. *)
Definition hp_import (t : tid) (id : rstring) : list (alabel rusb_h) :=
  ASys <$> [LRecv t (OpReqImport 0 (field_of id)); LGrantUsed; LRun t; LRun t; LGrantUsed; LRun t; LGrantAvail; LRun t; LSent t].
Definition hp_urb (t : tid) (sb : submit) : list (alabel rusb_h) :=
  ASys <$> [LRecv t (CmdSubmit sb); LGrantUsed; LRun t; LSent t].
Definition hp_run : list (alabel rusb_h) :=
  [ABindOk; AAccept 1; AAccept 2] ++ hp_import 1 (lit "1-5-2") ++ hp_import 2 (lit "1-15-2") ++
  hp_urb 1 hx_in ++ hp_urb 2 hx_out ++ hp_urb 2 hx_in ++ hp_urb 1 hx_ctl ++
  hp_urb 1 (submit_cmd 1 4 8 (replicate 8 0) []).          (* isochronous: no transfer *)
Definition hp_world : world rusb_h := hx_world _ _ hx_host.
Definition hp_listed : option (list (option rusb_handle)) := Some [Some hx; None; Some hy].
Example C96_example :
  proper_host hp_listed /\ in_order hp_world /\ Forall (a_readable false) hp_run /\
  match host_main false hp_listed hp_world with
  | Val a0 => match host_run false a0 hp_run with
              | Some (a, _) =>
                  hd_log (c_state (w_intf (y_world (a_sys a)) 0)) = [ReadBulk 129 2] /\
                  hd_log (c_state (w_intf (y_world (a_sys a)) 1)) = [WriteBulk 2 [7; 8]; ReadBulk 129 2] /\
                  hd_log (c_state (w_dev (y_world (a_sys a)) 0)) = [ReadControl 192 66 1 2 2] /\
                  hd_log (c_state (w_dev (y_world (a_sys a)) 1)) = []
              | None => False
              end
  | _ => False
  end.
Proof.
  split; [intros l [= <-]; exact (conj (proj1 C60_example) (proj1 (proj2 C60_example)))|].
  split; [intros [f|r]; split; (reflexivity || exact hx_respects)|].
  split; [unfold hp_run, hp_import, hp_urb; cbn [app fmap list_fmap]; repeat (apply Forall_cons; split; [first [exact I|cbn [a_readable readable]; unfold hx_in, hx_out, hx_ctl, submit_cmd; wf_ex]|]); apply Forall_nil; exact I|].
  vm_compute. split_and!; reflexivity.
Qed.
