(** * Property C108: devices shared through nusb, whatever clients do with them (src/host.rs, nusb handlers) *)
From Verif Require Import Examples PropsHost PropsSys PropsHostProg NusbProofs.
From Coq Require Strings.String.
Import Strings.String.StringSyntax.

Definition nx_import (t : tid) (id : rstring) : list (label nusb_h) :=
  [LRecv t (OpReqImport 0 (field_of id)); LGrantUsed; LRun t; LRun t; LGrantUsed; LRun t; LGrantAvail; LRun t; LSent t].
Definition nx_urb (t : tid) (sb : submit) : list (label nusb_h) := [LRecv t (CmdSubmit sb); LGrantUsed; LRun t].
Definition nx_world : world nusb_h := hx_world _ _ hx_host.
Lemma nx_usable tg : usable nx_world tg. Proof. by destruct tg. Qed.
Lemma nx_promises : kept_promises nx_world. Proof. intros [f|r]; exact hx_respects. Qed.
Ltac nx_readable :=
  cbn [app]; repeat (apply Forall_cons; split; [first [exact I|cbn [readable]; unfold hx_in, hx_out, hx_ctl, submit_cmd; wf_ex]|]);
  apply Forall_nil; exact I.
Ltac nx_no_app := intros r f Hin; cbn [app] in Hin; repeat (apply elem_of_cons in Hin as [Hin|Hin]; [discriminate Hin|]); by apply elem_of_nil in Hin.

(** The claim is false.  One client reads from a bulk endpoint of the only device: its connection
    aborts, the handler of the interface is poisoned for good, and the next client that asks for
    the device is refused. *)
Definition nx_ls : list (label nusb_h) :=
  [LConnect 1; LConnect 2] ++ nx_import 1 (lit "1-5-2") ++ nx_urb 1 hx_in ++ nx_import 2 (lit "1-5-2").
Theorem C108_goes_on_refuted :
  (forall tg, usable nx_world tg) /\ kept_promises nx_world /\ (forall dbg, Forall (readable dbg) nx_ls) /\
  (forall r f, LApp r f ∉ nx_ls) /\
  forall dbg, exists s evs, run dbg (init_sys [hx_dev] nx_world) nx_ls = Some (s, evs) /\ distinct_ids [hx_dev] evs /\
    ~ usable (y_world s) (TIntf hx_intf) /\
    EvServe 2 (OpReqImport 0 (field_of (lit "1-5-2"))) (Val (OpRepImport 1 None)) ∈ evs.
Proof.
  split; [exact nx_usable|]. split; [exact nx_promises|].
  split; [intros dbg; unfold nx_ls, nx_import, nx_urb; nx_readable|].
  split; [unfold nx_ls, nx_import, nx_urb; nx_no_app|].
  intros dbg.
  destruct (after_run (run dbg (init_sys [hx_dev] nx_world) nx_ls) (fun s evs => distinct_b [hx_dev] evs = true /\
    c_poisoned (w_intf (y_world s) 0) = true /\
    evs !! 4%nat = Some (EvServe 2 (OpReqImport 0 (field_of (lit "1-5-2"))) (Val (OpRepImport 1 None)))))
    as (s & evs & E & Hd & Hu & Hl); [destruct dbg; vm_compute; auto|].
  exists s, evs. split; [exact E|]. clear E. split; [by apply distinct_b_spec|].
  split; [|by eapply elem_of_list_lookup_2]. intros Hx. unfold usable in Hx. change (if_handler hx_intf) with 0 in Hx. congruence.
Qed.
Print Assumptions C108_goes_on_refuted.

(** What is true, whatever the clients do and however they are scheduled: the transfers [l] asked
    for, and the handlers [dead] that gave up, are determined by what was served; a handler is
    unusable exactly if it gave up; and every handler has made exactly its share of [l], once each
    and in this order. *)
Theorem C108_transfers_partial : forall dbg ds (w : world nusb_h) ls s evs,
  (forall tg, usable w tg) -> kept_promises w ->
  run dbg (init_sys ds w) ls = Some (s, evs) -> Forall (readable dbg) ls -> (forall r f, LApp r f ∉ ls) -> distinct_ids ds evs ->
  exists l dead, nusb_asked w evs l dead /\ (forall l' dead', nusb_asked w evs l' dead' -> l' = l /\ dead' = dead) /\
    forall tg, (usable (y_world s) tg <-> is_dead dead tg = false) /\
      hd_log (host_of (y_world s) tg) = hd_log (host_of w tg) ++ made_by tg l.
Proof.
  intros dbg ds w ls s evs HU HK E HF HA Hd. destruct (nusb_sys_run dbg ds w ls s evs HU HK E HF HA Hd) as (_ & l & dead & A & D).
  clear E. exists l, dead. split; [exact A|]. split; [intros l' dead' A'; by apply (nusb_asked_fun w evs)|].
  intros tg. destruct (D tg) as (D1 & D2 & _). by split.
Qed.
Print Assumptions C108_transfers_partial.

Lemma dead_entry w evs l dead tg : nusb_asked w evs l dead -> tg ∈ dead -> exists e1 e2 t sb p d,
  evs = e1 ++ EvServe t (CmdSubmit sb) (Panic p) :: e2 /\ held e1 t = Some d /\ nusb_kills d sb tg.
Proof.
  assert (X : forall evs e, (exists e1 e2 t sb p d, evs = e1 ++ EvServe t (CmdSubmit sb) (Panic p) :: e2 /\ held e1 t = Some d /\ nusb_kills d sb tg) ->
    exists e1 e2 t sb p d, evs ++ [e] = e1 ++ EvServe t (CmdSubmit sb) (Panic p) :: e2 /\ held e1 t = Some d /\ nusb_kills d sb tg).
  { intros evs' e (e1 & e2 & t & sb & p & d & -> & H). exists e1, (e2 ++ [e]), t, sb, p, d. split; [by rewrite <- app_assoc|done]. }
  induction 1 as [|evs l dead t sb r d tg' c A IH Hh HW HD _|evs l dead t sb p d tg' A IH Hh HK HD|evs l dead t sb d tg' A IH Hh HR HD|evs l dead e A IH Hn];
    intros Hin; [by apply elem_of_nil in Hin|by apply X, IH| |by apply X, IH|by apply X, IH].
  apply elem_of_app in Hin as [Hin|Hin]; [by apply X, IH|]. apply elem_of_list_singleton in Hin as ->.
  by exists evs, [], t, sb, p, d.
Qed.

(** So they do go on working as long as no client sends a request of a type or to a recipient that
    nusb has no name for, or uses a bulk or interrupt endpoint. *)
Theorem C108_goes_on_partial : forall dbg ds (w : world nusb_h) ls s evs,
  (forall tg, usable w tg) -> kept_promises w ->
  run dbg (init_sys ds w) ls = Some (s, evs) -> Forall (readable dbg) ls -> (forall r f, LApp r f ∉ ls) -> distinct_ids ds evs ->
  (forall e1 e2 t sb r d tg, evs = e1 ++ EvServe t (CmdSubmit sb) r :: e2 -> held e1 t = Some d -> ~ nusb_kills d sb tg) ->
  forall tg, usable (y_world s) tg.
Proof.
  intros dbg ds w ls s evs HU HK E HF HA Hd Hn tg. destruct (nusb_sys_run dbg ds w ls s evs HU HK E HF HA Hd) as (_ & l & dead & A & D).
  clear E. apply D. destruct dead as [|x dead]; [done|].
  destruct (dead_entry _ _ _ _ x A) as (e1 & e2 & t & sb & p & d & He & Hh & Hx); [left|]. by destruct (Hn e1 e2 t sb _ d x He Hh).
Qed.
Print Assumptions C108_goes_on_partial.

Lemma reaches_belongs d sb tg : reaches d sb tg -> belongs tg d.
Proof.
  intros (e & i & s & A & _ & R). destruct R as [f _ ->|f _ _ _ Hf|r _ _ _ Hr]; cbn.
  - destruct (addressed_uses _ _ _ _ A) as (g & Hg & E). by exists g.
  - exists f. split; [|done]. by eapply elem_of_list_lookup_2.
  - done.
Qed.

(** What a handler that gave up costs: the device that was imported when it did stays in the table
    of devices in use, where nobody holds it, and is never handed out again. *)
Lemma lost_run dbg ds (w : world nusb_h) ls s evs e1 e2 t sb p d :
  run dbg (init_sys ds w) ls = Some (s, evs) -> distinct_ids ds evs ->
  evs = e1 ++ EvServe t (CmdSubmit sb) (Panic p) :: e2 -> held e1 t = Some d ->
  d ∈ ledger ds e1 /\ sv_used (y_server s) !! d_bus_id d = Some d /\ forall u d', held evs u = Some d' -> d_bus_id d' <> d_bus_id d.
Proof.
  intros E Hd He Hh.
  destruct (run_event _ _ _ _ _ _ _ _ E He) as (ls1 & l & ls2 & s1 & s2 & a1 & q1 & q2 & b1 & -> & R1 & S1 & R2 & -> & ->). clear E.
  pose proof (step_move _ _ _ _ _ S1) as M.
  destruct (ev_submit _ _ _ _ _ _ _ _ M ltac:(apply elem_of_app; right; left)) as (cur & _ & _ & _ & _ & An).
  assert (q1 = []) as -> by (by eapply answered_first). cbn [app] in *. rewrite app_nil_r in *.
  rewrite app_comm_cons, app_assoc in He. rewrite He in Hd. pose proof (distinct_app _ _ _ Hd) as Hd1.
  assert (Hq : exists r, q2 = [EvEnd t r]).
  { inversion An as [b Eb|e Eb Hee Hp]; subst; [done|by eexists]. }
  destruct Hq as [r ->].
  split; [exact (held_in_ledger _ _ _ _ _ (dev_run _ _ _ _ _ _ R1 (distinct_app _ _ _ Hd1)) Hh)|].
  destruct (C27_ends_partial _ _ _ _ _ _ _ _ _ _ _ _ _ R1 Hd1 S1 ltac:(right; left) Hh) as [(e & _ & Hx & _)|(_ & Hu & Hn)]; [discriminate Hx|].
  destruct (leak_run _ _ _ _ _ _ _ _ _ _ _ (run_step _ _ _ _ _ _ _ _ R1 S1) R2 Hd Hu Hn) as (L1 & _ & _ & L4).
  split; [exact L1|]. rewrite He. exact L4.
Qed.
Theorem C108_lost_partial : forall dbg ds (w : world nusb_h) ls s evs l dead tg,
  run dbg (init_sys ds w) ls = Some (s, evs) -> distinct_ids ds evs -> nusb_asked w evs l dead -> tg ∈ dead ->
  exists d, belongs tg d /\ sv_used (y_server s) !! d_bus_id d = Some d /\
    (forall u d', held evs u = Some d' -> d_bus_id d' <> d_bus_id d) /\
    forall ls' s' evs', run dbg s ls' = Some (s', evs') -> distinct_ids ds (evs ++ evs') ->
      forall u n f d', EvServe u (OpReqImport n f) (Val (OpRepImport 0 (Some d'))) ∈ evs' -> d_bus_id d' <> d_bus_id d.
Proof.
  intros dbg ds w ls s evs l dead tg E Hd A Hin. destruct (dead_entry _ _ _ _ _ A Hin) as (e1 & e2 & t & sb & p & d & He & Hh & HK).
  destruct (lost_run _ _ _ _ _ _ _ _ _ _ _ _ E Hd He Hh) as (_ & Hu & Hn). exists d.
  split; [exact (reaches_belongs _ _ _ (kills_reaches _ _ _ HK))|]. split; [exact Hu|]. split; [exact Hn|].
  intros ls' s' evs' E' Hd'. exact (proj1 (proj2 (leak_run _ _ _ _ _ _ _ _ _ _ _ E E' Hd' Hu Hn))).
Qed.
Print Assumptions C108_lost_partial.

Lemma same_belongs t1 t2 d : same_handler t1 t2 = true -> belongs t2 d -> belongs t1 d.
Proof.
  destruct t1 as [f|r], t2 as [g|q]; cbn; try done; intros E%N.eqb_eq.
  - intros (x & Hx & Ex). exists x. split; [done|congruence].
  - congruence.
Qed.
Lemma served_run : forall dbg ds (w : world nusb_h) ls s evs e1 e2 t sb r d tg c,
  (forall tg, usable w tg) -> kept_promises w -> NoDup (d_bus_id <$> ds) -> separate_handlers ds ->
  run dbg (init_sys ds w) ls = Some (s, evs) -> Forall (readable dbg) ls ->
  (forall l, l ∈ ls -> match l with LApp _ _ | LAdd _ _ | LRemove _ _ => False | _ => True end) ->
  evs = e1 ++ EvServe t (CmdSubmit sb) r :: e2 -> held e1 t = Some d -> nusb_wants d sb tg c ->
  exists l dead, nusb_asked w e1 l dead /\
    told sb r (passed_on c (hd_oracle (host_of w tg) (hd_log (host_of w tg) ++ made_by tg l) c)).
Proof.
  intros dbg ds w ls s evs e1 e2 t sb r d tg c HU HK Hn Hs E HF HA He Hh HW.
  assert (HN : Forall no_api_event evs).
  { apply (api_free_run _ _ _ _ _ _ E). apply Forall_forall. intros x Hx. specialize (HA x Hx). by destruct x. }
  assert (Hd : distinct_ids ds evs).
  { intros x1 x2 ->. apply Forall_app in HN as [HN _]. by rewrite ledger_same. }
  destruct (run_event _ _ _ _ _ _ _ _ E He) as (ls1 & l & ls2 & s1 & s2 & a1 & q1 & q2 & b1 & -> & R1 & S1 & R2 & -> & ->). clear E R2.
  pose proof (step_move _ _ _ _ _ S1) as M.
  destruct (ev_submit _ _ _ _ _ _ _ _ M ltac:(apply elem_of_app; right; left)) as (cur & _ & Ht & _ & _ & An).
  assert (q1 = []) as -> by (by eapply answered_first). cbn [app] in *. rewrite app_nil_r in *.
  rewrite He in Hd. apply distinct_app in Hd as Hd1. rewrite He in HN. apply Forall_app in HN as [HN _].
  apply Forall_app in HF as [HF _].
  assert (HA1 : forall r f, LApp r f ∉ ls1) by (intros r' f Hin; apply (HA (LApp r' f)), elem_of_app; by left).
  destruct (nusb_sys_run _ _ _ _ _ _ HU HK R1 HF HA1 Hd1) as (Hp & lst & dead & A & D).
  pose proof (dev_run _ _ _ _ _ _ R1 Hd1) as HI. exists lst, dead. split; [exact A|].
  pose proof (submit_held _ _ _ _ _ _ _ _ _ _ HI M ltac:(left)) as Es. rewrite Hh in Es.
  assert (HL : d ∈ ds) by (rewrite <- (ledger_same ds a1 HN); exact (held_in_ledger _ _ _ _ _ HI Hh)).
  destruct (serve_nusb _ _ _ _ _ _ (Hp _ _ _ Ht) (so_far_promises _ _ _ _ HK D) Es) as
    [(tg' & c' & HW' & _ & HT & _)|[(tg' & p & HK' & _)|[(tg' & HR & Hus & _)|[HO _]]]].
  - destruct (nusb_wants_fun _ _ _ _ _ _ HW HW') as [<- <-]. unfold host_answers in HT. destruct (D tg) as (_ & D2 & D3).
    rewrite D2, D3 in HT. exact HT.
  - exfalso. pose proof (reaches_fun _ _ _ _ (wants_reaches _ _ _ _ HW) (kills_reaches _ _ _ HK')) as <-.
    by apply (wants_not_kills _ _ _ _ HW).
  - exfalso. pose proof (reaches_fun _ _ _ _ (wants_reaches _ _ _ _ HW) HR) as <-. apply Hus, D.
    apply not_true_is_false. intros Hdead. unfold is_dead in Hdead. apply existsb_exists in Hdead as (tg2 & Hin%elem_of_list_In & Hsame).
    destruct (dead_entry _ _ _ _ _ A Hin) as (f1 & f2 & t2 & sb2 & p2 & d2 & Ef & Hh2 & HK2).
    destruct (lost_run _ _ _ _ _ _ _ _ _ _ _ _ R1 Hd1 Ef Hh2) as (Hl2 & _ & Hno).
    rewrite ledger_same in Hl2 by (rewrite Ef in HN; by apply Forall_app in HN as [HN _]).
    apply (Hno t d Hh). f_equal.
    apply (separate_belongs ds d2 d tg Hs Hn Hl2 HL); [|exact (reaches_belongs _ _ _ (wants_reaches _ _ _ _ HW))].
    apply (same_belongs _ _ _ Hsame). exact (reaches_belongs _ _ _ (kills_reaches _ _ _ HK2)).
  - exfalso. destruct (HO tg (wants_reaches _ _ _ _ HW)) as (_ & _ & Hx). exact (Hx c HW).
Qed.
(** Devices as [with_nusb_devices] makes them, each with handlers of its own, and an application
    that leaves it at that: then no client suffers from what others sent.  Whatever a client asks
    of the device it holds, and nusb can do, is done and answered with what the host said. *)
Theorem C108_served_partial : forall dbg is ds (w : world nusb_h) ls s evs e1 e2 t sb r d tg c,
  Forall nusb_sane is -> NoDup ((fun i => (ni_bus i, ni_address i)) <$> is) -> with_nusb_devices dbg is 0 0 = Val ds ->
  (forall tg, usable w tg) -> kept_promises w ->
  run dbg (init_sys ds w) ls = Some (s, evs) -> Forall (readable dbg) ls ->
  (forall l, l ∈ ls -> match l with LApp _ _ | LAdd _ _ | LRemove _ _ => False | _ => True end) ->
  evs = e1 ++ EvServe t (CmdSubmit sb) r :: e2 -> held e1 t = Some d -> nusb_wants d sb tg c ->
  exists l dead, nusb_asked w e1 l dead /\
    told sb r (passed_on c (hd_oracle (host_of w tg) (hd_log (host_of w tg) ++ made_by tg l) c)).
Proof.
  intros dbg is ds w ls s evs e1 e2 t sb r d tg c Hs Hn En HU HK E.
  exact (served_run dbg ds w ls s evs e1 e2 t sb r d tg c HU HK (proj1 (C60_nusb_distinct_bus_ids dbg is ds Hs Hn En))
    (proj2 C61_separate_handlers dbg is ds En) E).
Qed.
Print Assumptions C108_served_partial.
(** Client 1 breaks the interface of one device of the host; the request of client 2 to the
    interface of the other is made and answered. *)
Definition nx2 : nusb_info := mkNusbInfo 2 10 (Some NsHigh) 4660 22136 0 0 0 0x0123 None None None
  (Some (mkNusbOpen (Some (mkNusbCfg 1 [Some (Some hx_alt)])) 1)).
Definition nx_if : submit := submit_cmd 1 0 2 [193; 66; 1; 0; 0; 0; 2; 0] [].
Definition nx_devs : list device := match with_nusb_devices true [nx; nx2] 0 0 with Val ds => ds | _ => [] end.
Definition nx_ls3 : list (label nusb_h) :=
  [LConnect 1; LConnect 2] ++ nx_import 1 (lit "2-9-0") ++ nx_urb 1 hx_in ++ nx_import 2 (lit "2-10-0") ++ nx_urb 2 nx_if.
Example C108_served_example :
  Forall nusb_sane [nx; nx2] /\ NoDup ((fun i => (ni_bus i, ni_address i)) <$> [nx; nx2]) /\
  with_nusb_devices true [nx; nx2] 0 0 = Val nx_devs /\ Forall (readable true) nx_ls3 /\
  (forall l, l ∈ nx_ls3 -> match l with LApp _ _ | LAdd _ _ | LRemove _ _ => False | _ => True end) /\
  exists s evs, run true (init_sys nx_devs nx_world) nx_ls3 = Some (s, evs) /\
    EvServe 2 (CmdSubmit nx_if) (Val (usbip_ret_submit_success (reply_header (sb_header nx_if) USBIP_RET_SUBMIT) 0 0 [1; 2] [])) ∈ evs /\
    (d_bus_id <$> held evs 2) = Some (lit "2-10-0") /\ ~ usable (y_world s) (TIntf hx_intf).
Proof.
  assert (HS : forall i, i = nx \/ i = nx2 -> nusb_sane i).
  { intros i Hi. destruct Hi as [-> | ->]; (split; [cbn; lia|]; split; [cbn; lia|]; intros o cfg [= <-] [= <-]; split; [cbn; lia|];
      repeat constructor; intros a [= <-]; cbn; repeat constructor; cbn; lia). }
  split; [constructor; [by apply HS; left|constructor; [by apply HS; right|constructor]]|].
  split; [cbn; constructor; [intros Hx; apply elem_of_list_singleton in Hx; discriminate Hx|constructor; [apply not_elem_of_nil|constructor]]|].
  split; [vm_compute; reflexivity|].
  split; [unfold nx_ls3, nx_import, nx_urb, nx_if; nx_readable|].
  split; [intros l Hin; unfold nx_ls3, nx_import, nx_urb in Hin; cbn [app] in Hin;
    repeat (apply elem_of_cons in Hin as [-> |Hin]; [exact I|]); by apply elem_of_nil in Hin|].
  destruct (after_run (run true (init_sys nx_devs nx_world) nx_ls3) (fun s evs =>
    (d_bus_id <$> held evs 2 = Some (lit "2-10-0") /\ c_poisoned (w_intf (y_world s) 0) = true) /\
    last evs = Some (EvServe 2 (CmdSubmit nx_if) (Val (usbip_ret_submit_success (reply_header (sb_header nx_if) USBIP_RET_SUBMIT) 0 0 [1; 2] [])))))
    as (s & evs & E & [Hh Hu] & Hl); [vm_compute; auto|].
  exists s, evs. split; [exact E|]. clear E. split; [|split; [exact Hh|]].
  - apply last_Some in Hl as [l' ->]. apply elem_of_app. right. left.
  - intros Hx. unfold usable in Hx. change (if_handler hx_intf) with 0 in Hx. congruence.
Qed.

(** Two devices with the same handlers, a device and a clone of it.  The control request of client
    1 is made; its bulk read breaks the interface; client 2, with the clone, can make requests of
    the device but not of the interface. *)
Definition nx_twin : device :=
  match rusb_device true (mkRusbHandle 1 6 2 RsHigh (Some hx_desc) (Some hx_cfg) hx_strings) hx_desc hx_cfg 0 0 with
  | Val d => d | _ => ex_dev end.
Definition nx_ls2 : list (label nusb_h) :=
  [LConnect 1; LConnect 2] ++ nx_import 1 (lit "1-5-2") ++ nx_import 2 (lit "1-6-2") ++ nx_urb 2 nx_if ++ [LSent 2] ++
  nx_urb 1 hx_ctl ++ [LSent 1] ++ nx_urb 1 hx_in ++ nx_urb 2 hx_ctl ++ [LSent 2] ++ nx_urb 2 nx_if.
Example C108_example : Forall (readable false) nx_ls2 /\ (forall r f, LApp r f ∉ nx_ls2) /\
  (exists s evs, run false (init_sys [hx_dev; nx_twin] nx_world) nx_ls2 = Some (s, evs) /\ distinct_ids [hx_dev; nx_twin] evs /\
    hd_log (c_state (w_intf (y_world s) 0)) = [NControlIn NVendor NInterface 66 1 0 2] /\
    hd_log (c_state (w_dev (y_world s) 0)) = [NControlIn NVendor NDevice 66 1 2 2; NControlIn NVendor NDevice 66 1 2 2] /\
    ~ usable (y_world s) (TIntf hx_intf) /\ usable (y_world s) (TDev 0) /\
    EvServe 2 (CmdSubmit nx_if) (Panic PPoisoned) ∈ evs) /\
  nusb_kills hx_dev hx_in (TIntf hx_intf) /\ nusb_wants nx_twin nx_if (TIntf hx_intf) (NControlIn NVendor NInterface 66 1 0 2).
Proof.
  split; [unfold nx_ls2, nx_import, nx_urb, nx_if; nx_readable|].
  split; [unfold nx_ls2, nx_import, nx_urb; nx_no_app|]. split; [|split].
  - destruct (after_run (run false (init_sys [hx_dev; nx_twin] nx_world) nx_ls2) (fun s evs => distinct_b [hx_dev; nx_twin] evs = true /\
      (hd_log (c_state (w_intf (y_world s) 0)) = [NControlIn NVendor NInterface 66 1 0 2] /\
      hd_log (c_state (w_dev (y_world s) 0)) = [NControlIn NVendor NDevice 66 1 2 2; NControlIn NVendor NDevice 66 1 2 2]) /\
      c_poisoned (w_intf (y_world s) 0) = true /\ c_poisoned (w_dev (y_world s) 0) = false /\
      last (omap (fun e => match e with EvServe 2 (CmdSubmit _) _ => Some e | _ => None end) evs) = Some (EvServe 2 (CmdSubmit nx_if) (Panic PPoisoned))))
      as (s & evs & E & Hd & [L1 L2] & Hu & Hv & Hl); [vm_compute; auto|].
    exists s, evs. split; [exact E|]. clear E. split; [by apply distinct_b_spec|]. split; [exact L1|]. split; [exact L2|].
    split; [intros Hx; unfold usable in Hx; change (if_handler hx_intf) with 0 in Hx; congruence|]. split; [exact Hv|].
    apply last_Some in Hl as [l' Hl].
    assert (Hin : EvServe 2 (CmdSubmit nx_if) (Panic PPoisoned) ∈
      omap (fun e => match e with EvServe 2 (CmdSubmit _) _ => Some e | _ => None end) evs) by (rewrite Hl; apply elem_of_app; right; left).
    apply elem_of_list_omap in Hin as (e & Hin & He). destruct e as [t c ?| | | | |]; try discriminate He.
    destruct t as [|[]]; try discriminate He. destruct p; try discriminate He. destruct c; try discriminate He. by injection He as <- <-.
  - exists (mkEndpoint 129 2 512 0), (Some hx_intf), (mkSetup 0 0 0 0 0). split; [apply find_ep_some; vm_compute; reflexivity|].
    split; [unfold setup_of; do 8 eexists; split; reflexivity|]. split; [by apply rt_transfer|]. right. split; [by eexists|by left].
  - exists (mkEndpoint 128 0 64 0), None, (mkSetup 193 66 1 0 2), true. split; [apply find_ep_some; vm_compute; reflexivity|].
    split; [unfold setup_of; do 8 eexists; split; reflexivity|].
    split; [|split; [split; [done|]; unfold in_ep; cbn; split; [lia|done]|apply (nt_in true 2 (mkSetup 193 66 1 0 2)); [done|split; reflexivity]]].
    apply rt_interface; try done. intros [(_ & Hx & _)|(_ & Hx & _)]; discriminate Hx.
Qed.
