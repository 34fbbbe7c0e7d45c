(** * Conventions of USB and of the Linux client (C97-C101) *)
From Verif Require Import Examples PropsHost PropsHandlers PropsSys PropsIso PropsSession SpecConform UrbProofs BuildProofs.
From Coq Require Strings.String.
Import Strings.String.StringSyntax.

(** ** C97 *)
Lemma view_lookup d total n f : d_interfaces d !! n = Some f ->
  hc_interfaces (config_view d total) !! n = Some (intf_view (N.of_nat n) f).
Proof. intros E. cbn. rewrite list_lookup_imap, E. done. Qed.
Lemma in_ep_dec' e : in_ep e \/ ~ in_ep e.
Proof. unfold in_ep. lia. Qed.
Lemma request_delivered {H} dbg (st : cstate H) m sb d e i s n f : interface_request dbg st m sb d e i s (N.of_nat n) ->
  d_interfaces d !! n = Some f -> usable (cs_world st) (TIntf f) -> delivered dbg st m sb d e i s (TIntf f).
Proof.
  intros [Hm HL Hd Ha Hc Hs Hr Hi] Hf Hu. split; auto.
  apply (routed_interface d e i s f); [done|lia| |done]. rewrite Hi. by rewrite Nat2N.id.
Qed.
Lemma rusb_interface_forwarded dbg (st : cstate rusb_h) m sb d e i s n f :
  interface_request dbg st m sb d e i s (N.of_nat n) -> d_interfaces d !! n = Some f ->
  usable (cs_world st) (TIntf f) -> respects_buffer (host_of (cs_world st) (TIntf f)) ->
  dbg = false \/ h_direction (sb_header sb) = 1 \/ ~ in_ep e ->
  exists c out st1, replies dbg st m sb out st1 /\ forwarded (cs_world st) (cs_world st1) (TIntf f) c /\
    forall k, meant_for c k <-> k = N.of_nat n.
Proof.
  intros HR Hf Hu Hb Hdir. pose proof (request_delivered _ _ _ _ _ _ _ _ _ _ HR Hf Hu) as HD.
  destruct HR as [Hm HL Hd Ha Hc Hs Hr Hi].
  assert (exists c, libusb_transfer e (sb_transfer_buffer_length sb) s (sb_data sb) c /\ forall k, meant_for c k <-> k = N.of_nat n) as (c & Ht & Hk).
  { destruct (in_ep_dec' e) as [He|He].
    - eexists. split; [by apply lt_control_in|]. intros k. cbn. rewrite Hr, Hi. split; [by intros [_ <-]|by intros ->].
    - eexists. split; [by apply lt_control_out|]. intros k. cbn. rewrite Hr, Hi. split; [by intros [_ <-]|by intros ->]. }
  destruct (C57_forwards_exactly_partial dbg st m sb d e i s f c HD Hb Ht Hdir) as (out & st1 & R & F & _).
  by exists c, out, st1.
Qed.
(** What is true: the client knows the [n]-th interface of the host's device (its class and
    endpoints) as number [n], and its requests for that number reach the device as requests for
    the interface the device calls [n].  So they reach the interface they are meant for exactly
    when the device numbers its interfaces in the order of its descriptors. *)
Theorem C97_interface_numbers_partial : forall dbg hs ds j x d n a,
  Forall (fun o => forall h, o = Some h -> rusb_sane h) hs -> with_rusb_devices dbg hs = Val ds ->
  rusb_usable hs !! j = Some x -> ds !! j = Some d -> rc_interfaces x.2 !! n = Some (Some a) ->
  exists f, d_interfaces d !! n = Some f /\ intf_reported a f /\
  (forall total, hc_interfaces (config_view d total) !! n = Some (intf_view (N.of_nat n) f)) /\
  forall (st : cstate rusb_h) m sb e i s, interface_request dbg st m sb d e i s (N.of_nat n) ->
    usable (cs_world st) (TIntf f) -> respects_buffer (host_of (cs_world st) (TIntf f)) ->
    dbg = false \/ h_direction (sb_header sb) = 1 \/ ~ in_ep e ->
  exists c out st1, replies dbg st m sb out st1 /\ forwarded (cs_world st) (cs_world st1) (TIntf f) c /\
    meant_for c (N.of_nat n) /\ (meant_for c (ha_number a) <-> ha_number a = N.of_nat n).
Proof.
  intros dbg hs ds j x d n a Hs E Hx Hd Ha. unfold with_rusb_devices in E.
  assert (Hs' : Forall rusb_sane (omap id hs)).
  { apply Forall_forall. intros h Hh. apply elem_of_list_omap in Hh as (o & Ho & Eo). rewrite Forall_forall in Hs. by apply (Hs o). }
  pose proof (rusb_val_complete _ _ _ _ _ E) as Hc.
  destruct (rusb_handles_ok dbg _ 0 0 Hs' Hc) as (ds' & E' & HF). rewrite E in E'. apply val_inj in E' as <-.
  destruct (Forall2_lookup_lr _ _ _ _ _ _ HF Hx Hd) as [HR _].
  destruct (Forall2_lookup_l _ _ _ _ _ (rr_interfaces _ _ _ _ HR) Ha) as (f & Hf & a' & [= <-] & Hi & _).
  exists f. split; [done|]. split; [done|]. split; [intros total; by apply view_lookup|].
  intros st m sb e i s Hq Hu Hb Hdir.
  destruct (rusb_interface_forwarded dbg st m sb d e i s n f Hq Hf Hu Hb Hdir) as (c & out & st1 & R & F & Hk).
  exists c, out, st1. split; [done|]. split; [done|]. split; [by apply Hk|apply Hk].
Qed.
Print Assumptions C97_interface_numbers_partial.
(** The same with nusb, for the requests nusb can make. *)
Theorem C97_nusb_interface_numbers_partial : forall dbg is ds j x d n a,
  Forall nusb_sane is -> with_nusb_devices dbg is 0 0 = Val ds ->
  nusb_usable is !! j = Some x -> ds !! j = Some d -> nc_interfaces x.2 !! n = Some (Some (Some a)) ->
  exists f, d_interfaces d !! n = Some f /\ intf_reported a f /\
  (forall total, hc_interfaces (config_view d total) !! n = Some (intf_view (N.of_nat n) f)) /\
  forall (st : cstate nusb_h) m sb e i s t, interface_request dbg st m sb d e i s (N.of_nat n) ->
    nusb_request (s_request_type s) t NInterface ->
    usable (cs_world st) (TIntf f) -> respects_buffer (host_of (cs_world st) (TIntf f)) ->
    dbg = false \/ h_direction (sb_header sb) = 1 \/ ~ in_ep e ->
  exists c out st1, replies dbg st m sb out st1 /\ forwarded (cs_world st) (cs_world st1) (TIntf f) c /\
    meant_for c (N.of_nat n) /\ (meant_for c (ha_number a) <-> ha_number a = N.of_nat n).
Proof.
  intros dbg is ds j x d n a Hs E Hx Hd Ha.
  pose proof (nusb_val_complete _ _ _ _ _ E) as Hc.
  destruct (nusb_list_ok dbg _ 0 0 Hs Hc) as (ds' & E' & HF). rewrite E in E'. apply val_inj in E' as <-.
  destruct (Forall2_lookup_lr _ _ _ _ _ _ HF Hx Hd) as [HR _].
  destruct (Forall2_lookup_l _ _ _ _ _ (nr_interfaces _ _ _ _ HR) Ha) as (f & Hf & a' & [= <-] & Hi).
  exists f. split; [done|]. split; [done|]. split; [intros total; by apply view_lookup|].
  intros st m sb e i s t Hq Hn Hu Hb Hdir.
  pose proof (request_delivered _ _ _ _ _ _ _ _ _ _ Hq Hf Hu) as HD.
  destruct Hq as [Hm HL Hdd Had Hct Hst Hr Hix].
  assert (exists isin c, (isin = true <-> in_ep e) /\ nusb_transfer isin (sb_transfer_buffer_length sb) s (sb_data sb) c /\
    forall k, meant_for c k <-> k = N.of_nat n) as (isin & c & Hii & Ht & Hk).
  { destruct (in_ep_dec' e) as [He|He].
    - exists true. eexists. split; [done|]. split; [by apply (nt_in _ _ _ _ t NInterface)|]. intros k. cbn. rewrite Hix. split; by intros ->.
    - exists false. eexists. split; [split; [done|by intros]|]. split; [by apply (nt_out _ _ _ _ t NInterface)|]. intros k. cbn. rewrite Hix. split; by intros ->. }
  destruct (proj1 (C59_nusb_passthrough_partial dbg st m sb d e i s f HD Hb) Hct isin c Hii Ht Hdir) as (out & st1 & R & F & _).
  exists c, out, st1. split; [done|]. split; [done|]. split; [by apply Hk|apply Hk].
Qed.
Print Assumptions C97_nusb_interface_numbers_partial.
(** C97 is false: a device lists its interfaces in the order 0, 2, 1.  The client sees the second
    one (a keyboard) as number 1; its SET_REPORT for it reaches the third one (vendor specific). *)
Definition ho_alts : list os_alt :=
  [mkHostAlt 0 255 0 0 [] None []; mkHostAlt 2 3 1 1 [mkHostEp 0x81 3 8 10] None []; mkHostAlt 1 255 9 9 [] None []].
Definition ho_cfg : rusb_cfg := mkRusbCfg 1 (Some <$> ho_alts).
Definition ho : rusb_handle := mkRusbHandle 1 5 2 RsHigh (Some hx_desc) (Some ho_cfg) hx_strings.
Definition ho_dev : device := match rusb_device true ho hx_desc ho_cfg 0 0 with Val d => d | _ => ex_dev end.
Definition ho_state : cstate rusb_h :=
  mkC (mkServer [] {[ lit "1-5-2" := ho_dev ]}) (hx_world _ _ hx_host) (Some (lit "1-5-2")).
Definition ho_set_report : submit := submit_cmd 0 0 1 [33; 9; 0; 2; 1; 0; 1; 0] [7].
Lemma ho_sane : rusb_sane ho.
Proof.
  unfold rusb_sane; cbn. split_and!; try lia.
  - intros desc [= <-]. cbn. lia.
  - intros cfg [= <-]. cbn. repeat (apply Forall_cons; split; [intros a [= <-]; cbn; repeat constructor; cbn; lia|]). constructor.
Qed.
Lemma ho_wire dbg : all_u8 (wire (CmdSubmit ho_set_report)) = true /\
  cmd_layout dbg (wire (CmdSubmit ho_set_report)) (CmdSubmit ho_set_report).
Proof. apply wire_ok; destruct dbg; wf_ex. Qed.
Lemma ho_request dbg : interface_request dbg ho_state (wire (CmdSubmit ho_set_report)) ho_set_report ho_dev
  (mkEndpoint 0 0 64 0) None (mkSetup 33 9 512 1 1) 1.
Proof.
  destruct (ho_wire dbg) as [A B].
  split; [exact A|exact B|exists (lit "1-5-2"); split; [done|apply lookup_singleton]|apply find_ep_some; vm_compute; reflexivity| | | |]; try done.
  unfold setup_of. do 8 eexists. split; reflexivity.
Qed.
Lemma ho_enumerated dbg : with_rusb_devices dbg [Some ho] = Val [ho_dev].
Proof. destruct dbg; vm_compute; reflexivity. Qed.
Lemma ho_intfs : exists f0 f1 f2, d_interfaces ho_dev = [f0; f1; f2].
Proof. vm_compute. eauto. Qed.
Theorem C97_interface_numbers_refuted : exists h cfg d a a' (st : cstate rusb_h) m sb e i s,
  rusb_sane h /\ rh_cfg h = Some cfg /\ (forall dbg, with_rusb_devices dbg [Some h] = Val [d]) /\
  rc_interfaces cfg !! 1%nat = Some (Some a) /\ Some a' ∈ rc_interfaces cfg /\ ha_number a <> ha_number a' /\
  (exists f, d_interfaces d !! 1%nat = Some f /\ intf_reported a f) /\
  forall dbg, interface_request dbg st m sb d e i s 1 /\
  exists c f out st1, replies dbg st m sb out st1 /\ forwarded (cs_world st) (cs_world st1) (TIntf f) c /\
    meant_for c (ha_number a') /\ ~ meant_for c (ha_number a).
Proof.
  assert (HP : forall dbg, exists f, d_interfaces ho_dev !! 1%nat = Some f /\ intf_reported (mkHostAlt 2 3 1 1 [mkHostEp 0x81 3 8 10] None []) f /\
    exists c out st1, replies dbg ho_state (wire (CmdSubmit ho_set_report)) ho_set_report out st1 /\
      forwarded (cs_world ho_state) (cs_world st1) (TIntf f) c /\ meant_for c 1 /\ ~ meant_for c 2).
  { intros dbg.
    destruct (C97_interface_numbers_partial dbg [Some ho] [ho_dev] 0 (ho, hx_desc, ho_cfg) ho_dev 1
      (mkHostAlt 2 3 1 1 [mkHostEp 0x81 3 8 10] None [])) as (f & Hf & Hr & _ & HC); try reflexivity.
    { apply Forall_cons. split; [|constructor]. intros h [= <-]. exact ho_sane. }
    { exact (ho_enumerated dbg). }
    exists f. split; [exact Hf|]. split; [exact Hr|].
    destruct (HC ho_state _ _ _ _ _ (ho_request dbg)) as (c & out & st1 & R & F & M1 & M2).
    { reflexivity. } { exact hx_respects. } { right. right. unfold in_ep. cbn. lia. }
    exists c, out, st1. split; [exact R|]. split; [exact F|]. split; [exact M1|]. cbn in M2. intros M3. apply M2 in M3. done. }
  exists ho, ho_cfg, ho_dev, (mkHostAlt 2 3 1 1 [mkHostEp 0x81 3 8 10] None []), (mkHostAlt 1 255 9 9 [] None []),
    ho_state, (wire (CmdSubmit ho_set_report)), ho_set_report, (mkEndpoint 0 0 64 0), None, (mkSetup 33 9 512 1 1).
  split; [exact ho_sane|]. split; [reflexivity|]. split; [exact ho_enumerated|]. split; [reflexivity|].
  split; [cbn; do 2 right; left|]. split; [cbn; lia|]. split.
  { destruct (HP true) as (f & Hf & Hr & _). exists f. split; [exact Hf|exact Hr]. }
  intros dbg. split; [exact (ho_request dbg)|].
  destruct (HP dbg) as (f & _ & _ & c & out & st1 & R & F & M1 & M2). exists c, f, out, st1.
  split; [exact R|]. split; [exact F|]. split; [exact M1|exact M2].
Qed.
Print Assumptions C97_interface_numbers_refuted.
Example C97_example : rusb_usable [Some ho] !! 0%nat = Some (ho, hx_desc, ho_cfg) /\
  rc_interfaces ho_cfg !! 0%nat = Some (Some (mkHostAlt 0 255 0 0 [] None [])) /\
  rc_interfaces ho_cfg !! 1%nat = Some (Some (mkHostAlt 2 3 1 1 [mkHostEp 0x81 3 8 10] None [])) /\
  interface_request true ho_state (wire (CmdSubmit ho_set_report)) ho_set_report ho_dev
    (mkEndpoint 0 0 64 0) None (mkSetup 33 9 512 1 1) 1.
Proof. split; [done|]. split; [done|]. split; [done|]. exact (ho_request true). Qed.

(** ** C98 *)
Lemma devid_inj b1 n1 b2 n2 : n1 < 65536 -> n2 < 65536 -> b1 * 65536 + n1 = b2 * 65536 + n2 <-> b1 = b2 /\ n1 = n2.
Proof. lia. Qed.
(** C98 is false: the device number is the port on the hub, so two devices of one bus plugged into
    the same port of two hubs get the same id; with nusb any two devices of a bus do. *)
Definition nz2 : nusb_info := mkNusbInfo 2 11 (Some NsLow) 1 2 0 0 0 0x0110 None None None
  (Some (mkNusbOpen (Some (mkNusbCfg 1 [Some (Some nz_alt)])) 1)).
Theorem C98_distinct_device_ids_refuted :
  (exists h1 h2 d1 d2 v, rusb_sane h1 /\ rusb_sane h2 /\ rh_address h1 <> rh_address h2 /\
     (forall dbg, with_rusb_devices dbg [Some h1; Some h2] = Val [d1; d2]) /\ d_bus_id d1 <> d_bus_id d2 /\
     right_devid d1 v /\ right_devid d2 v) /\
  (exists i1 i2 d1 d2 v, nusb_sane i1 /\ nusb_sane i2 /\ ni_address i1 <> ni_address i2 /\
     (forall dbg, with_nusb_devices dbg [i1; i2] 0 0 = Val [d1; d2]) /\ d_bus_id d1 <> d_bus_id d2 /\
     right_devid d1 v /\ right_devid d2 v).
Proof.
  split.
  - set (ds := match with_rusb_devices true [Some hx; Some hy] with Val ds => ds | _ => [] end).
    exists hx, hy, (nth 0 ds ex_dev), (nth 1 ds ex_dev), 65538.
    split; [exact hx_sane|]. split; [exact hy_sane|]. split; [done|].
    split; [intros dbg; destruct dbg; vm_compute; reflexivity|]. split; [by vm_compute|]. split; vm_compute; reflexivity.
  - set (ds := match with_nusb_devices true [nz; nz2] 0 0 with Val ds => ds | _ => [] end).
    exists nz, nz2, (nth 0 ds ex_dev), (nth 1 ds ex_dev), 131072.
    assert (Hs : forall a, nusb_sane (mkNusbInfo 2 a (Some NsLow) 1 2 0 0 0 0x0110 None None None
      (Some (mkNusbOpen (Some (mkNusbCfg 1 [Some (Some nz_alt)])) 1))) \/ 256 <= a).
    { intros a. destruct (N.le_gt_cases 256 a); [by right|left]. split; [cbn; lia|]. split; [cbn; lia|].
      intros o cfg [= <-] [= <-]. split; [cbn; lia|]. repeat constructor. intros a' [= <-]. cbn. repeat constructor; cbn; lia. }
    split; [destruct (Hs 10); [done|lia]|]. split; [destruct (Hs 11); [done|lia]|]. split; [done|].
    split; [intros dbg; destruct dbg; vm_compute; reflexivity|]. split; [by vm_compute|]. split; vm_compute; reflexivity.
Qed.
Print Assumptions C98_distinct_device_ids_refuted.
(** What is true: two devices of a host have the same id exactly when they are on the same bus and
    have the same port number (rusb) or are on the same bus (nusb); and devices made by the
    application with different numbers have different ids. *)
Theorem C98_distinct_device_ids_partial : forall dbg,
  (forall hs ds j k x y d d' v, Forall (fun o => forall h, o = Some h -> rusb_sane h) hs ->
     with_rusb_devices dbg hs = Val ds -> rusb_usable hs !! j = Some x -> rusb_usable hs !! k = Some y ->
     ds !! j = Some d -> ds !! k = Some d' -> right_devid d v ->
     (right_devid d' v <-> rh_bus x.1.1 = rh_bus y.1.1 /\ rh_port x.1.1 = rh_port y.1.1)) /\
  (forall is ds j k x y d d' v, Forall nusb_sane is ->
     with_nusb_devices dbg is 0 0 = Val ds -> nusb_usable is !! j = Some x -> nusb_usable is !! k = Some y ->
     ds !! j = Some d -> ds !! k = Some d' -> right_devid d v ->
     (right_devid d' v <-> ni_bus x.1.1 = ni_bus y.1.1)) /\
  (forall j k d d' v, new_device dbg j = Val d -> new_device dbg k = Val d' -> right_devid d v ->
     (right_devid d' v <-> j = k)).
Proof.
  intros dbg. split; [|split].
  - intros hs ds j k x y d d' v Hs E Hx Hy Hd Hd'. unfold with_rusb_devices in E.
    assert (Hs' : Forall rusb_sane (omap id hs)).
    { apply Forall_forall. intros h Hh. apply elem_of_list_omap in Hh as (o & Ho & Eo). rewrite Forall_forall in Hs. by apply (Hs o). }
    pose proof (rusb_val_complete _ _ _ _ _ E) as Hc.
    destruct (rusb_handles_ok dbg _ 0 0 Hs' Hc) as (ds' & E' & HF). rewrite E in E'. apply val_inj in E' as <-.
    destruct (Forall2_lookup_lr _ _ _ _ _ _ HF Hx Hd) as [[_ [B1 N1] _ _ _ _ _ _ _ _] _].
    destruct (Forall2_lookup_lr _ _ _ _ _ _ HF Hy Hd') as [[_ [B2 N2] _ _ _ _ _ _ _ _] _].
    assert (HB : forall z q, rusb_usable hs !! q = Some z -> rh_port z.1.1 < 256).
    { intros z q Hz. apply elem_of_list_lookup_2, elem_of_list_omap in Hz as (h & Hh & Eh).
      rewrite Forall_forall in Hs'. specialize (Hs' h Hh).
      assert (z.1.1 = h) as ->. { unfold rusb_described in Eh. repeat case_match; by simplify_eq. }
      destruct Hs' as (_ & _ & ? & _). done. }
    pose proof (HB _ _ Hx). pose proof (HB _ _ Hy). unfold right_devid. rewrite B1, N1, B2, N2. intros ->.
    rewrite devid_inj by lia. done.
  - intros is ds j k x y d d' v Hs E Hx Hy Hd Hd'.
    pose proof (nusb_val_complete _ _ _ _ _ E) as Hc.
    destruct (nusb_list_ok dbg _ 0 0 Hs Hc) as (ds' & E' & HF). rewrite E in E'. apply val_inj in E' as <-.
    destruct (Forall2_lookup_lr _ _ _ _ _ _ HF Hx Hd) as [R1 [[L1 _ _ _] _]].
    destruct (Forall2_lookup_lr _ _ _ _ _ _ HF Hy Hd') as [R2 [[L2 _ _ _] _]].
    pose proof (nr_bus_num _ _ _ _ R1) as B1. pose proof (nr_bus_num _ _ _ _ R2) as B2.
    unfold right_devid. rewrite B1, L1, B2, L2. intros ->. lia.
  - intros j k d d' v E E'. apply new_device_erase in E as [E _]. apply new_device_erase in E' as [E' _].
    assert (HB : forall z q, erase z = base q -> d_bus_num z = 0 /\ d_dev_num z = q).
    { intros z q Ez. change (d_bus_num z) with (d_bus_num (erase z)). change (d_dev_num z) with (d_dev_num (erase z)).
      rewrite Ez. done. }
    destruct (HB _ _ E) as [B1 N1]. destruct (HB _ _ E') as [B2 N2]. unfold right_devid. rewrite B1, N1, B2, N2. intros ->. lia.
Qed.
Print Assumptions C98_distinct_device_ids_partial.
Example C98_example : exists d d', new_device true 0 = Val d /\ new_device true 1 = Val d' /\ right_devid d 0 /\ right_devid d' 1.
Proof.
  destruct (PoolProofs.new_device_names true 0) as (d & E & _). destruct (PoolProofs.new_device_names true 1) as (d' & E' & _).
  exists d, d'. split; [exact E|]. split; [exact E'|].
  apply new_device_erase in E as [E _]. apply new_device_erase in E' as [E' _]. unfold right_devid.
  change (d_bus_num d) with (d_bus_num (erase d)). change (d_dev_num d) with (d_dev_num (erase d)).
  change (d_bus_num d') with (d_bus_num (erase d')). change (d_dev_num d') with (d_dev_num (erase d')).
  rewrite E, E'. done.
Qed.

(** ** C99 *)
Lemma setup_unique b s s' : setup_of b s -> setup_of b s' -> s = s'.
Proof. intros (? & ? & ? & ? & ? & ? & ? & ? & -> & ->) (? & ? & ? & ? & ? & ? & ? & ? & [= <- <- <- <- <- <- <- <-] & ->). done. Qed.
Lemma addressed_unique d a e i e' i' : addressed d a e i -> addressed d a e' i' -> e = e' /\ i = i'.
Proof. rewrite <- !find_ep_some. intros -> [= -> ->]. done. Qed.
Lemma get_descriptor_err dbg d s : s_request_type s = 128 -> s_request s = 6 ->
  (exists x, get_descriptor dbg d s = UErr x) <-> exists ix, get_desc s 3 ix /\ ix <> 0 /\ d_string_pool d !! ix = None.
Proof.
  intros Ht Hr. unfold get_descriptor. rewrite shiftr8. unfold as_u8. split.
  - intros [x E]. destruct (desc_type_of (s_value s / 256)) as [ty|] eqn:Et; [|done]. destruct ty; try done.
    apply desc_type_string in Et. destruct (N.eqb_spec (s_value s mod 256) 0) as [E0|E0]; [done|].
    destruct (d_string_pool d !! (s_value s mod 256)) as [str|] eqn:Ep; [by destruct (string_descriptor dbg str)|].
    exists (s_value s mod 256). split; [|done]. unfold get_desc. split_and!; try done; lia.
  - intros (ix & (_ & _ & Ev & Hx) & H0 & Hp).
    replace (s_value s / 256) with 3 by lia. replace (s_value s mod 256) with ix by lia. cbn [desc_type_of].
    destruct (N.eqb_spec ix 0); [done|]. rewrite Hp. eauto.
Qed.
Lemma urb_fails {H} dbg (w : world H) d sb e i s r w' : addressed d (ep_byte (sb_header sb)) e i -> setup_of (sb_setup sb) s ->
  handle_urb dbg w d e i (sb_transfer_buffer_length sb) s (sb_data sb) = (r, w') -> (forall p, r <> UPanic p) ->
  failing w d sb <-> exists x, r = UErr x.
Proof.
  intros Ha Hs E Hp. split.
  - intros [Hu|e' i' s' ix Ha' Hc Hi Hs' Hg H0 Hpool|e' i' s' t x Ha' Hs' Hr Hus Hx].
    + apply find_ep_none in Hu. apply find_ep_some in Ha. congruence.
    + destruct (addressed_unique _ _ _ _ _ _ Ha Ha') as [<- <-]. pose proof (setup_unique _ _ _ Hs Hs') as <-.
      rewrite (get_desc_urb dbg w d e i _ s _ 3 ix Hc Hi Hg) in E. injection E as <- <-.
      destruct Hg as (G1 & G2 & G3). apply get_descriptor_err; [done|done|]. exists ix. done.
    + destruct (addressed_unique _ _ _ _ _ _ Ha Ha') as [<- <-]. pose proof (setup_unique _ _ _ Hs Hs') as <-.
      destruct (handle_urb_routed dbg w d e i (sb_transfer_buffer_length sb) s (sb_data sb) t Hr Hus) as (o & w1 & Hi & E').
      rewrite (invoked_answer _ _ _ _ _ _ _ _ Hi), Hx in E'. rewrite E' in E. injection E as <- <-. by exists x.
  - intros [x ->].
    destruct (handle_urb_cases dbg w d e i (sb_transfer_buffer_length sb) s (sb_data sb)) as
      [(Hc & Hi & Ht & Hr & E')|[(_ & _ & _ & _ & E')|[(t & Hr & Hu)|(Hn & Hl & p & E')]]].
    + rewrite E' in E. injection E as E <-. destruct (proj1 (get_descriptor_err dbg d s Ht Hr)) as (ix & Hg & H0 & Hpool); [by exists x|].
      by eapply fl_string.
    + rewrite E' in E. discriminate.
    + destruct (usable_dec w t) as [Hus|Hus]; [|destruct Hu as [Hu|Hu]; [done|rewrite Hu in E; discriminate]].
      destruct (handle_urb_routed dbg w d e i (sb_transfer_buffer_length sb) s (sb_data sb) t Hr Hus) as (o & w1 & Hi & E').
      rewrite E' in E. destruct o as [| |]; cbn in E; try discriminate.
      eapply fl_handler; [exact Ha|exact Hs|exact Hr|exact Hus|]. by rewrite <- (invoked_answer _ _ _ _ _ _ _ _ Hi).
    + rewrite E' in E. discriminate.
Qed.
Lemma replies_connection {H} dbg (st : cstate H) m sb inp fin out en st' :
  (exists data st1, replies dbg st m sb data st1) -> connection dbg st (m ++ inp) fin None = (out, en, st') ->
  exists b out', out = b ++ out' /\ answers (CmdSubmit sb) b /\ u32_at b 20 0.
Proof.
  intros (data & st1 & R) E. destruct (R inp fin) as (b & Hb & C).
  destruct (connection dbg st1 inp fin None) as [[o e] s1] eqn:Ec. rewrite (C _ _ _ eq_refl) in E. injection E as <- <- <-.
  exists b, o. split; [done|]. split; [left; eauto|]. unfold submit_ok_reply, ret_submit_layout in Hb. cbn in Hb. by destruct_and! Hb.
Qed.
Lemma replies_error_connection {H} dbg (st : cstate H) m sb inp fin out en st' :
  (exists st1, replies_error dbg st m sb st1) -> connection dbg st (m ++ inp) fin None = (out, en, st') ->
  exists b out', out = b ++ out' /\ answers (CmdSubmit sb) b /\ u32_at b 20 1.
Proof.
  intros (st1 & R) E. destruct (R inp fin) as (b & Hb & C).
  destruct (connection dbg st1 inp fin None) as [[o e] s1] eqn:Ec. rewrite (C _ _ _ eq_refl) in E. injection E as <- <- <-.
  exists b, o. split; [done|]. split; [by right|]. unfold submit_fail_reply, ret_submit_layout in Hb. cbn in Hb. by destruct_and! Hb.
Qed.
(** C99 is false: a failed submit is reported with status 1, which Linux does not take for an
    error number. *)
Theorem C99_error_numbers_refuted : exists (m : list N) (sb : submit) (v : N), failing ex_world ex_dev sb /\ ~ linux_status v /\
  forall dbg, cmd_layout dbg m (CmdSubmit sb) /\ imported ex_state ex_dev /\
  exists b st', connection dbg ex_state m SEof None = (b, EndOk, st') /\ answers (CmdSubmit sb) b /\ u32_at b 20 v.
Proof.
  exists (wire (CmdSubmit ex_unknown)), ex_unknown, 1.
  assert (Hu : unknown_ep ex_dev (ep_byte (sb_header ex_unknown))) by (apply find_ep_none; reflexivity).
  split; [by apply fl_endpoint|]. split; [unfold linux_status; lia|]. intros dbg.
  assert (HL : cmd_layout dbg (wire (CmdSubmit ex_unknown)) (CmdSubmit ex_unknown)) by (apply (ex_wire dbg ex_unknown); in_list).
  split; [exact HL|]. split; [exact ex_imported|].
  destruct (C16_unknown_endpoint_refused _ dbg ex_state _ _ (lit "0-0-0") ex_dev [] SEof HL eq_refl (lookup_singleton _ _) Hu) as (b & Hb & C).
  destruct (connection dbg ex_state [] SEof None) as [[o e] s1] eqn:Ec. pose proof (C _ _ _ eq_refl) as C'.
  rewrite app_nil_r in C'. assert (o = [] /\ e = EndOk) as [-> ->] by (destruct dbg; vm_compute in Ec; injection Ec; auto).
  rewrite app_nil_r in C'. exists b, s1. split; [exact C'|]. split; [by right|].
  unfold ret_submit_layout in Hb. cbn in Hb. by destruct_and! Hb.
Qed.
Print Assumptions C99_error_numbers_refuted.
(** What is true: a submit for an imported device is either answered with status 0, or with status
    1 exactly when it fails, or the connection aborts. *)
Theorem C99_error_numbers_partial : forall H dbg (st : cstate H) m sb d inp fin out en st',
  all_u8 m = true -> cmd_layout dbg m (CmdSubmit sb) -> imported st d ->
  connection dbg st (m ++ inp) fin None = (out, en, st') ->
  (out = [] /\ exists p, en = EndPanic p) \/
  (exists b out' v, out = b ++ out' /\ answers (CmdSubmit sb) b /\ u32_at b 20 v /\
     (failing (cs_world st) d sb /\ v = 1 \/ ~ failing (cs_world st) d sb /\ v = 0)).
Proof.
  intros H dbg st m sb d inp fin out en st' Hm HL Hd E.
  destruct (addressed_dec d (ep_byte (sb_header sb))) as [(e & i & Ha)|Hu].
  - assert (exists s, setup_of (sb_setup sb) s) as [s Hs] by (by eapply setup_of_exists).
    destruct (handle_urb dbg (cs_world st) d e i (sb_transfer_buffer_length sb) s (sb_data sb)) as [r w'] eqn:Eu.
    pose proof (urb_replies dbg st m sb d e i s r w' Hm HL Hd Ha Hs Eu) as R.
    pose proof (urb_fails dbg (cs_world st) d sb e i s r w' Ha Hs Eu) as HF.
    destruct r as [data|x|p].
    + assert (Hn : ~ failing (cs_world st) d sb) by (rewrite HF by done; by intros [x [=]]).
      assert (Hdd : (dbg = false \/ h_direction (sb_header sb) = 1 \/ len data mod 4294967296 = 0) \/
                   (dbg = true /\ h_direction (sb_header sb) <> 1 /\ len data mod 4294967296 <> 0)).
      { destruct dbg; [|tauto]. lia. }
      destruct Hdd as [Hdd|(-> & Hd1 & Hd2)].
      * right. destruct (replies_connection dbg st m sb inp fin out en st') as (b & o & ? & ? & ?); [by eauto|done|].
        exists b, o, 0. split; [done|]. split; [done|]. split; [done|]. by right.
      * left. pose proof (urb_serve true st m sb d e i s Hm HL Hd Ha Hs) as Es. rewrite Eu in Es.
        assert (X : connection true st (m ++ inp) fin None = ([], EndPanic PDebugAssert, mkC (cs_server st) w' (cs_current st))).
        2: { rewrite X in E. injection E as <- <- <-. eauto. }
        eapply connection_panic; [exact HL|exact Es|].
        cbn [obind]. unfold usbip_ret_submit_success, response_to_bytes, reply_header.
        cbn [rs_header rs_actual_length rs_transfer_buffer h_command h_direction]. unfold debug_assert, DIR_IN, as_u32.
        destruct (N.eqb_spec (h_direction (sb_header sb)) 1); [done|].
        destruct (N.eqb_spec (len data mod 4294967296) 0); done.
    + right. destruct (replies_error_connection dbg st m sb inp fin out en st') as (b & o & ? & ? & ?); [by eauto|done|].
      exists b, o, 1. split; [done|]. split; [done|]. split; [done|]. left. split; [|done]. apply HF; [done|eauto].
    + left. rewrite (R inp fin) in E. injection E as <- <- <-. eauto.
  - right. destruct (unknown_ep_step dbg st m sb d inp fin HL Hd Hu) as (b & Hb & C).
    destruct (connection dbg st inp fin None) as [[o e] s1] eqn:Ec. rewrite (C _ _ _ eq_refl) in E. injection E as <- <- <-.
    exists b, o, 1. split; [done|]. split; [by right|]. split; [|left; split; [by apply fl_endpoint|done]].
    unfold ret_submit_layout in Hb. cbn in Hb. by destruct_and! Hb.
Qed.
Print Assumptions C99_error_numbers_partial.
Example C99_example : imported ex_state ex_dev /\ failing ex_world ex_dev ex_unknown /\ failing ex_world ex_dev ex_out0 /\
  ~ failing ex_world ex_dev ex_out.
Proof.
  split; [exact ex_imported|]. split; [apply fl_endpoint, find_ep_none; reflexivity|].
  destruct (ex_delivered true) as (_ & [_ _ _ A1 S1 _ _] & [_ _ _ A0 S0 R0 U0]). split.
  - eapply fl_handler; [exact A0|exact S0|exact R0|exact U0|reflexivity].
  - destruct (handle_urb true ex_world ex_dev (mkEndpoint 2 2 512 0) (Some ex_intf) (sb_transfer_buffer_length ex_out)
      (mkSetup 0 0 0 0 0) (sb_data ex_out)) as [r w'] eqn:Eu.
    assert (r = UOk []) as -> by (vm_compute in Eu; by injection Eu).
    rewrite (urb_fails true ex_world ex_dev ex_out _ _ _ _ w' A1 S1 Eu); [|done]. by intros [x [=]].
Qed.

(** ** C100 *)
(** C100 is false: a device with one configuration sends a descriptor for configuration 7, and
    accepts configuration value 9 although its configuration has value 1. *)
Definition ex_setconf9 : submit := submit_cmd 0 0 0 [0; 9; 9; 0; 0; 0; 0; 0] [].
Lemma set_config_reply {H} dbg (st : cstate H) m sb d e i s v :
  all_u8 m = true -> cmd_layout dbg m (CmdSubmit sb) -> imported st d ->
  addressed d (ep_byte (sb_header sb)) e i -> ep_attributes e = 0 -> ~ in_ep e -> setup_of (sb_setup sb) s ->
  set_config s v -> replies dbg st m sb [] st.
Proof.
  intros Hm HL Hd Ha Hc Hne Hs (Ht & Hq & _ & Hl).
  assert (Hu : handle_urb dbg (cs_world st) d e i (sb_transfer_buffer_length sb) s (sb_data sb) = (UOk [], cs_world st)).
  { unfold handle_urb. rewrite Hc, Ht, Hq. cbn [ep_attr_of]. rewrite (proj2 (ep_direction_out e) Hne). cbn. by rewrite Hl. }
  pose proof (urb_replies dbg st m sb d e i s _ _ Hm HL Hd Ha Hs Hu) as R. cbn in R.
  rewrite same_state in R. apply R. right. by right.
Qed.
Theorem C100_configurations_refuted : 
  d_num_configurations ex_dev = 1 /\ d_configuration_value ex_dev = 1 /\
  exists m sb s m' sb' s' e, get_desc s 2 7 /\ set_config s' 9 /\ addressed ex_dev (ep_byte (sb_header sb')) e None /\
  ep_attributes e = 0 /\ setup_of (sb_setup sb') s' /\
  forall dbg, control_in dbg (on_device ex_dev) m sb ex_dev s /\
    (exists data, data <> [] /\ replies dbg (on_device ex_dev) m sb data (on_device ex_dev)) /\
    cmd_layout dbg m' (CmdSubmit sb') /\ replies dbg (on_device ex_dev) m' sb' [] (on_device ex_dev).
Proof.
  split; [done|]. split; [done|].
  exists (wire (CmdSubmit (ctl_in [128; 6; 7; 2; 0; 0; 9; 0]))), (ctl_in [128; 6; 7; 2; 0; 0; 9; 0]), (mkSetup 128 6 519 0 9),
    (wire (CmdSubmit ex_setconf9)), ex_setconf9, (mkSetup 0 9 9 0 0), (mkEndpoint 0 0 64 0).
  assert (Hg : get_desc (mkSetup 128 6 519 0 9) 2 7) by (unfold get_desc; cbn; lia).
  assert (Ha : addressed ex_dev (ep_byte (sb_header ex_setconf9)) (mkEndpoint 0 0 64 0) None) by (apply find_ep_some; reflexivity).
  assert (Hs : setup_of (sb_setup ex_setconf9) (mkSetup 0 9 9 0 0)) by (unfold setup_of; do 8 eexists; split; reflexivity).
  split; [exact Hg|]. split; [done|]. split; [exact Ha|]. split; [done|]. split; [exact Hs|]. intros dbg.
  assert (HC : control_in dbg (on_device ex_dev) (wire (CmdSubmit (ctl_in [128; 6; 7; 2; 0; 0; 9; 0])))
    (ctl_in [128; 6; 7; 2; 0; 0; 9; 0]) ex_dev (mkSetup 128 6 519 0 9)) by (by apply on_device_ctl).
  split; [exact HC|]. split.
  { exists [9; 2; 32; 0; 1; 1; 1; 128; 50]. split; [done|]. pose proof (control_in_desc _ _ _ _ _ _ _ _ HC Hg) as R.
    assert (get_descriptor dbg ex_dev (mkSetup 128 6 519 0 9) = UOk [9; 2; 32; 0; 1; 1; 1; 128; 50]) as Eg
      by (destruct dbg; vm_compute; reflexivity). by rewrite Eg in R. }
  assert (HW : all_u8 (wire (CmdSubmit ex_setconf9)) = true /\ cmd_layout dbg (wire (CmdSubmit ex_setconf9)) (CmdSubmit ex_setconf9)).
  { apply wire_ok; destruct dbg; wf_ex. }
  destruct HW as [Hm HL]. split; [exact HL|].
  eapply set_config_reply; [exact Hm|exact HL| |exact Ha|done| |exact Hs|].
  - exists (lit "0-0-0"). split; [done|apply lookup_singleton].
  - unfold in_ep. cbn. lia.
  - done.
Qed.
Print Assumptions C100_configurations_refuted.
(** What is true: every index gets the same descriptor, the one of the only configuration the
    library knows; every value is accepted; the requests change nothing, and nothing is passed on
    to a handler. *)
Theorem C100_configurations_partial : forall H dbg (st : cstate H) d,
  (forall m sb s ix m' sb' s' ix', control_in dbg st m sb d s -> get_desc s 2 ix ->
     control_in dbg st m' sb' d s' -> get_desc s' 2 ix' -> s_length s = s_length s' ->
     exists data, replies dbg st m sb data st /\ replies dbg st m' sb' data st) /\
  (forall m sb e i s v, all_u8 m = true -> cmd_layout dbg m (CmdSubmit sb) -> imported st d ->
     addressed d (ep_byte (sb_header sb)) e i -> ep_attributes e = 0 -> ~ in_ep e -> setup_of (sb_setup sb) s ->
     set_config s v -> replies dbg st m sb [] st).
Proof.
  intros H dbg st d. split.
  - intros m sb s ix m' sb' s' ix' HC HG HC' HG' El.
    pose proof (control_in_desc _ _ _ _ _ _ _ _ HC HG) as R. pose proof (control_in_desc _ _ _ _ _ _ _ _ HC' HG') as R'.
    unfold get_descriptor in R, R'. rewrite (proj1 (desc_type_ix _ _ _ HG)) in R. rewrite (proj1 (desc_type_ix _ _ _ HG')) in R'.
    cbn [desc_type_of] in R, R'. rewrite <- El in R'. eauto.
  - intros m sb e i s v. apply set_config_reply.
Qed.
Print Assumptions C100_configurations_partial.
Example C100_example : forall dbg,
  control_in dbg (on_device ex_dev) (wire (CmdSubmit (ctl_in [128; 6; 7; 2; 0; 0; 9; 0])))
    (ctl_in [128; 6; 7; 2; 0; 0; 9; 0]) ex_dev (mkSetup 128 6 519 0 9) /\
  control_in dbg (on_device ex_dev) (wire (CmdSubmit (ctl_in [128; 6; 0; 2; 0; 0; 9; 0])))
    (ctl_in [128; 6; 0; 2; 0; 0; 9; 0]) ex_dev (mkSetup 128 6 512 0 9) /\ set_config (mkSetup 0 9 9 0 0) 9.
Proof. intros dbg. split; [by apply on_device_ctl|]. split; [by apply on_device_ctl|done]. Qed.

(** ** C101 *)
(** C101 is false: a key is waiting.  The first client polls once, sees the key go down, and
    leaves; the device is available again, but the second client, which does the same, sees no key
    go down. *)
Definition kf_dev : device := with_interfaces iso_dev [kb_intf].
Definition kf_world : world kb_h := kb_world (kb_push new_keyboard ka).
Definition kf_session : list N :=
  wire (OpReqImport 0 (field_of (lit "0-0-0"))) ++ wire (CmdSubmit (submit_cmd 1 1 8 (replicate 8 0) [])).
Theorem C101_fresh_start_refuted : forall dbg,
  let '(out1, en1, st1) := handler dbg (new_simulated [kf_dev]) kf_world kf_session SEof None in
  let '(out2, en2, st2) := handler dbg (cs_server st1) (cs_world st1) kf_session SEof None in
  en1 = EndOk /\ en2 = EndOk /\ sv_available (cs_server st1) = [kf_dev] /\ in_use (cs_server st1) = [] /\
  take 320 out1 = take 320 out2 /\ drop (320 + 48) out1 = [0; 0; 4; 0; 0; 0; 0; 0] /\ drop (320 + 48) out2 = replicate 6 0.
Proof. intros dbg. destruct dbg; vm_compute; split_and!; reflexivity. Qed.
Print Assumptions C101_fresh_start_refuted.
(** What is true: import and release do not touch the handlers; a handler is, when a client imports
    its device, as the last client (or the application since) left it. *)
Theorem C101_fresh_start_partial : forall H dbg ds (w : world H) ls s evs ls' s' evs',
  run dbg (init_sys ds w) ls = Some (s, evs) -> run dbg s ls' = Some (s', evs') -> distinct_ids ds (evs ++ evs') ->
  (forall r, unattended (fun d => uses_intf d r) evs evs' -> (forall f, LApp r f ∉ ls') ->
     w_intf (y_world s') r = w_intf (y_world s) r) /\
  (forall r, unattended (fun d => uses_dev d r) evs evs' -> w_dev (y_world s') r = w_dev (y_world s) r).
Proof.
  intros H dbg ds w ls s evs ls' s' evs' E0 E'. revert ls' s' evs' E'.
  match goal with |- forall ls1 s1 e1, _ -> @?Q ls1 s1 e1 => apply (run_ind dbg s Q) end; [done|].
  intros ls1 s1 e1 l s2 e2 E1 IH E2 Hd. rewrite app_assoc in Hd. pose proof (distinct_app _ _ _ Hd) as Hd1.
  destruct (IH Hd1) as [I1 I2].
  assert (U : forall P, unattended P evs (e1 ++ e2) -> unattended P evs e1 /\ forall t d, held (evs ++ e1) t = Some d -> ~ P d).
  { intros P HU. split.
    - intros a b t d -> Hh. apply (HU a (b ++ e2) t d); [by rewrite app_assoc|exact Hh].
    - intros t d. apply (HU e1 e2 t d). done. }
  destruct (C66_only_the_holder H dbg ds w (ls ++ ls1) s1 (evs ++ e1) l s2 e2 (run_app_intro _ _ _ _ _ _ _ _ E0 E1) Hd1 E2) as [C1 C2].
  split.
  - intros r HU Hl. destruct (U _ HU) as [U1 U2].
    rewrite <- (I1 r U1); [|intros f Hf; apply (Hl f), elem_of_app; by left].
    destruct (C1 r) as [|[[f ->]|(t & sb & res & d & _ & Hh & Hu)]]; [done| |by apply (U2 t d) in Hu].
    exfalso. apply (Hl f), elem_of_app. right. left.
  - intros r HU. destruct (U _ HU) as [U1 U2]. rewrite <- (I2 r U1).
    destruct (C2 r) as [|(t & sb & res & d & _ & Hh & Hu)]; [done|by apply (U2 t d) in Hu].
Qed.
Print Assumptions C101_fresh_start_partial.
(** A client comes, stores something in the device and leaves; another connects and looks at the
    list: nobody holds the device meanwhile, and what the first one stored is still there. *)
Definition one_visit : list (label ex_h) :=
  LConnect 1 :: do_import 1 id_a ++ [LSent 1] ++ do_submit 1 ex_out ++ [LSent 1] ++ do_close 1.
Definition a_look : list (label ex_h) := LConnect 2 :: do_list 2 ++ [LSent 2].
Definition lists_b (e : event) : bool := match e with EvServe _ (OpReqDevlist _) _ | EvSent _ _ => true | _ => false end.
Lemma held_lists evs evs' t : forallb lists_b evs' = true -> held (evs ++ evs') t = held evs t.
Proof.
  unfold held. rewrite foldl_app. generalize (foldl held1 (fun _ => None) evs). induction evs' as [|e evs' IH]; intros h Hb; [done|].
  cbn in Hb. apply andb_true_iff in Hb as [He Hb]. cbn [foldl]. rewrite IH by exact Hb.
  destruct e as [? c ?| | | | |]; try discriminate He; try destruct c; try discriminate He; done.
Qed.
Example C101_example : exists s evs s' evs', run false (init_sys [ex_dev] ex_world) one_visit = Some (s, evs) /\
  run false s a_look = Some (s', evs') /\ distinct_ids [ex_dev] (evs ++ evs') /\
  unattended (fun d => uses_intf d 4) evs evs' /\ (forall f, LApp 4 f ∉ a_look) /\ evs' <> [] /\
  c_state (w_intf (y_world s') 4) = [65; 66; 67; 1; 2; 3].
Proof.
  destruct (after_run (run false (init_sys [ex_dev] ex_world) one_visit) (fun s evs => after (run false s a_look) (fun s' evs' =>
    distinct_b [ex_dev] (evs ++ evs') && forallb lists_b evs' && only 1 evs && match held evs 1 with None => true | _ => false end &&
    negb (length evs' =? 0)%nat = true /\ c_state (w_intf (y_world s') 4) = [65; 66; 67; 1; 2; 3]))) as (s & evs & E & A).
  { vm_compute. split; reflexivity. }
  apply after_run in A as (s' & evs' & E' & Hb & Hc). repeat rewrite andb_true_iff in Hb. destruct Hb as [[[[Hd Hl] Ho] Hh] Hn].
  exists s, evs, s', evs'. split; [exact E|]. split; [exact E'|]. split; [by apply distinct_b_spec|]. split; [|split; [|split; [|exact Hc]]].
  - clear E E'. intros e1 e2 t d -> Hx. rewrite forallb_app in Hl. apply andb_true_iff in Hl as [Hl _].
    rewrite held_lists in Hx by exact Hl. destruct (decide (t = 1)) as [->|Ht]; [by rewrite Hx in Hh|].
    by rewrite (only_held 1 evs t Ho Ht) in Hx.
  - clear E E'. intros f Hf. unfold a_look in Hf. cbn in Hf. repeat (apply elem_of_cons in Hf as [Hf|Hf]; [discriminate Hf|]). by apply elem_of_nil in Hf.
  - intros ->. discriminate Hn.
Qed.
