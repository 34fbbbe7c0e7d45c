(** * Properties C57-C61: sharing host devices *)
From Verif Require Export PropsConn PropsDesc HostProofs.
From Coq Require Strings.String.
Import Strings.String.StringSyntax.

(** ** A host device: bulk 0x81/0x02, interrupt 0x83, isochronous 0x84 *)
Definition hx_alt : os_alt := mkHostAlt 0 255 1 2
  [mkHostEp 129 2 512 0; mkHostEp 2 2 512 0; mkHostEp 131 3 8 10; mkHostEp 132 1 1024 1] None [].
Definition hx_desc : rusb_desc := mkRusbDesc 4660 22136 0 0 0 (1, 2, 3) (2, 0, 0) 1 64 (Some 1) (Some 2) None.
Definition hx_cfg : rusb_cfg := mkRusbCfg 1 [Some hx_alt].
Definition hx_strings (i : N) : option rstring :=
  if i =? 1 then Some (lit "Maker") else if i =? 2 then Some (lit "Thing") else None.
Definition hx : rusb_handle := mkRusbHandle 1 5 2 RsHigh (Some hx_desc) (Some hx_cfg) hx_strings.
Definition hx_dev : device := match rusb_device true hx hx_desc hx_cfg 0 0 with Val d => d | _ => ex_dev end.
(** It answers reads with 1 2 3, as far as the buffer allows. *)
Definition hx_host : hostdev := mkHost []
  (fun _ c => match reading c with Some n => Some (take (N.to_nat n) [1; 2; 3]) | None => Some [] end).
Lemma hx_respects : respects_buffer hx_host.
Proof. intros log c n data Hr. cbn. rewrite Hr. intros [= <-]. unfold len. rewrite take_length. lia. Qed.
(** Unplugged: every transfer fails. *)
Definition gone_host : hostdev := mkHost [] (fun _ _ => None).
Lemma gone_respects : respects_buffer gone_host.
Proof. intros log c n data _. done. Qed.
Definition hx_world is ds (h : hostdev) : world (host_h is ds) :=
  @mkWorld (host_h is ds) (fun _ => mkCell false h) (fun _ => mkCell false h).
Definition hx_state {is ds} (h : hostdev) : cstate (host_h is ds) :=
  mkC (mkServer [] {[ lit "1-5-2" := hx_dev ]}) (hx_world is ds h) (Some (lit "1-5-2")).
Definition hx_intf : interface := match d_interfaces hx_dev with f :: _ => f | [] => ex_intf end.
Definition hx_in : submit := submit_cmd 1 1 2 (replicate 8 0) [].
Definition hx_out : submit := submit_cmd 0 2 2 (replicate 8 0) [7; 8].
(** Vendor request 0x42 to the device, IN, 2 bytes. *)
Definition hx_ctl : submit := submit_cmd 1 0 2 [192; 66; 1; 0; 2; 0; 2; 0] [].
(** CLEAR_FEATURE(ENDPOINT_HALT) on endpoint 0x81. *)
Definition hx_clear_halt : submit := submit_cmd 0 0 0 [2; 1; 0; 0; 129; 0; 0; 0] [].
Lemma hx_wire dbg sb : sb ∈ [hx_in; hx_out; hx_ctl; hx_clear_halt] ->
  all_u8 (wire (CmdSubmit sb)) = true /\ cmd_layout dbg (wire (CmdSubmit sb)) (CmdSubmit sb).
Proof.
  intros Hin. repeat (apply elem_of_cons in Hin as [-> |Hin]); [..|by apply elem_of_nil in Hin];
    apply wire_ok; destruct dbg; wf_ex.
Qed.
Lemma hx_delivered {is ds} dbg h :
  delivered dbg (@hx_state is ds h) (wire (CmdSubmit hx_in)) hx_in hx_dev (mkEndpoint 129 2 512 0) (Some hx_intf)
    (mkSetup 0 0 0 0 0) (TIntf hx_intf) /\
  delivered dbg (@hx_state is ds h) (wire (CmdSubmit hx_out)) hx_out hx_dev (mkEndpoint 2 2 512 0) (Some hx_intf)
    (mkSetup 0 0 0 0 0) (TIntf hx_intf) /\
  delivered dbg (@hx_state is ds h) (wire (CmdSubmit hx_ctl)) hx_ctl hx_dev (mkEndpoint 128 0 64 0) None
    (mkSetup 192 66 1 2 2) (TDev 0).
Proof.
  destruct (hx_wire dbg hx_in) as [A1 B1]; [in_list|].
  destruct (hx_wire dbg hx_out) as [A2 B2]; [in_list|].
  destruct (hx_wire dbg hx_ctl) as [A3 B3]; [in_list|].
  split_and!; (split; [assumption|assumption|exists (lit "1-5-2"); split; [done|apply lookup_singleton]| | | |reflexivity]).
  1, 4, 7: apply find_ep_some; vm_compute; reflexivity.
  1, 3, 5: unfold setup_of; do 8 eexists; split; reflexivity.
  1, 2: apply rt_transfer; cbn; [lia|done].
  apply rt_device; [done| |done|vm_compute; reflexivity]. unfold library_request. cbn. lia.
Qed.

(** C57 is false as stated: a request addressed to an endpoint, such as CLEAR_FEATURE(HALT),
    causes no transfer, it aborts the connection (the handlers would have forwarded it). *)
Theorem C57_forwards_exactly_refuted :
  exists (st : cstate rusb_h) m sb d e s, (forall dbg, cmd_layout dbg m (CmdSubmit sb)) /\ imported st d /\
    addressed d (ep_byte (sb_header sb)) e None /\ setup_of (sb_setup sb) s /\
    (exists c, libusb_transfer e (sb_transfer_buffer_length sb) s (sb_data sb) c) /\
    forall dbg, exists p st1, aborts dbg st m p st1 /\ untouched (cs_world st) (cs_world st1).
Proof.
  exists (hx_state hx_host), (wire (CmdSubmit hx_clear_halt)), hx_clear_halt, hx_dev, (mkEndpoint 0 0 64 0),
    (mkSetup 2 1 0 129 0).
  split; [intros dbg; apply (hx_wire dbg hx_clear_halt); in_list|].
  assert (Hi : imported (@hx_state rusb_intf_handle_urb rusb_dev_handle_urb hx_host) hx_dev)
    by (exists (lit "1-5-2"); split; [done|apply lookup_singleton]).
  assert (Ha : addressed hx_dev (ep_byte (sb_header hx_clear_halt)) (mkEndpoint 0 0 64 0) None)
    by (apply find_ep_some; vm_compute; reflexivity).
  assert (Hs : setup_of (sb_setup hx_clear_halt) (mkSetup 2 1 0 129 0)) by (unfold setup_of; do 8 eexists; split; reflexivity).
  split; [exact Hi|]. split; [exact Ha|]. split; [exact Hs|]. split.
  { eexists. apply lt_control_out; [done|]. unfold in_ep. cbn. lia. }
  intros dbg. destruct (hx_wire dbg hx_clear_halt) as [Hm HL]; [in_list|].
  pose proof (urb_replies dbg (hx_state hx_host) _ _ _ _ None _ (UPanic PUnimplemented) (hx_world _ _ hx_host) Hm HL Hi Ha Hs) as R.
  eexists _, _. split; [apply R; reflexivity|]. split; intros r; done.
Qed.
Print Assumptions C57_forwards_exactly_refuted.
(** What is true: every URB that reaches a handler of a host device causes exactly one transfer
    of the endpoint's kind and direction, with the client's parameters and payload, on that
    device only; what a successful read returned is the reply's payload, unmodified and at most
    as long as requested.  (The wLength that reaches the device is the URB's buffer length:
    libusb derives it from the buffer.) *)
Theorem C57_forwards_exactly_partial : forall dbg (st : cstate rusb_h) m sb d e i s f c,
  delivered dbg st m sb d e i s (TIntf f) -> respects_buffer (host_of (cs_world st) (TIntf f)) ->
  libusb_transfer e (sb_transfer_buffer_length sb) s (sb_data sb) c ->
  dbg = false \/ h_direction (sb_header sb) = 1 \/ ~ in_ep e ->
  exists out st1, replies dbg st m sb out st1 /\ forwarded (cs_world st) (cs_world st1) (TIntf f) c /\
    cs_server st1 = cs_server st /\ cs_current st1 = cs_current st /\
    (host_answers (host_of (cs_world st) (TIntf f)) c <> None -> yields (host_of (cs_world st) (TIntf f)) c out).
Proof.
  intros dbg st m sb d e i s f c HD Hb Ht Hdir.
  destruct (rusb_intf_performs _ f _ _ _ _ _ Hb Ht) as (out & HP & H0 & Hy).
  destruct (host_wire dbg st m sb d e i s (TIntf f) c out HD HP) as (st1 & Hr & Hf & E1 & E2).
  { destruct Hdir as [?|[?|Hne]]; auto. right. right.
    destruct (host_answers (host_of (cs_world st) (TIntf f)) c) eqn:E; [|by apply H0].
    specialize (Hy ltac:(done)). unfold yields in Hy. destruct Ht; try done; exact Hy. }
  exists out, st1. auto.
Qed.
Print Assumptions C57_forwards_exactly_partial.
(** The same for vendor and class requests to the device as a whole. *)
Theorem C57_device_requests_partial : forall dbg (st : cstate rusb_h) m sb d e i s r c,
  delivered dbg st m sb d e i s (TDev r) -> respects_buffer (host_of (cs_world st) (TDev r)) ->
  device_transfer (sb_transfer_buffer_length sb) s (sb_data sb) c ->
  dbg = false \/ h_direction (sb_header sb) = 1 \/ s_request_type s < 128 ->
  exists out st1, replies dbg st m sb out st1 /\ forwarded (cs_world st) (cs_world st1) (TDev r) c /\
    cs_server st1 = cs_server st /\ cs_current st1 = cs_current st /\
    (host_answers (host_of (cs_world st) (TDev r)) c <> None -> yields (host_of (cs_world st) (TDev r)) c out).
Proof.
  intros dbg st m sb d e i s r c HD Hb Ht Hdir.
  pose proof (setup_u8 _ _ _ _ (dl_bytes _ _ _ _ _ _ _ _ _ HD) (dl_layout _ _ _ _ _ _ _ _ _ HD) (dl_setup _ _ _ _ _ _ _ _ _ HD)) as Hu.
  destruct (rusb_dev_performs _ _ _ _ _ Hb Hu Ht) as (out & HP & H0 & Hy).
  destruct (host_wire dbg st m sb d e i s (TDev r) c out HD HP) as (st1 & Hr & Hf & E1 & E2).
  { destruct Hdir as [?|[?|Hne]]; auto. right. right.
    destruct (host_answers (host_of (cs_world st) (TDev r)) c) eqn:E; [|by apply H0].
    specialize (Hy ltac:(done)). unfold yields in Hy. destruct Ht; [|exact Hy]. rewrite N.mod_small in H by done. lia. }
  exists out, st1. auto.
Qed.
Print Assumptions C57_device_requests_partial.
(** Isochronous endpoints: no transfer, an empty reply. *)
Theorem C57_isochronous : forall dbg (st : cstate rusb_h) m sb d e i s f,
  delivered dbg st m sb d e i s (TIntf f) -> ep_attributes e = 1 ->
  exists st1, replies dbg st m sb [] st1 /\ untouched (cs_world st) (cs_world st1).
Proof.
  intros dbg st m sb d e i s f HD Ha. eapply host_wire_quiet; [exact HD|]. apply rusb_intf_iso. done.
Qed.
Print Assumptions C57_isochronous.
Theorem C57_every_kind : forall e tbl s req, ep_attributes e < 4 ->
  (ep_attributes e = 1 /\ forall c, ~ libusb_transfer e tbl s req c) \/
  (ep_attributes e <> 1 /\ exists! c, libusb_transfer e tbl s req c).
Proof.
  intros e tbl s req Ha. destruct (libusb_total e tbl s req Ha) as [E|[c Hc]].
  - left. split; [done|]. intros c Hc. destruct Hc; lia.
  - right. split; [destruct Hc; lia|]. exists c. split; [done|]. intros c' Hc'. eapply libusb_unique; eauto.
Qed.
Print Assumptions C57_every_kind.
Example C57_example :
  (* a bulk read of 2 bytes, a bulk write of 2 bytes, a vendor request *)
  (forall dbg, delivered dbg (hx_state hx_host : cstate rusb_h) (wire (CmdSubmit hx_in)) hx_in hx_dev
     (mkEndpoint 129 2 512 0) (Some hx_intf) (mkSetup 0 0 0 0 0) (TIntf hx_intf)) /\
  libusb_transfer (mkEndpoint 129 2 512 0) 2 (mkSetup 0 0 0 0 0) [] (ReadBulk 129 2) /\
  device_transfer 2 (mkSetup 192 66 1 2 2) [] (ReadControl 192 66 1 2 2) /\
  (let '(out, _, st) := connection true (hx_state hx_host : cstate rusb_h)
     (wire (CmdSubmit hx_in) ++ wire (CmdSubmit hx_out) ++ wire (CmdSubmit hx_ctl)) SEof None in
   drop 48 (take 50 out) = [1; 2] /\ drop (50 + 48 + 48) out = [1; 2] /\
   hd_log (host_of (cs_world st) (TIntf hx_intf)) = [ReadBulk 129 2; WriteBulk 2 [7; 8]] /\
   hd_log (host_of (cs_world st) (TDev 0)) = [ReadControl 192 66 1 2 2]).
Proof.
  split; [intros dbg; apply hx_delivered|]. split; [apply lt_bulk_in; [done|unfold in_ep; cbn; lia]|].
  split; [apply (dt_in 2 (mkSetup 192 66 1 2 2)); cbn; lia|]. vm_compute. split_and!; reflexivity.
Qed.

(** C58 is false: a failed host transfer is reported to the client as success. *)
Theorem C58_failures_reported_refuted :
  exists (st : cstate rusb_h) m sb d e i s t c, (forall dbg, delivered dbg st m sb d e i s t) /\
    libusb_transfer e (sb_transfer_buffer_length sb) s (sb_data sb) c /\
    host_answers (host_of (cs_world st) t) c = None /\
    forall dbg, exists st1, replies dbg st m sb [] st1 /\ forwarded (cs_world st) (cs_world st1) t c.
Proof.
  exists (hx_state gone_host), (wire (CmdSubmit hx_out)), hx_out, hx_dev, (mkEndpoint 2 2 512 0), (Some hx_intf),
    (mkSetup 0 0 0 0 0), (TIntf hx_intf), (WriteBulk 2 [7; 8]).
  split; [intros dbg; apply hx_delivered|]. split; [apply lt_bulk_out; [done|unfold in_ep; cbn; lia]|]. split; [done|].
  intros dbg. destruct (host_wire dbg (hx_state gone_host : cstate rusb_h) _ hx_out _ _ _ _ (TIntf hx_intf) (WriteBulk 2 [7; 8]) []
    (proj1 (proj2 (hx_delivered dbg gone_host)))) as (st1 & Hr & Hf & _); [reflexivity|auto|]. exists st1. auto.
Qed.
Print Assumptions C58_failures_reported_refuted.
(** What is true: after a failed transfer the reply carries no data, so nothing stale or
    invented is returned; its status is nevertheless success.  A failed read can only be
    recognised by the missing data, a failed write not at all. *)
Theorem C58_failures_reported_partial : forall dbg (st : cstate rusb_h) m sb d e i s f c,
  delivered dbg st m sb d e i s (TIntf f) -> respects_buffer (host_of (cs_world st) (TIntf f)) ->
  libusb_transfer e (sb_transfer_buffer_length sb) s (sb_data sb) c ->
  host_answers (host_of (cs_world st) (TIntf f)) c = None ->
  exists st1, replies dbg st m sb [] st1 /\ forwarded (cs_world st) (cs_world st1) (TIntf f) c.
Proof.
  intros dbg st m sb d e i s f c HD Hb Ht H0.
  destruct (rusb_intf_performs _ f _ _ _ _ _ Hb Ht) as (out & HP & Hz & _). rewrite (Hz H0) in HP.
  destruct (host_wire dbg st m sb d e i s (TIntf f) c [] HD HP) as (st1 & Hr & Hf & _); [auto|]. exists st1. auto.
Qed.
Print Assumptions C58_failures_reported_partial.
Theorem C58_device_failures_partial : forall dbg (st : cstate rusb_h) m sb d e i s r c,
  delivered dbg st m sb d e i s (TDev r) -> respects_buffer (host_of (cs_world st) (TDev r)) ->
  device_transfer (sb_transfer_buffer_length sb) s (sb_data sb) c ->
  host_answers (host_of (cs_world st) (TDev r)) c = None ->
  exists st1, replies dbg st m sb [] st1 /\ forwarded (cs_world st) (cs_world st1) (TDev r) c.
Proof.
  intros dbg st m sb d e i s r c HD Hb Ht H0.
  pose proof (setup_u8 _ _ _ _ (dl_bytes _ _ _ _ _ _ _ _ _ HD) (dl_layout _ _ _ _ _ _ _ _ _ HD) (dl_setup _ _ _ _ _ _ _ _ _ HD)) as Hu.
  destruct (rusb_dev_performs _ _ _ _ _ Hb Hu Ht) as (out & HP & Hz & _). rewrite (Hz H0) in HP.
  destruct (host_wire dbg st m sb d e i s (TDev r) c [] HD HP) as (st1 & Hr & Hf & _); [auto|]. exists st1. auto.
Qed.
Print Assumptions C58_device_failures_partial.
Example C58_example : respects_buffer gone_host /\
  (forall dbg, delivered dbg (hx_state gone_host : cstate rusb_h) (wire (CmdSubmit hx_in)) hx_in hx_dev
     (mkEndpoint 129 2 512 0) (Some hx_intf) (mkSetup 0 0 0 0 0) (TIntf hx_intf)) /\
  host_answers gone_host (ReadBulk 129 2) = None /\
  len (connection true (hx_state gone_host : cstate rusb_h) (wire (CmdSubmit hx_in)) SEof None).1.1 = 48.
Proof. split; [exact gone_respects|]. split; [intros dbg; apply hx_delivered|]. split; [done|]. vm_compute. reflexivity. Qed.

(** C59 is false as stated: requests to endpoints (recipient 2) or others (3) never reach the
    nusb handlers; the library aborts first. *)
Theorem C59_nusb_passthrough_refuted :
  exists (st : cstate nusb_h) m sb d e s, (forall dbg, cmd_layout dbg m (CmdSubmit sb)) /\ imported st d /\
    addressed d (ep_byte (sb_header sb)) e None /\ setup_of (sb_setup sb) s /\ ep_attributes e = 0 /\
    nusb_request (s_request_type s) NStandard NEndpoint /\
    forall dbg, exists p st1, aborts dbg st m p st1 /\ untouched (cs_world st) (cs_world st1).
Proof.
  exists (hx_state hx_host), (wire (CmdSubmit hx_clear_halt)), hx_clear_halt, hx_dev, (mkEndpoint 0 0 64 0),
    (mkSetup 2 1 0 129 0).
  split; [intros dbg; apply (hx_wire dbg hx_clear_halt); in_list|].
  assert (Hi : imported (@hx_state nusb_intf_handle_urb nusb_dev_handle_urb hx_host) hx_dev)
    by (exists (lit "1-5-2"); split; [done|apply lookup_singleton]).
  assert (Ha : addressed hx_dev (ep_byte (sb_header hx_clear_halt)) (mkEndpoint 0 0 64 0) None)
    by (apply find_ep_some; vm_compute; reflexivity).
  assert (Hs : setup_of (sb_setup hx_clear_halt) (mkSetup 2 1 0 129 0)) by (unfold setup_of; do 8 eexists; split; reflexivity).
  split; [exact Hi|]. split; [exact Ha|]. split; [exact Hs|]. split; [done|]. split; [split; reflexivity|].
  intros dbg. destruct (hx_wire dbg hx_clear_halt) as [Hm HL]; [in_list|].
  pose proof (urb_replies dbg (hx_state hx_host) _ _ _ _ None _ (UPanic PUnimplemented) (hx_world _ _ hx_host) Hm HL Hi Ha Hs) as R.
  eexists _, _. split; [apply R; reflexivity|]. split; intros r; done.
Qed.
Print Assumptions C59_nusb_passthrough_refuted.
(** What is true: control requests that reach the interface's or the device's handler are
    forwarded with the same type, recipient, request, value, index and data if nusb knows their
    type and recipient; otherwise, and for bulk and interrupt endpoints, the connection aborts
    without any transfer. *)
Theorem C59_nusb_passthrough_partial : forall dbg (st : cstate nusb_h) m sb d e i s f,
  delivered dbg st m sb d e i s (TIntf f) -> respects_buffer (host_of (cs_world st) (TIntf f)) ->
  (ep_attributes e = 0 -> forall isin c, (isin = true <-> in_ep e) ->
     nusb_transfer isin (sb_transfer_buffer_length sb) s (sb_data sb) c ->
     dbg = false \/ h_direction (sb_header sb) = 1 \/ ~ in_ep e ->
     exists out st1, replies dbg st m sb out st1 /\ forwarded (cs_world st) (cs_world st1) (TIntf f) c /\
       (host_answers (host_of (cs_world st) (TIntf f)) c <> None -> yields (host_of (cs_world st) (TIntf f)) c out)) /\
  ((forall t r, ~ nusb_request (s_request_type s) t r) \/ ep_attributes e = 2 \/ ep_attributes e = 3 ->
     exists p st1, aborts dbg st m p st1 /\ untouched (cs_world st) (cs_world st1)).
Proof.
  intros dbg st m sb d e i s f HD Hb. split.
  - intros Ha isin c Hi Ht Hdir.
    destruct (nusb_intf_performs _ f _ _ _ _ _ _ Hb Ha Hi Ht) as (out & HP & H0 & Hy).
    destruct (host_wire dbg st m sb d e i s (TIntf f) c out HD HP) as (st1 & Hr & Hf & _); [|exists out, st1; auto].
    destruct Hdir as [?|[?|Hne]]; auto. right. right.
    destruct (host_answers (host_of (cs_world st) (TIntf f)) c) eqn:E; [|by apply H0].
    specialize (Hy ltac:(done)). unfold yields in Hy. destruct Ht as [t r Hx|]; [|exact Hy]. tauto.
  - intros Hc.
    assert (exists p, host_result (cs_world st) e (sb_transfer_buffer_length sb) s (sb_data sb) (TIntf f)
                      = CallPanic (host_of (cs_world st) (TIntf f)) p) as [p Hp].
    { cbn [host_result]. unfold nusb_intf_handle_urb.
      destruct (nusb_request_dec (s_request_type s)) as [(t & r & -> & -> & Hq)|(Hq & He)].
      - destruct Hc as [Hc|[Hc|Hc]]; [by apply Hc in Hq|rewrite Hc|rewrite Hc]; cbn; by eexists.
      - destruct (nusb_type_of (s_request_type s)); [|by eexists]. destruct He as [He|He]; [done|]. rewrite He. by eexists. }
    destruct (host_wire_panic dbg st m sb d e i s (TIntf f) p HD Hp) as (st1 & Hr & Hu). exists p, st1. auto.
Qed.
Print Assumptions C59_nusb_passthrough_partial.
Theorem C59_nusb_device_requests_partial : forall dbg (st : cstate nusb_h) m sb d e i s r,
  delivered dbg st m sb d e i s (TDev r) -> respects_buffer (host_of (cs_world st) (TDev r)) ->
  (forall isin c, (isin = true <-> 128 <= s_request_type s) ->
     nusb_transfer isin (sb_transfer_buffer_length sb) s (sb_data sb) c ->
     dbg = false \/ h_direction (sb_header sb) = 1 \/ s_request_type s < 128 ->
     exists out st1, replies dbg st m sb out st1 /\ forwarded (cs_world st) (cs_world st1) (TDev r) c /\
       (host_answers (host_of (cs_world st) (TDev r)) c <> None -> yields (host_of (cs_world st) (TDev r)) c out)) /\
  ((forall t r, ~ nusb_request (s_request_type s) t r) ->
     exists p st1, aborts dbg st m p st1 /\ untouched (cs_world st) (cs_world st1)).
Proof.
  intros dbg st m sb d e i s r HD Hb.
  pose proof (setup_u8 _ _ _ _ (dl_bytes _ _ _ _ _ _ _ _ _ HD) (dl_layout _ _ _ _ _ _ _ _ _ HD) (dl_setup _ _ _ _ _ _ _ _ _ HD)) as Hu.
  split.
  - intros isin c Hi Ht Hdir.
    destruct (nusb_dev_performs _ _ _ _ _ _ Hb Hu Hi Ht) as (out & HP & H0 & Hy).
    destruct (host_wire dbg st m sb d e i s (TDev r) c out HD HP) as (st1 & Hr & Hf & _); [|exists out, st1; auto].
    destruct Hdir as [?|[?|Hne]]; auto. right. right.
    destruct (host_answers (host_of (cs_world st) (TDev r)) c) eqn:E; [|by apply H0].
    specialize (Hy ltac:(done)). unfold yields in Hy. destruct Ht as [t r' Hx|]; [|exact Hy].
    apply Hi in Hx. lia.
  - intros Hc.
    assert (exists p, host_result (cs_world st) e (sb_transfer_buffer_length sb) s (sb_data sb) (TDev r)
                      = CallPanic (host_of (cs_world st) (TDev r)) p) as [p Hp].
    { cbn [host_result]. unfold nusb_dev_handle_urb.
      destruct (nusb_request_dec (s_request_type s)) as [(t & r' & -> & -> & Hq)|(Hq & He)]; [by apply Hc in Hq|].
      destruct (nusb_type_of (s_request_type s)); [|by eexists]. destruct He as [He|He]; [done|]. rewrite He. by eexists. }
    destruct (host_wire_panic dbg st m sb d e i s (TDev r) p HD Hp) as (st1 & Hr & Hu'). exists p, st1. auto.
Qed.
Print Assumptions C59_nusb_device_requests_partial.
(** On Windows no request to the device is passed on: each one nusb could have performed is
    answered with an empty success although nothing was transferred. *)
Theorem C59_nusb_windows_refuted : forall dbg (st : cstate nusb_windows_h) m sb d e i s r t rc,
  delivered dbg st m sb d e i s (TDev r) -> nusb_request (s_request_type s) t rc ->
  exists st1, replies dbg st m sb [] st1 /\ untouched (cs_world st) (cs_world st1).
Proof.
  intros dbg st m sb d e i s r t rc HD Hq. eapply (host_wire_quiet dbg st m sb d e i s (TDev r) HD).
  cbn [host_result]. unfold nusb_dev_handle_urb_windows. destruct (nusb_request_of _ _ _ Hq) as [-> ->]. done.
Qed.
Print Assumptions C59_nusb_windows_refuted.
Example C59_windows_example :
  (forall dbg, delivered dbg (hx_state hx_host : cstate nusb_windows_h) (wire (CmdSubmit hx_ctl)) hx_ctl hx_dev
     (mkEndpoint 128 0 64 0) None (mkSetup 192 66 1 2 2) (TDev 0)) /\ nusb_request 192 NVendor NDevice /\
  (let '(out, _, st) := connection true (hx_state hx_host : cstate nusb_windows_h) (wire (CmdSubmit hx_ctl)) SEof None in
   len out = 48 /\ hd_log (host_of (cs_world st) (TDev 0)) = []).
Proof. split; [intros dbg; apply hx_delivered|]. split; [split; reflexivity|]. vm_compute. split_and!; reflexivity. Qed.
Example C59_example :
  (forall dbg, delivered dbg (hx_state hx_host : cstate nusb_h) (wire (CmdSubmit hx_ctl)) hx_ctl hx_dev
     (mkEndpoint 128 0 64 0) None (mkSetup 192 66 1 2 2) (TDev 0)) /\
  nusb_transfer true 2 (mkSetup 192 66 1 2 2) [] (NControlIn NVendor NDevice 66 1 2 2) /\
  (let '(out, _, st) := connection true (hx_state hx_host : cstate nusb_h) (wire (CmdSubmit hx_ctl)) SEof None in
   drop 48 out = [1; 2] /\ hd_log (host_of (cs_world st) (TDev 0)) = [NControlIn NVendor NDevice 66 1 2 2]) /\
  (connection true (hx_state hx_host : cstate nusb_h) (wire (CmdSubmit hx_in)) SEof None).1.2 = EndPanic PTodo.
Proof.
  split; [intros dbg; apply hx_delivered|]. split; [apply (nt_in true 2 (mkSetup 192 66 1 2 2)); [done|split; reflexivity]|].
  vm_compute. split_and!; reflexivity.
Qed.

(** C60: the enumerated devices have pairwise different bus ids that a client can request, and
    paths that fit; each of them can be imported. *)
Theorem C60_distinct_bus_ids : forall dbg hs ds,
  Forall (fun o => forall h, o = Some h -> rusb_sane h) hs ->
  NoDup ((fun h => (rh_bus h, rh_address h)) <$> omap id hs) ->
  with_rusb_devices dbg hs = Val ds ->
  NoDup (d_bus_id <$> ds) /\
  Forall (fun d => requestable (d_bus_id d) /\ len (utf8 (d_path d)) < 256 /\ 0 ∉ utf8 (d_path d)) ds /\
  forall d, d ∈ ds -> exists busid, length busid = 32%nat /\ (import_device (new_simulated ds) busid).2 = Some d.
Proof.
  intros dbg hs ds Hs Hn E. unfold with_rusb_devices in E.
  assert (Hs' : Forall rusb_sane (omap id hs)).
  { apply Forall_forall. intros h Hh. apply elem_of_list_omap in Hh as (o & Ho & Eo). rewrite Forall_forall in Hs. by apply (Hs o). }
  pose proof (rusb_val_complete _ _ _ _ _ E) as Hc.
  destruct (rusb_handles_ok dbg _ 0 0 Hs' Hc) as (ds' & E' & HF). rewrite E in E'. apply val_inj in E' as <-.
  assert (Hnd : NoDup (d_bus_id <$> ds)).
  { clear E Hs Hc. revert ds HF. induction (omap id hs) as [|h l IH]; intros ds HF.
    - apply Forall2_nil_inv_l in HF as ->. constructor.
    - apply Forall_cons in Hs' as [_ Hs']. apply NoDup_cons in Hn as [Hh Hn]. cbn [omap list_omap] in HF.
      destruct (rusb_described h) as [x|] eqn:Ex; [|by apply IH].
      apply Forall2_cons_inv_l in HF as (d & ds1 & (_ & Ed & _) & HF & ->). cbn. apply NoDup_cons. split; [|by apply IH].
      assert (x.1.1 = h) as Eh. { unfold rusb_described in Ex. repeat case_match; by simplify_eq. }
      rewrite Ed, Eh. intros Hin. apply elem_of_list_fmap in Hin as (d' & Eb & Hd').
      apply elem_of_list_lookup in Hd' as [k Hk]. eapply Forall2_lookup_r in HF as (y & Hy & _ & Ey & _); [|exact Hk].
      apply Hh. rewrite Ey in Eb. pose proof (bus_id_ok (rh_bus h) (rh_address h) (rh_port h)) as B1. rewrite Eb in B1.
      destruct (bus_id_inj _ _ _ _ _ _ _ B1 (bus_id_ok _ _ _)) as (-> & -> & _).
      apply elem_of_list_lookup_2, elem_of_list_omap in Hy as (h' & Hh' & Ed').
      assert (y.1.1 = h') as ->. { unfold rusb_described in Ed'. repeat case_match; by simplify_eq. }
      apply elem_of_list_fmap. by exists h'. }
  assert (Hall : Forall (fun d => requestable (d_bus_id d) /\ ascii_only (d_bus_id d) /\ len (utf8 (d_path d)) < 256 /\ 0 ∉ utf8 (d_path d)) ds).
  { apply Forall_forall. intros d Hd. apply elem_of_list_lookup in Hd as [k Hk].
    eapply Forall2_lookup_r in HF as (y & Hy & _ & Ey & Ep & _); [|exact Hk]. rewrite Ey, Ep.
    apply elem_of_list_lookup_2, elem_of_list_omap in Hy as (h' & Hh' & Ed').
    assert (y.1.1 = h') as ->. { unfold rusb_described in Ed'. repeat case_match; by simplify_eq. }
    rewrite Forall_forall in Hs'. destruct (Hs' _ Hh') as (? & ? & ? & _).
    split; [by apply bus_id_requestable|]. split; [apply bus_id_ascii|]. by apply path_fits. }
  split; [done|]. split; [eapply Forall_impl; [exact Hall|]; cbn; tauto|].
  intros d Hd. apply importable_one; [done|done| |].
  - rewrite Forall_forall in Hall. by apply Hall.
  - eapply Forall_impl; [exact Hall|]. cbn. tauto.
Qed.
Print Assumptions C60_distinct_bus_ids.
Theorem C60_nusb_distinct_bus_ids : forall dbg is ds,
  Forall nusb_sane is -> NoDup ((fun i => (ni_bus i, ni_address i)) <$> is) ->
  with_nusb_devices dbg is 0 0 = Val ds ->
  NoDup (d_bus_id <$> ds) /\
  Forall (fun d => requestable (d_bus_id d) /\ len (utf8 (d_path d)) < 256 /\ 0 ∉ utf8 (d_path d)) ds /\
  forall d, d ∈ ds -> exists busid, length busid = 32%nat /\ (import_device (new_simulated ds) busid).2 = Some d.
Proof.
  intros dbg is ds Hs Hn E. pose proof (nusb_val_complete _ _ _ _ _ E) as Hc.
  destruct (nusb_list_ok dbg _ 0 0 Hs Hc) as (ds' & E' & HF). rewrite E in E'. apply val_inj in E' as <-.
  assert (Hnd : NoDup (d_bus_id <$> ds)).
  { clear E Hc. unfold nusb_usable in HF. revert ds HF. induction is as [|h l IH]; intros ds HF.
    - apply Forall2_nil_inv_l in HF as ->. constructor.
    - apply Forall_cons in Hs as [_ Hs]. apply NoDup_cons in Hn as [Hh Hn]. cbn [omap list_omap] in HF.
      destruct (nusb_described h) as [x|] eqn:Ex; [|by apply IH].
      apply Forall2_cons_inv_l in HF as (d & ds1 & (_ & _ & Ed & _) & HF & ->). cbn. apply NoDup_cons. split; [|by apply IH].
      assert (x.1.1 = h) as Eh. { unfold nusb_described in Ex. repeat case_match; by simplify_eq. }
      rewrite Ed, Eh. intros Hin. apply elem_of_list_fmap in Hin as (d' & Eb & Hd').
      apply elem_of_list_lookup in Hd' as [k Hk]. eapply Forall2_lookup_r in HF as (y & Hy & _ & _ & Ey & _); [|exact Hk].
      apply Hh. rewrite Ey in Eb. pose proof (bus_id_ok (ni_bus h) (ni_address h) 0) as B1. rewrite Eb in B1.
      destruct (bus_id_inj _ _ _ _ _ _ _ B1 (bus_id_ok _ _ _)) as (-> & -> & _).
      apply elem_of_list_lookup_2, elem_of_list_omap in Hy as (h' & Hh' & Ed').
      assert (y.1.1 = h') as ->. { unfold nusb_described in Ed'. repeat case_match; by simplify_eq. }
      apply elem_of_list_fmap. by exists h'. }
  assert (Hall : Forall (fun d => requestable (d_bus_id d) /\ ascii_only (d_bus_id d) /\ len (utf8 (d_path d)) < 256 /\ 0 ∉ utf8 (d_path d)) ds).
  { apply Forall_forall. intros d Hd. apply elem_of_list_lookup in Hd as [k Hk].
    eapply Forall2_lookup_r in HF as (y & Hy & _ & _ & Ey & Ep & _); [|exact Hk]. rewrite Ey, Ep.
    apply elem_of_list_lookup_2, elem_of_list_omap in Hy as (h' & Hh' & Ed').
    assert (y.1.1 = h') as ->. { unfold nusb_described in Ed'. repeat case_match; by simplify_eq. }
    rewrite Forall_forall in Hs. destruct (Hs _ Hh') as (? & ? & _).
    split; [by apply bus_id_requestable|]. split; [apply bus_id_ascii|]. by apply path_fits. }
  split; [done|]. split; [eapply Forall_impl; [exact Hall|]; cbn; tauto|].
  intros d Hd. apply importable_one; [done|done| |].
  - rewrite Forall_forall in Hall. by apply Hall.
  - eapply Forall_impl; [exact Hall|]. cbn. tauto.
Qed.
Print Assumptions C60_nusb_distinct_bus_ids.
(** Two devices on one bus, one of which (address 15) would collide with the first under
    naive concatenation; one that cannot be opened. *)
Definition hy : rusb_handle := mkRusbHandle 1 15 2 RsHigh (Some hx_desc) (Some hx_cfg) hx_strings.
Lemma hx_sane : rusb_sane hx.
Proof.
  unfold rusb_sane; cbn. split_and!; try lia.
  - intros desc [= <-]. cbn. lia.
  - intros cfg [= <-]. cbn. repeat constructor. intros a [= <-]. cbn. repeat constructor; cbn; lia.
Qed.
Lemma hy_sane : rusb_sane hy. Proof. exact hx_sane || (destruct hx_sane as (? & ? & ? & ? & ?); split_and!; auto; cbn; lia). Qed.
Example C60_example :
  Forall (fun o => forall h, o = Some h -> rusb_sane h) [Some hx; None; Some hy] /\
  NoDup ((fun h => (rh_bus h, rh_address h)) <$> omap id [Some hx; None; Some hy]) /\
  match with_rusb_devices true [Some hx; None; Some hy] with
  | Val ds => d_bus_id <$> ds = [lit "1-5-2"; lit "1-15-2"]
  | _ => False
  end.
Proof.
  split; [|split; [|vm_compute; reflexivity]].
  - repeat (apply Forall_cons; split; [intros h [= <-]; first [exact hx_sane|exact hy_sane]|] || (apply Forall_cons; split; [done|])). constructor.
  - cbn. repeat constructor; set_solver.
Qed.

(** C61 is false: a device with an unreadable string makes the whole enumeration panic, however
    many other devices are usable; and interface names are not transferred: the index the host
    uses is kept although the new device has its own string table. *)
Definition hz : rusb_handle := mkRusbHandle 1 6 3 RsHigh (Some hx_desc) (Some hx_cfg) (fun _ => None).
Definition hw_alt : os_alt := mkHostAlt 0 255 1 2 [] (Some 1) [].
Definition hw_desc : rusb_desc := mkRusbDesc 4660 22136 0 0 0 (1, 2, 3) (2, 0, 0) 1 64 (Some 2) None None.
Definition hw_cfg : rusb_cfg := mkRusbCfg 1 [Some hw_alt].
Definition hw_strings (i : N) : option rstring :=
  if i =? 1 then Some (lit "Interface") else if i =? 2 then Some (lit "Maker") else None.
Definition hw : rusb_handle := mkRusbHandle 1 5 2 RsHigh (Some hw_desc) (Some hw_cfg) hw_strings.
Theorem C61_enumeration_refuted :
  (exists h bad ds, rusb_sane h /\ rusb_sane bad /\
     (forall dbg, with_rusb_devices dbg [Some h] = Val ds /\ length ds = 1%nat) /\
     forall dbg, exists p, with_rusb_devices dbg [Some h; Some bad] = Panic p) /\
  (exists h a d f, rusb_sane h /\ rc_interfaces <$> rh_cfg h = Some [Some a] /\
     (forall dbg, with_rusb_devices dbg [Some h] = Val [d]) /\ d_interfaces d = [f] /\
     rusb_name h (ha_string_index a) = Some (lit "Interface") /\
     names_string d (if_string f) (Some (lit "Maker"))).
Proof.
  split.
  - exists hx, hz, [hx_dev]. split; [exact hx_sane|]. split.
    { destruct hx_sane as (? & ? & ? & ? & ?). split_and!; auto; cbn; lia. }
    split; intros dbg.
    + split; [|done]. destruct dbg; vm_compute; reflexivity.
    + exists PUnwrapErr. destruct dbg; vm_compute; reflexivity.
  - exists hw, hw_alt, (match rusb_device true hw hw_desc hw_cfg 0 0 with Val d => d | _ => ex_dev end),
      (mkInterface 255 1 2 [] 1 [] 0).
    split. { unfold rusb_sane; cbn. split_and!; try lia; [intros desc [= <-]; cbn; lia|].
      intros cfg [= <-]. cbn. repeat constructor. intros a [= <-]. cbn. constructor. }
    split; [done|]. split; [intros dbg; destruct dbg; vm_compute; reflexivity|].
    split; [vm_compute; reflexivity|]. split; [vm_compute; reflexivity|].
    split; [cbn; lia|]. split; [cbn; lia|]. vm_compute. reflexivity.
Qed.
Print Assumptions C61_enumeration_refuted.
(** What is true: enumeration succeeds exactly when every device that could be opened and
    described has readable interfaces and strings; then those devices, and no others, are shared
    in order, with everything but the interface names as the host reports it. *)
Theorem C61_enumeration_partial : forall dbg hs,
  Forall (fun o => forall h, o = Some h -> rusb_sane h) hs ->
  (Forall (fun x => rusb_complete x.1.1 x.1.2 x.2) (rusb_usable hs) ->
   exists ds, with_rusb_devices dbg hs = Val ds /\
     Forall2 (fun x d => rusb_reported x.1.1 x.1.2 x.2 d) (rusb_usable hs) ds) /\
  (Exists (fun x => ~ rusb_complete x.1.1 x.1.2 x.2) (rusb_usable hs) ->
   exists p, with_rusb_devices dbg hs = Panic p).
Proof.
  intros dbg hs Hs. split; [intros Hc|by apply rusb_handles_bad].
  assert (Hs' : Forall rusb_sane (omap id hs)).
  { apply Forall_forall. intros h Hh. apply elem_of_list_omap in Hh as (o & Ho & Eo). rewrite Forall_forall in Hs. by apply (Hs o). }
  destruct (rusb_handles_ok dbg _ 0 0 Hs' Hc) as (ds & E & HF). exists ds. split; [exact E|].
  eapply Forall2_impl; [exact HF|]. cbn. tauto.
Qed.
Print Assumptions C61_enumeration_partial.
Theorem C61_nusb_enumeration_partial : forall dbg is,
  Forall nusb_sane is ->
  (Forall (fun x => nusb_complete x.1.1 x.2) (nusb_usable is) ->
   exists ds, with_nusb_devices dbg is 0 0 = Val ds /\
     Forall2 (fun x d => nusb_reported x.1.1 x.1.2 x.2 d /\ nusb_lost d) (nusb_usable is) ds) /\
  (Exists (fun x => ~ nusb_complete x.1.1 x.2) (nusb_usable is) ->
   exists p, with_nusb_devices dbg is 0 0 = Panic p).
Proof.
  intros dbg is Hs. split; [intros Hc|by apply nusb_list_bad].
  destruct (nusb_list_ok dbg _ 0 0 Hs Hc) as (ds & E & HF). exists ds. split; [exact E|].
  eapply Forall2_impl; [exact HF|]. cbn. tauto.
Qed.
Print Assumptions C61_nusb_enumeration_partial.
(** With nusb more is lost: a device whose interface carries class-specific bytes (the HID
    descriptor of a keyboard, here) is shared without them, with USB version 0.0, device number 0
    and an endpoint 0 of 16 bytes. *)
Definition nz_alt : os_alt := mkHostAlt 0 3 1 1 [mkHostEp 0x81 3 8 10] None [9; 33; 16; 1; 0; 1; 34; 63; 0].
Definition nz : nusb_info := mkNusbInfo 2 10 (Some NsLow) 1 2 0 0 0 0x0110 None None None
  (Some (mkNusbOpen (Some (mkNusbCfg 1 [Some (Some nz_alt)])) 1)).
Theorem C61_nusb_enumeration_refuted : exists i o cfg a d f, nusb_sane i /\
  nusb_complete i cfg /\ nusb_usable [i] = [(i, o, cfg)] /\
  nc_interfaces cfg = [Some (Some a)] /\ (forall dbg, with_nusb_devices dbg [i] 0 0 = Val [d]) /\
  d_interfaces d = [f] /\ length (ha_extra a) = 9%nat /\ if_class_specific f = [].
Proof.
  exists nz, (mkNusbOpen (Some (mkNusbCfg 1 [Some (Some nz_alt)])) 1), (mkNusbCfg 1 [Some (Some nz_alt)]), nz_alt,
    (match nusb_device true nz (mkNusbOpen (Some (mkNusbCfg 1 [Some (Some nz_alt)])) 1) (mkNusbCfg 1 [Some (Some nz_alt)]) 0 0
     with Val d => d | _ => ex_dev end), (mkInterface 3 1 1 [mkEndpoint 0x81 3 8 10] 0 [] 0).
  split. { split; [cbn; lia|]. split; [cbn; lia|]. intros o cfg [= <-] [= <-]. split; [cbn; lia|].
    repeat constructor. intros a [= <-]. cbn. repeat constructor; cbn; lia. }
  split. { split; [|done]. repeat constructor. by exists nz_alt. }
  split; [done|]. split; [done|]. split; [intros dbg; destruct dbg; vm_compute; reflexivity|].
  split; [vm_compute; reflexivity|]. split; done.
Qed.
Print Assumptions C61_nusb_enumeration_refuted.
Lemma filter_mut_from {A} (keep : list A -> A -> bool) (l : list A) : forall seen,
  filter_mut keep seen l =
  omap (fun i => match (seen ++ l) !! i with Some x => if keep (take i (seen ++ l)) x then Some x else None | None => None end)
    (seq (length seen) (length l)).
Proof.
  induction l as [|x l IH]; intros seen; [done|]. cbn [filter_mut length seq]. rewrite (IH (seen ++ [x])), <- app_assoc.
  rewrite app_length, Nat.add_comm. cbn [length Nat.add app omap list_omap].
  rewrite lookup_app_r, Nat.sub_diag by done. cbn [lookup list_lookup]. rewrite take_app. by destruct (keep seen x).
Qed.
Lemma kept_spec {A} (keep : list A -> A -> bool) l : filter_mut keep [] l = kept keep l.
Proof. exact (filter_mut_from keep l []). Qed.
Lemma kept_in {A} (keep : list A -> A -> bool) l x : x ∈ kept keep l -> x ∈ l.
Proof.
  intros (i & _ & E)%elem_of_list_omap. destruct (l !! i) as [y|] eqn:Ei; [|done]. destruct (keep _ y); [|done].
  injection E as <-. by eapply elem_of_list_lookup_2.
Qed.
Lemma kept_all {A} (l : list A) : kept (fun _ _ => true) l = l.
Proof. rewrite <- kept_spec. generalize (@nil A) at 1. induction l as [|x l IH]; intros s; cbn; [done|by rewrite IH]. Qed.
(** [new_from_host_with_filter]: only devices the filter keeps are shared; no device list, no
    devices. *)
Theorem C61_filter_partial : forall dbg keep hs,
  Forall (fun o => forall h, o = Some h -> rusb_sane h) hs ->
  Forall (fun x => rusb_complete x.1.1 x.1.2 x.2) (rusb_usable (kept keep hs)) ->
  exists ds, new_from_host_with_filter dbg keep (Some hs) = Val ds /\
    Forall2 (fun x d => rusb_reported x.1.1 x.1.2 x.2 d) (rusb_usable (kept keep hs)) ds.
Proof.
  intros dbg keep hs Hs Hc. unfold new_from_host_with_filter. rewrite kept_spec. apply C61_enumeration_partial; [|done].
  rewrite Forall_forall in Hs |- *. intros o Ho. eapply Hs, kept_in, Ho.
Qed.
Print Assumptions C61_filter_partial.
Theorem C61_new_from_host_partial : forall dbg,
  (forall hs, Forall (fun o => forall h, o = Some h -> rusb_sane h) hs ->
   Forall (fun x => rusb_complete x.1.1 x.1.2 x.2) (rusb_usable hs) ->
   exists ds, new_from_host dbg (Some hs) = Val ds /\
     Forall2 (fun x d => rusb_reported x.1.1 x.1.2 x.2 d) (rusb_usable hs) ds) /\
  new_from_host dbg None = Val [] /\ (forall keep, new_from_host_with_filter dbg keep None = Val []).
Proof.
  intros dbg. split; [|done]. intros hs Hs Hc.
  destruct (C61_filter_partial dbg (fun _ _ => true) hs Hs) as (ds & Hd & HF); [by rewrite kept_all|]. rewrite kept_all in HF. by exists ds.
Qed.
Print Assumptions C61_new_from_host_partial.
(** Requests to different shared devices, and to different interfaces of one device, never reach
    the same handler object. *)
Theorem C61_separate_handlers :
  (forall dbg hs ds, with_rusb_devices dbg hs = Val ds -> separate_handlers ds) /\
  (forall dbg is ds, with_nusb_devices dbg is 0 0 = Val ds -> separate_handlers ds).
Proof.
  split; intros dbg l ds E; eapply all_fresh_separate.
  - exact (rusb_handles_fresh _ _ _ _ _ E).
  - exact (nusb_list_fresh _ _ _ _ _ E).
Qed.
Print Assumptions C61_separate_handlers.
Example C61_separate_handlers_example : exists ds, with_rusb_devices true [Some hx; None; Some hx] = Val ds /\
  length (concat (d_interfaces <$> ds)) = 2%nat /\ length ds = 2%nat.
Proof. eexists. split; [vm_compute; reflexivity|]. split; reflexivity. Qed.
(** A filter that counts: only the second device it is asked about. *)
Example C61_filter_example : kept (fun seen _ => Nat.eqb (length seen) 1) [Some hx; Some hx; None] = [Some hx] /\
  exists ds, new_from_host_with_filter true (fun seen _ => Nat.eqb (length seen) 1) (Some [Some hx; Some hx; None]) = Val ds /\ length ds = 1%nat.
Proof. split; [done|]. eexists. split; [vm_compute; reflexivity|]. reflexivity. Qed.
Definition nx : nusb_info := mkNusbInfo 2 9 (Some NsHigh) 4660 22136 0 0 0 0x0123 (Some (lit "Maker")) None (Some (lit "42"))
  (Some (mkNusbOpen (Some (mkNusbCfg 1 [Some (Some hx_alt)])) 1)).
Example C61_example :
  Forall (fun x => rusb_complete x.1.1 x.1.2 x.2) (rusb_usable [Some hx; None; Some hy]) /\
  length (rusb_usable [Some hx; None; Some hy]) = 2%nat /\
  Exists (fun x => ~ rusb_complete x.1.1 x.1.2 x.2) (rusb_usable [Some hx; Some hz]) /\
  nusb_sane nx /\ Forall (fun x => nusb_complete x.1.1 x.2) (nusb_usable [nx]) /\
  length (nusb_usable [nx]) = 1%nat.
Proof.
  assert (Hok : rusb_complete hx hx_desc hx_cfg).
  { split; [by repeat constructor|]. split_and!; intros i [= <-]; done. }
  split; [constructor; [exact Hok|]; constructor; [exact Hok|]; constructor|]. split; [done|]. split.
  { cbn. right. left. cbn. intros (_ & Hx & _). by apply (Hx 1). }
  split. { split; [cbn; lia|]. split; [cbn; lia|]. intros o cfg [= <-] [= <-]. split; [cbn; lia|].
    repeat constructor. intros a [= <-]. cbn. repeat constructor; cbn; lia. }
  split; [|done]. cbn. constructor; [|constructor]. cbn. split; [|done]. repeat constructor. by exists hx_alt.
Qed.
