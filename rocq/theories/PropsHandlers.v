(** * Properties C51-C56, C62, C63: the bundled keyboard and serial port *)
From Verif Require Export PropsConn PropsDesc HandlerProofs.
From Coq Require Strings.String.
Import Strings.String.StringSyntax.

(** A keyboard as in examples/hid_keyboard.rs: one interface with interrupt endpoint 0x81. *)
Definition kb_h : handlers := mkHandlers keyboard unit kb_handle_urb kb_csd (fun st _ _ _ => CallOk st []).
Definition kb_ep : endpoint := mkEndpoint 129 3 8 10.
Definition kb_intf : interface := mkInterface 3 0 0 [kb_ep] 0 (kb_csd new_keyboard) 1.
Definition kb_dev : device := with_interfaces ex_dev [kb_intf].
Definition kb_world (k : keyboard) : world kb_h := @mkWorld kb_h (fun _ => mkCell false k) (fun _ => mkCell false tt).
Definition kb_conn (k : keyboard) : cstate kb_h :=
  mkC (mkServer [] {[ lit "0-0-0" := kb_dev ]}) (kb_world k) (Some (lit "0-0-0")).

(** C51: after any sequence of queueing, polls and other requests, what the polls returned is the
    beginning of "press, release" of the queued events in order; the next poll returns the next
    action, or nothing if everything has been shown. *)
Theorem C51_keys_in_order : forall ops outs k, kb_exec new_keyboard ops outs k ->
  exists shown todo, script (queued ops) = shown ++ todo /\ Forall2 shows (non_empty outs) shown /\
  forall f e tbl s req, polls e ->
  exists k1 b, kb_handle_urb k f e tbl s req = CallOk k1 b /\
    match todo with [] => b = [] | a :: _ => b <> [] /\ shows b a end.
Proof.
  intros ops outs k HE. destruct (kb_exec_todo _ _ _ _ HE) as (dn & E & F). cbn in E.
  exists dn, (kb_todo k). split; [exact E|]. split; [exact F|]. intros f e tbl s req Hp.
  destruct (kb_poll k f e tbl s req Hp) as (k1 & b & E1 & Hm). exists k1, b. split; [exact E1|].
  destruct (kb_todo k); tauto.
Qed.
Print Assumptions C51_keys_in_order.
(** The same on the wire: a poll of the client is answered with the next action, whatever
    happened to the handler before. *)
Theorem C51_keys_on_the_wire : forall dbg (st : cstate kb_h) m sb d e f s ops outs,
  delivered dbg st m sb d e (Some f) s (TIntf f) -> h_direction (sb_header sb) = 1 -> polls e ->
  kb_exec new_keyboard ops outs (c_state (w_intf (cs_world st) (if_handler f))) ->
  exists shown todo b st1, script (queued ops) = shown ++ todo /\ Forall2 shows (non_empty outs) shown /\
    match todo with [] => b = [] | a :: _ => b <> [] /\ shows b a end /\
    replies dbg st m sb b st1 /\
    kb_exec new_keyboard (ops ++ [KCall f e (sb_transfer_buffer_length sb) s (sb_data sb)]) (outs ++ [b])
      (c_state (w_intf (cs_world st1) (if_handler f))).
Proof.
  intros dbg st m sb d e f s ops outs HD Hdir Hp HE.
  destruct (C51_keys_in_order _ _ _ HE) as (shown & todo & E & F & Hnext).
  destruct (Hnext f e (sb_transfer_buffer_length sb) s (sb_data sb) Hp) as (k1 & b & E1 & Hm).
  destruct (delivered_step _ _ _ _ _ _ _ _ _ HD) as (w' & Hi & Hr).
  assert (Ho : handler_answer (cs_world st) e (sb_transfer_buffer_length sb) s (sb_data sb) (TIntf f) = HOk b).
  { unfold handler_answer. change (i_step kb_h) with kb_handle_urb. by rewrite E1. }
  rewrite Ho in Hr, Hi. destruct Hr as [Hr _].
  eexists shown, todo, b, _. split; [exact E|]. split; [exact F|]. split; [exact Hm|].
  split; [apply Hr; auto|]. cbn [cs_world].
  assert (Hk : c_state (w_intf w' (if_handler f)) = k1).
  { inversion Hi; subst. match goal with Hx : w_intf (cs_world st) _ = _ |- _ => rewrite Hx in E1; cbn in E1 end.
    match goal with Hx : w_intf w' _ = _ |- _ => rewrite Hx end. cbn [c_state].
    change (i_step kb_h) with kb_handle_urb. by rewrite E1. }
  rewrite Hk. eapply kb_exec_app; eauto.
Qed.
Print Assumptions C51_keys_on_the_wire.
Definition ka : kb_report := mkReport 0 [4; 0; 0; 0; 0; 0].
Definition kB : kb_report := mkReport 2 [5; 0; 0; 0; 0; 0].
Example C51_example :
  exists outs k, kb_exec new_keyboard
    [KQueue ka; KCall kb_intf kb_ep 8 (mkSetup 0 0 0 0 0) []; KQueue kB;
     KCall kb_intf (mkEndpoint 128 0 64 0) 0 (mkSetup 129 6 8704 0 45) [];
     KCall kb_intf kb_ep 8 (mkSetup 0 0 0 0 0) []; KCall kb_intf kb_ep 8 (mkSetup 0 0 0 0 0) [];
     KCall kb_intf kb_ep 8 (mkSetup 0 0 0 0 0) []; KCall kb_intf kb_ep 8 (mkSetup 0 0 0 0 0) []] outs k /\
  outs = [[0; 0; 4; 0; 0; 0; 0; 0]; replicate 6 0; [2; 0; 5; 0; 0; 0; 0; 0]; replicate 6 0; []].
Proof.
  eexists _, _. split; [|reflexivity]. apply kx_queue.
  assert (Hp : polls kb_ep) by (split; unfold in_ep; cbn; lia).
  assert (Hn : ~ polls (mkEndpoint 128 0 64 0)) by (intros [Hx _]; cbn in Hx; lia).
  eapply kx_poll; [done|reflexivity|]. apply kx_queue. eapply kx_other; [done|reflexivity|].
  do 4 (eapply kx_poll; [done|reflexivity|]). apply kx_nil.
Qed.
Definition kb_in : submit := submit_cmd 1 1 8 (replicate 8 0) [].
Example C51_wire_example : forall dbg, delivered dbg (kb_conn (kb_push new_keyboard ka)) (wire (CmdSubmit kb_in)) kb_in
  kb_dev kb_ep (Some kb_intf) (mkSetup 0 0 0 0 0) (TIntf kb_intf) /\
  kb_exec new_keyboard [KQueue ka] [] (kb_push new_keyboard ka).
Proof.
  intros dbg. split; [|apply kx_queue, kx_nil].
  assert (HW : all_u8 (wire (CmdSubmit kb_in)) = true /\ cmd_layout dbg (wire (CmdSubmit kb_in)) (CmdSubmit kb_in))
    by (apply wire_ok; destruct dbg; wf_ex).
  destruct HW as [A B]. split; [exact A|exact B| | | | |reflexivity].
  - exists (lit "0-0-0"). split; [done|]. apply lookup_singleton.
  - apply find_ep_some. reflexivity.
  - unfold setup_of; do 8 eexists; split; reflexivity.
  - apply rt_transfer; cbn; [lia|done].
Qed.

(** C20 again: the keyboard sends its whole report descriptor, whatever wLength and whatever
    buffer the client gave. *)
Theorem C20_keyboard_ignores_lengths : forall dbg (st : cstate kb_h) m sb d e i f s k,
  delivered dbg st m sb d e i s (TIntf f) -> h_direction (sb_header sb) = 1 -> ep_address e mod 128 = 0 ->
  s_request_type s = 129 -> s_request s = 6 -> s_value s / 256 = 34 ->
  c_state (w_intf (cs_world st) (if_handler f)) = k ->
  exists st1, replies dbg st m sb (k_report_descriptor k) st1.
Proof.
  intros dbg st m sb d e i f s k HD Hdir He Ht Hq Hv Hk.
  destruct (delivered_step _ _ _ _ _ _ _ _ _ HD) as (w' & Hi & Hr).
  assert (Ho : handler_answer (cs_world st) e (sb_transfer_buffer_length sb) s (sb_data sb) (TIntf f)
             = HOk (k_report_descriptor k)).
  { unfold handler_answer. change (i_step kb_h) with kb_handle_urb. rewrite Hk. unfold kb_handle_urb.
    rewrite is_ep0_mod, He, Ht, Hq, N.shiftr_div_pow2. change (2 ^ 8) with 256. rewrite Hv. reflexivity. }
  rewrite Ho in Hr. eexists. apply Hr; auto.
Qed.
Print Assumptions C20_keyboard_ignores_lengths.
(** Forty-five bytes into a buffer of eight, with wLength 8. *)
Definition kb_short : submit := submit_cmd 1 0 8 [129; 6; 0; 34; 0; 0; 8; 0] [].
Example C20_keyboard_example : forall dbg,
  delivered dbg (kb_conn new_keyboard) (wire (CmdSubmit kb_short)) kb_short kb_dev (d_ep0_in kb_dev) None
    (mkSetup 129 6 8704 0 8) (TIntf kb_intf) /\
  length (connection dbg (kb_conn new_keyboard) (wire (CmdSubmit kb_short)) SEof None).1.1 = 93%nat.
Proof.
  intros dbg. split; [|destruct dbg; vm_compute; reflexivity].
  assert (HW : all_u8 (wire (CmdSubmit kb_short)) = true /\ cmd_layout dbg (wire (CmdSubmit kb_short)) (CmdSubmit kb_short))
    by (apply wire_ok; destruct dbg; wf_ex).
  destruct HW as [A B]. split; [exact A|exact B| | | | |reflexivity].
  - exists (lit "0-0-0"). split; [done|]. apply lookup_singleton.
  - apply find_ep_some. reflexivity.
  - unfold setup_of; do 8 eexists; split; reflexivity.
  - apply rt_interface; [done| |done|done]. intros [(_ & X & _)|(_ & X & _)]; discriminate.
Qed.

(** C52 is false: the report descriptor announces 8-byte input reports, the release report has 6. *)
Theorem C52_report_length_refuted :
  announces (k_report_descriptor new_keyboard) 8 /\
  exists ops outs k, kb_exec new_keyboard ops outs k /\ exists b, b ∈ non_empty outs /\ len b = 6.
Proof.
  split; [vm_compute; reflexivity|].
  exists [KQueue ka; KCall kb_intf kb_ep 8 (mkSetup 0 0 0 0 0) []; KCall kb_intf kb_ep 8 (mkSetup 0 0 0 0 0) []].
  assert (Hp : polls kb_ep) by (split; unfold in_ep; cbn; lia).
  eexists _, _. split.
  - apply kx_queue. do 2 (eapply kx_poll; [done|reflexivity|]). apply kx_nil.
  - exists (replicate 6 0). split; [|reflexivity]. vm_compute. right. left.
Qed.
Print Assumptions C52_report_length_refuted.
(** What is true: press reports have the announced length; every other non-empty answer to a
    poll is the 6-byte release report.  ([r_keys] is a [[u8; 6]].) *)
Theorem C52_report_length_partial : forall k f e tbl s req k1 b n,
  announces keyboard_report_descriptor n -> Forall (fun r => length (r_keys r) = 6%nat) (k_pending k) ->
  polls e -> kb_handle_urb k f e tbl s req = CallOk k1 b -> b <> [] ->
  len b = n \/ b = [0; 0; 0; 0; 0; 0].
Proof.
  intros k f e tbl s req k1 b n Ha Hk Hp E Hb.
  assert (n = 8) as -> by (unfold announces in Ha;
    assert (E8 : input_bits (length keyboard_report_descriptor) keyboard_report_descriptor 0 0 = Some 64) by (vm_compute; reflexivity);
    rewrite E8 in Ha; injection Ha as Ha; lia).
  destruct Hp as [He Hin]. unfold kb_handle_urb in E. rewrite is_ep0_mod in E.
  destruct (N.eqb_spec (ep_address e mod 128) 0); [done|]. rewrite (proj2 (ep_direction_spec e)) in E by exact Hin.
  destruct (k_state k).
  - destruct (k_pending k) as [|r rest]; injection E as <- <-; [done|]. left.
    apply Forall_cons in Hk as [Hk _]. unfold len. cbn. rewrite Hk. reflexivity.
  - injection E as <- <-. by right.
Qed.
Print Assumptions C52_report_length_partial.
Example C52_example : announces keyboard_report_descriptor 8 /\
  Forall (fun r => length (r_keys r) = 6%nat) (k_pending (kb_push (kb_push new_keyboard ka) kB)) /\
  kb_handle_urb (kb_push new_keyboard ka) kb_intf kb_ep 8 (mkSetup 0 0 0 0 0) [] =
    CallOk (mkKeyboard keyboard_report_descriptor [] KbKeyDown) [0; 0; 4; 0; 0; 0; 0; 0].
Proof. split; [vm_compute; reflexivity|]. split; [repeat constructor|reflexivity]. Qed.

Theorem C53_ascii : forall a, a < 256 ->
  (forall r, from_ascii a = Val r <-> exists u, (a, u) ∈ key_usage /\ r = mkReport 0 [u; 0; 0; 0; 0; 0]) /\
  ((exists p, from_ascii a = Panic p) <-> forall u, (a, u) ∉ key_usage) /\
  (forall b r, b < 256 -> from_ascii a = Val r -> from_ascii b = Val r ->
     a = b \/ (a = 13 /\ b = 10) \/ (a = 10 /\ b = 13)).
Proof.
  assert (K : forall a, a < 256 ->
    (exists u, from_ascii a = Val (mkReport 0 [u; 0; 0; 0; 0; 0]) /\ forall u', (a, u') ∈ key_usage <-> u' = u) \/
    (exists p, from_ascii a = Panic p) /\ forall u, (a, u) ∉ key_usage).
  { intros a Ha. pose proof (ascii_ok_all a Ha) as Ho. unfold ascii_ok in Ho.
    destruct (from_ascii a) as [[mo ks]|p|]; [| |done].
    - apply bool_decide_eq_true in Ho as (Hm & Hd & Hf & Hl). cbn [r_modifier r_keys] in *. left.
      destruct ks as [|u ks]; [done|]. cbn [drop] in Hd. rewrite drop_0 in Hd. cbn [take] in Hf. subst mo ks. exists u. split; [done|].
      intros u'. assert (Hx : u' ∈ (filter (fun x => x.1 = a) key_usage).*2 <-> u' = u)
        by (rewrite Hf; rewrite elem_of_list_singleton; done).
      rewrite <- Hx. rewrite elem_of_list_fmap. split.
      + intros Hin. exists (a, u'). split; [done|]. apply elem_of_list_filter. done.
      + intros ([a' u''] & -> & Hin). apply elem_of_list_filter in Hin as [Ha' Hin]. cbn [fst snd] in *. by subst.
    - apply bool_decide_eq_true in Ho. right. split; [by eexists|]. intros u Hin.
      assert (Hx : (a, u) ∈ filter (fun x => x.1 = a) key_usage) by (by apply elem_of_list_filter).
      rewrite Ho in Hx. by apply elem_of_nil in Hx. }
  assert (Inj : forall a b u, (a, u) ∈ key_usage -> (b, u) ∈ key_usage ->
     a = b \/ (a = 13 /\ b = 10) \/ (a = 10 /\ b = 13)).
  { intros a b u H1 H2.
    assert (Hall : forallb (fun x => forallb (fun y => negb (x.2 =? y.2) || (x.1 =? y.1) ||
        ((x.1 =? 13) && (y.1 =? 10)) || ((x.1 =? 10) && (y.1 =? 13))) key_usage) key_usage = true)
      by (vm_compute; reflexivity).
    rewrite forallb_forall in Hall. apply elem_of_list_In in H1, H2.
    specialize (Hall _ H1). rewrite forallb_forall in Hall. specialize (Hall _ H2). cbn in Hall.
    rewrite N.eqb_refl in Hall. cbn in Hall. destruct (N.eqb_spec a b), (N.eqb_spec a 13), (N.eqb_spec b 10),
      (N.eqb_spec a 10), (N.eqb_spec b 13); cbn in Hall; try discriminate; lia. }
  intros a Ha. destruct (K a Ha) as [(u & E & Hu)|[[p E] Hu]]; rewrite E; split_and!.
  - intros r. split.
    + intros Er. apply val_inj in Er. subst r. exists u. split; [by apply Hu|done].
    + intros (u' & Hin & ->). apply Hu in Hin. by subst.
  - split; [by intros (? & [=])|]. intros Hn. exfalso. apply (Hn u). by apply Hu.
  - intros b r Hb Er Eb. apply val_inj in Er. subst r.
    destruct (K b Hb) as [(u2 & E2 & Hu2)|[[p2 E2] _]]; [|congruence].
    rewrite E2 in Eb. apply val_inj in Eb. injection Eb as ->. apply (Inj a b u); [by apply Hu|by apply Hu2].
  - intros r. split; [done|]. intros (u & Hin & _). by destruct (Hu u).
  - split; [done|]. intros _. by exists p.
  - intros b r Hb Er. discriminate.
Qed.
Print Assumptions C53_ascii.
Example C53_example : from_ascii 104 = Val (mkReport 0 [11; 0; 0; 0; 0; 0]) /\ (104, 11) ∈ key_usage /\
  from_ascii 72 = Panic PUnimplemented.
Proof. split_and!; try reflexivity. repeat (first [left|right]). Qed.

(** C54 is false: one GET_DESCRIPTOR(HID) request to the keyboard's interface makes every later
    use of the handler fail: requests of any connection abort it, and the application's own
    [lock().unwrap()] panics. *)
Definition kb_kill : submit := ctl_in [129; 6; 0; 33; 0; 0; 9; 0].
Theorem C54_client_disables_handler_refuted : forall dbg k,
  exists st1, aborts dbg (kb_conn k) (wire (CmdSubmit kb_kill)) PUnimplemented st1 /\
    c_poisoned (w_intf (cs_world st1) 1) = true /\
    (* any connection, any device with this handler, any later state of the handlers *)
    (forall st2 m sb d e i s f, poison_kept (cs_world st1) (cs_world st2) -> if_handler f = 1 ->
       all_u8 m = true -> cmd_layout dbg m (CmdSubmit sb) -> imported st2 d ->
       addressed d (ep_byte (sb_header sb)) e i -> setup_of (sb_setup sb) s -> routed d e i s (TIntf f) ->
       exists p st3, aborts dbg st2 m p st3) /\
    (* any schedule of the whole server, and the application *)
    (forall (y : sys kb_h) ls y' ev f, y_world y = cs_world st1 -> run dbg y ls = Some (y', ev) ->
       poison_kept (cs_world st1) (y_world y') /\ step dbg y' (LApp 1 f) = None).
Proof.
  intros dbg k.
  destruct (ctl_wire dbg [129; 6; 0; 33; 0; 0; 9; 0] eq_refl eq_refl) as [Hm HL].
  assert (Hd : imported (kb_conn k) kb_dev) by (exists (lit "0-0-0"); split; [done|]; apply lookup_singleton).
  assert (Ha : addressed kb_dev (ep_byte (sb_header kb_kill)) (d_ep0_in kb_dev) None) by (by apply addr_ep0_in).
  assert (Hs : setup_of (sb_setup kb_kill) (mkSetup 129 6 8448 0 9)) by (do 8 eexists; split; reflexivity).
  pose proof (urb_replies dbg (kb_conn k) _ _ kb_dev (d_ep0_in kb_dev) None _ (UPanic PUnimplemented)
    (set_intf (kb_world k) 1 (mkCell true k)) Hm HL Hd Ha Hs ltac:(destruct dbg; reflexivity)) as R.
  eexists. split; [exact R|]. split; [reflexivity|]. split.
  - intros st2 m sb d e i s f [HK _] Hf Hm2 HL2 Hd2 Ha2 Hs2 Hr2. eapply poisoned_aborts; eauto.
    unfold usable. rewrite Hf, (HK 1 eq_refl). done.
  - intros y ls y' ev f Hy Hrun. pose proof (run_poison _ _ _ _ _ Hrun) as HP. rewrite Hy in HP. split; [exact HP|].
    cbn [step]. by rewrite (proj1 HP 1 eq_refl).
Qed.
Print Assumptions C54_client_disables_handler_refuted.
(** What is true: handlers that never panic (the serial port is one) are never disabled, in any
    schedule; and these are the keyboard's requests that do panic. *)
Theorem C54_client_disables_handler_partial : forall (H : handlers) dbg (s : sys H) ls s' ev, never_panics H ->
  run dbg s ls = Some (s', ev) ->
  (forall h, c_poisoned (w_intf (y_world s') h) = c_poisoned (w_intf (y_world s) h)) /\
  (forall h, c_poisoned (w_dev (y_world s') h) = c_poisoned (w_dev (y_world s) h)).
Proof. intros H dbg s ls s' ev Hn E. exact (run_flags dbg s ls s' ev Hn E). Qed.
Print Assumptions C54_client_disables_handler_partial.
Theorem C54_keyboard_panics_iff : forall k f e tbl s req,
  (exists k1 p, kb_handle_urb k f e tbl s req = CallPanic k1 p) <->
  ep_address e mod 128 = 0 /\
  ~ (s_request_type s = 129 /\ s_request s = 6 /\ s_value s / 256 = 34) /\
  ~ (s_request_type s = 33 /\ s_request s = 10).
Proof. exact kb_panics_iff. Qed.
Print Assumptions C54_keyboard_panics_iff.
Example C54_example : never_panics cdc_h /\
  exists s' ev, run true (@mkSys cdc_h (cs_server cdc_ex_state) (cs_world cdc_ex_state) lk_free lk_free
      {[ 7 := mkTask PRead (Some (lit "0-0-0")) ]})
    [LRecv 7 (CmdSubmit cdc_ex_in); LGrantUsed; LRun 7; LSent 7] = Some (s', ev).
Proof.
  split.
  - split; [|done]. intros st f e tbl s req st' p. cbn. unfold cdc_handle_urb. by repeat case_match.
  - eexists _, _. vm_compute. reflexivity.
Qed.

(** C55: the answers to bulk IN polls, concatenated, are the queued bytes in order; what is not
    yet delivered is exactly what the next poll returns; other transfers return nothing. *)
Theorem C55_serial_in_order : forall ops outs others c, cdc_exec new_cdc ops outs others c ->
  Forall (fun b => b = []) others /\
  exists rest, cdc_queued ops = mjoin outs ++ rest /\
  forall f e tbl s req, bulk_in e ->
  exists c1, cdc_handle_urb c f e tbl s req = CallOk c1 rest /\
    cdc_exec new_cdc (ops ++ [CCall f e tbl s req]) (outs ++ [rest]) others c1.
Proof.
  intros ops outs others c HE. destruct (cdc_exec_fifo _ _ _ _ _ HE) as [E F]. split; [exact F|].
  exists (c_tx_buffer c). split; [exact E|]. intros f e tbl s req Hb. eexists.
  rewrite (cdc_poll c f e tbl s req Hb). split; [reflexivity|].
  eapply cdc_exec_app; eauto. by apply cdc_poll.
Qed.
Print Assumptions C55_serial_in_order.
Example C55_example :
  cdc_exec new_cdc
    [CQueue [1; 2]; CCall cdc_ex_intf (mkEndpoint 129 3 8 10) 8 (mkSetup 0 0 0 0 0) [];
     CCall cdc_ex_intf (mkEndpoint 2 2 512 0) 1 (mkSetup 0 0 0 0 0) [9]; CQueue [3];
     CCall cdc_ex_intf (mkEndpoint 130 2 512 0) 64 (mkSetup 0 0 0 0 0) []; CQueue [4]]
    [[1; 2; 3]] [[]; []] (mkCdc [4]).
Proof.
  apply cx_queue. eapply cx_other; [by right|reflexivity|].
  eapply cx_other; [left; split; [done|]; unfold in_ep; cbn; lia|reflexivity|]. apply cx_queue.
  eapply cx_poll; [split; [done|]; unfold in_ep; cbn; lia|reflexivity|]. apply cx_queue, cx_nil.
Qed.

(** The same on the wire: among the endpoints the interface declares, a poll of endpoint 2 IN is
    answered with everything not yet delivered, whatever happened to the handler before. *)
Theorem C55_serial_on_the_wire : forall dbg (st : cstate cdc_h) m sb d e f s ops outs others,
  all_u8 m = true -> cmd_layout dbg m (CmdSubmit sb) -> imported st d ->
  h_direction (sb_header sb) = 1 -> h_ep (sb_header sb) = 2 ->
  addressed d (ep_byte (sb_header sb)) e (Some f) -> if_endpoints f = cdc_endpoints ->
  setup_of (sb_setup sb) s -> c_poisoned (w_intf (cs_world st) (if_handler f)) = false ->
  cdc_exec new_cdc ops outs others (c_state (w_intf (cs_world st) (if_handler f))) ->
  exists rest st1, cdc_queued ops = mjoin outs ++ rest /\ replies dbg st m sb rest st1 /\
    cdc_exec new_cdc (ops ++ [CCall f e (sb_transfer_buffer_length sb) s (sb_data sb)]) (outs ++ [rest]) others
      (c_state (w_intf (cs_world st1) (if_handler f))).
Proof.
  intros dbg st m sb d e f s ops outs others Hm HL Hd Hdir Hep Ha Hf Hs Hp HE.
  assert (Hb : bulk_in e).
  { apply cdc_data_endpoint. inversion Ha as [| |fs1 g fs2 es1 x es2 _ _ _ _ Hx Hy _]; subst.
    rewrite Hf in Hx. split; [rewrite Hx; apply elem_of_app; right; left|].
    rewrite Hy. unfold ep_byte. rewrite Hdir, Hep. reflexivity. }
  assert (HD : delivered dbg st m sb d e (Some f) s (TIntf f)).
  { split; auto. apply rt_transfer; [|done]. destruct Hb. lia. }
  destruct (C55_serial_in_order _ _ _ _ HE) as (_ & rest & E & Hnext).
  destruct (Hnext f e (sb_transfer_buffer_length sb) s (sb_data sb) Hb) as (c1 & E1 & Hx).
  destruct (delivered_step _ _ _ _ _ _ _ _ _ HD) as (w' & Hi & Hr).
  assert (Ho : handler_answer (cs_world st) e (sb_transfer_buffer_length sb) s (sb_data sb) (TIntf f) = HOk rest).
  { unfold handler_answer. change (i_step cdc_h) with cdc_handle_urb. by rewrite E1. }
  rewrite Ho in Hr, Hi. destruct Hr as [Hr _].
  eexists rest, _. split; [exact E|]. split; [apply Hr; auto|]. cbn [cs_world].
  assert (Hk : c_state (w_intf w' (if_handler f)) = c1).
  { inversion Hi; subst. match goal with Hy : w_intf (cs_world st) _ = _ |- _ => rewrite Hy in E1; cbn in E1 end.
    match goal with Hy : w_intf w' _ = _ |- _ => rewrite Hy end. cbn [c_state].
    change (i_step cdc_h) with cdc_handle_urb. by rewrite E1. }
  by rewrite Hk.
Qed.
Print Assumptions C55_serial_on_the_wire.
Example C55_wire_example : forall dbg,
  let m := wire (CmdSubmit cdc_ex_in) in
  (all_u8 m = true /\ cmd_layout dbg m (CmdSubmit cdc_ex_in)) /\ imported cdc_ex_state cdc_ex_dev /\
  addressed cdc_ex_dev (ep_byte (sb_header cdc_ex_in)) (mkEndpoint 130 2 512 0) (Some cdc_ex_intf) /\
  setup_of (sb_setup cdc_ex_in) (mkSetup 0 0 0 0 0) /\
  cdc_exec new_cdc [CQueue [104; 101]; CQueue [121]] [] [] (c_state (w_intf (cs_world cdc_ex_state) 1)).
Proof.
  intros dbg m. split; [apply wire_ok; destruct dbg; wf_ex|].
  split; [exists (lit "0-0-0"); split; [done|]; apply lookup_singleton|].
  split; [apply find_ep_some; reflexivity|].
  split; [unfold setup_of; do 8 eexists; split; reflexivity|]. apply cx_queue, cx_queue, cx_nil.
Qed.

(** C56 is false: GET_STATUS to the interface (a control request) drains the queued data. *)
Theorem C56_only_bulk_in_refuted :
  let sb := ctl_in [129; 0; 0; 0; 0; 0; 2; 0] in
  exists st1, cmd_layout true (wire (CmdSubmit sb)) (CmdSubmit sb) /\ h_ep (sb_header sb) = 0 /\
    (forall dbg, replies dbg cdc_ex_state (wire (CmdSubmit sb)) sb [104; 101; 121] st1) /\
    c_tx_buffer (c_state (w_intf (cs_world st1) 1)) = [].
Proof.
  intros sb.
  eexists. split; [apply (ctl_wire true [129; 0; 0; 0; 0; 0; 2; 0] eq_refl eq_refl)|]. split; [done|]. split.
  - intros dbg. destruct (ctl_wire dbg [129; 0; 0; 0; 0; 0; 2; 0] eq_refl eq_refl) as [Hm HL].
    assert (Hd : imported cdc_ex_state cdc_ex_dev) by (exists (lit "0-0-0"); split; [done|]; apply lookup_singleton).
    assert (Hs : setup_of (sb_setup sb) (mkSetup 129 0 0 0 2)) by (do 8 eexists; split; reflexivity).
    apply (urb_replies dbg cdc_ex_state _ sb cdc_ex_dev (d_ep0_in cdc_ex_dev) None _ (UOk [104; 101; 121])
      (set_intf (cs_world cdc_ex_state) 1 (mkCell false (mkCdc []))) Hm HL Hd (addr_ep0_in _ _ eq_refl) Hs
      ltac:(destruct dbg; reflexivity)). by right; left.
  - reflexivity.
Qed.
Print Assumptions C56_only_bulk_in_refuted.
(** What is true: exactly OUT and interrupt transfers never touch the data; among the endpoints
    the interface declares, 0x82 and only 0x82 hands data out. *)
Theorem C56_only_bulk_in_partial : forall f e tbl s req,
  ((forall c c1 b, cdc_handle_urb c f e tbl s req = CallOk c1 b -> b = [] /\ c1 = c) <->
   (~ in_ep e \/ ep_attributes e = 3)) /\
  (e ∈ cdc_endpoints ->
   (ep_address e <> 0x82 -> forall c, cdc_handle_urb c f e tbl s req = CallOk c []) /\
   (ep_address e = 0x82 -> forall c, exists c1, cdc_handle_urb c f e tbl s req = CallOk c1 (c_tx_buffer c)
      /\ c_tx_buffer c1 = [])) /\
  exists e2, e2 ∈ cdc_endpoints /\ ep_address e2 = 0x82.
Proof.
  intros f e tbl s req. split; [apply cdc_hands_out_iff|]. split.
  - intros Hin. split; intros Ha c.
    + apply cdc_other. unfold cdc_endpoints in Hin.
      repeat (apply elem_of_cons in Hin as [-> |Hin]); [by right|done| |by apply elem_of_nil in Hin].
      left. split; [done|]. unfold in_ep. cbn. lia.
    + eexists. split; [by apply cdc_poll, cdc_data_endpoint|done].
  - eexists. split; [right; left|done].
Qed.
Print Assumptions C56_only_bulk_in_partial.
(** On the wire, to a device with serial interfaces only: the queue of a serial port changes only
    by a submit to endpoint 2 IN (0x82), or by a control request to an interface on endpoint 0 IN, which
    is the exception of [C56_only_bulk_in_refuted]. *)
Theorem C56_on_the_wire_partial : forall dbg (st : cstate cdc_h) m sb d fin out en st' x,
  all_u8 m = true -> cmd_layout dbg m (CmdSubmit sb) -> imported st d ->
  Forall (fun f => if_endpoints f = cdc_endpoints) (d_interfaces d) ->
  ep_address (d_ep0_in d) = 128 -> ep_address (d_ep0_out d) = 0 ->
  connection dbg st m fin None = (out, en, st') ->
  c_tx_buffer (c_state (w_intf (cs_world st') x)) <> c_tx_buffer (c_state (w_intf (cs_world st) x)) ->
  ep_byte (sb_header sb) = 0x82 \/
  (ep_byte (sb_header sb) = 0x80 /\ exists s, setup_of (sb_setup sb) s /\ s_request_type s mod 16 = 1).
Proof.
  intros dbg st m sb d fin out en st' x Hm HL Hd Hf H0 H1 E Hx.
  destruct (submit_effect _ _ _ _ _ _ _ _ _ Hm HL Hd E) as [Hw|(e & i & s & t & o & Ha & Hs & Hr & Hi)]; [by rewrite Hw in Hx|].
  assert (Hc : exists f, t = TIntf f /\ in_ep e /\ ep_attributes e <> 3).
  { destruct Hi as [f c0 c w' Ec Es Ew Eo _|r st0 c w' _ _ _ _ Eo]; [|by rewrite Eo in Hx].
    exists f. split; [done|]. destruct (decide (x = if_handler f)) as [-> |Hn]; [|by rewrite Eo in Hx].
    rewrite Ew, Ec in Hx. cbn [c_state] in Hx.
    assert (Hd' : (~ in_ep e \/ ep_attributes e = 3) \/ (in_ep e /\ ep_attributes e <> 3)) by (unfold in_ep; lia).
    destruct Hd' as [Hd'|Hd']; [|done]. exfalso. apply Hx.
    destruct (cdc_handle_urb c0 f e (sb_transfer_buffer_length sb) s (sb_data sb)) as [c1 b|c1 z|c1 p] eqn:Eh.
    - assert (Ec1 := proj2 (cdc_hands_out_iff f e (sb_transfer_buffer_length sb) s (sb_data sb)) Hd' _ _ _ Eh).
      change (i_step cdc_h) with cdc_handle_urb in Es. rewrite Eh in Es. subst c. cbn [call_state]. by destruct Ec1 as [_ ->].
    - unfold cdc_handle_urb in Eh. repeat (case_match; try discriminate Eh).
    - unfold cdc_handle_urb in Eh. repeat (case_match; try discriminate Eh). }
  destruct Hc as (f & -> & Hin & Hat).
  unfold in_ep in Hin. destruct Ha as [Ha|Ha Ha'|fs1 g fs2 es1 e es2 Ha Ha' Ef _ Ee Hae _].
  - right. split; [congruence|]. exists s. split; [done|]. inversion Hr; subst; done.
  - rewrite H1 in Hin. cbn in Hin. lia.
  - left. rewrite Forall_forall in Hf. rewrite (Hf g) in Ee by (rewrite Ef; apply elem_of_app; right; left).
    assert (Hm' : e ∈ cdc_endpoints) by (rewrite Ee; apply elem_of_app; right; left).
    rewrite <- Hae. unfold cdc_endpoints in Hm'.
    repeat (apply elem_of_cons in Hm' as [-> |Hm']); cbn in *; [done|done|lia|by apply elem_of_nil in Hm'].
Qed.
Print Assumptions C56_on_the_wire_partial.
Example C56_example : mkEndpoint 129 3 8 10 ∈ cdc_endpoints /\ mkEndpoint 2 2 512 0 ∈ cdc_endpoints /\
  cdc_handle_urb (mkCdc [7]) cdc_ex_intf (mkEndpoint 2 2 512 0) 1 (mkSetup 0 0 0 0 0) [9] = CallOk (mkCdc [7]) [].
Proof. split_and!; [left|right; right; left|reflexivity]. Qed.

Example C56_wire_example : Forall (fun f => if_endpoints f = cdc_endpoints) (d_interfaces cdc_ex_dev) /\
  ep_address (d_ep0_in cdc_ex_dev) = 128 /\ ep_address (d_ep0_out cdc_ex_dev) = 0 /\
  let sb := ctl_in [129; 0; 0; 0; 0; 0; 2; 0] in forall dbg,
  let st' := (connection dbg cdc_ex_state (wire (CmdSubmit sb)) SEof None).2 in
  c_tx_buffer (c_state (w_intf (cs_world st') 1)) <> c_tx_buffer (c_state (w_intf (cs_world cdc_ex_state) 1)).
Proof.
  split; [repeat constructor|]. split; [done|]. split; [done|]. intros sb dbg. destruct dbg; vm_compute; discriminate.
Qed.

(** C62: the HID descriptor in the configuration announces the length of the report descriptor
    that GET_DESCRIPTOR(report) returns, for the bundled and for any replaced report descriptor
    below 64 KiB. *)
Theorem C62_hid_descriptor : forall dbg (st : cstate kb_h) m sb d f s ix,
  control_in dbg st m sb d s ->
  s_request_type s = 129 -> s_request s = 6 -> s_value s = 256 * 34 + ix -> ix < 256 ->
  d_interfaces d !! N.to_nat (s_index s mod 256) = Some f ->
  (forall e i, addressed d (ep_byte (sb_header sb)) e i -> ep_address e mod 128 = 0) ->
  c_poisoned (w_intf (cs_world st) (if_handler f)) = false ->
  len (k_report_descriptor (c_state (w_intf (cs_world st) (if_handler f)))) < 65536 ->
  exists desc st1, replies dbg st m sb desc st1 /\
    c_state (w_intf (cs_world st1) (if_handler f)) = c_state (w_intf (cs_world st) (if_handler f)) /\
    let hid := kb_csd (c_state (w_intf (cs_world st) (if_handler f))) in
    length hid = 9%nat /\ u8_at hid 0 9 /\ u8_at hid 1 0x21 /\ u16le_at hid 2 0x0111 /\ u8_at hid 5 1 /\
    u8_at hid 6 0x22 /\ u16le_at hid 7 (len desc).
Proof.
  intros dbg st m sb d f s ix [Hm HL Hd Hdir Hs (e & i & Ha & Hc)] H1 H2 H3 H4 Hf He Hp Hl.
  specialize (He _ _ Ha).
  assert (Hr : routed d e i s (TIntf f)).
  { apply rt_interface; [done| |rewrite H1; done|done]. intros [(_ & Hx & _)|(_ & Hx & _)]; rewrite H1 in Hx; discriminate. }
  assert (HD : delivered dbg st m sb d e i s (TIntf f)) by (by split).
  set (k := c_state (w_intf (cs_world st) (if_handler f))) in *.
  assert (E1 : kb_handle_urb k f e (sb_transfer_buffer_length sb) s (sb_data sb) = CallOk k (k_report_descriptor k)).
  { unfold kb_handle_urb. rewrite is_ep0_mod, He, H1, H2, shiftr8. cbn [N.eqb Pos.eqb andb].
    replace (s_value s / 256) with 34 by lia. reflexivity. }
  destruct (delivered_step _ _ _ _ _ _ _ _ _ HD) as (w' & Hi & HR).
  assert (Ho : handler_answer (cs_world st) e (sb_transfer_buffer_length sb) s (sb_data sb) (TIntf f) = HOk (k_report_descriptor k)).
  { unfold handler_answer. change (i_step kb_h) with kb_handle_urb. fold k. by rewrite E1. }
  rewrite Ho in HR, Hi. destruct HR as [HR _].
  eexists _, _. split; [apply HR; auto|]. cbn [cs_world]. split.
  { inversion Hi; subst. subst k. match goal with Hx : w_intf (cs_world st) _ = _ |- _ => rewrite Hx in E1 |- *; cbn in E1 end.
    match goal with Hx : w_intf w' _ = _ |- _ => rewrite Hx end. cbn [c_state].
    change (i_step kb_h) with kb_handle_urb. by rewrite E1. }
  cbv zeta. split_and!; try reflexivity.
  - exists 17, 1. split_and!; reflexivity.
  - eexists _, _. split; [reflexivity|]. split; [reflexivity|]. unfold as_u8. rewrite shiftr8. lia.
Qed.
Print Assumptions C62_hid_descriptor.
Example C62_example : forall dbg,
  control_in dbg (kb_conn new_keyboard) (wire (CmdSubmit (ctl_in [129; 6; 0; 34; 0; 0; 45; 0])))
    (ctl_in [129; 6; 0; 34; 0; 0; 45; 0]) kb_dev (mkSetup 129 6 8704 0 45) /\
  len (k_report_descriptor new_keyboard) = 45 /\ if_class_specific kb_intf = kb_csd new_keyboard.
Proof.
  intros dbg. destruct (ctl_wire dbg [129; 6; 0; 34; 0; 0; 45; 0] eq_refl eq_refl) as [A B].
  split; [|split; reflexivity]. split; [exact A|exact B| |done| |].
  - exists (lit "0-0-0"). split; [done|]. apply lookup_singleton.
  - do 8 eexists. split; reflexivity.
  - exists (d_ep0_in kb_dev), None. split; [by apply addr_ep0_in|done].
Qed.

(** C63: the class-specific descriptors of both handlers are well-formed descriptor blocks that
    contain neither interface nor endpoint descriptors, so C40 applies to devices built from them. *)
Theorem C63_class_descriptors : 
  (forall k, csd_ok (kb_csd k)) /\ (forall c, csd_ok (cdc_csd c)) /\
  forall d, len (d_interfaces d) <= 255 ->
  Forall (fun f => len (if_endpoints f) <= 255 /\
    ((exists k, if_class_specific f = kb_csd k) \/ (exists c, if_class_specific f = cdc_csd c) \/ if_class_specific f = []))
    (d_interfaces d) -> config_limits d.
Proof.
  assert (K1 : forall k, csd_ok (kb_csd k)).
  { intros k. unfold kb_csd. eexists [_]. split.
    - match goal with |- blocks (?n :: ?ty :: ?body) _ => rewrite <- (app_nil_r body) at 1 end.
      apply blocks_cons; [reflexivity|constructor].
    - repeat constructor; cbn; discriminate. }
  assert (K2 : forall c, csd_ok (cdc_csd c)).
  { intros c. unfold cdc_csd. eexists [_; _]. split.
    - apply (blocks_cons 5 36 [0; 16; 1] [4; 36; 2; 0]); [reflexivity|].
      apply (blocks_cons 4 36 [2; 0] []); [reflexivity|constructor].
    - repeat constructor; cbn; discriminate. }
  split; [exact K1|]. split; [exact K2|]. intros d Hl Hf. split; [exact Hl|].
  eapply Forall_impl; [exact Hf|]. intros f [He Hc]. split; [exact He|].
  destruct Hc as [[k ->]|[[c ->]| ->]]; [apply K1|apply K2|]. exists []. split; constructor.
Qed.
Print Assumptions C63_class_descriptors.
Example C63_example : config_limits kb_dev /\ config_size kb_dev < 65536.
Proof.
  split; [|vm_compute; reflexivity]. apply C63_class_descriptors; [vm_compute; discriminate|].
  constructor; [|constructor]. split; [vm_compute; discriminate|]. left. by exists new_keyboard.
Qed.
