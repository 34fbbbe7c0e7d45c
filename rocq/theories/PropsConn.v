(** * Properties C13-C23: one connection *)
From Verif Require Export Examples.
From Verif Require Import Cdc.
From Coq Require Strings.String.
Import Strings.String.StringSyntax.

(** A whole session: import, IN, OUT, unlink, then the client closes the connection. *)
Definition ex_session : list N :=
  wire ex_import ++ wire (CmdSubmit ex_in) ++ wire (CmdSubmit ex_out) ++ wire ex_unlink.
Example ex_session_runs :
  let '(out, e, st) := handler false (new_simulated [ex_dev]) ex_world ex_session SEof None in
  length out = (320 + 50 + 48 + 48)%nat /\ e = EndOk /\ sv_available (cs_server st) = [ex_dev].
Proof. vm_compute. split_and!; reflexivity. Qed.

Theorem C13_one_reply_per_command : forall (H : handlers) dbg sv (w : world H) inp fin bud out e st',
  all_u8 inp = true -> handler dbg sv w inp fin bud = (out, e, st') ->
  exists l rest part,
    messages dbg inp l.*1 rest /\ Forall (fun cb => answers cb.1 cb.2) l /\
    out = mjoin l.*2 ++ part /\
    (part = [] \/
     exists n er m c rest' more, bud = Some (n, er) /\ e = EndErr er /\ len out = n /\
       rest = m ++ rest' /\ cmd_layout dbg m c /\ answers c (part ++ more) /\ more <> []).
Proof.
  intros H dbg sv w inp fin bud out e st' Hu E.
  destruct (connection_shape _ _ _ _ _ _ _ _ E) as (l & st1 & rest & HS & _ & HC).
  destruct (steps_messages _ _ _ _ _ _ _ Hu HS) as (HM & HA & Hr).
  destruct HC as [[-> _]|(c & rest' & b & n & er & -> & -> & Hn & Hrd & Hb & _ & part & more & -> & Hne & ->)].
  - exists l, rest, []. split_and!; auto. by rewrite app_nil_r.
  - exists l, rest, part. split_and!; auto. right.
    destruct (proj1 (reader_iff dbg rest fin c rest' Hr) Hrd) as (m & -> & HL).
    exists n, er, m, c, rest', more. split_and!; auto.
    eapply serve_answers; [by eapply layout_u32|exact Hb].
Qed.
Print Assumptions C13_one_reply_per_command.
Example C13_example : all_u8 ex_session = true /\
  messages true ex_session [ex_import; CmdSubmit ex_in; CmdSubmit ex_out; ex_unlink] [].
Proof.
  assert (Hi : all_u8 (wire ex_import) = true /\ cmd_layout true (wire ex_import) ex_import)
    by (apply wire_ok; wf_ex).
  destruct (ex_wire true ex_in) as [A1 B1]; [in_list|].
  destruct (ex_wire true ex_out) as [A2 B2]; [in_list|].
  destruct (ex_unlink_wire true) as [A3 B3]. destruct Hi as [A4 B4].
  split; [reflexivity|]. unfold ex_session. apply msgs_cons; [done|]. apply msgs_cons; [done|].
  apply msgs_cons; [done|]. rewrite <- (app_nil_r (wire ex_unlink)). apply msgs_cons; [done|]. constructor.
Qed.

(** C14: the acknowledgement is the next reply (after those of all earlier commands, by C13),
    and the connection goes on in the same state. *)
Theorem C14_unlink_acknowledged : forall (H : handlers) dbg (st : cstate H) m h us inp fin,
  cmd_layout dbg m (CmdUnlink h us) ->
  exists b, ret_unlink_layout b (echo 4 h) 0 /\
  forall out e st', connection dbg st inp fin None = (out, e, st') ->
    connection dbg st (m ++ inp) fin None = (b ++ out, e, st').
Proof. intros H dbg st m h us inp fin. exact (unlink_step dbg st m h us inp fin). Qed.
Print Assumptions C14_unlink_acknowledged.
(** Seen over the whole history: whatever was sent before, an unlink that was processed has all
    earlier commands answered before it. *)
Theorem C14_earlier_answered_first : forall (H : handlers) dbg sv (w : world H) inp fin out e st',
  all_u8 inp = true -> handler dbg sv w inp fin None = (out, e, st') ->
  exists l rest, messages dbg inp l.*1 rest /\ out = mjoin l.*2 /\
  forall k h us b, l !! k = Some (CmdUnlink h us, b) ->
    ret_unlink_layout b (echo 4 h) 0 /\
    exists before after, out = mjoin before ++ b ++ after /\ length before = k /\
      Forall2 answers (take k l.*1) before.
Proof.
  intros H dbg sv w inp fin out e st' Hu E.
  destruct (C13_one_reply_per_command _ _ _ _ _ _ _ _ _ _ Hu E) as (l & rest & part & HM & HA & Ho & Hp).
  destruct Hp as [-> |(n & er & m & c & rest' & more & Hb & _)]; [|done].
  rewrite app_nil_r in Ho. exists l, rest. split_and!; auto.
  intros k h us b Hk. split.
  - rewrite Forall_forall in HA. exact (HA _ (elem_of_list_lookup_2 _ _ _ Hk)).
  - exists (take k l.*2), (mjoin (drop (S k) l.*2)).
    assert (Hk2 : l.*2 !! k = Some b) by (rewrite list_lookup_fmap, Hk; done).
    split_and!.
    + rewrite Ho. rewrite <- (take_drop_middle _ _ _ Hk2) at 1. rewrite join_app, join_cons. done.
    + apply take_length_le. apply lookup_lt_Some in Hk2. lia.
    + clear -HA. revert k. induction HA as [|[c b'] l Hx _ IH]; intros [|k]; cbn; constructor; auto.
Qed.
Print Assumptions C14_earlier_answered_first.
Example C14_example : cmd_layout true (wire ex_unlink) ex_unlink /\
  len (connection true (mkC (new_simulated []) ex_world None) (wire ex_unlink ++ wire ex_unlink) SEof None).1.1 = 96.
Proof. split; [apply (ex_unlink_wire true)|]. vm_compute. reflexivity. Qed.

Theorem C15_submit_needs_import : forall (H : handlers) dbg (st : cstate H) m sb inp fin bud,
  cmd_layout dbg m (CmdSubmit sb) ->
  (forall id d, cs_current st = Some id -> sv_used (cs_server st) !! id <> Some d) ->
  exists p, connection dbg st (m ++ inp) fin bud = ([], EndPanic p, st).
Proof.
  intros H dbg st m sb inp fin bud HL Hn. exists PUnwrapNone. apply (submit_not_imported dbg st m sb); [exact HL|].
  intros d (id & E1 & E2). exact (Hn id d E1 E2).
Qed.
Print Assumptions C15_submit_needs_import.
Example C15_example : cmd_layout true (wire (CmdSubmit ex_in)) (CmdSubmit ex_in) /\
  connection true (mkC (new_simulated [ex_dev]) ex_world None) (wire (CmdSubmit ex_in)) SEof None
  = ([], EndPanic PUnwrapNone, mkC (new_simulated [ex_dev]) ex_world None).
Proof.
  destruct (ex_wire true ex_in) as [_ B]; [in_list|]. split; [exact B|].
  rewrite <- (app_nil_r (wire _)). by apply (submit_no_device true _ _ ex_in).
Qed.

Theorem C16_unknown_endpoint_refused : forall (H : handlers) dbg (st : cstate H) m sb id d inp fin,
  cmd_layout dbg m (CmdSubmit sb) ->
  cs_current st = Some id -> sv_used (cs_server st) !! id = Some d ->
  unknown_ep d (ep_byte (sb_header sb)) ->
  exists b, ret_submit_layout b (mkRetSubmit (echo 3 (sb_header sb)) 1 0 0 0 0 [] []) /\
  forall out e st', connection dbg st inp fin None = (out, e, st') ->
    connection dbg st (m ++ inp) fin None = (b ++ out, e, st').
Proof.
  intros H dbg st m sb id d inp fin HL E1 E2 Hu.
  exact (unknown_ep_step dbg st m sb d inp fin HL (ex_intro _ id (conj E1 E2)) Hu).
Qed.
Print Assumptions C16_unknown_endpoint_refused.
Example C16_example : cmd_layout true (wire (CmdSubmit ex_unknown)) (CmdSubmit ex_unknown) /\
  imported ex_state ex_dev /\ unknown_ep ex_dev (ep_byte (sb_header ex_unknown)).
Proof.
  destruct (ex_wire true ex_unknown) as [_ B]; [in_list|]. split; [exact B|]. split; [exact ex_imported|].
  apply find_ep_none. reflexivity.
Qed.

Theorem C17_handler_error_is_failure : forall (H : handlers) dbg (st : cstate H) m sb d e i s t x,
  delivered dbg st m sb d e i s t ->
  handler_answer (cs_world st) e (sb_transfer_buffer_length sb) s (sb_data sb) t = HErr x ->
  exists w', invoked (cs_world st) e (sb_transfer_buffer_length sb) s (sb_data sb) t (HErr x) w' /\
    replies_error dbg st m sb (mkC (cs_server st) w' (cs_current st)).
Proof.
  intros H dbg st m sb d e i s t x HD Hx. destruct (delivered_step _ _ _ _ _ _ _ _ _ HD) as (w' & Hi & Hr).
  rewrite Hx in Hi, Hr. exists w'. split; [exact Hi|exact Hr].
Qed.
Print Assumptions C17_handler_error_is_failure.
Example C17_example :
  delivered true ex_state (wire (CmdSubmit ex_out0)) ex_out0 ex_dev (mkEndpoint 2 2 512 0) (Some ex_intf)
    (mkSetup 0 0 0 0 0) (TIntf ex_intf) /\
  handler_answer ex_world (mkEndpoint 2 2 512 0) 0 (mkSetup 0 0 0 0 0) [] (TIntf ex_intf) = HErr (EHandler 5).
Proof. split; [apply (ex_delivered true)|reflexivity]. Qed.

Theorem C18_handler_data_unmodified : forall (H : handlers) dbg (st : cstate H) m sb d e i s t data,
  delivered dbg st m sb d e i s t -> h_direction (sb_header sb) = 1 ->
  handler_answer (cs_world st) e (sb_transfer_buffer_length sb) s (sb_data sb) t = HOk data ->
  len data < 4294967296 ->
  exists w', invoked (cs_world st) e (sb_transfer_buffer_length sb) s (sb_data sb) t (HOk data) w' /\
  forall inp fin, exists b,
    ret_submit_layout b (mkRetSubmit (echo 3 (sb_header sb)) 0 (len data) 0 0 0 data []) /\
    forall out en st', connection dbg (mkC (cs_server st) w' (cs_current st)) inp fin None = (out, en, st') ->
      connection dbg st (m ++ inp) fin None = (b ++ out, en, st').
Proof.
  intros H dbg st m sb d e i s t data HD Hdir Hx Hlen.
  destruct (delivered_step _ _ _ _ _ _ _ _ _ HD) as (w' & Hi & Hr). rewrite Hx in Hi, Hr.
  exists w'. split; [exact Hi|]. intros inp fin. destruct Hr as [Hr _].
  destruct (Hr (or_intror (or_introl Hdir)) inp fin) as (b & Hb & Hk). exists b. split; [|exact Hk].
  unfold submit_ok_reply in Hb. by rewrite N.mod_small in Hb.
Qed.
Print Assumptions C18_handler_data_unmodified.
Example C18_example :
  delivered true ex_state (wire (CmdSubmit ex_in)) ex_in ex_dev (mkEndpoint 129 2 512 0) (Some ex_intf)
    (mkSetup 0 0 0 0 0) (TIntf ex_intf) /\
  handler_answer ex_world (mkEndpoint 129 2 512 0) 2 (mkSetup 0 0 0 0 0) [] (TIntf ex_intf) = HOk [65; 66].
Proof. split; [apply (ex_delivered true)|reflexivity]. Qed.

(** C19 is false: SET_CONFIGURATION with a non-zero wLength returns one byte of payload on an
    OUT transfer (release build), or aborts the connection (debug build). *)
Theorem C19_out_without_payload_refuted :
  exists (m : list N) (sb : submit), (forall dbg, cmd_layout dbg m (CmdSubmit sb)) /\
    h_direction (sb_header sb) = 0 /\ h_ep (sb_header sb) = 0 /\ imported ex_state ex_dev /\
    (exists out, connection false ex_state m SEof None = (out, EndOk, snd (connection false ex_state m SEof None))
       /\ length out = 49%nat) /\
    (exists st', connection true ex_state m SEof None = ([], EndPanic PDebugAssert, st')).
Proof.
  exists (wire (CmdSubmit (ex_setconf 1))), (ex_setconf 1).
  split; [intros dbg; apply (ex_wire dbg (ex_setconf 1)); in_list|].
  split; [done|]. split; [done|]. split; [exact ex_imported|]. split.
  - eexists. split; [vm_compute; reflexivity|reflexivity].
  - eexists. vm_compute. reflexivity.
Qed.
Print Assumptions C19_out_without_payload_refuted.
(** The same on every device: each SET_CONFIGURATION that addresses the control endpoint with a
    non-zero wLength gets the configuration value back as payload, and aborts a debug build. *)
Theorem C19_set_configuration_payload : forall (H : handlers) dbg (st : cstate H) m sb d e i s,
  all_u8 m = true -> cmd_layout dbg m (CmdSubmit sb) -> imported st d ->
  addressed d (ep_byte (sb_header sb)) e i -> ep_attributes e = 0 -> setup_of (sb_setup sb) s ->
  h_direction (sb_header sb) = 0 -> h_ep (sb_header sb) mod 256 < 128 ->
  s_request_type s = 0 -> s_request s = 9 -> s_length s <> 0 ->
  if dbg then aborts dbg st m PDebugAssert st else replies dbg st m sb [d_configuration_value d] st.
Proof.
  intros H dbg st m sb d e i s Hm HL Hd Ha Hc Hs Hdir Hep Ht Hq Hl.
  assert (Hne : ~ in_ep e).
  { unfold in_ep. rewrite (addressed_byte _ _ _ _ Ha). unfold ep_byte. rewrite Hdir, N.eqb_refl. lia. }
  assert (Hu : handle_urb dbg (cs_world st) d e i (sb_transfer_buffer_length sb) s (sb_data sb)
             = (UOk [d_configuration_value d], cs_world st)).
  { unfold handle_urb. rewrite Hc, Ht, Hq. cbn [ep_attr_of]. rewrite (proj2 (ep_direction_out e) Hne). cbn.
    unfold limit_to. cbn [len length]. change (as_u16 (len [d_configuration_value d])) with 1.
    destruct (N.ltb_spec (s_length s) 1); [lia|done]. }
  destruct dbg.
  - intros inp fin. rewrite <- (same_state st) at 2. eapply connection_panic; [exact HL| |].
    + pose proof (urb_serve true st m sb d e i s Hm HL Hd Ha Hs) as Es. rewrite Hu in Es. exact Es.
    + cbn [obind]. unfold usbip_ret_submit_success, response_to_bytes, reply_header.
      cbn [rs_header rs_actual_length rs_transfer_buffer h_command h_direction]. rewrite Hdir. done.
  - pose proof (urb_replies false st m sb d e i s _ _ Hm HL Hd Ha Hs Hu) as R. cbn in R.
    rewrite same_state in R. apply R. by left.
Qed.
Print Assumptions C19_set_configuration_payload.
Example C19_set_configuration_example : exists e i,
  (forall dbg, cmd_layout dbg (wire (CmdSubmit (ex_setconf 1))) (CmdSubmit (ex_setconf 1))) /\ imported ex_state ex_dev /\
  addressed ex_dev (ep_byte (sb_header (ex_setconf 1))) e i /\ ep_attributes e = 0 /\
  setup_of (sb_setup (ex_setconf 1)) (mkSetup 0 9 1 0 1).
Proof.
  exists (d_ep0_out ex_dev), None. split; [intros dbg; apply (ex_wire dbg (ex_setconf 1)); in_list|].
  split; [exact ex_imported|]. split; [|split; [done|unfold setup_of; do 8 eexists; split; reflexivity]].
  apply (find_ep_some ex_dev). reflexivity.
Qed.
(** What is true: with handlers that return nothing for OUT transfers, every OUT submit other
    than SET_CONFIGURATION with a non-zero wLength is answered by exactly 48 bytes, or the
    connection aborts without writing. *)
Theorem C19_out_without_payload_partial : forall (H : handlers) dbg (st : cstate H) m sb s inp fin out en st',
  quiet H ->
  all_u8 m = true -> cmd_layout dbg m (CmdSubmit sb) -> setup_of (sb_setup sb) s ->
  h_direction (sb_header sb) = 0 -> h_ep (sb_header sb) mod 256 < 128 ->
  s_request_type s < 128 -> (s_request_type s = 0 -> s_request s = 9 -> s_length s = 0) ->
  connection dbg st (m ++ inp) fin None = (out, en, st') ->
  (out = [] /\ exists p, en = EndPanic p) \/
  (exists b out' st1, out = b ++ out' /\ length b = 48%nat /\ connection dbg st1 inp fin None = (out', en, st')).
Proof.
  intros H dbg st m sb s inp fin out en st'. exact (out_quiet dbg st m sb s inp fin out en st').
Qed.
Print Assumptions C19_out_without_payload_partial.
Example C19_example : quiet ex_h /\ cmd_layout true (wire (CmdSubmit ex_out)) (CmdSubmit ex_out) /\
  cmd_layout true (wire (CmdSubmit (ex_setconf 0))) (CmdSubmit (ex_setconf 0)) /\
  setup_of (sb_setup ex_out) (mkSetup 0 0 0 0 0) /\
  len (fst (fst (connection true ex_state (wire (CmdSubmit ex_out)) SEof None))) = 48.
Proof.
  split; [|split; [apply (ex_wire true ex_out); in_list|split; [apply (ex_wire true (ex_setconf 0)); in_list|]]].
  - split.
    + intros st f e tbl s req st' data E Hi _. cbn in E. rewrite (proj2 (ep_direction_out e) Hi) in E.
      destruct req; [discriminate|]. congruence.
    + intros st tbl s req st' data E. discriminate.
  - split; [unfold setup_of; do 8 eexists; split; reflexivity|]. vm_compute. reflexivity.
Qed.

(** C20 is false: the CDC handler returns its whole buffer, whatever the client offered. *)
Definition cdc_h : handlers := mkHandlers cdc unit cdc_handle_urb cdc_csd (fun st _ _ _ => CallOk st []).
Definition cdc_ex_intf : interface := mkInterface 2 2 0 cdc_endpoints 0 [] 1.
Definition cdc_ex_dev : device := with_interfaces ex_dev [cdc_ex_intf].
Definition cdc_ex_state : cstate cdc_h :=
  mkC (mkServer [] {[ lit "0-0-0" := cdc_ex_dev ]})
    (@mkWorld cdc_h (fun _ => mkCell false (mkCdc [104; 101; 121])) (fun _ => mkCell false tt)) (Some (lit "0-0-0")).
Definition cdc_ex_in : submit := submit_cmd 1 2 1 (replicate 8 0) [].
Theorem C20_reply_fits_buffer_refuted :
  exists (m : list N) (sb : submit) b, (forall dbg, cmd_layout dbg m (CmdSubmit sb)) /\
    h_direction (sb_header sb) = 1 /\ sb_transfer_buffer_length sb = 1 /\
    imported cdc_ex_state cdc_ex_dev /\
    (forall dbg, (connection dbg cdc_ex_state m SEof None).1.1 = b) /\ u32_at b 24 3.
Proof.
  exists (wire (CmdSubmit cdc_ex_in)), cdc_ex_in, (connection true cdc_ex_state (wire (CmdSubmit cdc_ex_in)) SEof None).1.1.
  split; [|split; [done|split; [done|split]]].
  - intros dbg. apply wire_ok; destruct dbg; wf_ex.
  - exists (lit "0-0-0"). split; [done|]. apply lookup_singleton.
  - split; [intros []; vm_compute; reflexivity|]. vm_compute. do 4 eexists. split_and!; try reflexivity; lia.
Qed.
Print Assumptions C20_reply_fits_buffer_refuted.
(** What is true: with handlers that honour the length, and descriptor requests whose wLength is
    at most the buffer offered, no IN reply exceeds the buffer. *)
Theorem C20_reply_fits_buffer_partial : forall (H : handlers) dbg (st : cstate H) m sb s inp fin out en st',
  honours_length H ->
  all_u8 m = true -> cmd_layout dbg m (CmdSubmit sb) -> setup_of (sb_setup sb) s ->
  (forall d, imported st d -> descriptors_fit d) ->
  h_direction (sb_header sb) <> 0 -> s_length s <= sb_transfer_buffer_length sb ->
  connection dbg st (m ++ inp) fin None = (out, en, st') ->
  (out = [] /\ exists p, en = EndPanic p) \/
  (exists b out' st1 n, out = b ++ out' /\ u32_at b 24 n /\ n <= sb_transfer_buffer_length sb
    /\ len b <= 48 + sb_transfer_buffer_length sb
    /\ connection dbg st1 inp fin None = (out', en, st')).
Proof.
  intros H dbg st m sb s inp fin out en st'. exact (reply_bounded dbg st m sb s inp fin out en st').
Qed.
Print Assumptions C20_reply_fits_buffer_partial.
Example C20_example : (forall st f e tbl s req st' data, i_step ex_h st f e tbl s req = CallOk st' data -> len data <= tbl)
  /\ descriptors_fit ex_dev /\ len (connection true ex_state (wire (CmdSubmit ex_in)) SEof None).1.1 = 50.
Proof.
  split; [|split; [split|]].
  - intros st f e tbl s req st' data E. cbn in E. destruct (ep_direction e).
    + injection E as <- <-. unfold len. rewrite take_length. lia.
    + destruct req; [discriminate|]. injection E as <- <-. apply N.le_0_l.
  - vm_compute. reflexivity.
  - intros i s Hs. unfold ex_dev in Hs. cbn [d_string_pool] in Hs.
    repeat (apply lookup_insert_Some in Hs as [[_ <-]|[_ Hs]]; [vm_compute; reflexivity|]).
    by apply lookup_empty_Some in Hs.
  - vm_compute. reflexivity.
Qed.

Theorem C21_how_a_connection_ends : forall (H : handlers) dbg sv (w : world H) inp fin bud out e st',
  all_u8 inp = true -> handler dbg sv w inp fin bud = (out, e, st') ->
  exists l rest, messages dbg inp l.*1 rest /\ Forall (fun cb => answers cb.1 cb.2) l /\
  match e with
  | EndOk => out = mjoin l.*2 /\ run_rd (read_from_socket dbg) rest fin = RErr EUnexpectedEof
  | EndErr er =>
      (out = mjoin l.*2 /\ er <> EUnexpectedEof /\ run_rd (read_from_socket dbg) rest fin = RErr er)
      \/ (exists n m c rest' b more, bud = Some (n, er) /\ len out = n /\
            rest = m ++ rest' /\ cmd_layout dbg m c /\ answers c b /\ more <> [] /\
            out ++ more = mjoin l.*2 ++ b)
  | EndPanic p =>
      out = mjoin l.*2 /\
      (run_rd (read_from_socket dbg) rest fin = RPan p                      (* debug assertion in the reader *)
       \/ (exists m c rest', rest = m ++ rest' /\ cmd_layout dbg m c)       (* while serving this command *)
       \/ (p = PUnreachable /\ exists er, run_rd (read_from_socket dbg) rest fin = RErr er)) (* giving the device back *)
  | EndDiverge | EndCancelled => False
  end.
Proof.
  intros H dbg sv w inp fin bud out e st' Hu E.
  destruct (connection_shape _ _ _ _ _ _ _ _ E) as (l & st1 & rest & HS & _ & HC).
  destruct (steps_messages _ _ _ _ _ _ _ Hu HS) as (HM & HA & Hr).
  exists l, rest. split; [done|]. split; [done|].
  destruct HC as [[-> He]|(c & rest' & b & n & er & -> & -> & Hn & Hrd & Hb & _ & part & more & -> & Hne & ->)].
  - destruct He as [rest st1 er Hrd|rest st1 p Hrd|rest c rest' st1 p Hrd Hb].
    + unfold finish, release_device. destruct (cs_current st1) as [id|].
      * destruct (sv_used (cs_server st1) !! id).
        -- destruct er; cbn; eauto; left; split_and!; auto; discriminate.
        -- cbn. split; [done|]. right; right. split; [done|]. by exists er.
      * destruct er; cbn; eauto; left; split_and!; auto; discriminate.
    + split; [done|]. by left.
    + split; [done|]. right; left. destruct (proj1 (reader_iff dbg rest fin c rest' Hr) Hrd) as (m & -> & HL). eauto.
  - right. destruct (proj1 (reader_iff dbg rest fin c rest' Hr) Hrd) as (m & -> & HL).
    exists n, m, c, rest', (part ++ more), more. split_and!; auto.
    + eapply serve_answers; [by eapply layout_u32|exact Hb].
    + by rewrite app_assoc.
Qed.
Print Assumptions C21_how_a_connection_ends.
(** Each way of ending occurs. *)
Example C21_example :
  (handler true (new_simulated [ex_dev]) ex_world (wire ex_import) SEof None).1.2 = EndOk /\
  (handler true (new_simulated [ex_dev]) ex_world (wire ex_import) (SErr 104) None).1.2 = EndErr (EIo 104) /\
  (handler true (new_simulated [ex_dev]) ex_world (wire ex_import) SEof (Some (10, EIo 32))).1.2 = EndErr (EIo 32) /\
  (handler true (new_simulated [ex_dev]) ex_world (wire (CmdSubmit ex_in)) SEof None).1.2 = EndPanic PUnwrapNone.
Proof. vm_compute. split_and!; reflexivity. Qed.

Theorem C22_reaches_addressed_handler : forall (H : handlers) dbg (st : cstate H) m sb id d e f s,
  all_u8 m = true -> cmd_layout dbg m (CmdSubmit sb) ->
  cs_current st = Some id -> sv_used (cs_server st) !! id = Some d ->
  addressed d (ep_byte (sb_header sb)) e (Some f) -> 1 <= ep_attributes e <= 3 ->
  setup_of (sb_setup sb) s -> c_poisoned (w_intf (cs_world st) (if_handler f)) = false ->
  exists o w', invoked (cs_world st) e (sb_transfer_buffer_length sb) s (sb_data sb) (TIntf f) o w' /\
  let st1 := mkC (cs_server st) w' (cs_current st) in
  forall inp fin,
    (exists b, answers (CmdSubmit sb) b /\
       forall out en st', connection dbg st1 inp fin None = (out, en, st') ->
         connection dbg st (m ++ inp) fin None = (b ++ out, en, st'))
    \/ (exists p, connection dbg st (m ++ inp) fin None = ([], EndPanic p, st1)).
Proof.
  intros H dbg st m sb id d e f s Hm HL E1 E2 Ha Hat Hs Hp.
  assert (HD : delivered dbg st m sb d e (Some f) s (TIntf f)).
  { split; auto; [by exists id|by apply rt_transfer]. }
  destruct (delivered_step _ _ _ _ _ _ _ _ _ HD) as (w' & Hi & Hr).
  eexists _, w'. split; [exact Hi|]. intros st1 inp fin. subst st1.
  destruct (handler_answer _ _ _ _ _ _) as [data|x|p] eqn:Eo.
  - destruct Hr as [Hr1 Hr2].
    assert (Hd : (dbg = false \/ h_direction (sb_header sb) = 1 \/ len data mod 4294967296 = 0) \/
                 (dbg = true /\ h_direction (sb_header sb) <> 1 /\ len data mod 4294967296 <> 0)).
    { destruct dbg; [|tauto]. lia. }
    destruct Hd as [Hd|(-> & Hd1 & Hd2)].
    + left. destruct (Hr1 Hd inp fin) as (b & Hb & Hk). exists b. split; [|exact Hk]. left. by exists data.
    + right. exists PDebugAssert. exact (Hr2 eq_refl Hd1 Hd2 inp fin).
  - left. destruct (Hr inp fin) as (b & Hb & Hk). exists b. split; [by right|exact Hk].
  - right. exists p. exact (Hr inp fin).
Qed.
Print Assumptions C22_reaches_addressed_handler.
Example C22_example : addressed ex_dev (ep_byte (sb_header ex_out)) (mkEndpoint 2 2 512 0) (Some ex_intf) /\
  c_state (w_intf (cs_world (connection true ex_state (wire (CmdSubmit ex_out)) SEof None).2) 4) = [65; 66; 67; 1; 2; 3] /\
  c_state (w_intf (cs_world (connection true ex_state (wire (CmdSubmit ex_out)) SEof None).2) 3) = [65; 66; 67].
Proof. split; [apply find_ep_some; reflexivity|]. vm_compute. split; reflexivity. Qed.

(** C23 is false: the 32-bit endpoint number is cut to 8 bits. *)
Theorem C23_no_aliasing_refuted :
  exists sb1 sb2 m1 m2 d e i s t, h_ep (sb_header sb1) = 1 /\ h_ep (sb_header sb2) = 257 /\
    forall dbg, delivered dbg ex_state m1 sb1 d e i s t /\ delivered dbg ex_state m2 sb2 d e i s t.
Proof.
  exists ex_in, (submit_cmd 1 257 2 (replicate 8 0) []), (wire (CmdSubmit ex_in)),
    (wire (CmdSubmit (submit_cmd 1 257 2 (replicate 8 0) []))), ex_dev, (mkEndpoint 129 2 512 0), (Some ex_intf),
    (mkSetup 0 0 0 0 0), (TIntf ex_intf).
  split; [done|]. split; [done|]. intros dbg. split; [apply ex_delivered|].
  assert (HW : all_u8 (wire (CmdSubmit (submit_cmd 1 257 2 (replicate 8 0) []))) = true /\
    cmd_layout dbg (wire (CmdSubmit (submit_cmd 1 257 2 (replicate 8 0) []))) (CmdSubmit (submit_cmd 1 257 2 (replicate 8 0) [])))
    by (apply wire_ok; destruct dbg; wf_ex).
  destruct HW as [A B]. split; [exact A|exact B|exact ex_imported|apply find_ep_some; reflexivity| | |reflexivity].
  - unfold setup_of; do 8 eexists; split; reflexivity.
  - apply rt_transfer; cbn; [lia|done].
Qed.
Print Assumptions C23_no_aliasing_refuted.
(** What is true: endpoint numbers below 128 (USB allows 0..15) with a direction of 0 or 1 are
    never confused.  The only handler such a submit can reach is called with the endpoint whose
    address is exactly that number and direction, so two submits that reach the same endpoint of a
    device agree in both. *)
Theorem C23_no_aliasing_partial : forall (H : handlers) dbg (st : cstate H) m sb d fin out en st',
  all_u8 m = true -> cmd_layout dbg m (CmdSubmit sb) -> imported st d ->
  h_ep (sb_header sb) < 128 -> h_direction (sb_header sb) <= 1 ->
  connection dbg st m fin None = (out, en, st') ->
  cs_world st' = cs_world st \/
  exists e s t o, ep_address e = h_ep (sb_header sb) + 128 * h_direction (sb_header sb) /\
    (e ∈ [d_ep0_in d; d_ep0_out d] \/ exists f, f ∈ d_interfaces d /\ e ∈ if_endpoints f /\ (1 <= ep_attributes e -> t = TIntf f)) /\
    setup_of (sb_setup sb) s /\
    invoked (cs_world st) e (sb_transfer_buffer_length sb) s (sb_data sb) t o (cs_world st').
Proof.
  intros H dbg st m sb d fin out en st' Hm HL Hd He Hdir E.
  destruct (submit_effect _ _ _ _ _ _ _ _ _ Hm HL Hd E) as [Hw|(e & i & s & t & o & Ha & Hs & Hr & Hi)]; [by left|right].
  exists e, s, t, o. split; [|split; [|done]].
  - rewrite (addressed_byte _ _ _ _ Ha). unfold ep_byte. destruct (N.eqb_spec (h_direction (sb_header sb)) 0); lia.
  - destruct Ha as [?|? ?|fs1 f fs2 es1 e es2 ? ? Ef ? Ee ? ?]; [left; left|left; right; left|right].
    exists f. rewrite Ef, Ee. split_and!; [apply elem_of_app; right; left|apply elem_of_app; right; left|].
    intros Hat. destruct Hr as [g ? Hg|? ?|? ?]; [congruence|lia|lia].
Qed.
Print Assumptions C23_no_aliasing_partial.
Theorem C23_same_endpoint_partial : forall (H : handlers) dbg1 dbg2 (st1 st2 : cstate H) m1 m2 sb1 sb2 d e i1 i2 s1 s2 t1 t2,
  delivered dbg1 st1 m1 sb1 d e i1 s1 t1 -> delivered dbg2 st2 m2 sb2 d e i2 s2 t2 ->
  h_ep (sb_header sb1) < 128 -> h_ep (sb_header sb2) < 128 ->
  h_direction (sb_header sb1) <= 1 -> h_direction (sb_header sb2) <= 1 ->
  h_ep (sb_header sb1) = h_ep (sb_header sb2) /\ h_direction (sb_header sb1) = h_direction (sb_header sb2) /\ i1 = i2.
Proof.
  intros H dbg1 dbg2 st1 st2 m1 m2 sb1 sb2 d e i1 i2 s1 s2 t1 t2 D1' D2' H1 H2 D1 D2.
  destruct D1' as [_ _ _ A1 _ _ _], D2' as [_ _ _ A2 _ _ _].
  assert (E : ep_byte (sb_header sb1) = ep_byte (sb_header sb2))
    by (rewrite <- (addressed_byte _ _ _ _ A1); exact (addressed_byte _ _ _ _ A2)).
  rewrite <- E in A2. apply find_ep_some in A1, A2. split_and!; [| |congruence]; unfold ep_byte in E;
    destruct (N.eqb_spec (h_direction (sb_header sb1)) 0), (N.eqb_spec (h_direction (sb_header sb2)) 0); lia.
Qed.
Print Assumptions C23_same_endpoint_partial.
Example C23_example : addressed ex_dev (ep_byte (sb_header ex_in)) (mkEndpoint 129 2 512 0) (Some ex_intf) /\
  addressed ex_dev (ep_byte (sb_header ex_out)) (mkEndpoint 2 2 512 0) (Some ex_intf).
Proof. split; apply find_ep_some; reflexivity. Qed.
