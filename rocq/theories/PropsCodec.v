(** * Properties C01-C12: the wire codec *)
From Verif Require Import ReplyProofs.

(** Commands used as concrete cases below. *)
Definition ex_submit : command :=
  CmdSubmit (mkSubmit (mkHeader 1 7 65538 0 2) 0 3 0 0 0 (replicate 8 0) [1; 2; 3] []).
Definition ex_unlink : command := CmdUnlink (mkHeader 2 8 65538 0 0) 7.
Definition ex_import : command := OpReqImport 0 ([48; 45; 48; 45; 48] ++ replicate 27 0).
Example ex_commands_wf :
  wf_command true ex_submit /\ wf_command true ex_unlink /\ wf_command true ex_import
  /\ wf_command true (OpReqDevlist 0).
Proof.
  unfold ex_submit, ex_unlink, ex_import, wf_command, wf_header, byte_list, u32. cbn.
  split_and!; auto; try lia; try done; repeat constructor.
Qed.

Theorem C01_command_roundtrip : forall dbg c rest fin, wf_command dbg c ->
  exists b, command_to_bytes dbg c = Val b /\
            run_rd (read_from_socket dbg) (b ++ rest) fin = ROk c rest.
Proof.
  intros dbg c rest fin H. destruct (encode_total dbg c H) as [b Hb].
  exists b. split; [exact Hb|exact (roundtrip dbg c b rest fin H Hb)].
Qed.
Print Assumptions C01_command_roundtrip.

Theorem C02_reader_exact : forall dbg inp fin c rest, all_u8 inp = true ->
  run_rd (read_from_socket dbg) inp fin = ROk c rest <->
  exists msg, inp = msg ++ rest /\ cmd_layout dbg msg c.
Proof. exact reader_iff. Qed.
Print Assumptions C02_reader_exact.
Example C02_example : exists msg, all_u8 msg = true /\ cmd_layout true msg ex_submit.
Proof.
  destruct (encode_total true ex_submit (proj1 ex_commands_wf)) as [b Hb]. exists b.
  split; [exact (encode_u8 _ _ _ (proj1 ex_commands_wf) Hb)|].
  exact (encode_layout _ _ _ (proj1 ex_commands_wf) Hb).
Qed.

(** Messages are self-delimiting: at most one message and one meaning per stream. *)
Theorem C02_unambiguous : forall dbg m1 m2 c1 c2 r1 r2,
  cmd_layout dbg m1 c1 -> cmd_layout dbg m2 c2 -> m1 ++ r1 = m2 ++ r2 ->
  m1 = m2 /\ c1 = c2 /\ r1 = r2.
Proof. exact layout_deterministic. Qed.
Print Assumptions C02_unambiguous.

Theorem C03_truncated_never_executed : forall dbg msg c pre suf fin,
  cmd_layout dbg msg c -> msg = pre ++ suf -> suf <> [] ->
  run_rd (read_from_socket dbg) pre fin =
  RErr (match fin with SEof => EUnexpectedEof | SErr code => EIo code end).
Proof. exact reader_truncated. Qed.
Print Assumptions C03_truncated_never_executed.
Example C03_example : exists msg pre suf, cmd_layout true msg ex_submit /\
  msg = pre ++ suf /\ suf <> [] /\ pre <> [].
Proof.
  destruct C02_example as (msg & _ & H). exists msg, (take 50 msg), (drop 50 msg).
  split; [exact H|]. split; [symmetry; apply take_drop|].
  inversion H as [| |? ? ? ? ? ? ? ? ? ? Hl|]; subst. cbn in Hl.
  split; intros E; apply (f_equal (@length N)) in E;
    rewrite ?take_length, ?drop_length, Hl in E; discriminate.
Qed.

Theorem C04_rejection_exact : forall dbg inp fin, all_u8 inp = true ->
  (forall v, run_rd (read_from_socket dbg) inp fin = RErr (EUnknownVersion v)
     <-> u16_at inp 0 v /\ v <> 0 /\ v <> 0x111) /\
  (forall c, run_rd (read_from_socket dbg) inp fin = RErr (EUnknownCommand c)
     <-> exists v, u16_at inp 0 v /\ (v = 0 \/ v = 0x111) /\ u16_at inp 2 c
           /\ ~ (c = 0x8005 \/ c = 0x8003 \/ c = 1 \/ c = 2)) /\
  (forall e, run_rd (read_from_socket dbg) inp fin = RErr e ->
     kind_of e = KOther <-> (exists v, e = EUnknownVersion v) \/ (exists c, e = EUnknownCommand c)).
Proof.
  intros dbg inp fin Hb. split; [|split].
  - intros v. rewrite reject_version_iff by exact Hb. unfold version_ok. tauto.
  - intros c. exact (reject_command_iff dbg inp fin c Hb).
  - intros e H. apply reader_errors in H; [|exact Hb].
    destruct H as [->|[(v & -> & _)|(v & c & -> & _)]]; [|cbn; intuition eauto..].
    destruct fin; cbn; split; try discriminate; intros [[? [=]]|[? [=]]].
Qed.
Print Assumptions C04_rejection_exact.
Example C04_example :
  run_rd (read_from_socket true) [1; 16; 128; 5; 0; 0] SEof = RErr (EUnknownVersion 272) /\
  run_rd (read_from_socket true) [1; 17; 0; 9; 0; 0] SEof = RErr (EUnknownCommand 9).
Proof. vm_compute. done. Qed.

Theorem C05_segmentation_independent : forall dbg cs fin,
  match run_rd_chunks (read_from_socket dbg) cs fin with
  | ROk c cs' => run_rd (read_from_socket dbg) (mjoin cs) fin = ROk c (mjoin cs')
  | RErr e => run_rd (read_from_socket dbg) (mjoin cs) fin = RErr e
  | RPan p => run_rd (read_from_socket dbg) (mjoin cs) fin = RPan p
  end.
Proof.
  intros. pose proof (run_chunks (read_from_socket dbg) cs fin) as H.
  destruct (run_rd_chunks _ cs fin); symmetry; exact H.
Qed.
Print Assumptions C05_segmentation_independent.
(** ... and for whole sessions: two segmentations of the same bytes give the same
    commands and the same final error. *)
Theorem C05_sessions : forall dbg fin cs1 cs2 cmds e, mjoin cs1 = mjoin cs2 ->
  reads_chunks dbg fin cs1 cmds e <-> reads_chunks dbg fin cs2 cmds e.
Proof. intros. rewrite !reads_chunks_iff. rewrite H. tauto. Qed.
Print Assumptions C05_sessions.
Example C05_example : exists cs1 cs2 cmds, cs1 <> cs2 /\ mjoin cs1 = mjoin cs2 /\
  cmds <> [] /\ reads_chunks true SEof cs1 cmds EUnexpectedEof.
Proof.
  exists [[1; 17; 128]; [5; 0; 0; 0]; [0; 1]], [[1; 17; 128; 5; 0; 0; 0; 0; 1]], [OpReqDevlist 0].
  split; [discriminate|]. split; [reflexivity|]. split; [discriminate|].
  eapply readsc_cons; [vm_compute; reflexivity|]. apply readsc_end. vm_compute. reflexivity.
Qed.

Theorem C06_header_roundtrip : forall dbg h,
  u32 (h_command h) -> u32 (h_seqnum h) -> u32 (h_devid h) -> u32 (h_direction h) -> u32 (h_ep h) ->
  length (header_to_bytes h) = 20%nat
  /\ u32_at (header_to_bytes h) 0 (h_command h) /\ u32_at (header_to_bytes h) 4 (h_seqnum h)
  /\ u32_at (header_to_bytes h) 8 (h_devid h) /\ u32_at (header_to_bytes h) 12 (h_direction h)
  /\ u32_at (header_to_bytes h) 16 (h_ep h)
  /\ header_from_bytes dbg (header_to_bytes h) =
     (if dbg && (1 <? h_direction h) then Panic PDebugAssert else Val h).
Proof.
  intros dbg h H1 H2 H3 H4 H5. destruct (header_layout h H1 H2 H3 H4 H5) as (Hl & Hc & Hh & Hx).
  pose proof (header_rt dbg h H1 H2 H3 H4 H5). tauto.
Qed.
Print Assumptions C06_header_roundtrip.
Theorem C06_header_roundtrip_bytes : forall b, length b = 20%nat -> all_u8 b = true ->
  exists h, header_from_bytes false b = Val h /\ header_to_bytes h = b.
Proof.
  intros b Hl Hb. eexists. split; [reflexivity|].
  exact (proj1 (header_rt' b _ Hl Hb eq_refl)).
Qed.
Print Assumptions C06_header_roundtrip_bytes.
Example C06_example : u32 0xFFFFFFFF /\
  header_from_bytes true (header_to_bytes (mkHeader 1 2 3 1 0xFFFFFFFF)) = Val (mkHeader 1 2 3 1 0xFFFFFFFF)
  /\ header_from_bytes true (header_to_bytes (mkHeader 1 2 3 2 4)) = Panic PDebugAssert.
Proof. split; [unfold u32; lia|]. vm_compute. done. Qed.

(** All header fields of a reply are u32 values. *)
Definition typed_header (h : header) : Prop :=
  u32 (h_command h) /\ u32 (h_seqnum h) /\ u32 (h_devid h) /\ u32 (h_direction h) /\ u32 (h_ep h).

Theorem C07_ret_submit_layout : forall dbg r b, typed_header (rs_header r) ->
  u32 (rs_status r) -> u32 (rs_actual_length r) -> u32 (rs_start_frame r) ->
  u32 (rs_number_of_packets r) -> u32 (rs_error_count r) ->
  response_to_bytes dbg (RetSubmit r) = Val b -> ret_submit_layout b r.
Proof. intros dbg r b (? & ? & ? & ? & ?) ? ? ? ? ? HE. apply (ret_submit_bytes dbg r b HE); assumption. Qed.
Print Assumptions C07_ret_submit_layout.
Theorem C07_ret_unlink_layout : forall dbg h st b, typed_header h -> u32 st ->
  response_to_bytes dbg (RetUnlink h st) = Val b -> ret_unlink_layout b h st.
Proof. intros dbg h st b (? & ? & ? & ? & ?) ? HE. apply (ret_unlink_bytes dbg h st b HE); assumption. Qed.
Print Assumptions C07_ret_unlink_layout.
Theorem C07_import_layout : forall dbg,
  (forall d b, typed_device d -> response_to_bytes dbg (op_rep_import_success d) = Val b ->
     length b = 320%nat /\ u16_at b 0 0x111 /\ u16_at b 2 3 /\ u32_at b 4 0
     /\ dev_record_at b 8 (record_of d)) /\
  (exists b, response_to_bytes dbg op_rep_import_fail = Val b /\
     length b = 8%nat /\ u16_at b 0 0x111 /\ u16_at b 2 3 /\ u32_at b 4 1).
Proof.
  intros dbg. split; [exact (import_ok_bytes dbg)|].
  exact (import_fail_bytes dbg 1 (eq_refl : 1 < 4294967296)).
Qed.
Print Assumptions C07_import_layout.
(** ... and with any other status the fields of the variant can carry. *)
Theorem C07_import_any_status : forall dbg st, u32 st ->
  (forall d b, typed_device d -> response_to_bytes dbg (OpRepImport st (Some d)) = Val b ->
     length b = 320%nat /\ u16_at b 0 0x111 /\ u16_at b 2 3 /\ u32_at b 4 st
     /\ dev_record_at b 8 (record_of d)) /\
  (exists b, response_to_bytes dbg (OpRepImport st None) = Val b /\
     length b = 8%nat /\ u16_at b 0 0x111 /\ u16_at b 2 3 /\ u32_at b 4 st).
Proof.
  intros dbg st Hst. split; [intros d b; by apply import_dev_bytes|exact (import_fail_bytes dbg st Hst)].
Qed.
Print Assumptions C07_import_any_status.
(** What the functions that make replies put on the wire, for every header: success is status 0,
    failure is status 1 with neither data nor packets; a buffer is announced with its length. *)
Theorem C07_constructors : forall dbg h b, typed_header h ->
  (response_to_bytes dbg (usbip_ret_unlink_success h) = Val b -> ret_unlink_layout b h 0) /\
  (response_to_bytes dbg (usbip_ret_unlink_fail h) = Val b -> ret_unlink_layout b h 1) /\
  (response_to_bytes dbg (usbip_ret_submit_fail h) = Val b ->
     ret_submit_layout b (mkRetSubmit h 1 0 0 0 0 [] []) /\ length b = 48%nat) /\
  (forall sf np buf iso, u32 sf -> u32 np -> len buf < 4294967296 ->
     response_to_bytes dbg (usbip_ret_submit_success h sf np buf iso) = Val b ->
     ret_submit_layout b (mkRetSubmit h 0 (len buf) sf np 0 buf iso) /\
     length b = (48 + length buf + length iso)%nat).
Proof.
  intros dbg h b Hh. split_and!.
  - intros E. by apply (C07_ret_unlink_layout dbg).
  - intros E. by apply (C07_ret_unlink_layout dbg).
  - intros E. assert (R : ret_submit_layout b (mkRetSubmit h 1 0 0 0 0 [] [])) by (by apply (C07_ret_submit_layout dbg)).
    split; [exact R|]. apply R.
  - intros sf np buf iso Hsf Hnp Hl E. unfold usbip_ret_submit_success in E.
    rewrite (as_u32_small (len buf)) in E by lia.
    assert (R : ret_submit_layout b (mkRetSubmit h 0 (len buf) sf np 0 buf iso)) by (by apply (C07_ret_submit_layout dbg)).
    split; [exact R|]. destruct R as [R _]. cbn in R. lia.
Qed.
Print Assumptions C07_constructors.
(** Encoding a response succeeds always in a release build, and in a debug build
    exactly when the response respects the protocol's own constraints. *)
Theorem C07_encoding_total : forall dbg r,
  ((exists b, response_to_bytes dbg r = Val b) <-> (dbg = true -> reply_ok r)) /\
  (response_to_bytes dbg r = Panic PDebugAssert <-> (dbg = true /\ ~ reply_ok r)).
Proof. intros. split; [exact (response_total dbg r)|exact (response_panic dbg r)]. Qed.
Print Assumptions C07_encoding_total.
Example C07_example : exists b,
  response_to_bytes true (RetSubmit (mkRetSubmit (mkHeader 3 9 1 1 2) 0 2 0 0 0 [5; 6] [])) = Val b
  /\ b = [0;0;0;3; 0;0;0;9; 0;0;0;1; 0;0;0;1; 0;0;0;2; 0;0;0;0; 0;0;0;2; 0;0;0;0; 0;0;0;0; 0;0;0;0;
          0;0;0;0;0;0;0;0; 5;6].
Proof. eexists. split; vm_compute; reflexivity. Qed.

Theorem C08_devlist_decodable : forall dbg ds b r,
  Forall (fun d => typed_device d /\ fits d /\ (0 ∉ d_path d /\ 0 ∉ d_bus_id d)
                   /\ len (d_interfaces d) <= 255) ds ->
  len ds < 4294967296 ->
  response_to_bytes dbg (op_rep_devlist ds) = Val b ->
  p_devlist (b ++ r) = Some (client_view <$> ds, r).
Proof. exact devlist_decodable. Qed.
Print Assumptions C08_devlist_decodable.
Theorem C08_devlist_encodable : forall dbg ds, Forall fits ds ->
  exists b, response_to_bytes dbg (op_rep_devlist ds) = Val b.
Proof. intros. exact (proj2 (response_total dbg (op_rep_devlist ds)) (fun _ => H)). Qed.
Print Assumptions C08_devlist_encodable.
Example C08_example :
  Forall (fun d => typed_device d /\ fits d /\ no_nul d /\ len (d_interfaces d) <= 255)
    [many_intf 255; many_intf 1; default_device].
Proof.
  assert (H : forall n, (n <= 255)%nat -> typed_device (many_intf n) /\ fits (many_intf n)
     /\ no_nul (many_intf n) /\ len (d_interfaces (many_intf n)) <= 255).
  { intros n Hn. split; [apply typed_many|]. split; [split; apply N.leb_le; reflexivity|].
    split; [split; apply not_elem_of_nil|]. unfold many_intf, with_interfaces, len. cbn.
    rewrite replicate_length. lia. }
  constructor; [exact (H 255%nat ltac:(lia))|].
  constructor; [exact (H 1%nat ltac:(lia))|].
  constructor; [exact (H 0%nat ltac:(lia))|constructor].
Qed.

(** Without the limit of 255 interfaces no client can decode device lists. *)
Theorem C09_devlist_unlimited_refuted : forall dbg,
  ~ exists (decode : list N -> option (list client_dev * list N)),
      forall ds b r, Forall typed_device ds -> Forall fits ds ->
        response_to_bytes dbg (op_rep_devlist ds) = Val b ->
        decode (b ++ r) = Some (client_view <$> ds, r).
Proof. exact no_devlist_decoder. Qed.
Print Assumptions C09_devlist_unlimited_refuted.
(** The limit is exactly 255 interfaces on every device: one device beyond it spoils the
    list, wherever it stands and whatever follows the list. *)
Theorem C09_devlist_partial : forall dbg ds b r,
  Forall (fun d => typed_device d /\ fits d /\ (0 ∉ d_path d /\ 0 ∉ d_bus_id d)) ds -> len ds < 4294967296 ->
  response_to_bytes dbg (op_rep_devlist ds) = Val b ->
  (p_devlist (b ++ r) = Some (client_view <$> ds, r) <-> Forall (fun d => len (d_interfaces d) <= 255) ds) /\
  (forall r', p_devlist (b ++ r) = Some (client_view <$> ds, r') -> r' = r).
Proof.
  intros dbg ds b r Hf Hn Hb.
  assert (X : Forall (fun d => len (d_interfaces d) <= 255) ds -> p_devlist (b ++ r) = Some (client_view <$> ds, r)).
  { intros Hi. eapply devlist_decodable; [|done|exact Hb]. rewrite Forall_forall in *. intros d Hd.
    destruct (Hf d Hd) as (? & ? & ?). exact (conj H (conj H0 (conj H1 (Hi d Hd)))). }
  assert (Y : forall r', p_devlist (b ++ r) = Some (client_view <$> ds, r') -> Forall (fun d => len (d_interfaces d) <= 255) ds).
  { intros r'. by apply (devlist_decodable_only dbg ds b r r'). }
  split; [split; [apply Y|exact X]|]. intros r' E. specialize (X (Y _ E)). rewrite E in X. by injection X.
Qed.
Print Assumptions C09_devlist_partial.
Example C09_example : Forall (fun d => typed_device d /\ fits d /\ no_nul d) [many_intf 1; many_intf 256; many_intf 255] /\
  ~ Forall (fun d => len (d_interfaces d) <= 255) [many_intf 1; many_intf 256; many_intf 255] /\
  Forall (fun d => len (d_interfaces d) <= 255) [many_intf 1; many_intf 255].
Proof.
  assert (H : forall n, typed_device (many_intf n) /\ fits (many_intf n) /\ no_nul (many_intf n)).
  { intros n. split; [apply typed_many|]. split; [split; apply N.leb_le; reflexivity|]. split; apply not_elem_of_nil. }
  split; [by repeat (constructor; [apply H|])|]. split.
  - intros [_ [F _]%Forall_cons]%Forall_cons. by vm_compute in F.
  - repeat constructor; by vm_compute.
Qed.

Theorem C10_setup_little_endian : forall b0 b1 b2 b3 b4 b5 b6 b7,
  u8 b0 -> u8 b1 -> u8 b2 -> u8 b3 -> u8 b4 -> u8 b5 -> u8 b6 -> u8 b7 ->
  let s := setup_parse [b0; b1; b2; b3; b4; b5; b6; b7] in
  s_request_type s = b0 /\ s_request s = b1 /\ s_value s = b2 + 256 * b3
  /\ s_index s = b4 + 256 * b5 /\ s_length s = b6 + 256 * b7
  /\ u16 (s_value s) /\ u16 (s_index s) /\ u16 (s_length s).
Proof.
  unfold u8, u16. intros.
  rewrite (setup_le _ b0 b1 b2 b3 b4 b5 b6 b7 eq_refl)
    by (apply all_u8_spec; repeat constructor; assumption).
  cbn. lia.
Qed.
Print Assumptions C10_setup_little_endian.
Example C10_example : setup_parse [128; 6; 0; 1; 2; 3; 64; 0] = mkSetup 128 6 256 770 64.
Proof. reflexivity. Qed.

Theorem C11_pipelining : forall dbg cs bs,
  Forall2 (fun c b => wf_command dbg c /\ command_to_bytes dbg c = Val b) cs bs ->
  reads dbg SEof (mjoin bs) cs EUnexpectedEof /\
  forall cs' e', reads dbg SEof (mjoin bs) cs' e' -> cs' = cs /\ e' = EUnexpectedEof.
Proof. exact reads_pipeline_full. Qed.
Print Assumptions C11_pipelining.
Example C11_example : exists bs,
  Forall2 (fun c b => wf_command true c /\ command_to_bytes true c = Val b)
    [ex_import; ex_submit; ex_unlink; OpReqDevlist 0] bs.
Proof.
  destruct ex_commands_wf as (H1 & H2 & H3 & H4).
  destruct (encode_total _ _ H3) as [b1 ?], (encode_total _ _ H1) as [b2 ?],
    (encode_total _ _ H2) as [b3 ?], (encode_total _ _ H4) as [b4 ?].
  exists [b1; b2; b3; b4]. repeat constructor; assumption.
Qed.

(** Full statement: every buffer reserved while reading is at most K bytes larger than
    what was received so far, for a fixed K.  Refuted for every K below 63 GiB: ... *)
Theorem C12_alloc_bounded_refuted : forall dbg, exists inp n got,
  all_u8 inp = true /\ length inp = 48%nat /\
  In (n, got) (rd_allocs (read_from_socket dbg) inp 0) /\ got + 63 * 1073741824 < n.
Proof.
  intros dbg. destruct (greedy_allocs dbg) as (Hl & Hb & Ha).
  exists greedy_request, 68719476704, 48. rewrite Ha. cbn. repeat split; auto; lia.
Qed.
Print Assumptions C12_alloc_bounded_refuted.
(** ... what holds: buffers are reserved only for a CMD_SUBMIT whose 48-byte header
    arrived; the payload buffer has the announced length, the iso buffer is reserved only
    after the whole payload arrived and has 16 bytes per announced packet. *)
Theorem C12_alloc_bounded_partial : forall dbg inp n got, all_u8 inp = true ->
  In (n, got) (rd_allocs (read_from_socket dbg) inp 0) ->
  exists dir tbl np,
  u16_at inp 2 1 /\ u32_at inp 12 dir /\ u32_at inp 24 tbl /\ u32_at inp 32 np /\
  ((dir <> 1 /\ n = tbl /\ got = 48) \/ (n = 16 * np /\ got = 48 + payload_len dir tbl)).
Proof. exact allocs_bound. Qed.
Print Assumptions C12_alloc_bounded_partial.
Example C12_example : In (68719476704, 48) (rd_allocs (read_from_socket true) greedy_request 0).
Proof. destruct (greedy_allocs true) as (_ & _ & ->). left. reflexivity. Qed.
