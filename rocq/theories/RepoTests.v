(** * The unit tests of the repository, run on the model

    Each [Example] replays one [#[test]] or [#[tokio::test]] of /repo/src with the same
    inputs and checks what the test asserts.  They are tests of the model, not proofs of
    properties: they tie the transcription to values the authors of the code wrote down.
    [cargo test] builds with debug assertions ([dbg = true]); unless a test is about
    such an assertion it is replayed for release builds too.  Tests that start a real server
    run one schedule of the concurrent model. *)
From Verif Require Import PropsHandlers PropsConn PropsSys Util HostEnum.
From Coq Require Strings.String.
Import Strings.String.StringSyntax.

(** ** src/usbip_protocol.rs:500-932 *)

(** src/usbip_protocol.rs:511-522 *)
Example byte_serialize_op_req_devlist : forall dbg, command_to_bytes dbg (OpReqDevlist 0) =
  Val [0x01; 0x11;              (* version *)
       0x80; 0x05;              (* command *)
       0x00; 0x00; 0x00; 0x00]. (* status *)
Proof. reflexivity. Qed.

(** src/usbip_protocol.rs:525-547 *)
Example byte_serialize_op_req_import : forall dbg, command_to_bytes dbg (OpReqImport 0 (replicate 32 0)) =
  Val [0x01; 0x11; 0x80; 0x03; 0x00; 0x00; 0x00; 0x00;
       0x00; 0x00; 0x00; 0x00; 0x00; 0x00; 0x00; 0x00; 0x00; 0x00; 0x00; 0x00; 0x00; 0x00; 0x00; 0x00;
       0x00; 0x00; 0x00; 0x00; 0x00; 0x00; 0x00; 0x00; 0x00; 0x00; 0x00; 0x00; 0x00; 0x00; 0x00; 0x00].
Proof. reflexivity. Qed.

(** src/usbip_protocol.rs:550-588 *)
Example byte_serialize_usbip_cmd_submit : forall dbg,
  command_to_bytes dbg (CmdSubmit (mkSubmit (mkHeader 1 2 3 4 5) 0 0 6 0 7 (replicate 8 0xFF) [] [])) =
  Val [0x00; 0x00; 0x00; 0x01;  (* command *)
       0x00; 0x00; 0x00; 0x02;  (* seqnum *)
       0x00; 0x00; 0x00; 0x03;  (* devid *)
       0x00; 0x00; 0x00; 0x04;  (* direction *)
       0x00; 0x00; 0x00; 0x05;  (* ep *)
       0x00; 0x00; 0x00; 0x00;  (* transfer_flags *)
       0x00; 0x00; 0x00; 0x00;  (* transfer_buffer_length *)
       0x00; 0x00; 0x00; 0x06;  (* start_frame *)
       0x00; 0x00; 0x00; 0x00;  (* number_of_packets *)
       0x00; 0x00; 0x00; 0x07;  (* interval *)
       0xFF; 0xFF; 0xFF; 0xFF; 0xFF; 0xFF; 0xFF; 0xFF].
Proof. intros []; reflexivity. Qed.

(** src/usbip_protocol.rs:591-620 *)
Example byte_serialize_usbip_cmd_unlink : forall dbg,
  command_to_bytes dbg (CmdUnlink (mkHeader 0 1 2 3 4) 5) =
  Val [0x00; 0x00; 0x00; 0x00; 0x00; 0x00; 0x00; 0x01; 0x00; 0x00; 0x00; 0x02; 0x00; 0x00; 0x00; 0x03;
       0x00; 0x00; 0x00; 0x04; 0x00; 0x00; 0x00; 0x05; 0x00; 0x00; 0x00; 0x00; 0x00; 0x00; 0x00; 0x00;
       0x00; 0x00; 0x00; 0x00; 0x00; 0x00; 0x00; 0x00; 0x00; 0x00; 0x00; 0x00; 0x00; 0x00; 0x00; 0x00].
Proof. reflexivity. Qed.

(** src/usbip_protocol.rs:506-508 *)
Definition example_device : device := default_device.
(** src/usbip_protocol.rs:623-639 *)
Example byte_serialize_op_rep_devlist : forall dbg,
  response_to_bytes dbg (op_rep_devlist [example_device]) =
  obind (device_to_bytes dbg example_device) (fun b =>
  Val ([0x01; 0x11] ++ [0x00; 0x05] ++ [0x00; 0x00; 0x00; 0x00] ++ [0x00; 0x00; 0x00; 0x01] ++ b)).
Proof. intros []; vm_compute; reflexivity. Qed.

(** src/usbip_protocol.rs:642-667 *)
Example byte_serialize_op_rep_import : forall dbg,
  response_to_bytes dbg (op_rep_import_success example_device) =
  obind (device_to_bytes dbg example_device) (fun b =>
  Val ([0x01; 0x11] ++ [0x00; 0x03] ++ [0x00; 0x00; 0x00; 0x00] ++ b)) /\
  response_to_bytes dbg op_rep_import_fail = Val [0x01; 0x11; 0x00; 0x03; 0x00; 0x00; 0x00; 0x01].
Proof. intros []; vm_compute; split; reflexivity. Qed.

(** src/usbip_protocol.rs:670-710 *)
Example byte_serialize_usbip_ret_submit : forall dbg,
  response_to_bytes dbg (RetSubmit (mkRetSubmit (mkHeader USBIP_RET_SUBMIT 2 3 DIR_IN 4) 5 4 7 8 9 (replicate 4 0xFF) [])) =
  Val [0x00; 0x00; 0x00; 0x03;  (* command *)
       0x00; 0x00; 0x00; 0x02;  (* seqnum *)
       0x00; 0x00; 0x00; 0x03;  (* devid *)
       0x00; 0x00; 0x00; 0x01;  (* direction *)
       0x00; 0x00; 0x00; 0x04;  (* ep *)
       0x00; 0x00; 0x00; 0x05;  (* status *)
       0x00; 0x00; 0x00; 0x04;  (* actual_length *)
       0x00; 0x00; 0x00; 0x07;  (* start_frame *)
       0x00; 0x00; 0x00; 0x08;  (* number_of_packets *)
       0x00; 0x00; 0x00; 0x09;  (* error_count *)
       0x00; 0x00; 0x00; 0x00; 0x00; 0x00; 0x00; 0x00;
       0xFF; 0xFF; 0xFF; 0xFF].
Proof. intros []; reflexivity. Qed.

(** src/usbip_protocol.rs:712-733, [should_panic] *)
Example byte_serialize_invalid_usbip_ret_submit :
  response_to_bytes true (RetSubmit (mkRetSubmit (mkHeader USBIP_RET_SUBMIT 2 3 DIR_OUT 4) 5 4 7 8 9
    (replicate 4 0xFF) (replicate 16 0xFF))) = Panic PDebugAssert.
Proof. reflexivity. Qed.

(** src/usbip_protocol.rs:736-774 *)
Example byte_serialize_usbip_ret_unlink : forall dbg,
  let expected_result := [0x00; 0x00; 0x00; 0x04; 0x00; 0x00; 0x00; 0x01; 0x00; 0x00; 0x00; 0x02; 0x00; 0x00; 0x00; 0x03;
                          0x00; 0x00; 0x00; 0x04; 0x00; 0x00; 0x00; 0x00; 0x00; 0x00; 0x00; 0x00; 0x00; 0x00; 0x00; 0x00;
                          0x00; 0x00; 0x00; 0x00; 0x00; 0x00; 0x00; 0x00; 0x00; 0x00; 0x00; 0x00; 0x00; 0x00; 0x00; 0x00] in
  response_to_bytes dbg (usbip_ret_unlink_success (mkHeader USBIP_RET_UNLINK 1 2 3 4)) = Val expected_result /\
  response_to_bytes dbg (usbip_ret_unlink_fail (mkHeader USBIP_RET_UNLINK 1 2 3 4)) =
    Val (<[(5 * 4 + 3)%nat := 1]> expected_result).
Proof. intros []; split; reflexivity. Qed.

(** The five tests [read_.._from_socket]: the command read back encodes to the same bytes. *)
Definition reads_back (dbg : bool) (c : command) : Prop :=
  exists b c' rest, command_to_bytes dbg c = Val b /\ run_rd (read_from_socket dbg) b SEof = ROk c' rest /\
    command_to_bytes dbg c' = Val b.
Ltac reads_back := intros []; do 3 eexists; (split; [vm_compute; reflexivity|]); (split; [vm_compute; reflexivity|]); vm_compute; reflexivity.
(** src/usbip_protocol.rs:777-789 *)
Example read_op_req_devlist_from_socket : forall dbg, reads_back dbg (OpReqDevlist 0).
Proof. reads_back. Qed.
(** src/usbip_protocol.rs:792-811 *)
Example read_op_req_import_from_socket : forall dbg, reads_back dbg (OpReqImport 0 (vec_resize 32 (utf8 (lit "0-0-0")))).
Proof. reads_back. Qed.
(** src/usbip_protocol.rs:814-842 *)
Example read_usbip_cmd_submit_from_socket : forall dbg, reads_back dbg
  (CmdSubmit (mkSubmit (mkHeader USBIP_CMD_SUBMIT 1 2 DIR_OUT 4) 5 4 7 1 9
    [0x00; 0x01; 0x02; 0x03; 0x04; 0x05; 0x06; 0x07] [0x08; 0x09; 0x0A; 0x0B] (replicate 16 0xFF))).
Proof. reads_back. Qed.
(** src/usbip_protocol.rs:845-873 *)
Example read_usbip_cmd_submit_from_socket_with_no_data : forall dbg, reads_back dbg
  (CmdSubmit (mkSubmit (mkHeader USBIP_CMD_SUBMIT 1 2 DIR_IN 4) 5 64 7 1 9
    [0x00; 0x01; 0x02; 0x03; 0x04; 0x05; 0x06; 0xFF] [] (replicate 16 0xFF))).
Proof. reads_back. Qed.
(** src/usbip_protocol.rs:876-897 *)
Example read_usbip_cmd_unlink_from_socket : forall dbg, reads_back dbg (CmdUnlink (mkHeader USBIP_CMD_UNLINK 1 2 0 4) 1).
Proof. reads_back. Qed.

(** src/usbip_protocol.rs:900-914; the model keeps the number instead of the message
    ("Unknown version: 0x110"). *)
Example byte_serialization_fails_on_old_usbip_version : forall dbg,
  run_rd (read_from_socket dbg) (<[1%nat := 0x10]> (wire (OpReqDevlist 0))) SEof = RErr (EUnknownVersion 0x110).
Proof. intros []; vm_compute; reflexivity. Qed.
(** src/usbip_protocol.rs:917-931 ("Unknown command: 0x1005") *)
Example byte_serialization_fails_on_invalid_command : forall dbg,
  run_rd (read_from_socket dbg) (<[2%nat := 0x10]> (wire (OpReqDevlist 0))) SEof = RErr (EUnknownCommand 0x1005).
Proof. intros []; vm_compute; reflexivity. Qed.

(** ** src/device.rs:555-609 *)

(** src/device.rs:562-579; a setter returns the old value, and the test asserts that there is one. *)
Definition unwrapped (o : outcome (option rstring * device)) : outcome device :=
  obind o (fun p => match p.1 with Some _ => Val p.2 | None => Panic PUnwrapNone end).
Example test_set_string_descriptors : forall dbg,
  match (obind (new_device dbg 0) (fun d0 =>
         obind (unwrapped (set_configuration_name dbg d0 (lit "test"))) (fun d1 =>
         obind (unwrapped (set_manufacturer_name dbg d1 (lit "test"))) (fun d2 =>
         obind (unwrapped (set_product_name dbg d2 (lit "test"))) (fun d3 =>
         obind (unwrapped (set_serial_number dbg d3 (lit "test"))) (fun d4 => Val (d0, d4))))))) with
  | Val (d0, d) => size (d_string_pool d0) = 4%nat /\ size (d_string_pool d) = 4%nat /\
      d_string_pool d !! 1 = Some (lit "test") /\ d_string_pool d !! 2 = Some (lit "test") /\
      d_string_pool d !! 3 = Some (lit "test") /\ d_string_pool d !! 4 = Some (lit "test")
  | _ => False
  end.
Proof. intros []; vm_compute; auto 10. Qed.
(** src/device.rs:582-608 *)
Example test_invalid_string_index : forall dbg (H : handlers) (w : world H),
  match new_device dbg 0 with
  | Val d => match (handle_urb dbg w d (mkEndpoint 0x80 (ep_attr_val AControl) EP0_MAX_PACKET_SIZE 0) None 0
                      (mkSetup 128 6 (desc_type_val TString * 256 + 5) 0 0) []).1 with
             | UErr _ => True
             | _ => False
             end
  | _ => False
  end.
Proof. intros [] H w; vm_compute; exact I. Qed.

(** ** src/hid.rs:171-184, src/cdc.rs:106-119 *)
Example desc_verify_hid : verify_descriptor (kb_csd new_keyboard) = Val tt.
Proof. reflexivity. Qed.
Example desc_verify_cdc : verify_descriptor (cdc_csd new_cdc) = Val tt.
Proof. reflexivity. Qed.

(** ** src/lib.rs:551-815 *)

Definition test_world : world cdc_h := @mkWorld cdc_h (fun _ => mkCell false new_cdc) (fun _ => mkCell false tt).
(** src/lib.rs:563-574; [ClassCode::CDC] is 2 (src/consts.rs) *)
Definition single_device (dbg : bool) : outcome device :=
  obind (new_device dbg 0) (fun d =>
  with_interface dbg test_world d 2 CDC_ACM_SUBCLASS 0 (Some (lit "Test CDC ACM")) cdc_endpoints 0).
Definition single (dbg : bool) : list device := match single_device dbg with Val d => [d] | _ => [] end.
(** src/lib.rs:576-584 *)
Definition op_req_import (busid : rstring) : command := OpReqImport 0 (vec_resize 32 (utf8 busid)).
(** What the mock socket has received when [handler] returns. *)
Definition mock_output (dbg : bool) (ds : list device) (inp : list N) : list N :=
  (handler dbg (new_simulated ds) test_world inp SEof None).1.1.

Example single_device_built : forall dbg, length (single dbg) = 1%nat.
Proof. intros []; vm_compute; reflexivity. Qed.
(** src/lib.rs:598-610 *)
Example req_empty_devlist : forall dbg,
  Val (mock_output dbg [] (wire (OpReqDevlist 0))) = response_to_bytes dbg (op_rep_devlist []).
Proof. intros []; vm_compute; reflexivity. Qed.
(** src/lib.rs:613-626 *)
Example req_sample_devlist : forall dbg, len (mock_output dbg (single dbg) (wire (OpReqDevlist 0))) = 0xC + 0x138 + 4.
Proof. intros []; vm_compute; reflexivity. Qed.
(** src/lib.rs:629-639 *)
Example req_import : forall dbg, len (mock_output dbg (single dbg) (wire (op_req_import (lit "0-0-0")))) = 0x140.
Proof. intros []; vm_compute; reflexivity. Qed.
(** src/lib.rs:783-814 *)
Example req_import_get_device_desc : forall dbg,
  len (mock_output dbg (single dbg) (wire (op_req_import (lit "0-0-0")) ++
    wire (CmdSubmit (mkSubmit (mkHeader USBIP_CMD_SUBMIT 1 0 1 0) 0 0 0 0 0
      [0x80; 0x06; 0x00; 0x01; 0x00; 0x00; 0x40; 0x00] [] [])))) = 0x140 + 0x30 + 0x12.
Proof. intros []; vm_compute; reflexivity. Qed.

(** src/lib.rs:642-672: ten calls of add_device and ten of remove_device, started in this order.
    All devices made by [new] have the bus id 0-0-0. *)
Definition ten_devices (dbg : bool) : list device :=
  omap (fun i => match new_device dbg i with Val d => Some d | _ => None end) [0; 1; 2; 3; 4; 5; 6; 7; 8; 9].
Definition ten_adds_and_removes (dbg : bool) : list (label cdc_h) :=
  imap (fun i d => LAdd (N.of_nat i) d) (ten_devices dbg) ++
  imap (fun i d => LRemove (10 + N.of_nat i) (d_bus_id d)) (ten_devices dbg) ++
  mjoin ((fun t => [LGrantAvail; LRun (N.of_nat t)]) <$> seq 0 20).
Example add_and_remove_10_devices : forall dbg,
  after (run dbg (init_sys [] test_world) (ten_adds_and_removes dbg)) (fun s evs =>
    forallb (fun e => match e with EvRemove _ _ (IErr _) => false | _ => true end) evs = true /\
    length evs = 20%nat /\ sv_available (y_server s) = []).
Proof. intros []; vm_compute; auto. Qed.

(** src/lib.rs:587-595: the status of an import on connection [t], from its reply. *)
Definition attach (t : tid) : list (label cdc_h) :=
  [LRecv t (op_req_import (lit "0-0-0")); LGrantUsed; LRun t; LRun t; LGrantUsed; LRun t; LGrantAvail; LRun t; LSent t].
Definition status_in (b : list N) : N := of_be (take 4 (drop 4 b)).
Definition statuses (evs : list event) : list (tid * N) :=
  omap (fun e => match e with EvSent t b => Some (t, status_in b) | _ => None end) evs.
(** src/lib.rs:746-761 *)
Example only_single_connection_allowed_to_device : forall dbg,
  after (run dbg (init_sys (single dbg) test_world) ([LConnect 1; LConnect 2] ++ attach 1 ++ attach 2)) (fun _ evs =>
    statuses evs = [(1, 0); (2, 1)]).
Proof. intros []; vm_compute; reflexivity. Qed.
(** src/lib.rs:764-780 *)
Example device_gets_released_on_closed_socket : forall dbg,
  after (run dbg (init_sys (single dbg) test_world) ([LConnect 1] ++ attach 1 ++
    [LReadErr 1 EUnexpectedEof; LGrantUsed; LRun 1; LGrantAvail; LRun 1; LConnect 2] ++ attach 2)) (fun _ evs =>
    statuses evs = [(1, 0); (2, 0)]).
Proof. intros []; vm_compute; reflexivity. Qed.
(** The test needs the first connection's handler to notice the close before the second import
    is served: with the other order the second client is refused. *)
Example device_gets_released_needs_the_order : forall dbg,
  after (run dbg (init_sys (single dbg) test_world) ([LConnect 1] ++ attach 1 ++ [LConnect 2] ++ attach 2 ++
    [LReadErr 1 EUnexpectedEof; LGrantUsed; LRun 1; LGrantAvail; LRun 1])) (fun _ evs =>
    statuses evs = [(1, 0); (2, 1)]).
Proof. intros []; vm_compute; reflexivity. Qed.
(** src/lib.rs:675-743, two rounds: bulk OUT transfers on one connection (48-byte replies) while
    three devices are added and removed.  Here each round uses fresh task names. *)
Definition bulk_out : submit :=
  mkSubmit (mkHeader USBIP_CMD_SUBMIT 1 0 0 2) 0 8 0 0 0 (replicate 8 0) [1; 2; 3; 4; 5; 6; 7; 8] [].
Definition traffic_round (dbg : bool) (t0 : N) : list (label cdc_h) :=
  let ds := take 3 (drop 1 (ten_devices dbg)) in
  imap (fun i d => LAdd (t0 + N.of_nat i) d) ds ++ [LRecv 1 (CmdSubmit bulk_out); LGrantUsed] ++
  imap (fun i d => LRemove (t0 + 3 + N.of_nat i) (d_bus_id d)) ds ++
  [LGrantAvail; LRun t0; LRun 1; LGrantAvail; LRun (t0 + 1); LGrantAvail; LRun (t0 + 2); LSent 1;
   LRecv 1 (CmdSubmit bulk_out); LGrantAvail; LRun (t0 + 3); LGrantUsed; LRun 1; LGrantAvail; LRun (t0 + 4); LSent 1;
   LGrantAvail; LRun (t0 + 5)].
Example send_usb_traffic_while_adding_and_removing_devices : forall dbg,
  after (run dbg (init_sys (single dbg) test_world) ([LConnect 1] ++ attach 1 ++ traffic_round dbg 100 ++ traffic_round dbg 200))
    (fun s evs =>
      forallb (fun e => match e with EvRemove _ _ (IErr _) | EvEnd _ _ => false | _ => true end) evs = true /\
      omap (fun e => match e with EvSent _ b => Some (len b) | _ => None end) evs = [0x140; 48; 48; 48; 48] /\
      sv_available (y_server s) = []).
Proof. intros []; vm_compute; auto. Qed.
