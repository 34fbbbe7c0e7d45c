(** * The USB/IP wire protocol (src/usbip_protocol.rs) *)
From Verif Require Export Device.

(** src/usbip_protocol.rs:22-40 *)
Definition USBIP_VERSION : N := 273.      (* 0x0111 *)
Definition OP_REQ_DEVLIST : N := 32773.   (* 0x8005 *)
Definition OP_REQ_IMPORT : N := 32771.    (* 0x8003 *)
Definition OP_REP_DEVLIST : N := 5.
Definition OP_REP_IMPORT : N := 3.
Definition USBIP_CMD_SUBMIT : N := 1.
Definition USBIP_CMD_UNLINK : N := 2.
Definition USBIP_RET_SUBMIT : N := 3.
Definition USBIP_RET_UNLINK : N := 4.

(** src/usbip_protocol.rs:48-51 *)
Definition DIR_OUT : N := 0.
Definition DIR_IN : N := 1.

(** src/usbip_protocol.rs:59-65 [UsbIpHeaderBasic] *)
Record header := mkHeader {
  h_command : N; h_seqnum : N; h_devid : N; h_direction : N; h_ep : N }.

(** [bytes[a..b]] for a slice known to be long enough. *)
Definition slice (l : bytes) (a b : nat) : bytes := take (b - a) (drop a l).

(** src/usbip_protocol.rs:69-80 [from_bytes] (input has 20 bytes by its type). *)
Definition header_from_bytes (dbg : bool) (b : bytes) : outcome header :=
  let r := mkHeader (of_be (slice b 0 4)) (of_be (slice b 4 8)) (of_be (slice b 8 12))
             (of_be (slice b 12 16)) (of_be (slice b 16 20)) in
  debug_assert dbg (N.land (h_direction r) 1 =? h_direction r) (Val r).

(** src/usbip_protocol.rs:83-91 [to_bytes] *)
Definition header_to_bytes (h : header) : bytes :=
  be32 (h_command h) ++ be32 (h_seqnum h) ++ be32 (h_devid h)
  ++ be32 (h_direction h) ++ be32 (h_ep h).

(** src/usbip_protocol.rs:125-135, the fields of [UsbIpCmdSubmit] *)
Record submit := mkSubmit {
  sb_header : header;
  sb_transfer_flags : N;
  sb_transfer_buffer_length : N;
  sb_start_frame : N;
  sb_number_of_packets : N;
  sb_interval : N;
  sb_setup : bytes;              (* [u8; 8] *)
  sb_data : bytes;
  sb_iso : bytes }.

(** src/usbip_protocol.rs:117-140 [UsbIpCommand]; [busid] is a [[u8; 32]]. *)
Inductive command :=
| OpReqDevlist (status : N)
| OpReqImport (status : N) (busid : bytes)
| CmdSubmit (s : submit)
| CmdUnlink (h : header) (unlink_seqnum : N).

(** ** Reading from a socket

    A reader is a program over two primitives: read exactly [n] bytes
    ([AsyncReadExt::read_exact], [read_u16], [read_u32]) and allocate a buffer
    ([vec![0; n]]).  It is given meaning by the interpreters below. *)
Inductive rd (A : Type) :=
| RRet (a : A)
| RFail (e : io_error)
| RPanic (p : panic)
| RRead (n : N) (k : bytes -> rd A)
| RAlloc (n : N) (k : rd A).
Arguments RRet {A} a.
Arguments RFail {A} e.
Arguments RPanic {A} p.
Arguments RRead {A} n k.
Arguments RAlloc {A} n k.

Definition read_u16 {A} (k : N -> rd A) : rd A := RRead 2 (fun b => k (of_be b)).
Definition read_u32 {A} (k : N -> rd A) : rd A := RRead 4 (fun b => k (of_be b)).
Definition rd_debug_assert {A} (dbg b : bool) (k : rd A) : rd A :=
  if dbg && negb b then RPanic PDebugAssert else k.

(** src/usbip_protocol.rs:93-111 [read_from_socket_with_command] *)
Definition read_header {A} (dbg : bool) (command : N) (k : header -> rd A) : rd A :=
  read_u32 (fun seqnum =>
  read_u32 (fun devid =>
  read_u32 (fun direction =>
  rd_debug_assert dbg (N.land direction 1 =? direction) (
  read_u32 (fun ep =>
  k (mkHeader command seqnum devid direction ep)))))).

(** src/usbip_protocol.rs:147-250 [UsbIpCommand::read_from_socket].  The trace!
    output is not modelled; [usize] is 64 bits wide, so [16 * number_of_packets
    as usize] does not overflow. *)
Definition read_from_socket (dbg : bool) : rd command :=
  read_u16 (fun version =>
  if negb (version =? 0) && negb (version =? USBIP_VERSION)
  then RFail (EUnknownVersion version)
  else
  read_u16 (fun command =>
  if command =? OP_REQ_DEVLIST then
    read_u32 (fun status =>
    rd_debug_assert dbg (status =? 0) (
    RRet (OpReqDevlist status)))
  else if command =? OP_REQ_IMPORT then
    read_u32 (fun status =>
    rd_debug_assert dbg (status =? 0) (
    RRead 32 (fun busid =>
    RRet (OpReqImport status busid))))
  else if command =? USBIP_CMD_SUBMIT then
    read_header dbg USBIP_CMD_SUBMIT (fun header =>
    read_u32 (fun transfer_flags =>
    read_u32 (fun transfer_buffer_length =>
    read_u32 (fun start_frame =>
    read_u32 (fun number_of_packets =>
    read_u32 (fun interval =>
    RRead 8 (fun setup =>
    let finish data :=
      if negb (number_of_packets =? 0) && negb (number_of_packets =? 4294967295)
      then RAlloc (16 * number_of_packets) (
           RRead (16 * number_of_packets) (fun iso =>
           RRet (CmdSubmit (mkSubmit header transfer_flags transfer_buffer_length
                   start_frame number_of_packets interval setup data iso))))
      else RRet (CmdSubmit (mkSubmit header transfer_flags transfer_buffer_length
                   start_frame number_of_packets interval setup data [])) in
    if h_direction header =? DIR_IN then finish []
    else RAlloc transfer_buffer_length (
         RRead transfer_buffer_length (fun data => finish data)))))))))
  else if command =? USBIP_CMD_UNLINK then
    read_header dbg USBIP_CMD_UNLINK (fun header =>
    read_u32 (fun unlink_seqnum =>
    RRead 24 (fun _ =>
    RRet (CmdUnlink header unlink_seqnum))))
  else RFail (EUnknownCommand command))).

(** How the byte stream ends: the peer closed it, or the socket failed. *)
Inductive stream_end := SEof | SErr (code : N).
Definition end_error (f : stream_end) : io_error :=
  match f with SEof => EUnexpectedEof | SErr c => EIo c end.

(** Result of a read: value and the unread rest, or an error, or a panic. *)
Inductive rres (A S : Type) :=
| ROk (a : A) (rest : S)
| RErr (e : io_error)
| RPan (p : panic).
Arguments ROk {A S} a rest.
Arguments RErr {A S} e.
Arguments RPan {A S} p.

(** Meaning of a reader on the whole remaining input.  tokio's [read_exact] fails
    with UnexpectedEof when the stream ends early and succeeds at once for an
    empty buffer. *)
Fixpoint run_rd {A} (p : rd A) (inp : bytes) (fin : stream_end) : rres A bytes :=
  match p with
  | RRet a => ROk a inp
  | RFail e => RErr e
  | RPanic q => RPan q
  | RAlloc _ k => run_rd k inp fin
  | RRead n k =>
      if len inp <? n then RErr (end_error fin)
      else run_rd (k (take (N.to_nat n) inp)) (drop (N.to_nat n) inp) fin
  end.

(** [read_exact] when the network delivers the input in chunks: each [poll_read]
    copies as much of the current chunk as fits in the rest of the buffer. *)
Fixpoint read_chunks (n : nat) (cs : list bytes) : option (bytes * list bytes) :=
  match n with
  | O => Some ([], cs)
  | _ => match cs with
         | [] => None
         | c :: cs' =>
             if (length c <=? n)%nat
             then match read_chunks (n - length c) cs' with
                  | Some (b, r) => Some (c ++ b, r)
                  | None => None
                  end
             else Some (take n c, drop n c :: cs')
         end
  end.

Fixpoint run_rd_chunks {A} (p : rd A) (cs : list bytes) (fin : stream_end)
    : rres A (list bytes) :=
  match p with
  | RRet a => ROk a cs
  | RFail e => RErr e
  | RPanic q => RPan q
  | RAlloc _ k => run_rd_chunks k cs fin
  | RRead n k =>
      match read_chunks (N.to_nat n) cs with
      | None => RErr (end_error fin)
      | Some (b, cs') => run_rd_chunks (k b) cs' fin
      end
  end.

(** Allocations performed by a reader: (bytes requested, bytes received so far). *)
Fixpoint rd_allocs {A} (p : rd A) (inp : bytes) (got : N) : list (N * N) :=
  match p with
  | RRet _ | RFail _ | RPanic _ => []
  | RAlloc n k => (n, got) :: rd_allocs k inp got
  | RRead n k =>
      if len inp <? n then []
      else rd_allocs (k (take (N.to_nat n) inp)) (drop (N.to_nat n) inp) (got + n)
  end.

(** ** Encoding *)

(** src/usbip_protocol.rs:253-309 [UsbIpCommand::to_bytes] *)
Definition command_to_bytes (dbg : bool) (c : command) : outcome bytes :=
  match c with
  | OpReqDevlist status =>
      Val (be16 USBIP_VERSION ++ be16 OP_REQ_DEVLIST ++ be32 status)
  | OpReqImport status busid =>
      Val (be16 USBIP_VERSION ++ be16 OP_REQ_IMPORT ++ be32 status ++ busid)
  | CmdSubmit s =>
      debug_assert dbg (negb (h_direction (sb_header s) =? DIR_OUT)
                        || (sb_transfer_buffer_length s =? as_u32 (len (sb_data s)))) (
      Val (header_to_bytes (sb_header s)
           ++ be32 (sb_transfer_flags s) ++ be32 (sb_transfer_buffer_length s)
           ++ be32 (sb_start_frame s) ++ be32 (sb_number_of_packets s)
           ++ be32 (sb_interval s) ++ sb_setup s ++ sb_data s ++ sb_iso s))
  | CmdUnlink h unlink_seqnum =>
      Val (header_to_bytes h ++ be32 unlink_seqnum ++ replicate 24 0)
  end.

(** src/usbip_protocol.rs:325-334, the fields of [UsbIpRetSubmit] *)
Record ret_submit := mkRetSubmit {
  rs_header : header;
  rs_status : N;
  rs_actual_length : N;
  rs_start_frame : N;
  rs_number_of_packets : N;
  rs_error_count : N;
  rs_transfer_buffer : bytes;
  rs_iso : bytes }.

(** src/usbip_protocol.rs:315-339 [UsbIpResponse] *)
Inductive response :=
| OpRepDevlist (status device_count : N) (devices : list device)
| OpRepImport (status : N) (dev : option device)
| RetSubmit (r : ret_submit)
| RetUnlink (h : header) (status : N).

(** src/usbip_protocol.rs:361-363: append [to_bytes_with_interfaces] of each device. *)
Fixpoint devices_to_bytes (dbg : bool) (ds : list device) : outcome bytes :=
  match ds with
  | [] => Val []
  | d :: ds' => obind (device_to_bytes_with_interfaces dbg d) (fun b =>
                obind (devices_to_bytes dbg ds') (fun bs => Val (b ++ bs)))
  end.

(** src/usbip_protocol.rs:343-418 [UsbIpResponse::to_bytes] *)
Definition response_to_bytes (dbg : bool) (r : response) : outcome bytes :=
  match r with
  | OpRepDevlist status count devices =>
      obind (devices_to_bytes dbg devices) (fun bs =>
      Val (be16 USBIP_VERSION ++ be16 OP_REP_DEVLIST ++ be32 status ++ be32 count ++ bs))
  | OpRepImport status dev =>
      obind (match dev with Some d => device_to_bytes dbg d | None => Val [] end) (fun bs =>
      Val (be16 USBIP_VERSION ++ be16 OP_REP_IMPORT ++ be32 status ++ bs))
  | RetSubmit s =>
      debug_assert dbg (h_command (rs_header s) =? USBIP_RET_SUBMIT) (
      debug_assert dbg (if h_direction (rs_header s) =? DIR_IN
                        then rs_actual_length s =? as_u32 (len (rs_transfer_buffer s))
                        else rs_actual_length s =? 0) (
      Val (header_to_bytes (rs_header s)
           ++ be32 (rs_status s) ++ be32 (rs_actual_length s) ++ be32 (rs_start_frame s)
           ++ be32 (rs_number_of_packets s) ++ be32 (rs_error_count s)
           ++ replicate 8 0 ++ rs_transfer_buffer s ++ rs_iso s)))
  | RetUnlink h status =>
      debug_assert dbg (h_command h =? USBIP_RET_UNLINK) (
      Val (header_to_bytes h ++ be32 status ++ replicate 24 0))
  end.

(** src/usbip_protocol.rs:425-431 *)
Definition op_rep_devlist (ds : list device) : response :=
  OpRepDevlist 0 (as_u32 (len ds)) ds.
(** src/usbip_protocol.rs:434-439 *)
Definition op_rep_import_success (d : device) : response := OpRepImport 0 (Some d).
(** src/usbip_protocol.rs:442-447 *)
Definition op_rep_import_fail : response := OpRepImport 1 None.
(** src/usbip_protocol.rs:450-467 *)
Definition usbip_ret_submit_success (h : header) (start_frame npkts : N)
    (buf iso : bytes) : response :=
  RetSubmit (mkRetSubmit h 0 (as_u32 (len buf)) start_frame npkts 0 buf iso).
(** src/usbip_protocol.rs:470-481 *)
Definition usbip_ret_submit_fail (h : header) : response :=
  RetSubmit (mkRetSubmit h 1 0 0 0 0 [] []).
(** src/usbip_protocol.rs:484-489 *)
Definition usbip_ret_unlink_success (h : header) : response := RetUnlink h 0.
(** src/usbip_protocol.rs:492-497 *)
Definition usbip_ret_unlink_fail (h : header) : response := RetUnlink h 1.
