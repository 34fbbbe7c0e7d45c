(** * Specification of the USB/IP wire format

    Written from the protocol description
    (https://docs.kernel.org/usb/usbip_protocol.html): every field is named by its
    byte offset, big endian.  Only the data types of the model are used, none of its
    functions. *)
From Verif Require Export Protocol.

(** The 16-bit / 32-bit big-endian field at offset [o] of [b] has value [v]. *)
Definition u16_at (b : list N) (o : nat) (v : N) : Prop :=
  exists x y, b !! o = Some x /\ b !! (o + 1)%nat = Some y
    /\ x < 256 /\ y < 256 /\ v = x * 256 + y.
Definition u32_at (b : list N) (o : nat) (v : N) : Prop :=
  exists x y z w, b !! o = Some x /\ b !! (o + 1)%nat = Some y
    /\ b !! (o + 2)%nat = Some z /\ b !! (o + 3)%nat = Some w
    /\ x < 256 /\ y < 256 /\ z < 256 /\ w < 256
    /\ v = x * 16777216 + y * 65536 + z * 256 + w.
Definition u8_at (b : list N) (o : nat) (v : N) : Prop := b !! o = Some v.
(** The bytes [l] stand at offset [o]. *)
Definition bytes_at (b : list N) (o : nat) (l : list N) : Prop :=
  take (length l) (drop o b) = l.

(** Header fields seqnum, devid, direction, ep at offsets 4, 8, 12, 16. *)
Definition header_at (b : list N) (h : header) : Prop :=
  u32_at b 4 (h_seqnum h) /\ u32_at b 8 (h_devid h)
  /\ u32_at b 12 (h_direction h) /\ u32_at b 16 (h_ep h).

(** A version half-word the protocol allows in a request: 0 in the URB commands,
    0x0111 otherwise (the library accepts both everywhere). *)
Definition version_ok (v : N) : Prop := v = 0 \/ v = 0x111.
(** The command codes of the four requests. *)
Definition known_code (c : N) : Prop := c = 0x8005 \/ c = 0x8003 \/ c = 1 \/ c = 2.

(** Number of payload bytes that follow a CMD_SUBMIT, by its own fields:
    the transfer buffer unless the transfer is IN, 16 bytes per iso packet unless the
    count is 0 or -1. *)
Definition payload_len (direction tbl : N) : N := if direction =? 1 then 0 else tbl.
Definition iso_len (npkts : N) : N :=
  if (npkts =? 0) || (npkts =? 0xFFFFFFFF) then 0 else 16 * npkts.

(** [cmd_layout strict b c]: [b] is exactly one request message, meaning [c].
    [strict]: the message also passes the reader's debug assertions. *)
Inductive cmd_layout (strict : bool) (b : list N) : command -> Prop :=
| cl_devlist v st :
    length b = 8%nat -> version_ok v ->
    u16_at b 0 v -> u16_at b 2 0x8005 -> u32_at b 4 st ->
    (strict = true -> st = 0) ->
    cmd_layout strict b (OpReqDevlist st)
| cl_import v st busid :
    length b = 40%nat -> version_ok v ->
    u16_at b 0 v -> u16_at b 2 0x8003 -> u32_at b 4 st ->
    length busid = 32%nat -> bytes_at b 8 busid ->
    (strict = true -> st = 0) ->
    cmd_layout strict b (OpReqImport st busid)
| cl_submit v h tf tbl sf np iv setup data iso :
    length b = (48 + length data + length iso)%nat -> version_ok v ->
    u16_at b 0 v -> u16_at b 2 1 -> h_command h = 1 -> header_at b h ->
    u32_at b 20 tf -> u32_at b 24 tbl -> u32_at b 28 sf -> u32_at b 32 np ->
    u32_at b 36 iv ->
    length setup = 8%nat -> bytes_at b 40 setup ->
    len data = payload_len (h_direction h) tbl -> bytes_at b 48 data ->
    len iso = iso_len np -> bytes_at b (48 + length data) iso ->
    (strict = true -> h_direction h = 0 \/ h_direction h = 1) ->
    cmd_layout strict b (CmdSubmit (mkSubmit h tf tbl sf np iv setup data iso))
| cl_unlink v h us :
    length b = 48%nat -> version_ok v ->
    u16_at b 0 v -> u16_at b 2 2 -> h_command h = 2 -> header_at b h ->
    u32_at b 20 us ->
    (strict = true -> h_direction h = 0 \/ h_direction h = 1) ->
    cmd_layout strict b (CmdUnlink h us).

(** A command value that the Rust types allow and that describes a message:
    header command code as in the variant, payload and iso sizes as announced.
    [strict]: additionally no debug assertion of the reader or the encoder fails. *)
Definition u32 (n : N) : Prop := n < 4294967296.
Definition byte_list (n : nat) (l : list N) : Prop :=
  length l = n /\ Forall (fun x => x < 256) l.
Definition wf_header (strict : bool) (code : N) (h : header) : Prop :=
  h_command h = code /\ u32 (h_seqnum h) /\ u32 (h_devid h) /\ u32 (h_direction h)
  /\ u32 (h_ep h) /\ (strict = true -> h_direction h = 0 \/ h_direction h = 1).
Definition wf_command (strict : bool) (c : command) : Prop :=
  match c with
  | OpReqDevlist st => u32 st /\ (strict = true -> st = 0)
  | OpReqImport st busid =>
      u32 st /\ (strict = true -> st = 0) /\ byte_list 32 busid
  | CmdSubmit s =>
      wf_header strict 1 (sb_header s)
      /\ u32 (sb_transfer_flags s) /\ u32 (sb_transfer_buffer_length s)
      /\ u32 (sb_start_frame s) /\ u32 (sb_number_of_packets s) /\ u32 (sb_interval s)
      /\ byte_list 8 (sb_setup s)
      /\ Forall (fun x => x < 256) (sb_data s) /\ Forall (fun x => x < 256) (sb_iso s)
      /\ len (sb_data s) = payload_len (h_direction (sb_header s)) (sb_transfer_buffer_length s)
      /\ len (sb_iso s) = iso_len (sb_number_of_packets s)
  | CmdUnlink h us => wf_header strict 2 h /\ u32 us
  end.

(** Reading commands until the stream fails: which commands, then which error. *)
Inductive reads (dbg : bool) (fin : stream_end) : list N -> list command -> io_error -> Prop :=
| reads_end inp e :
    run_rd (read_from_socket dbg) inp fin = RErr e -> reads dbg fin inp [] e
| reads_cons inp c rest cs e :
    run_rd (read_from_socket dbg) inp fin = ROk c rest ->
    reads dbg fin rest cs e -> reads dbg fin inp (c :: cs) e.

(** ** Replies *)

(** Header with its command code at offset 0. *)
Definition reply_header_at (b : list N) (h : header) : Prop :=
  u32_at b 0 (h_command h) /\ header_at b h.

(** The 312-byte device record of OP_REP_IMPORT and OP_REP_DEVLIST at offset [o].
    [path] and [busid] are the NUL-padded texts. *)
Record dev_record := mkDevRecord {
  dr_path : list N; dr_busid : list N;
  dr_busnum : N; dr_devnum : N; dr_speed : N;
  dr_vendor : N; dr_product : N; dr_bcd_hi : N; dr_bcd_lo : N;
  dr_class : N; dr_subclass : N; dr_protocol : N;
  dr_confval : N; dr_numconf : N; dr_numintf : N }.
Definition dev_record_at (b : list N) (o : nat) (r : dev_record) : Prop :=
  bytes_at b o (dr_path r ++ replicate (256 - length (dr_path r)) 0)
  /\ bytes_at b (o + 256) (dr_busid r ++ replicate (32 - length (dr_busid r)) 0)
  /\ u32_at b (o + 288) (dr_busnum r) /\ u32_at b (o + 292) (dr_devnum r)
  /\ u32_at b (o + 296) (dr_speed r)
  /\ u16_at b (o + 300) (dr_vendor r) /\ u16_at b (o + 302) (dr_product r)
  /\ u8_at b (o + 304) (dr_bcd_hi r) /\ u8_at b (o + 305) (dr_bcd_lo r)
  /\ u8_at b (o + 306) (dr_class r) /\ u8_at b (o + 307) (dr_subclass r)
  /\ u8_at b (o + 308) (dr_protocol r)
  /\ u8_at b (o + 309) (dr_confval r) /\ u8_at b (o + 310) (dr_numconf r)
  /\ u8_at b (o + 311) (dr_numintf r).

(** ** Replies to URBs and imports *)
Definition ret_submit_layout (b : list N) (r : ret_submit) : Prop :=
  length b = (48 + length (rs_transfer_buffer r) + length (rs_iso r))%nat
  /\ reply_header_at b (rs_header r)
  /\ u32_at b 20 (rs_status r) /\ u32_at b 24 (rs_actual_length r)
  /\ u32_at b 28 (rs_start_frame r) /\ u32_at b 32 (rs_number_of_packets r)
  /\ u32_at b 36 (rs_error_count r)
  /\ bytes_at b 40 [0; 0; 0; 0; 0; 0; 0; 0]
  /\ bytes_at b 48 (rs_transfer_buffer r)
  /\ bytes_at b (48 + length (rs_transfer_buffer r)) (rs_iso r).
Definition ret_unlink_layout (b : list N) (h : header) (status : N) : Prop :=
  length b = 48%nat /\ reply_header_at b h /\ u32_at b 20 status
  /\ forall i, (24 <= i < 48)%nat -> u8_at b i 0.

(** Ranges the Rust types guarantee for a device. *)
Definition u8 (n : N) : Prop := n < 256.
Definition u16 (n : N) : Prop := n < 65536.
Definition typed_version (v : version) : Prop := u8 (v_major v) /\ u8 (v_minor v) /\ u8 (v_patch v).
Definition typed_endpoint (e : endpoint) : Prop :=
  u8 (ep_address e) /\ u8 (ep_attributes e) /\ u16 (ep_max_packet_size e) /\ u8 (ep_interval e).
Definition typed_interface (i : interface) : Prop :=
  u8 (if_class i) /\ u8 (if_subclass i) /\ u8 (if_protocol i) /\ u8 (if_string i)
  /\ Forall typed_endpoint (if_endpoints i) /\ Forall u8 (if_class_specific i).
Definition typed_device (d : device) : Prop :=
  is_rstring (d_path d) = true /\ is_rstring (d_bus_id d) = true
  /\ u32 (d_bus_num d) /\ u32 (d_dev_num d) /\ u32 (d_speed d)
  /\ u16 (d_vendor_id d) /\ u16 (d_product_id d) /\ typed_version (d_bcd d)
  /\ u8 (d_class d) /\ u8 (d_subclass d) /\ u8 (d_protocol d)
  /\ u8 (d_configuration_value d) /\ u8 (d_num_configurations d)
  /\ Forall typed_interface (d_interfaces d)
  /\ typed_version (d_usb_version d) /\ typed_endpoint (d_ep0_in d) /\ typed_endpoint (d_ep0_out d)
  /\ map_Forall (fun i s => u8 i /\ is_rstring s = true) (d_string_pool d)
  /\ u8 (d_string_configuration d) /\ u8 (d_string_manufacturer d)
  /\ u8 (d_string_product d) /\ u8 (d_string_serial d).

(** The device record that describes [d]. *)
Definition record_of (d : device) : dev_record :=
  mkDevRecord (take 256 (utf8 (d_path d))) (take 32 (utf8 (d_bus_id d)))
    (d_bus_num d) (d_dev_num d) (d_speed d) (d_vendor_id d) (d_product_id d)
    (v_major (d_bcd d)) (v_minor (d_bcd d))
    (d_class d) (d_subclass d) (d_protocol d)
    (d_configuration_value d) (d_num_configurations d)
    (len (d_interfaces d) mod 256).

(** Path and bus id fit their fixed-size fields. *)
Definition fits (d : device) : Prop :=
  len (utf8 (d_path d)) <= 256 /\ len (utf8 (d_bus_id d)) <= 32.

(** ** A client that decodes a device list *)
From Verif Require Import SpecText.

Record client_dev := mkClientDev {
  cd_path : list N; cd_busid : list N;       (* Unicode text *)
  cd_busnum : N; cd_devnum : N; cd_speed : N;
  cd_vendor : N; cd_product : N; cd_bcd_hi : N; cd_bcd_lo : N;
  cd_class : N; cd_subclass : N; cd_protocol : N;
  cd_confval : N; cd_numconf : N;
  cd_interfaces : list (N * N * N) }.

(** Parsers: consume from the front of the input. *)
Definition parser (A : Type) := list N -> option (A * list N).
Definition p_bytes (n : nat) : parser (list N) := fun b =>
  if (length b <? n)%nat then None else Some (take n b, drop n b).
Definition p_u8 : parser N := fun b => match b with x :: r => Some (x, r) | [] => None end.
Definition p_u16 : parser N := fun b =>
  match b with x :: y :: r => Some (x * 256 + y, r) | _ => None end.
Definition p_u32 : parser N := fun b =>
  match b with x :: y :: z :: w :: r => Some (x * 16777216 + y * 65536 + z * 256 + w, r)
             | _ => None end.
Definition p_bind {A B} (p : parser A) (f : A -> parser B) : parser B := fun b =>
  match p b with Some (a, r) => f a r | None => None end.
Definition p_ret {A} (a : A) : parser A := fun b => Some (a, b).
Definition p_text (n : nat) : parser (list N) := p_bind (p_bytes n) (fun raw b =>
  match utf8_decode (c_string raw) with Some t => Some (t, b) | None => None end).
Fixpoint p_many {A} (n : nat) (p : parser A) : parser (list A) :=
  match n with
  | O => p_ret []
  | S n' => p_bind p (fun a => p_bind (p_many n' p) (fun l => p_ret (a :: l)))
  end.
(** class, subclass, protocol, padding *)
Definition p_interface : parser (N * N * N) :=
  p_bind p_u8 (fun a => p_bind p_u8 (fun b => p_bind p_u8 (fun c => p_bind p_u8 (fun _ =>
  p_ret (a, b, c))))).
Definition p_device : parser client_dev :=
  p_bind (p_text 256) (fun path =>
  p_bind (p_text 32) (fun busid =>
  p_bind p_u32 (fun busnum => p_bind p_u32 (fun devnum => p_bind p_u32 (fun speed =>
  p_bind p_u16 (fun vendor => p_bind p_u16 (fun product =>
  p_bind p_u8 (fun bh => p_bind p_u8 (fun bl =>
  p_bind p_u8 (fun cl => p_bind p_u8 (fun scl => p_bind p_u8 (fun pr =>
  p_bind p_u8 (fun cv => p_bind p_u8 (fun nc => p_bind p_u8 (fun ni =>
  p_bind (p_many (N.to_nat ni) p_interface) (fun is =>
  p_ret (mkClientDev path busid busnum devnum speed vendor product bh bl cl scl pr cv nc is)
  )))))))))))))))).
(** OP_REP_DEVLIST: version, reply code, status, count, devices. *)
Definition p_devlist : parser (list client_dev) :=
  p_bind p_u16 (fun v => p_bind p_u16 (fun code => p_bind p_u32 (fun status =>
  p_bind p_u32 (fun n b =>
    if (v =? 0x111) && (code =? 5) && (status =? 0)
    then p_many (N.to_nat n) p_device b else None)))).

(** What the client should learn about [d]. *)
Definition client_view (d : device) : client_dev :=
  mkClientDev (d_path d) (d_bus_id d) (d_bus_num d) (d_dev_num d) (d_speed d)
    (d_vendor_id d) (d_product_id d) (v_major (d_bcd d)) (v_minor (d_bcd d))
    (d_class d) (d_subclass d) (d_protocol d) (d_configuration_value d)
    (d_num_configurations d)
    ((fun i => (if_class i, if_subclass i, if_protocol i)) <$> d_interfaces d).

(** The same session, when the network delivers the bytes in chunks. *)
Inductive reads_chunks (dbg : bool) (fin : stream_end)
  : list (list N) -> list command -> io_error -> Prop :=
| readsc_end cs e :
    run_rd_chunks (read_from_socket dbg) cs fin = RErr e -> reads_chunks dbg fin cs [] e
| readsc_cons cs c cs' cmds e :
    run_rd_chunks (read_from_socket dbg) cs fin = ROk c cs' ->
    reads_chunks dbg fin cs' cmds e -> reads_chunks dbg fin cs (c :: cmds) e.

(** A response a debug build can send: reply code as in the variant, payload only on
    IN and of the announced size, texts within their fields. *)
Definition reply_ok (r : response) : Prop :=
  match r with
  | OpRepDevlist _ _ ds => Forall fits ds
  | OpRepImport _ (Some d) => fits d
  | OpRepImport _ None => True
  | RetSubmit s =>
      h_command (rs_header s) = 3 /\
      rs_actual_length s = (if h_direction (rs_header s) =? 1
                            then len (rs_transfer_buffer s) mod 4294967296 else 0)
  | RetUnlink h _ => h_command h = 4
  end.
