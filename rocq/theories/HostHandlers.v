(** * Handlers that forward to real USB devices (src/host.rs)

    libusb (rusb) and nusb are external: a transfer is recorded in the handler's
    log and answered by an arbitrary oracle that may depend on everything done
    before.  [Some data] stands for [Ok(len)] with [buffer[..len] = data] (reads)
    or [Ok(_)] (writes), [None] for any error.  Time-outs (1 s) and the inner [Mutex] around the
    library handle are not modelled.  A panic while it is held poisons it: with nusb that mutex
    belongs to one handler, whose own mutex (modelled) is poisoned as well; with rusb, where the
    handlers of a device share it, the only such panic is a library that reports more bytes than
    the buffer holds. *)
From Verif Require Export Handlers.

(** nusb::transfer::{ControlType, Recipient} *)
Inductive nusb_type := NStandard | NClass | NVendor.
Inductive nusb_recipient := NDevice | NInterface | NEndpoint | NOther.

Inductive usb_call :=
| ReadControl (request_type request value index buflen : N)
| WriteControl (request_type request value index : N) (data : bytes)
| ReadInterrupt (ep buflen : N)
| WriteInterrupt (ep : N) (data : bytes)
| ReadBulk (ep buflen : N)
| WriteBulk (ep : N) (data : bytes)
| NControlIn (t : nusb_type) (r : nusb_recipient) (request value index buflen : N)
| NControlOut (t : nusb_type) (r : nusb_recipient) (request value index : N) (data : bytes).

Record hostdev := mkHost {
  hd_log : list usb_call;                       (* oldest first *)
  hd_oracle : list usb_call -> usb_call -> option bytes }.

(** Perform a transfer: log it, ask the oracle. *)
Definition do_call (h : hostdev) (c : usb_call) : hostdev * option bytes :=
  (mkHost (hd_log h ++ [c]) (hd_oracle h), hd_oracle h (hd_log h) c).

(** [if let Ok(len) = read(.., &mut buffer, ..) { return Ok(Vec::from(&buffer[..len])) }]
    followed by [Ok(vec![])]; slicing past the buffer panics. *)
Definition host_read (h : hostdev) (c : usb_call) (tbl : N) : call_result hostdev :=
  let '(h', r) := do_call h c in
  match r with
  | Some data => if tbl <? len data then CallPanic h' PIndex else CallOk h' data
  | None => CallOk h' []
  end.

(** [write(..).ok()] followed by [Ok(vec![])]. *)
Definition host_write (h : hostdev) (c : usb_call) : call_result hostdev :=
  CallOk (fst (do_call h c)) [].

(** src/host.rs:16-84 [RusbUsbHostInterfaceHandler::handle_urb] *)
Definition rusb_intf_handle_urb (h : hostdev) (_ : interface) (ep : endpoint) (tbl : N)
    (s : setup_packet) (req : bytes) : call_result hostdev :=
  if ep_attributes ep =? ep_attr_val AControl then
    match ep_direction ep with
    | DIn => host_read h (ReadControl (s_request_type s) (s_request s) (s_value s)
                            (s_index s) tbl) tbl
    | DOut => host_write h (WriteControl (s_request_type s) (s_request s) (s_value s)
                              (s_index s) req)
    end
  else if ep_attributes ep =? ep_attr_val AInterrupt then
    match ep_direction ep with
    | DIn => host_read h (ReadInterrupt (ep_address ep) tbl) tbl
    | DOut => host_write h (WriteInterrupt (ep_address ep) req)
    end
  else if ep_attributes ep =? ep_attr_val ABulk then
    match ep_direction ep with
    | DIn => host_read h (ReadBulk (ep_address ep) tbl) tbl
    | DOut => host_write h (WriteBulk (ep_address ep) req)
    end
  else CallOk h [].

(** src/host.rs:86-88 and 227-229 [get_class_specific_descriptor] *)
Definition host_csd (_ : hostdev) : bytes := [].

(** src/host.rs:107-145 [RusbUsbHostDeviceHandler::handle_urb] *)
Definition rusb_dev_handle_urb (h : hostdev) (tbl : N) (s : setup_packet) (req : bytes)
    : call_result hostdev :=
  if N.land (s_request_type s) 128 =? 0
  then host_write h (WriteControl (s_request_type s) (s_request s) (s_value s)
                       (s_index s) req)
  else host_read h (ReadControl (s_request_type s) (s_request s) (s_value s)
                      (s_index s) tbl) tbl.

(** src/host.rs:189-194 and 268-273 *)
Definition nusb_type_of (request_type : N) : option nusb_type :=
  match N.land (N.shiftr request_type 5) 3 with
  | 0 => Some NStandard | 1 => Some NClass | 2 => Some NVendor | _ => None end.

(** src/host.rs:195-201 and 274-280 *)
Definition nusb_recipient_of (request_type : N) : option nusb_recipient :=
  match N.land request_type 31 with
  | 0 => Some NDevice | 1 => Some NInterface | 2 => Some NEndpoint | 3 => Some NOther
  | _ => None end.

(** src/host.rs:172-225 [NusbUsbHostInterfaceHandler::handle_urb]; the [Control]
    value is built first, so its [unimplemented!()]s apply to every transfer. *)
Definition nusb_intf_handle_urb (h : hostdev) (_ : interface) (ep : endpoint) (tbl : N)
    (s : setup_packet) (req : bytes) : call_result hostdev :=
  match nusb_type_of (s_request_type s), nusb_recipient_of (s_request_type s) with
  | Some t, Some r =>
      if ep_attributes ep =? ep_attr_val AControl then
        match ep_direction ep with
        | DIn => host_read h (NControlIn t r (s_request s) (s_value s) (s_index s) tbl) tbl
        | DOut => host_write h (NControlOut t r (s_request s) (s_value s) (s_index s) req)
        end
      else if ep_attributes ep =? ep_attr_val AInterrupt then CallPanic h PTodo
      else if ep_attributes ep =? ep_attr_val ABulk then CallPanic h PTodo
      else CallOk h []
  | _, _ => CallPanic h PUnimplemented
  end.

(** src/host.rs:256-302 [NusbUsbHostDeviceHandler::handle_urb] (not on Windows) *)
Definition nusb_dev_handle_urb (h : hostdev) (tbl : N) (s : setup_packet) (req : bytes)
    : call_result hostdev :=
  match nusb_type_of (s_request_type s), nusb_recipient_of (s_request_type s) with
  | Some t, Some r =>
      if N.land (s_request_type s) 128 =? 0
      then host_write h (NControlOut t r (s_request s) (s_value s) (s_index s) req)
      else host_read h (NControlIn t r (s_request s) (s_value s) (s_index s) tbl) tbl
  | _, _ => CallPanic h PUnimplemented
  end.

(** The same on Windows, where the transfers are compiled out (src/host.rs:286, 298-301). *)
Definition nusb_dev_handle_urb_windows (h : hostdev) (_ : N) (s : setup_packet) (_ : bytes)
    : call_result hostdev :=
  match nusb_type_of (s_request_type s), nusb_recipient_of (s_request_type s) with
  | Some _, Some _ => CallOk h []
  | _, _ => CallPanic h PUnimplemented
  end.

(** The handlers of a server that shares host devices: rusb, nusb, nusb on Windows. *)
Definition host_h istep dstep : handlers := mkHandlers hostdev hostdev istep host_csd dstep.
Definition rusb_h : handlers := host_h rusb_intf_handle_urb rusb_dev_handle_urb.
Definition nusb_h : handlers := host_h nusb_intf_handle_urb nusb_dev_handle_urb.
Definition nusb_windows_h : handlers := host_h nusb_intf_handle_urb nusb_dev_handle_urb_windows.
