(** * UsbDevice::handle_urb (src/device.rs:278-528) *)
From Verif Require Export Device.

(** "requested len too short" (src/device.rs:326-328 and five more copies):
    [if setup.length < desc.len() as u16 { desc.resize(setup.length as usize, 0) }] *)
Definition limit_to (wlength : N) (desc : bytes) : bytes :=
  if wlength <? as_u16 (len desc) then vec_resize wlength desc else desc.

(** src/device.rs:304-323 *)
Definition device_descriptor (d : device) : bytes :=
  [ 18; desc_type_val TDevice;
    v_minor (d_usb_version d); v_major (d_usb_version d);
    d_class d; d_subclass d; d_protocol d;
    as_u8 (ep_max_packet_size (d_ep0_in d));
    as_u8 (d_vendor_id d); as_u8 (N.shiftr (d_vendor_id d) 8);
    as_u8 (d_product_id d); as_u8 (N.shiftr (d_product_id d) 8);
    v_minor (d_bcd d); v_major (d_bcd d);
    d_string_manufacturer d; d_string_product d; d_string_serial d;
    d_num_configurations d ].

(** src/device.rs:333-338 *)
Definition bos_descriptor : bytes := [5; desc_type_val TBOS; 5; 0; 0].

(** src/device.rs:376-384 *)
Definition endpoint_descriptor (e : endpoint) : bytes :=
  [ 7; desc_type_val TEndpoint; ep_address e; ep_attributes e;
    as_u8 (ep_max_packet_size e); as_u8 (N.shiftr (ep_max_packet_size e) 8);
    ep_interval e ].

(** src/device.rs:360-386: interface [i], its class-specific bytes, its endpoints. *)
Definition interface_descriptor (i : N) (f : interface) : bytes :=
  [ 9; desc_type_val TInterface; as_u8 i; 0; as_u8 (len (if_endpoints f));
    if_class f; if_subclass f; if_protocol f; if_string f ]
  ++ if_class_specific f
  ++ mjoin (endpoint_descriptor <$> if_endpoints f).

(** src/device.rs:359-388: [for (i, intf) in self.interfaces.iter().enumerate()] *)
Fixpoint interface_descriptors (i : N) (fs : list interface) : bytes :=
  match fs with
  | [] => []
  | f :: fs' => interface_descriptor i f ++ interface_descriptors (i + 1) fs'
  end.

(** src/device.rs:348-392; [desc[2]] and [desc[3]] are overwritten at the end with
    the low and high byte of [desc.len() as u16]. *)
Definition configuration_descriptor (d : device) : bytes :=
  let body := interface_descriptors 0 (d_interfaces d) in
  let total := as_u16 (9 + len body) in
  [ 9; desc_type_val TConfiguration; as_u8 total; as_u8 (N.shiftr total 8);
    as_u8 (len (d_interfaces d)); d_configuration_value d; d_string_configuration d;
    128; 50 ] ++ body.

(** src/device.rs:405-410 *)
Definition language_descriptor : bytes := [4; desc_type_val TString; 9; 4].

(** src/device.rs:419: [2 + bytes.len() as u8 * 2], with overflow checks in a debug
    build and wrap-around in a release build ([as] binds tighter than [*]). *)
Definition string_blength (dbg : bool) (units : N) : outcome N :=
  let m := as_u8 units * 2 in
  if dbg && (256 <=? m) then Panic POverflow
  else let m := as_u8 m in
       if dbg && (256 <=? 2 + m) then Panic POverflow else Val (as_u8 (2 + m)).

(** src/device.rs:417-425 *)
Definition string_descriptor (dbg : bool) (s : rstring) : outcome bytes :=
  let units := utf16 s in
  obind (string_blength dbg (len units)) (fun l =>
  Val (l :: desc_type_val TString
       :: mjoin ((fun u => [as_u8 u; as_u8 (N.shiftr u 8)]) <$> units))).

(** src/device.rs:441-452 *)
Definition qualifier_descriptor (d : device) : bytes :=
  [ 10; desc_type_val TDeviceQualifier;
    v_minor (d_usb_version d); v_major (d_usb_version d);
    d_class d; d_subclass d; d_protocol d;
    as_u8 (ep_max_packet_size (d_ep0_in d)); d_num_configurations d; 0 ].

(** src/device.rs:299-465: GET_DESCRIPTOR answered by the library itself.
    [Some(Device)] etc. come from [FromPrimitive::from_u16(value >> 8)]. *)
Definition get_descriptor (dbg : bool) (d : device) (s : setup_packet) : urb_result :=
  match desc_type_of (N.shiftr (s_value s) 8) with
  | Some TDevice => UOk (limit_to (s_length s) (device_descriptor d))
  | Some TBOS => UOk (limit_to (s_length s) bos_descriptor)
  | Some TConfiguration => UOk (limit_to (s_length s) (configuration_descriptor d))
  | Some TString =>
      let index := as_u8 (s_value s) in
      if index =? 0 then UOk (limit_to (s_length s) language_descriptor)
      else match d_string_pool d !! index with
           | Some str => match string_descriptor dbg str with
                         | Val desc => UOk (limit_to (s_length s) desc)
                         | Panic p => UPanic p
                         | Diverge => UPanic PCustom (* never: string_descriptor terminates *)
                         end
           | None => UErr (EInvalidString index)
           end
  | Some TDeviceQualifier => UOk (limit_to (s_length s) (qualifier_descriptor d))
  | _ => UOk []
  end.

(** src/device.rs:466-481 and 502-517: the arms shared by control IN and control
    OUT.  [self.interfaces[setup_packet.index as usize & 0xFF]] panics when out of
    range. *)
Definition control_dispatch {H} (w : world H) (d : device) (ep : endpoint) (tbl : N)
    (s : setup_packet) (req : bytes) : urb_result * world H :=
  if N.land (s_request_type s) 15 =? 1 then
    match d_interfaces d !! N.to_nat (N.land (s_index s) 255) with
    | None => (UPanic PIndex, w)
    | Some f => call_intf w (if_handler f) f ep tbl s req
    end
  else match N.land (s_request_type s) 15 =? 0, d_handler d with
       | true, Some r => call_dev w r tbl s req
       | _, _ => (UPanic PUnimplemented, w)
       end.

(** src/device.rs:278-528 [handle_urb].  Logging is not modelled. *)
Definition handle_urb {H} (dbg : bool) (w : world H) (d : device) (ep : endpoint)
    (intf : option interface) (tbl : N) (s : setup_packet) (out_data : bytes)
    : urb_result * world H :=
  match ep_attr_of (ep_attributes ep), ep_direction ep with
  | Some AControl, DIn =>
      match s_request_type s =? 128, std_request_of (s_request s) with
      | true, Some GetDescriptor => (get_descriptor dbg d s, w)
      | _, _ => control_dispatch w d ep tbl s out_data
      end
  | Some AControl, DOut =>
      match s_request_type s =? 0, std_request_of (s_request s) with
      | true, Some SetConfiguration => (UOk (limit_to (s_length s) [d_configuration_value d]), w)
      | _, _ => control_dispatch w d ep tbl s out_data
      end
  | Some _, _ =>
      match intf with
      | None => (UPanic PUnwrapNone, w)
      | Some f => call_intf w (if_handler f) f ep tbl s out_data
      end
  | None, _ => (UPanic PUnimplemented, w)
  end.
