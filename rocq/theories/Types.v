(** * Data types of the library *)
From Verif Require Export Utf.

(** src/device.rs:4-10 [Version] *)
Record version := mkVersion { v_major : N; v_minor : N; v_patch : N }.

(** src/device.rs:29-37 [From<u16> for Version] (bcd half-word). *)
Definition version_of_bcd (value : N) : version :=
  mkVersion (as_u8 (N.shiftr value 8))
            (as_u8 (N.land (N.shiftr value 4) 15))
            (as_u8 (N.land value 15)).

(** src/device.rs:12-26: conversions between [Version] and [rusb::Version];
    the latter is the same triple. *)
Definition version_of_rusb (v : N * N * N) : version :=
  let '(a, b, c) := v in mkVersion a b c.
Definition version_to_rusb (v : version) : N * N * N :=
  (v_major v, v_minor v, v_patch v).

(** src/endpoint.rs:6-15 [UsbEndpoint] *)
Record endpoint := mkEndpoint {
  ep_address : N; ep_attributes : N; ep_max_packet_size : N; ep_interval : N }.

(** rusb::Direction *)
Inductive direction := DIn | DOut.

(** src/endpoint.rs:19-25 [UsbEndpoint::direction] *)
Definition ep_direction (e : endpoint) : direction :=
  if negb (N.land (ep_address e) 128 =? 0) then DIn else DOut.

(** src/endpoint.rs:28-30 [UsbEndpoint::is_ep0] *)
Definition is_ep0 (e : endpoint) : bool := N.land (ep_address e) 127 =? 0.

(** Handlers are reached through [Arc<Mutex<..>>]; the model names the shared
    cell by a number.  Cloning an [Arc] keeps the name. *)
Notation href := N (only parsing).

(** src/interface.rs:6-16 [UsbInterface] *)
Record interface := mkInterface {
  if_class : N; if_subclass : N; if_protocol : N;
  if_endpoints : list endpoint;
  if_string : N;
  if_class_specific : bytes;
  if_handler : href }.

(** src/device.rs:42-71 [UsbDevice].  [string_pool : HashMap<u8, String>]. *)
Record device := mkDevice {
  d_path : rstring;
  d_bus_id : rstring;
  d_bus_num : N;
  d_dev_num : N;
  d_speed : N;
  d_vendor_id : N;
  d_product_id : N;
  d_bcd : version;
  d_class : N;
  d_subclass : N;
  d_protocol : N;
  d_configuration_value : N;
  d_num_configurations : N;
  d_interfaces : list interface;
  d_handler : option href;
  d_usb_version : version;
  d_ep0_in : endpoint;
  d_ep0_out : endpoint;
  d_string_pool : gmap N rstring;
  d_string_configuration : N;
  d_string_manufacturer : N;
  d_string_product : N;
  d_string_serial : N }.

(** src/setup.rs:7-18 [SetupPacket] *)
Record setup_packet := mkSetup {
  s_request_type : N; s_request : N; s_value : N; s_index : N; s_length : N }.

(** src/setup.rs:22-30 [SetupPacket::parse].  [&[u8; 8]] is modelled by a list;
    the type guarantees 8 elements, [nth] with default 0 is only relevant
    for lists that are not 8 bytes long. *)
Definition setup_parse (s : bytes) : setup_packet :=
  let b i := nth i s 0 in
  mkSetup (b 0%nat) (b 1%nat)
    (N.lor (as_u16 (N.shiftl (b 3%nat) 8)) (b 2%nat))
    (N.lor (as_u16 (N.shiftl (b 5%nat) 8)) (b 4%nat))
    (N.lor (as_u16 (N.shiftl (b 7%nat) 8)) (b 6%nat)).

(** src/consts.rs:6-14 [UsbSpeed] *)
Inductive usb_speed := SpUnknown | SpLow | SpFull | SpHigh | SpWireless | SpSuper | SpSuperPlus.
Definition usb_speed_val (s : usb_speed) : N :=
  match s with SpUnknown => 0 | SpLow => 1 | SpFull => 2 | SpHigh => 3
             | SpWireless => 4 | SpSuper => 5 | SpSuperPlus => 6 end.

(** src/consts.rs:48-53 [EndpointAttributes] and its derived [FromPrimitive]. *)
Inductive ep_attr := AControl | AIsochronous | ABulk | AInterrupt.
Definition ep_attr_val (a : ep_attr) : N :=
  match a with AControl => 0 | AIsochronous => 1 | ABulk => 2 | AInterrupt => 3 end.
Definition ep_attr_of (n : N) : option ep_attr :=
  match n with 0 => Some AControl | 1 => Some AIsochronous | 2 => Some ABulk
             | 3 => Some AInterrupt | _ => None end.

(** src/consts.rs:60 *)
Definition EP0_MAX_PACKET_SIZE : N := 64.

(** src/consts.rs:66-78 [StandardRequest] and its derived [FromPrimitive]. *)
Inductive std_request :=
| GetStatus | ClearFeature | SetFeature | SetAddress | GetDescriptor | SetDescriptor
| GetConfiguration | SetConfiguration | GetInterface | SetInterface | SynchFrame.
Definition std_request_of (n : N) : option std_request :=
  match n with
  | 0 => Some GetStatus | 1 => Some ClearFeature | 3 => Some SetFeature
  | 5 => Some SetAddress | 6 => Some GetDescriptor | 7 => Some SetDescriptor
  | 8 => Some GetConfiguration | 9 => Some SetConfiguration | 10 => Some GetInterface
  | 11 => Some SetInterface | 12 => Some SynchFrame | _ => None end.

(** src/consts.rs:84-97 [DescriptorType] and its derived [FromPrimitive]. *)
Inductive desc_type :=
| TDevice | TConfiguration | TString | TInterface | TEndpoint | TDeviceQualifier
| TOtherSpeed | TInterfacePower | TOTG | TDebug | TInterfaceAssociation | TBOS.
Definition desc_type_val (t : desc_type) : N :=
  match t with
  | TDevice => 1 | TConfiguration => 2 | TString => 3 | TInterface => 4 | TEndpoint => 5
  | TDeviceQualifier => 6 | TOtherSpeed => 7 | TInterfacePower => 8 | TOTG => 9
  | TDebug => 10 | TInterfaceAssociation => 11 | TBOS => 15 end.
Definition desc_type_of (n : N) : option desc_type :=
  match n with
  | 1 => Some TDevice | 2 => Some TConfiguration | 3 => Some TString | 4 => Some TInterface
  | 5 => Some TEndpoint | 6 => Some TDeviceQualifier | 7 => Some TOtherSpeed
  | 8 => Some TInterfacePower | 9 => Some TOTG | 10 => Some TDebug
  | 11 => Some TInterfaceAssociation | 15 => Some TBOS | _ => None end.

(** src/hid.rs:166-170 [HidDescriptorType] and its derived [FromPrimitive]. *)
Inductive hid_desc_type := HHid | HReport | HPhysical.
Definition hid_desc_type_val (t : hid_desc_type) : N :=
  match t with HHid => 33 | HReport => 34 | HPhysical => 35 end.
Definition hid_desc_type_of (n : N) : option hid_desc_type :=
  match n with 33 => Some HHid | 34 => Some HReport | 35 => Some HPhysical | _ => None end.
