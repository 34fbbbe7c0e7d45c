(** * Code tables of the standards, written down from the standards *)
From Verif Require Export Prog.
From Coq Require Strings.String.
Import Strings.String.StringSyntax.
Local Open Scope string_scope.
Notation name := Strings.String.string.

(** USB-IF, Defined Class Codes. *)
Definition usb_if_classes : list (name * N) := [
  ("Use class information in the Interface Descriptors", 0x00); ("Audio", 0x01); ("Communications and CDC Control", 0x02);
  ("HID", 0x03); ("Physical", 0x05); ("Image", 0x06); ("Printer", 0x07); ("Mass Storage", 0x08); ("Hub", 0x09);
  ("CDC-Data", 0x0A); ("Smart Card", 0x0B); ("Content Security", 0x0D); ("Video", 0x0E); ("Personal Healthcare", 0x0F);
  ("Audio/Video Devices", 0x10); ("Billboard Device Class", 0x11); ("USB Type-C Bridge Class", 0x12);
  ("Diagnostic Device", 0xDC); ("Wireless Controller", 0xE0); ("Miscellaneous", 0xEF); ("Application Specific", 0xFE);
  ("Vendor Specific", 0xFF)].
Definition class_name (c : class_code) : name :=
  match c with
  | ClSeeInterface => "Use class information in the Interface Descriptors" | ClAudio => "Audio"
  | ClCDC => "Communications and CDC Control" | ClHID => "HID" | ClPhysical => "Physical" | ClImage => "Image"
  | ClPrinter => "Printer" | ClMassStorage => "Mass Storage" | ClHub => "Hub" | ClCDCData => "CDC-Data"
  | ClSmartCard => "Smart Card" | ClContentSecurity => "Content Security" | ClVideo => "Video"
  | ClPersonalHealthcare => "Personal Healthcare" | ClAudioVideo => "Audio/Video Devices"
  | ClBillboard => "Billboard Device Class" | ClTypeCBridge => "USB Type-C Bridge Class" | ClDiagnostic => "Diagnostic Device"
  | ClWirelessController => "Wireless Controller" | ClMisc => "Miscellaneous" | ClApplicationSpecific => "Application Specific"
  | ClVendorSpecific => "Vendor Specific"
  end.

(** USB 2.0, Table 9-4, standard request codes. *)
Definition usb_requests : list (name * N) := [
  ("GET_STATUS", 0); ("CLEAR_FEATURE", 1); ("SET_FEATURE", 3); ("SET_ADDRESS", 5); ("GET_DESCRIPTOR", 6);
  ("SET_DESCRIPTOR", 7); ("GET_CONFIGURATION", 8); ("SET_CONFIGURATION", 9); ("GET_INTERFACE", 10);
  ("SET_INTERFACE", 11); ("SYNCH_FRAME", 12)].
Definition request_name (r : std_request) : name :=
  match r with
  | GetStatus => "GET_STATUS" | ClearFeature => "CLEAR_FEATURE" | SetFeature => "SET_FEATURE"
  | SetAddress => "SET_ADDRESS" | GetDescriptor => "GET_DESCRIPTOR" | SetDescriptor => "SET_DESCRIPTOR"
  | GetConfiguration => "GET_CONFIGURATION" | SetConfiguration => "SET_CONFIGURATION"
  | GetInterface => "GET_INTERFACE" | SetInterface => "SET_INTERFACE" | SynchFrame => "SYNCH_FRAME"
  end.

(** USB 2.0, Table 9-5 with the OTG, debug, interface association and BOS additions, descriptor types. *)
Definition usb_descriptor_types : list (name * N) := [
  ("DEVICE", 1); ("CONFIGURATION", 2); ("STRING", 3); ("INTERFACE", 4); ("ENDPOINT", 5); ("DEVICE_QUALIFIER", 6);
  ("OTHER_SPEED_CONFIGURATION", 7); ("INTERFACE_POWER", 8); ("OTG", 9); ("DEBUG", 10); ("INTERFACE_ASSOCIATION", 11);
  ("BOS", 15)].
Definition descriptor_name (t : desc_type) : name :=
  match t with
  | TDevice => "DEVICE" | TConfiguration => "CONFIGURATION" | TString => "STRING" | TInterface => "INTERFACE"
  | TEndpoint => "ENDPOINT" | TDeviceQualifier => "DEVICE_QUALIFIER" | TOtherSpeed => "OTHER_SPEED_CONFIGURATION"
  | TInterfacePower => "INTERFACE_POWER" | TOTG => "OTG" | TDebug => "DEBUG"
  | TInterfaceAssociation => "INTERFACE_ASSOCIATION" | TBOS => "BOS"
  end.

(** HID 1.11, 7.1, class descriptor types. *)
Definition hid_descriptor_types : list (name * N) := [("HID", 0x21); ("Report", 0x22); ("Physical", 0x23)].
Definition hid_name (t : hid_desc_type) : name :=
  match t with HHid => "HID" | HReport => "Report" | HPhysical => "Physical" end.

(** USB 2.0, Table 9-13, bmAttributes bits 1..0. *)
Definition transfer_types : list (name * N) := [("Control", 0); ("Isochronous", 1); ("Bulk", 2); ("Interrupt", 3)].
Definition transfer_name (a : ep_attr) : name :=
  match a with AControl => "Control" | AIsochronous => "Isochronous" | ABulk => "Bulk" | AInterrupt => "Interrupt" end.

(** Linux, enum usb_device_speed (what USB/IP clients expect). *)
Definition linux_speeds : list (name * N) := [
  ("USB_SPEED_UNKNOWN", 0); ("USB_SPEED_LOW", 1); ("USB_SPEED_FULL", 2); ("USB_SPEED_HIGH", 3); ("USB_SPEED_WIRELESS", 4);
  ("USB_SPEED_SUPER", 5); ("USB_SPEED_SUPER_PLUS", 6)].
Definition speed_name (s : usb_speed) : name :=
  match s with
  | SpUnknown => "USB_SPEED_UNKNOWN" | SpLow => "USB_SPEED_LOW" | SpFull => "USB_SPEED_FULL" | SpHigh => "USB_SPEED_HIGH"
  | SpWireless => "USB_SPEED_WIRELESS" | SpSuper => "USB_SPEED_SUPER" | SpSuperPlus => "USB_SPEED_SUPER_PLUS"
  end.
(** Linux, drivers/usb/usbip/usbip_common.h and tools/usb/usbip/src/usbip_network.h: the protocol numbers. *)
Definition usbip_numbers : list (name * N) := [
  ("USBIP_VERSION", 0x0111); ("OP_REQ_DEVLIST", 0x8005); ("OP_REP_DEVLIST", 0x0005); ("OP_REQ_IMPORT", 0x8003);
  ("OP_REP_IMPORT", 0x0003); ("USBIP_CMD_SUBMIT", 1); ("USBIP_CMD_UNLINK", 2); ("USBIP_RET_SUBMIT", 3);
  ("USBIP_RET_UNLINK", 4); ("USBIP_DIR_OUT", 0); ("USBIP_DIR_IN", 1)].

(** [decode] finds exactly the codes of [table], under their names. *)
Definition decodes {A} (table : list (name * N)) (nm : A -> name) (decode : N -> option A) : Prop :=
  forall n a, decode n = Some a <-> (nm a, n) ∈ table.
(** [code] assigns every name the number of [table], and no number twice. *)
Definition numbers {A} (table : list (name * N)) (nm : A -> name) (code : A -> N) : Prop :=
  (forall a, (nm a, code a) ∈ table) /\ (forall x, x ∈ table -> exists a, nm a = x.1) /\
  (forall a b, code a = code b -> a = b).
