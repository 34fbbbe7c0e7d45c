(** * Specification of sharing host devices *)
From Verif Require Export SpecTransfer SpecNames HostHandlers HostEnum.

(** ** Transfers *)

(** The libusb transfer an URB on endpoint [e] stands for: kind from the endpoint's
    attributes, direction from bit 7 of its address, everything else from the URB. *)
Inductive libusb_transfer (e : endpoint) (tbl : N) (s : setup_packet) (req : list N) : usb_call -> Prop :=
| lt_control_in : ep_attributes e = 0 -> in_ep e ->
    libusb_transfer e tbl s req (ReadControl (s_request_type s) (s_request s) (s_value s) (s_index s) tbl)
| lt_control_out : ep_attributes e = 0 -> ~ in_ep e ->
    libusb_transfer e tbl s req (WriteControl (s_request_type s) (s_request s) (s_value s) (s_index s) req)
| lt_bulk_in : ep_attributes e = 2 -> in_ep e ->
    libusb_transfer e tbl s req (ReadBulk (ep_address e) tbl)
| lt_bulk_out : ep_attributes e = 2 -> ~ in_ep e ->
    libusb_transfer e tbl s req (WriteBulk (ep_address e) req)
| lt_interrupt_in : ep_attributes e = 3 -> in_ep e ->
    libusb_transfer e tbl s req (ReadInterrupt (ep_address e) tbl)
| lt_interrupt_out : ep_attributes e = 3 -> ~ in_ep e ->
    libusb_transfer e tbl s req (WriteInterrupt (ep_address e) req).

(** Control requests sent to the device as a whole; direction from bmRequestType. *)
Inductive device_transfer (tbl : N) (s : setup_packet) (req : list N) : usb_call -> Prop :=
| dt_in : 128 <= s_request_type s mod 256 ->
    device_transfer tbl s req (ReadControl (s_request_type s) (s_request s) (s_value s) (s_index s) tbl)
| dt_out : s_request_type s mod 256 < 128 ->
    device_transfer tbl s req (WriteControl (s_request_type s) (s_request s) (s_value s) (s_index s) req).

(** bmRequestType: type in bits 5-6, recipient in bits 0-4. *)
Definition type_number (t : nusb_type) : N := match t with NStandard => 0 | NClass => 1 | NVendor => 2 end.
Definition recipient_number (r : nusb_recipient) : N :=
  match r with NDevice => 0 | NInterface => 1 | NEndpoint => 2 | NOther => 3 end.
Definition nusb_request (rt : N) (t : nusb_type) (r : nusb_recipient) : Prop :=
  rt / 32 mod 4 = type_number t /\ rt mod 32 = recipient_number r.

Inductive nusb_transfer (isin : bool) (tbl : N) (s : setup_packet) (req : list N) : usb_call -> Prop :=
| nt_in t r : isin = true -> nusb_request (s_request_type s) t r ->
    nusb_transfer isin tbl s req (NControlIn t r (s_request s) (s_value s) (s_index s) tbl)
| nt_out t r : isin = false -> nusb_request (s_request_type s) t r ->
    nusb_transfer isin tbl s req (NControlOut t r (s_request s) (s_value s) (s_index s) req).

Definition reading (c : usb_call) : option N :=
  match c with
  | ReadControl _ _ _ _ n | ReadInterrupt _ n | ReadBulk _ n | NControlIn _ _ _ _ _ n => Some n
  | _ => None
  end.
(** What the host answers to the next transfer. *)
Definition host_answers (h : hostdev) (c : usb_call) : option (list N) := hd_oracle h (hd_log h) c.
(** libusb's contract: a read never returns more than the buffer holds. *)
Definition respects_buffer (h : hostdev) : Prop :=
  forall log c n data, reading c = Some n -> hd_oracle h log c = Some data -> len data <= n.

(** The handler made transfer [c], and nothing else, and answered [out]. *)
Definition performs (h : hostdev) (c : usb_call) (r : call_result hostdev) (out : list N) : Prop :=
  r = CallOk (mkHost (hd_log h ++ [c]) (hd_oracle h)) out.
(** The data a successful transfer yields: what was read, or nothing for a write. *)
Definition yields (h : hostdev) (c : usb_call) (out : list N) : Prop :=
  match reading c with
  | Some n => exists data, host_answers h c = Some data /\ out = data /\ len out <= n
  | None => out = []
  end.

(** ** Bus ids *)
Definition digit (c : N) : Prop := 48 <= c <= 57.
Definition numeral_value (s : rstring) : N := fold_left (fun v c => 10 * v + (c - 48)) s 0.
Definition numeral (s : rstring) (n : N) : Prop := s <> [] /\ Forall digit s /\ numeral_value s = n.
Definition bus_id_text (id : rstring) (bus address port : N) : Prop :=
  exists a b c, numeral a bus /\ numeral b address /\ numeral c port /\
    id = a ++ [45] ++ b ++ [45] ++ c.
(** A bus id that fits the request's 32-byte field. *)
Definition requestable (id : rstring) : Prop := len (utf8 id) <= 32 /\ 0 ∉ utf8 id.

(** ** Enumeration *)

Definition ep_reported (o : os_ep) (e : endpoint) : Prop :=
  ep_address e = he_address o /\ ep_attributes e = he_transfer_type o /\
  ep_max_packet_size e = he_max_packet_size o /\ ep_interval e = he_interval o.
(** The string index is the host's own, although the names of interfaces are not taken over. *)
Definition intf_reported (a : os_alt) (f : interface) : Prop :=
  if_class f = ha_class a /\ if_subclass f = ha_subclass a /\ if_protocol f = ha_protocol a /\
  if_string f = match ha_string_index a with Some i => i | None => 0 end /\
  Forall2 ep_reported (ha_endpoints a) (if_endpoints f).
(** Values that fit the fields of the USB descriptors. *)
Definition ep_sane (o : os_ep) : Prop := he_transfer_type o < 4 /\ he_max_packet_size o < 65536.

(** USB/IP gives the speeds the numbers of Linux's [enum usb_device_speed]: unknown 0, low 1,
    full 2, high 3, wireless 4, super 5, super plus 6. *)
Definition rusb_speed_code (s : rusb_speed) : N :=
  match s with RsUnknown => 0 | RsLow => 1 | RsFull => 2 | RsHigh => 3 | RsSuper => 5 | RsSuperPlus => 6 end.
Definition nusb_speed_code (s : nusb_speed) : N :=
  match s with NsLow => 1 | NsFull => 2 | NsHigh => 3 | NsSuper => 5 | NsSuperPlus => 6 end.
Definition rusb_superspeed (s : rusb_speed) : Prop := s = RsSuper \/ s = RsSuperPlus.

(** libusb: the name behind a string index, if it has one and it can be read. *)
Definition rusb_name (h : rusb_handle) (idx : option N) : option rstring :=
  match idx with Some i => rh_string h i | None => None end.
Definition name_readable (h : rusb_handle) (idx : option N) : Prop :=
  forall i, idx = Some i -> rh_string h i <> None.
(** USB 2.0 5.3.1.2: the control endpoints, one for each direction. *)
Record control_endpoints (d : device) (size : N) : Prop := mkCE {
  ce_addresses : ep_address (d_ep0_in d) = 128 /\ ep_address (d_ep0_out d) = 0;
  ce_types : ep_attributes (d_ep0_in d) = 0 /\ ep_attributes (d_ep0_out d) = 0;
  ce_sizes : ep_max_packet_size (d_ep0_in d) = size /\ ep_max_packet_size (d_ep0_out d) = size }.
(** No two interfaces, and no two devices, share a handler. *)
Definition separate_handlers (ds : list device) : Prop :=
  NoDup (if_handler <$> concat (d_interfaces <$> ds)) /\
  exists rs, d_handler <$> ds = Some <$> rs /\ NoDup rs.
Record rusb_reported (h : rusb_handle) (desc : rusb_desc) (cfg : rusb_cfg) (d : device) : Prop := mkRR {
  rr_bus_id : bus_id_text (d_bus_id d) (rh_bus h) (rh_address h) (rh_port h);
  rr_numbers : d_bus_num d = rh_bus h /\ d_dev_num d = rh_port h;
  rr_speed : ~ rusb_superspeed (rh_speed h) -> d_speed d = rusb_speed_code (rh_speed h);
  rr_ids : d_vendor_id d = rd_vendor desc /\ d_product_id d = rd_product desc;
  rr_class : d_class d = rd_class desc /\ d_subclass d = rd_subclass desc /\ d_protocol d = rd_protocol desc;
  rr_versions : (v_major (d_bcd d), v_minor (d_bcd d), v_patch (d_bcd d)) = rd_device_version desc /\
    (v_major (d_usb_version d), v_minor (d_usb_version d), v_patch (d_usb_version d)) = rd_usb_version desc;
  rr_conf : d_configuration_value d = rc_number cfg /\ d_num_configurations d = rd_num_configurations desc;
  rr_ep0 : control_endpoints d (rd_max_packet_size desc);
  rr_interfaces : Forall2 (fun o f => exists a, o = Some a /\ intf_reported a f /\ if_class_specific f = ha_extra a)
    (rc_interfaces cfg) (d_interfaces d);
  rr_names : names_string d (d_string_manufacturer d) (rusb_name h (rd_manufacturer_index desc)) /\
    names_string d (d_string_product d) (rusb_name h (rd_product_index desc)) /\
    names_string d (d_string_serial d) (rusb_name h (rd_serial_index desc)) /\
    names_string d (d_string_configuration d) None }.
Definition rusb_sane (h : rusb_handle) : Prop :=
  rh_bus h < 256 /\ rh_address h < 256 /\ rh_port h < 256 /\
  (forall desc, rh_desc h = Some desc -> rd_max_packet_size desc < 256) /\
  (forall cfg, rh_cfg h = Some cfg -> Forall (fun o => forall a, o = Some a -> Forall ep_sane (ha_endpoints a)) (rc_interfaces cfg)).
(** A described device whose interfaces and strings can all be read. *)
Definition rusb_complete (h : rusb_handle) (desc : rusb_desc) (cfg : rusb_cfg) : Prop :=
  Forall (fun o => o <> None) (rc_interfaces cfg) /\
  name_readable h (rd_manufacturer_index desc) /\ name_readable h (rd_product_index desc) /\
  name_readable h (rd_serial_index desc).
(** The devices that can be opened and described, in order. *)
Definition rusb_described (h : rusb_handle) : option (rusb_handle * rusb_desc * rusb_cfg) :=
  match rh_desc h, rh_cfg h with Some desc, Some cfg => Some (h, desc, cfg) | _, _ => None end.
Definition rusb_usable (ds : list (option rusb_handle)) : list (rusb_handle * rusb_desc * rusb_cfg) :=
  omap rusb_described (omap id ds).

(** nusb *)
Record nusb_reported (i : nusb_info) (o : nusb_open) (cfg : nusb_cfg) (d : device) : Prop := mkNR {
  nr_bus_id : bus_id_text (d_bus_id d) (ni_bus i) (ni_address i) 0;
  nr_bus_num : d_bus_num d = ni_bus i;
  nr_ids : d_vendor_id d = ni_vendor i /\ d_product_id d = ni_product i;
  nr_class : d_class d = ni_class i /\ d_subclass d = ni_subclass i /\ d_protocol d = ni_protocol i;
  nr_version : ni_bcd i < 65536 -> v_major (d_bcd d) = ni_bcd i / 256 /\
    v_minor (d_bcd d) = ni_bcd i / 16 mod 16 /\ v_patch (d_bcd d) = ni_bcd i mod 16;
  nr_conf : d_configuration_value d = nc_value cfg /\ d_num_configurations d = no_num_configurations o;
  nr_interfaces : Forall2 (fun o f => exists a, o = Some (Some a) /\ intf_reported a f)
    (nc_interfaces cfg) (d_interfaces d);
  nr_names : names_string d (d_string_manufacturer d) (ni_manufacturer i) /\
    names_string d (d_string_product d) (ni_product_string i) /\
    names_string d (d_string_serial d) (ni_serial i) /\
    names_string d (d_string_configuration d) None }.
(** What the nusb path does not take over from the host: the device number, the speed (C83), the USB version, the
    packet size of endpoint 0, and the class-specific bytes of the interfaces. *)
Record nusb_lost (d : device) : Prop := mkNL {
  nl_dev_num : d_dev_num d = 0;
  nl_usb_version : v_major (d_usb_version d) = 0 /\ v_minor (d_usb_version d) = 0 /\ v_patch (d_usb_version d) = 0;
  nl_ep0 : control_endpoints d 16;
  nl_class_specific : Forall (fun f => if_class_specific f = []) (d_interfaces d) }.
Definition nusb_sane (i : nusb_info) : Prop :=
  ni_bus i < 256 /\ ni_address i < 256 /\
  forall o cfg, ni_open i = Some o -> no_cfg o = Some cfg -> no_num_configurations o < 256 /\
    Forall (fun x => forall a, x = Some (Some a) -> Forall ep_sane (ha_endpoints a)) (nc_interfaces cfg).
Definition nusb_complete (i : nusb_info) (cfg : nusb_cfg) : Prop :=
  Forall (fun o => exists a, o = Some (Some a)) (nc_interfaces cfg) /\ ni_speed i <> None.
Definition nusb_described (i : nusb_info) : option (nusb_info * nusb_open * nusb_cfg) :=
  match ni_open i with
  | Some o => match no_cfg o with Some cfg => Some (i, o, cfg) | None => None end
  | None => None
  end.
Definition nusb_usable (is : list nusb_info) : list (nusb_info * nusb_open * nusb_cfg) :=
  omap nusb_described is.

(** ** On the wire *)
Definition host_of {i d} (w : world (host_h i d)) (t : target) : hostdev :=
  match t with TIntf f => c_state (w_intf w (if_handler f)) | TDev r => c_state (w_dev w r) end.
(** Exactly the transfer [c] was made, on the target's device, between the two worlds. *)
Definition forwarded {i d} (w w' : world (host_h i d)) (t : target) (c : usb_call) : Prop :=
  hd_log (host_of w' t) = hd_log (host_of w t) ++ [c] /\ hd_oracle (host_of w' t) = hd_oracle (host_of w t) /\
  (forall r, t <> TDev r -> w_dev w' r = w_dev w r) /\
  (forall r, (forall f, t = TIntf f -> if_handler f <> r) -> w_intf w' r = w_intf w r) /\ usable w' t.
(** No transfer at all. *)
Definition untouched {i d} (w w' : world (host_h i d)) : Prop :=
  (forall r, c_state (w_intf w' r) = c_state (w_intf w r)) /\ (forall r, c_state (w_dev w' r) = c_state (w_dev w r)).

(** What a filter with a memory lets through: the elements it says yes to, each asked about once
    and in order; its answer may depend on those it was asked about before. *)
Definition kept {A} (keep : list A -> A -> bool) (l : list A) : list A :=
  omap (fun i => match l !! i with Some x => if keep (take i l) x then Some x else None | None => None end) (seq 0 (length l)).
