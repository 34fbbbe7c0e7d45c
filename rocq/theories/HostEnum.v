(** * Building devices from host devices (src/lib.rs:57-354)

    What libusb/nusb report about a device is the input of the model; [option]
    marks every call that can fail. *)
From Verif Require Export Device.
Require Import Coq.Strings.String.

(** ** Decimal formatting, [format!("{}", n)] *)
Fixpoint fmt_dec_fuel (fuel : nat) (n : N) : rstring :=
  match fuel with
  | O => []
  | S f => if n <? 10 then [48 + n] else fmt_dec_fuel f (n / 10) ++ [48 + n mod 10]
  end.
(** The number of binary digits bounds the number of decimal digits. *)
Definition fmt_dec (n : N) : rstring := fmt_dec_fuel (S (N.size_nat n)) n.

(** src/lib.rs:113-118, 239-244 *)
Definition host_path (a b c : N) : rstring :=
  lit "/sys/bus/" ++ fmt_dec a ++ lit "/" ++ fmt_dec b ++ lit "/" ++ fmt_dec c.
(** src/lib.rs:119-124, 245-250 *)
Definition host_bus_id (a b c : N) : rstring :=
  fmt_dec a ++ lit "-" ++ fmt_dec b ++ lit "-" ++ fmt_dec c.

(** ** What the host reports *)

Record os_ep := mkHostEp {
  he_address : N; he_transfer_type : N; he_max_packet_size : N; he_interval : N }.

(** The first alternate setting of an interface, with the interface's number (bInterfaceNumber).
    The number is only used to claim the interface (src/lib.rs:84-85, nusb); neither enumeration
    keeps it. *)
Record os_alt := mkHostAlt {
  ha_number : N; ha_class : N; ha_subclass : N; ha_protocol : N;
  ha_endpoints : list os_ep;
  ha_string_index : option N;
  ha_extra : bytes }.

(** rusb::Speed and nusb::Speed, as the documentation of rusb 0.9 and nusb 0.1 lists them; neither
    gives its variants numbers, so they count from 0.  (The libraries are not part of the
    repository: this numbering is trusted.) *)
Inductive rusb_speed := RsUnknown | RsLow | RsFull | RsHigh | RsSuper | RsSuperPlus.
Definition rusb_speed_val (s : rusb_speed) : N :=
  match s with RsUnknown => 0 | RsLow => 1 | RsFull => 2 | RsHigh => 3 | RsSuper => 4 | RsSuperPlus => 5 end.
Inductive nusb_speed := NsLow | NsFull | NsHigh | NsSuper | NsSuperPlus.
Definition nusb_speed_val (s : nusb_speed) : N :=
  match s with NsLow => 0 | NsFull => 1 | NsHigh => 2 | NsSuper => 3 | NsSuperPlus => 4 end.

(** rusb::DeviceDescriptor *)
Record rusb_desc := mkRusbDesc {
  rd_vendor : N; rd_product : N; rd_class : N; rd_subclass : N; rd_protocol : N;
  rd_device_version : N * N * N; rd_usb_version : N * N * N;
  rd_num_configurations : N; rd_max_packet_size : N;
  rd_manufacturer_index : option N; rd_product_index : option N;
  rd_serial_index : option N }.

(** rusb::ConfigDescriptor; [None] for an interface without descriptors. *)
Record rusb_cfg := mkRusbCfg { rc_number : N; rc_interfaces : list (option os_alt) }.

(** An opened rusb::DeviceHandle. *)
Record rusb_handle := mkRusbHandle {
  rh_bus : N; rh_address : N; rh_port : N; rh_speed : rusb_speed;
  rh_desc : option rusb_desc;
  rh_cfg : option rusb_cfg;
  rh_string : N -> option rstring }.      (* read_string_descriptor_ascii *)

Definition rusb_endpoint (e : os_ep) : endpoint :=
  mkEndpoint (he_address e) (as_u8 (he_transfer_type e)) (he_max_packet_size e) (he_interval e).

(** src/lib.rs:205-237.  Every interface gets a fresh [Arc] for its handler;
    [next] is the first unused handler name. *)
Fixpoint rusb_interfaces (next : href) (is : list (option os_alt)) : outcome (list interface) :=
  match is with
  | [] => Val []
  | None :: _ => Panic PUnwrapNone
  | Some a :: is' =>
      obind (rusb_interfaces (next + 1) is') (fun r =>
      Val (mkInterface (ha_class a) (ha_subclass a) (ha_protocol a)
             (rusb_endpoint <$> ha_endpoints a)
             (default 0 (ha_string_index a)) (ha_extra a) next :: r))
  end.

(** src/lib.rs:283-291 etc.: read a string from the device and add it to the pool. *)
Definition rusb_add_string (dbg : bool) (h : rusb_handle) (idx : option N) (d : device)
    : outcome (N * device) :=
  match idx with
  | None => Val (0, d)
  | Some i => match rh_string h i with
              | None => Panic PUnwrapErr
              | Some s => new_string dbg d s
              end
  end.

(** src/lib.rs:238-310: one device; [dh] names the device handler's cell. *)
Definition rusb_device (dbg : bool) (h : rusb_handle) (desc : rusb_desc) (cfg : rusb_cfg)
    (next dh : href) : outcome device :=
  obind (rusb_interfaces next (rc_interfaces cfg)) (fun is =>
  let ep0 addr := mkEndpoint addr (ep_attr_val AControl) (as_u16 (rd_max_packet_size desc)) 0 in
  let d0 := mkDevice (host_path (rh_bus h) (rh_address h) (rh_port h))
    (host_bus_id (rh_bus h) (rh_address h) (rh_port h))
    (rh_bus h) (rh_port h) (rusb_speed_val (rh_speed h)) (rd_vendor desc) (rd_product desc)
    (version_of_rusb (rd_device_version desc))
    (rd_class desc) (rd_subclass desc) (rd_protocol desc)
    (rc_number cfg) (rd_num_configurations desc) is (Some dh)
    (version_of_rusb (rd_usb_version desc)) (ep0 128) (ep0 0) ∅ 0 0 0 0 in
  obind (rusb_add_string dbg h (rd_manufacturer_index desc) d0) (fun '(m, d1) =>
  obind (rusb_add_string dbg h (rd_product_index desc) d1) (fun '(p, d2) =>
  obind (rusb_add_string dbg h (rd_serial_index desc) d2) (fun '(s, d3) =>
  Val (with_string_refs d3 0 m p s))))).

(** src/lib.rs:171-313 [with_rusb_device_handles] *)
Fixpoint with_rusb_device_handles (dbg : bool) (hs : list rusb_handle) (next dh : href)
    : outcome (list device) :=
  match hs with
  | [] => Val []
  | h :: hs' =>
      match rh_desc h, rh_cfg h with
      | Some desc, Some cfg =>
          obind (rusb_device dbg h desc cfg next dh) (fun d =>
          obind (with_rusb_device_handles dbg hs' (next + len (rc_interfaces cfg)) (dh + 1))
            (fun ds => Val (d :: ds)))
      | _, _ => with_rusb_device_handles dbg hs' next dh
      end
  end.

(** src/lib.rs:315-329 [with_rusb_devices]: [None] for a device that cannot be opened. *)
Definition with_rusb_devices (dbg : bool) (ds : list (option rusb_handle)) : outcome (list device) :=
  with_rusb_device_handles dbg (omap id ds) 0 0.

(** [list.iter().filter(filter)] with an [FnMut] filter: its answer may depend on the devices it
    has been asked about before, [seen].  A filter that panics is not modelled. *)
Fixpoint filter_mut {A} (keep : list A -> A -> bool) (seen l : list A) : list A :=
  match l with
  | [] => []
  | x :: l' => let r := filter_mut keep (seen ++ [x]) l' in if keep seen x then x :: r else r
  end.

(** src/lib.rs:337-354 [new_from_host_with_filter]: the available devices of the
    resulting server; [None] when libusb cannot list devices. *)
Definition new_from_host_with_filter (dbg : bool) (keep : list (option rusb_handle) -> option rusb_handle -> bool)
    (list : option (list (option rusb_handle))) : outcome (Datatypes.list device) :=
  match list with
  | Some l => with_rusb_devices dbg (filter_mut keep [] l)
  | None => Val []
  end.

(** src/lib.rs:332-334 [new_from_host] *)
Definition new_from_host (dbg : bool) (list : option (list (option rusb_handle)))
    : outcome (Datatypes.list device) :=
  new_from_host_with_filter dbg (fun _ _ => true) list.

(** ** nusb *)

(** nusb::Device with its active configuration; an interface is [None] when
    claiming it fails and [Some None] when it has no descriptors. *)
Record nusb_cfg := mkNusbCfg {
  nc_value : N; nc_interfaces : list (option (option os_alt)) }.
Record nusb_open := mkNusbOpen {
  no_cfg : option nusb_cfg; no_num_configurations : N }.
(** nusb::DeviceInfo *)
Record nusb_info := mkNusbInfo {
  ni_bus : N; ni_address : N; ni_speed : option nusb_speed;
  ni_vendor : N; ni_product : N; ni_class : N; ni_subclass : N; ni_protocol : N;
  ni_bcd : N;
  ni_manufacturer : option rstring; ni_product_string : option rstring;
  ni_serial : option rstring;
  ni_open : option nusb_open }.

Definition nusb_endpoint (e : os_ep) : endpoint :=
  mkEndpoint (he_address e) (as_u8 (he_transfer_type e)) (as_u16 (he_max_packet_size e))
    (he_interval e).

(** src/lib.rs:82-111 *)
Fixpoint nusb_interfaces (next : href) (is : list (option (option os_alt)))
    : outcome (list interface) :=
  match is with
  | [] => Val []
  | None :: _ => Panic PUnwrapErr
  | Some None :: _ => Panic PUnwrapNone
  | Some (Some a) :: is' =>
      obind (nusb_interfaces (next + 1) is') (fun r =>
      Val (mkInterface (ha_class a) (ha_subclass a) (ha_protocol a)
             (nusb_endpoint <$> ha_endpoints a)
             (default 0 (ha_string_index a)) [] next :: r))
  end.

Definition nusb_add_string (dbg : bool) (s : option rstring) (d : device) : outcome (N * device) :=
  match s with None => Val (0, d) | Some s => new_string dbg d s end.

(** src/lib.rs:112-165 *)
Definition nusb_device (dbg : bool) (i : nusb_info) (o : nusb_open) (cfg : nusb_cfg)
    (next dh : href) : outcome device :=
  obind (nusb_interfaces next (nc_interfaces cfg)) (fun is =>
  match ni_speed i with
  | None => Panic PUnwrapNone
  | Some speed =>
  let ep0 addr := mkEndpoint addr (ep_attr_val AControl) 16 0 in
  let d0 := mkDevice (host_path (ni_bus i) (ni_address i) 0)
    (host_bus_id (ni_bus i) (ni_address i) 0)
    (ni_bus i) 0 (nusb_speed_val speed) (ni_vendor i) (ni_product i)
    (version_of_bcd (ni_bcd i)) (ni_class i) (ni_subclass i) (ni_protocol i)
    (nc_value cfg) (as_u8 (no_num_configurations o)) is (Some dh)
    default_version (ep0 128) (ep0 0) ∅ 0 0 0 0 in
  obind (nusb_add_string dbg (ni_manufacturer i) d0) (fun '(m, d1) =>
  obind (nusb_add_string dbg (ni_product_string i) d1) (fun '(p, d2) =>
  obind (nusb_add_string dbg (ni_serial i) d2) (fun '(s, d3) =>
  Val (with_string_refs d3 0 m p s))))
  end).

(** src/lib.rs:58-168 [with_nusb_devices] *)
Fixpoint with_nusb_devices (dbg : bool) (is : list nusb_info) (next dh : href)
    : outcome (list device) :=
  match is with
  | [] => Val []
  | i :: is' =>
      match ni_open i with
      | Some o =>
          match no_cfg o with
          | Some cfg =>
              obind (nusb_device dbg i o cfg next dh) (fun d =>
              obind (with_nusb_devices dbg is' (next + len (nc_interfaces cfg)) (dh + 1))
                (fun ds => Val (d :: ds)))
          | None => with_nusb_devices dbg is' next dh
          end
      | None => with_nusb_devices dbg is' next dh
      end
  end.
