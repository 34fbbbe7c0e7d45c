(** * Specification: the descriptors of a real USB device, and what the host libraries show of them

    USB 2.0 chapter 9.6.  A device on the bus of the host has a device descriptor and an active
    configuration; libusb (rusb) and nusb show the server parts of them.  The libraries are not part
    of the repository: what they show is trusted, after the documentation of rusb 0.9 and nusb 0.1. *)
From Verif Require Export SpecDesc SpecHost.

Definition lohi (n : N) : list N := [n mod 256; n / 256].

(** ** Device descriptor, table 9-8 *)
Record real_device := mkReal {
  rv_usb : N; rv_class : N; rv_subclass : N; rv_protocol : N; rv_packet : N;
  rv_vendor : N; rv_product : N; rv_bcd : N; rv_man : N; rv_prod : N; rv_serial : N; rv_configs : N }.
Definition real_device_bytes (r : real_device) : list N :=
  [18; 1] ++ lohi (rv_usb r) ++ [rv_class r; rv_subclass r; rv_protocol r; rv_packet r]
  ++ lohi (rv_vendor r) ++ lohi (rv_product r) ++ lohi (rv_bcd r)
  ++ [rv_man r; rv_prod r; rv_serial r; rv_configs r].
Definition typed_real (r : real_device) : Prop :=
  rv_usb r < 65536 /\ rv_bcd r < 65536 /\ rv_vendor r < 65536 /\ rv_product r < 65536 /\ rv_packet r < 256 /\ rv_configs r < 256.

(** ** Configuration descriptor, tables 9-10, 9-12, 9-13: the configuration, then for every interface
    its alternate settings, each with its endpoints.  [*_extra]: class-specific and other
    descriptors that follow (interface associations, HID, SuperSpeed companions, ...). *)
Record usb_ep := mkRealEp { re_address : N; re_attributes : N; re_packet : N; re_interval : N; re_extra : list N }.
Record real_alt := mkRealAlt {
  ra_number : N; ra_setting : N; ra_class : N; ra_subclass : N; ra_protocol : N; ra_string : N;
  ra_extra : list N; ra_eps : list usb_ep }.
Record real_config := mkRealConfig {
  rq_value : N; rq_string : N; rq_attributes : N; rq_power : N; rq_extra : list N;
  rq_interfaces : list (list real_alt) }.
Definition real_ep_bytes (e : usb_ep) : list N :=
  [7; 5; re_address e; re_attributes e] ++ lohi (re_packet e) ++ [re_interval e] ++ re_extra e.
Definition real_alt_bytes (a : real_alt) : list N :=
  [9; 4; ra_number a; ra_setting a; len (ra_eps a); ra_class a; ra_subclass a; ra_protocol a; ra_string a]
  ++ ra_extra a ++ concat (real_ep_bytes <$> ra_eps a).
Definition real_body (c : real_config) : list N :=
  rq_extra c ++ concat (real_alt_bytes <$> concat (rq_interfaces c)).
Definition real_config_bytes (c : real_config) : list N :=
  [9; 2] ++ lohi (9 + len (real_body c))
  ++ [len (rq_interfaces c); rq_value c; rq_string c; rq_attributes c; rq_power c] ++ real_body c.
Definition typed_real_ep (e : usb_ep) : Prop := re_packet e < 65536.
Definition typed_real_config (c : real_config) : Prop :=
  9 + len (real_body c) < 65536 /\ len (rq_interfaces c) < 256 /\ Forall (fun alts => alts <> []) (rq_interfaces c) /\
  Forall (fun a => len (ra_eps a) < 256 /\ Forall typed_real_ep (ra_eps a)) (concat (rq_interfaces c)).

(** ** What the libraries show *)
Definition maybe_index (i : N) : option N := if i =? 0 then None else Some i.
(** rusb::Version::from_bcd: two BCD digits, one digit, one digit. *)
Definition rusb_bcd (n : N) : N * N * N := (10 * (n / 4096) + n / 256 mod 16, n / 16 mod 16, n mod 16).
Definition rusb_shows (r : real_device) : rusb_desc :=
  mkRusbDesc (rv_vendor r) (rv_product r) (rv_class r) (rv_subclass r) (rv_protocol r)
    (rusb_bcd (rv_bcd r)) (rusb_bcd (rv_usb r)) (rv_configs r) (rv_packet r)
    (maybe_index (rv_man r)) (maybe_index (rv_prod r)) (maybe_index (rv_serial r)).
(** Bits 0-1 of bmAttributes are the transfer type; rusb gives wMaxPacketSize as it is, nusb its
    bits 0-10. *)
Definition rusb_shows_ep (e : usb_ep) : os_ep :=
  mkHostEp (re_address e) (re_attributes e mod 4) (re_packet e) (re_interval e).
Definition nusb_shows_ep (e : usb_ep) : os_ep :=
  mkHostEp (re_address e) (re_attributes e mod 4) (re_packet e mod 2048) (re_interval e).
Definition shows_alt (f : usb_ep -> os_ep) (a : real_alt) : os_alt :=
  mkHostAlt (ra_number a) (ra_class a) (ra_subclass a) (ra_protocol a) (f <$> ra_eps a)
    (maybe_index (ra_string a)) (ra_extra a).
(** The server asks for the first alternate setting only. *)
Definition rusb_shows_config (c : real_config) : rusb_cfg :=
  mkRusbCfg (rq_value c) ((fun alts => shows_alt rusb_shows_ep <$> head alts) <$> rq_interfaces c).
(** nusb: the device descriptor is shown by [DeviceInfo], the strings already read (those that exist
    and can be read); [i] and [o] describe the device [r]. *)
Definition nusb_shows (r : real_device) (i : nusb_info) (o : nusb_open) : Prop :=
  ni_vendor i = rv_vendor r /\ ni_product i = rv_product r /\ ni_class i = rv_class r /\
  ni_subclass i = rv_subclass r /\ ni_protocol i = rv_protocol r /\ ni_bcd i = rv_bcd r /\
  (ni_manufacturer i = None <-> rv_man r = 0) /\ (ni_product_string i = None <-> rv_prod r = 0) /\
  (ni_serial i = None <-> rv_serial r = 0) /\ no_num_configurations o = rv_configs r.
(** An interface that could be claimed ([None] otherwise, then the enumeration panics, C61). *)
Definition nusb_shows_config (c : real_config) (n : nusb_cfg) : Prop :=
  nc_value n = rq_value c /\
  Forall2 (fun alts x => forall y, x = Some y -> y = shows_alt nusb_shows_ep <$> head alts) (rq_interfaces c) (nc_interfaces n).

(** ** The descriptors the client of a shared device gets to see instead *)

(** The names are numbered anew. *)
Definition numbered (i before : N) : N := if i =? 0 then 0 else before + 1.
Definition present (i : N) : N := if i =? 0 then 0 else 1.
Definition renumbered (r : real_device) : N * N * N :=
  (numbered (rv_man r) 0, numbered (rv_prod r) (present (rv_man r)),
   numbered (rv_serial r) (present (rv_man r) + present (rv_prod r))).
Definition with_versions (r : real_device) (usb bcd packet : N) : real_device :=
  let '(m, p, s) := renumbered r in
  mkReal usb (rv_class r) (rv_subclass r) (rv_protocol r) packet (rv_vendor r) (rv_product r) bcd m p s (rv_configs r).
(** Version major.minor.patch as the bytes minor, major. *)
Definition rusb_version (n : N) : N := 256 * (10 * (n / 4096) + n / 256 mod 16) + n / 16 mod 16.
Definition nusb_version (n : N) : N := 256 * (n / 256) + n / 16 mod 16.
Definition rusb_seen (r : real_device) : real_device := with_versions r (rusb_version (rv_usb r)) (rusb_version (rv_bcd r)) (rv_packet r).
Definition nusb_seen (r : real_device) : real_device := with_versions r 0 (nusb_version (rv_bcd r)) 16.

Definition seen_ep (packet : N -> N) (e : usb_ep) : usb_ep :=
  mkRealEp (re_address e) (re_attributes e mod 4) (packet (re_packet e)) (re_interval e) [].
Definition seen_alt (packet : N -> N) (extra : list N -> list N) (n : N) (a : real_alt) : real_alt :=
  mkRealAlt n 0 (ra_class a) (ra_subclass a) (ra_protocol a) (ra_string a) (extra (ra_extra a)) (seen_ep packet <$> ra_eps a).
Definition seen_config (packet : N -> N) (extra : list N -> list N) (c : real_config) : real_config :=
  mkRealConfig (rq_value c) 0 128 50 []
    (imap (fun n alts => seen_alt packet extra (N.of_nat n) <$> take 1 alts) (rq_interfaces c)).
Definition rusb_seen_config : real_config -> real_config := seen_config (fun n => n) (fun x => x).
Definition nusb_seen_config : real_config -> real_config := seen_config (fun n => n mod 2048) (fun _ => []).

(** ** Devices of which the client sees the very descriptors *)

(** Versions x.0 with one digit, names numbered 1, 2, 3 without gaps. *)
Definition plain_version (n : N) : Prop := exists k, k < 16 /\ n = 256 * k.
Definition plain_names (r : real_device) : Prop := (rv_man r, rv_prod r, rv_serial r) = renumbered r.
Definition plain_device (r : real_device) : Prop := plain_version (rv_usb r) /\ plain_version (rv_bcd r) /\ plain_names r.
(** Bus-powered with 100 mA, no name for the configuration, no alternate settings, interfaces
    numbered in order, and no descriptors but those of interfaces, their classes and endpoints. *)
Definition plain_ep (e : usb_ep) : Prop := re_attributes e < 4 /\ re_extra e = [].
Definition plain_config (c : real_config) : Prop :=
  rq_string c = 0 /\ rq_attributes c = 128 /\ rq_power c = 50 /\ rq_extra c = [] /\
  forall n alts, rq_interfaces c !! n = Some alts ->
    exists a, alts = [a] /\ ra_number a = N.of_nat n /\ ra_setting a = 0 /\ Forall plain_ep (ra_eps a).
(** With nusb also: no class-specific descriptors, no high-bandwidth endpoints. *)
Definition plainer_config (c : real_config) : Prop :=
  plain_config c /\ Forall (fun a => ra_extra a = [] /\ Forall (fun e => re_packet e < 2048) (ra_eps a)) (concat (rq_interfaces c)).
