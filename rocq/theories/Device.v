(** * UsbDevice: construction, strings, endpoint lookup, serialisation
    (src/device.rs) *)
From Verif Require Export Handlers.
Require Import Coq.Strings.String.

(** derived [Default] values (src/device.rs:4, 40; src/endpoint.rs:4) *)
Definition default_version : version := mkVersion 0 0 0.
Definition default_endpoint : endpoint := mkEndpoint 0 0 0 0.
Definition default_device : device :=
  mkDevice [] [] 0 0 0 0 0 default_version 0 0 0 0 0 [] None default_version
    default_endpoint default_endpoint ∅ 0 0 0 0.

(** Field assignments on a [UsbDevice]. *)
Definition with_pool (d : device) (p : gmap N rstring) : device :=
  mkDevice (d_path d) (d_bus_id d) (d_bus_num d) (d_dev_num d) (d_speed d)
    (d_vendor_id d) (d_product_id d) (d_bcd d) (d_class d) (d_subclass d)
    (d_protocol d) (d_configuration_value d) (d_num_configurations d)
    (d_interfaces d) (d_handler d) (d_usb_version d) (d_ep0_in d) (d_ep0_out d)
    p (d_string_configuration d) (d_string_manufacturer d) (d_string_product d)
    (d_string_serial d).
Definition with_string_refs (d : device) (sc sm sp ss : N) : device :=
  mkDevice (d_path d) (d_bus_id d) (d_bus_num d) (d_dev_num d) (d_speed d)
    (d_vendor_id d) (d_product_id d) (d_bcd d) (d_class d) (d_subclass d)
    (d_protocol d) (d_configuration_value d) (d_num_configurations d)
    (d_interfaces d) (d_handler d) (d_usb_version d) (d_ep0_in d) (d_ep0_out d)
    (d_string_pool d) sc sm sp ss.
Definition with_interfaces (d : device) (is : list interface) : device :=
  mkDevice (d_path d) (d_bus_id d) (d_bus_num d) (d_dev_num d) (d_speed d)
    (d_vendor_id d) (d_product_id d) (d_bcd d) (d_class d) (d_subclass d)
    (d_protocol d) (d_configuration_value d) (d_num_configurations d)
    is (d_handler d) (d_usb_version d) (d_ep0_in d) (d_ep0_out d)
    (d_string_pool d) (d_string_configuration d) (d_string_manufacturer d)
    (d_string_product d) (d_string_serial d).

(** src/device.rs:199-205 [with_device_handler] *)
Definition with_device_handler (d : device) (h : href) : device :=
  mkDevice (d_path d) (d_bus_id d) (d_bus_num d) (d_dev_num d) (d_speed d)
    (d_vendor_id d) (d_product_id d) (d_bcd d) (d_class d) (d_subclass d)
    (d_protocol d) (d_configuration_value d) (d_num_configurations d)
    (d_interfaces d) (Some h) (d_usb_version d) (d_ep0_in d) (d_ep0_out d)
    (d_string_pool d) (d_string_configuration d) (d_string_manufacturer d)
    (d_string_product d) (d_string_serial d).

(** src/device.rs:208-213, the loop [for i in 1.. { if vacant(i) { insert; return i } }].
    [i] has type [u8], so [1..] is a [RangeFrom<u8>]: its [next] first computes
    the successor of the value it yields, which overflows when yielding 255.  In a
    debug build that panics before 255 is yielded; in a release build it
    wraps, so the values yielded are 1,2,..,255,0,1,2,...  [fuel] counts loop
    iterations; [Diverge] stands for exhausted fuel (PoolProofs shows that the
    answer is the same for every fuel of at least 256, i.e. that running out
    of fuel really is an infinite loop). *)
Fixpoint find_vacant (dbg : bool) (pool : gmap N rstring) (i : N) (fuel : nat)
    : outcome N :=
  match fuel with
  | O => Diverge
  | S fuel' =>
      if dbg && (i =? 255) then Panic POverflow
      else match pool !! i with
           | None => Val i
           | Some _ => find_vacant dbg pool ((i + 1) mod 256) fuel'
           end
  end.

(** src/device.rs:207-215 [new_string].  The [panic!("string poll exhausted")] on
    line 214 follows an endless loop and is never reached. *)
Definition new_string (dbg : bool) (d : device) (s : rstring) : outcome (N * device) :=
  obind (find_vacant dbg (d_string_pool d) 1 256) (fun i =>
    Val (i, with_pool d (<[i := s]> (d_string_pool d)))).

(** [(idx != 0).then(|| self.string_pool.remove(&idx)).flatten()]
    (src/device.rs:106-108 and the seven other setters). *)
Definition remove_string (d : device) (idx : N) : option rstring * device :=
  if negb (idx =? 0)
  then (d_string_pool d !! idx, with_pool d (delete idx (d_string_pool d)))
  else (None, d).

(** src/device.rs:105-111 [set_configuration_name] *)
Definition set_configuration_name (dbg : bool) (d : device) (name : rstring)
    : outcome (option rstring * device) :=
  let '(old, d1) := remove_string d (d_string_configuration d) in
  obind (new_string dbg d1 name) (fun '(i, d2) =>
    Val (old, with_string_refs d2 i (d_string_manufacturer d2) (d_string_product d2)
                (d_string_serial d2))).

(** src/device.rs:114-120 [unset_configuration_name] *)
Definition unset_configuration_name (d : device) : option rstring * device :=
  let '(old, d1) := remove_string d (d_string_configuration d) in
  (old, with_string_refs d1 0 (d_string_manufacturer d1) (d_string_product d1)
          (d_string_serial d1)).

(** src/device.rs:123-129 [set_serial_number] *)
Definition set_serial_number (dbg : bool) (d : device) (name : rstring)
    : outcome (option rstring * device) :=
  let '(old, d1) := remove_string d (d_string_serial d) in
  obind (new_string dbg d1 name) (fun '(i, d2) =>
    Val (old, with_string_refs d2 (d_string_configuration d2) (d_string_manufacturer d2)
                (d_string_product d2) i)).

(** src/device.rs:132-138 [unset_serial_number] *)
Definition unset_serial_number (d : device) : option rstring * device :=
  let '(old, d1) := remove_string d (d_string_serial d) in
  (old, with_string_refs d1 (d_string_configuration d1) (d_string_manufacturer d1)
          (d_string_product d1) 0).

(** src/device.rs:141-147 [set_product_name] *)
Definition set_product_name (dbg : bool) (d : device) (name : rstring)
    : outcome (option rstring * device) :=
  let '(old, d1) := remove_string d (d_string_product d) in
  obind (new_string dbg d1 name) (fun '(i, d2) =>
    Val (old, with_string_refs d2 (d_string_configuration d2) (d_string_manufacturer d2)
                i (d_string_serial d2))).

(** src/device.rs:150-156 [unset_product_name] *)
Definition unset_product_name (d : device) : option rstring * device :=
  let '(old, d1) := remove_string d (d_string_product d) in
  (old, with_string_refs d1 (d_string_configuration d1) (d_string_manufacturer d1)
          0 (d_string_serial d1)).

(** src/device.rs:159-165 [set_manufacturer_name] *)
Definition set_manufacturer_name (dbg : bool) (d : device) (name : rstring)
    : outcome (option rstring * device) :=
  let '(old, d1) := remove_string d (d_string_manufacturer d) in
  obind (new_string dbg d1 name) (fun '(i, d2) =>
    Val (old, with_string_refs d2 (d_string_configuration d2) i
                (d_string_product d2) (d_string_serial d2))).

(** src/device.rs:168-174 [unset_manufacturer_name] *)
Definition unset_manufacturer_name (d : device) : option rstring * device :=
  let '(old, d1) := remove_string d (d_string_manufacturer d) in
  (old, with_string_refs d1 (d_string_configuration d1) 0
          (d_string_product d1) (d_string_serial d1)).

(** src/device.rs:74-102 [UsbDevice::new] *)
Definition new_device (dbg : bool) (index : N) : outcome device :=
  let ep0 addr := mkEndpoint addr (ep_attr_val AControl) EP0_MAX_PACKET_SIZE 0 in
  let res := mkDevice (lit "/sys/bus/0/0/0") (lit "0-0-0") 0 index (usb_speed_val SpHigh)
    0 0 default_version 0 0 0 1 1 [] None default_version (ep0 128) (ep0 0) ∅ 0 0 0 0 in
  obind (new_string dbg res (lit "Default Configuration")) (fun '(i1, d1) =>
  let d1 := with_string_refs d1 i1 0 0 0 in
  obind (new_string dbg d1 (lit "Manufacturer")) (fun '(i2, d2) =>
  let d2 := with_string_refs d2 i1 i2 0 0 in
  obind (new_string dbg d2 (lit "Product")) (fun '(i3, d3) =>
  let d3 := with_string_refs d3 i1 i2 i3 0 in
  obind (new_string dbg d3 (lit "Serial")) (fun '(i4, d4) =>
  Val (with_string_refs d4 i1 i2 i3 i4))))).

(** src/device.rs:176-197 [with_interface] *)
Definition with_interface {H} (dbg : bool) (w : world H) (d : device)
    (class subclass protocol : N) (name : option rstring) (endpoints : list endpoint)
    (h : href) : outcome device :=
  obind (match name with
         | Some s => new_string dbg d s
         | None => Val (0, d)
         end) (fun '(si, d1) =>
  if c_poisoned (w_intf w h) then Panic PPoisoned
  else Val (with_interfaces d1 (d_interfaces d1 ++
         [mkInterface class subclass protocol endpoints si
            (i_csd H (c_state (w_intf w h))) h]))).

(** src/device.rs:223-230: the nested loop over interfaces and their endpoints. *)
Fixpoint find_ep_in (eps : list endpoint) (ep : N) : option endpoint :=
  match eps with
  | [] => None
  | e :: eps' => if ep_address e =? ep then Some e else find_ep_in eps' ep
  end.
Fixpoint find_ep_intf (is : list interface) (ep : N) : option (endpoint * option interface) :=
  match is with
  | [] => None
  | i :: is' => match find_ep_in (if_endpoints i) ep with
                | Some e => Some (e, Some i)
                | None => find_ep_intf is' ep
                end
  end.

(** src/device.rs:217-232 [find_ep] *)
Definition find_ep (d : device) (ep : N) : option (endpoint * option interface) :=
  if ep =? ep_address (d_ep0_in d) then Some (d_ep0_in d, None)
  else if ep =? ep_address (d_ep0_out d) then Some (d_ep0_out d, None)
  else find_ep_intf (d_interfaces d) ep.

(** src/device.rs:234-262 [to_bytes] *)
Definition device_to_bytes (dbg : bool) (d : device) : outcome bytes :=
  let path := utf8 (d_path d) in
  debug_assert dbg (len path <=? 256) (
  let bus_id := utf8 (d_bus_id d) in
  debug_assert dbg (len bus_id <=? 32) (
  Val (vec_resize 256 path ++ vec_resize 32 bus_id
       ++ be32 (d_bus_num d) ++ be32 (d_dev_num d) ++ be32 (d_speed d)
       ++ be16 (d_vendor_id d) ++ be16 (d_product_id d)
       ++ [v_major (d_bcd d)] ++ [v_minor (d_bcd d)]
       ++ [d_class d] ++ [d_subclass d] ++ [d_protocol d]
       ++ [d_configuration_value d] ++ [d_num_configurations d]
       ++ [as_u8 (len (d_interfaces d))]))).

(** src/device.rs:264-276 [to_bytes_with_interfaces] *)
Definition device_to_bytes_with_interfaces (dbg : bool) (d : device) : outcome bytes :=
  obind (device_to_bytes dbg d) (fun b =>
    Val (b ++ mjoin ((fun i => [if_class i; if_subclass i; if_protocol i; 0])
                       <$> d_interfaces d))).
