(** * Specification vocabulary for whole sessions of one client *)
From Verif Require Export SpecDesc SpecSys.

(** Two submits that ask for the same USB transfer: same direction and endpoint, same buffer
    length, same setup packet, same data.  Sequence number, device id, transfer flags, start
    frame, packets and interval may differ. *)
Definition same_urb (a b : submit) : Prop :=
  h_direction (sb_header a) = h_direction (sb_header b) /\ h_ep (sb_header a) = h_ep (sb_header b) /\
  sb_transfer_buffer_length a = sb_transfer_buffer_length b /\ sb_setup a = sb_setup b /\ sb_data a = sb_data b.

(** The device id a client derives from the import reply. *)
Definition right_devid (d : device) (devid : N) : Prop := devid = d_bus_num d * 65536 + d_dev_num d.

(** Where the record of the next device starts in a device list reply, after the devices [ds]. *)
Definition record_offset (ds : list device) : nat :=
  (12 + sum_list ((fun x => 312 + 4 * length (d_interfaces x))%nat <$> ds))%nat.

(** ** Enumeration *)

(** What a host may ask an imported device while enumerating it, and the data it should get. *)
Inductive enum_reply (d : device) (s : setup_packet) : list N -> Prop :=
| er_device ix desc : get_desc s 1 ix -> device_desc_layout desc d ->
    enum_reply d s (take (N.to_nat (s_length s)) desc)
| er_config ix desc : get_desc s 2 ix -> len desc = config_size d ->
    reads_as_config desc (config_view d (len desc)) ->
    (forall c, reads_as_config desc c -> c = config_view d (len desc)) ->
    enum_reply d s (take (N.to_nat (s_length s)) desc)
| er_languages : get_desc s 3 0 -> enum_reply d s (take (N.to_nat (s_length s)) [4; 3; 0x09; 0x04])
| er_string ix str desc : get_desc s 3 ix -> ix <> 0 -> d_string_pool d !! ix = Some str ->
    string_desc_layout desc str -> enum_reply d s (take (N.to_nat (s_length s)) desc)
| er_qualifier ix desc : get_desc s 6 ix -> qualifier_layout desc d ->
    enum_reply d s (take (N.to_nat (s_length s)) desc)
| er_set_configuration : s_request_type s = 0 -> s_request s = 9 -> s_length s = 0 -> enum_reply d s [].

(** A request of that kind for [d]. *)
Definition enum_request (d : device) (h : header) (s : setup_packet) : Prop :=
  (h_direction h = 1 /\ h_ep h = 0 /\
   exists ty ix, get_desc s ty ix /\
     (ty = 1 \/ ty = 2 \/ ty = 6 \/ ty = 3 /\ (ix = 0 \/ is_Some (d_string_pool d !! ix)))) \/
  (h_direction h = 0 /\ h_ep h = 0 /\ s_request_type s = 0 /\ s_request s = 9 /\ s_length s = 0).

(** Any number of such requests, in any order. *)
Inductive enumeration (dbg : bool) (d : device) : list N -> list (submit * setup_packet) -> Prop :=
| en_nil : enumeration dbg d [] []
| en_cons m sb s inp l : all_u8 m = true -> cmd_layout dbg m (CmdSubmit sb) -> setup_of (sb_setup sb) s ->
    enum_request d (sb_header sb) s -> enumeration dbg d inp l ->
    enumeration dbg d (m ++ inp) ((sb, s) :: l).

(** A device whose endpoint zero and descriptors are as USB wants them. *)
Definition enumerable (d : device) : Prop :=
  typed_device d /\ fits d /\ ep_address (d_ep0_in d) = 128 /\ ep_attributes (d_ep0_in d) = 0 /\
  ep_address (d_ep0_out d) = 0 /\ ep_attributes (d_ep0_out d) = 0 /\
  config_limits d /\ config_size d < 65536 /\
  forall ix str, d_string_pool d !! ix = Some str -> len (utf16 str) <= 126.
