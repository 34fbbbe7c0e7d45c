(** * Specification of USB descriptors and of the host that reads them

    Written from the USB 2.0 specification, chapter 9. *)
From Verif Require Export SpecConn SpecText.

(** Little-endian half-word at offset [o]. *)
Definition u16le_at (b : list N) (o : nat) (v : N) : Prop :=
  exists lo hi, b !! o = Some lo /\ b !! (o + 1)%nat = Some hi
    /\ lo < 256 /\ hi < 256 /\ v = lo + 256 * hi.

(** ** A control request as it arrives on the wire *)

(** [m] is a CMD_SUBMIT message (fields [sb]) on a control IN endpoint of the device [d] that
    this connection has imported; its setup packet is [s]. *)
Record control_in {H} (dbg : bool) (st : cstate H) (m : list N) (sb : submit) (d : device)
    (s : setup_packet) : Prop := mkCtlIn {
  ci_bytes : all_u8 m = true;
  ci_layout : cmd_layout dbg m (CmdSubmit sb);
  ci_imported : exists id, cs_current st = Some id /\ sv_used (cs_server st) !! id = Some d;
  ci_in : h_direction (sb_header sb) = 1;
  ci_setup : setup_of (sb_setup sb) s;
  ci_control : exists e i, addressed d (ep_byte (sb_header sb)) e i /\ ep_attributes e = 0 }.
Arguments mkCtlIn {H dbg st m sb d s}.

(** The reply is a successful RET_SUBMIT with exactly [data]; then the connection goes on in
    state [st'].  [bud = None]: the socket accepts the reply. *)
Definition replies {H} (dbg : bool) (st : cstate H) (m : list N) (sb : submit)
    (data : list N) (st' : cstate H) : Prop :=
  forall inp fin, exists b, submit_ok_reply (sb_header sb) data b /\
  forall out e fin_st, connection dbg st' inp fin None = (out, e, fin_st) ->
    connection dbg st (m ++ inp) fin None = (b ++ out, e, fin_st).
Definition replies_error {H} (dbg : bool) (st : cstate H) (m : list N) (sb : submit)
    (st' : cstate H) : Prop :=
  forall inp fin, exists b, submit_fail_reply (sb_header sb) b /\
  forall out e fin_st, connection dbg st' inp fin None = (out, e, fin_st) ->
    connection dbg st (m ++ inp) fin None = (b ++ out, e, fin_st).
(** The task panics: no reply, the connection is gone. *)
Definition aborts {H} (dbg : bool) (st : cstate H) (m : list N) (p : panic)
    (st' : cstate H) : Prop :=
  forall inp fin, connection dbg st (m ++ inp) fin None = ([], EndPanic p, st').

(** GET_DESCRIPTOR of descriptor type [ty] and index [ix] (wValue = type * 256 + index). *)
Definition get_desc (s : setup_packet) (ty ix : N) : Prop :=
  s_request_type s = 128 /\ s_request s = 6 /\ s_value s = 256 * ty + ix /\ ix < 256.

(** ** Device descriptor, table 9-8 *)
Definition device_desc_layout (b : list N) (d : device) : Prop :=
  length b = 18%nat /\ u8_at b 0 18 /\ u8_at b 1 1
  /\ u8_at b 2 (v_minor (d_usb_version d)) /\ u8_at b 3 (v_major (d_usb_version d))
  /\ u8_at b 4 (d_class d) /\ u8_at b 5 (d_subclass d) /\ u8_at b 6 (d_protocol d)
  /\ u8_at b 7 (ep_max_packet_size (d_ep0_in d) mod 256)
  /\ u16le_at b 8 (d_vendor_id d) /\ u16le_at b 10 (d_product_id d)
  /\ u8_at b 12 (v_minor (d_bcd d)) /\ u8_at b 13 (v_major (d_bcd d))
  /\ u8_at b 14 (d_string_manufacturer d) /\ u8_at b 15 (d_string_product d)
  /\ u8_at b 16 (d_string_serial d) /\ u8_at b 17 (d_num_configurations d).
(** Device qualifier, table 9-9 *)
Definition qualifier_layout (b : list N) (d : device) : Prop :=
  length b = 10%nat /\ u8_at b 0 10 /\ u8_at b 1 6
  /\ u8_at b 2 (v_minor (d_usb_version d)) /\ u8_at b 3 (v_major (d_usb_version d))
  /\ u8_at b 4 (d_class d) /\ u8_at b 5 (d_subclass d) /\ u8_at b 6 (d_protocol d)
  /\ u8_at b 7 (ep_max_packet_size (d_ep0_in d) mod 256)
  /\ u8_at b 8 (d_num_configurations d) /\ u8_at b 9 0.

(** String descriptor, table 9-16: length, type 3, UTF-16LE text. *)
Definition string_desc_layout (b : list N) (s : rstring) : Prop :=
  exists body, b = len b :: 3 :: body /\ utf16le_decode body = Some s.

(** ** Descriptor trees *)

(** Consecutive descriptors: each starts with its own length and its type. *)
Inductive blocks : list N -> list (list N) -> Prop :=
| blocks_nil : blocks [] []
| blocks_cons n ty body rest l :
    n = 2 + len body -> blocks rest l ->
    blocks (n :: ty :: body ++ rest) ((n :: ty :: body) :: l).
Definition block_type (b : list N) : N := nth 1 b 0.

(** What a host keeps of an interface: header fields, the class-specific bytes that
    follow it, and its endpoints (address, attributes, max packet size, interval). *)
Record host_intf := mkHostIntf {
  hi_number : N; hi_alternate : N; hi_num_eps : N;
  hi_class : N; hi_subclass : N; hi_protocol : N; hi_string : N;
  hi_specific : list N;
  hi_endpoints : list (N * N * N * N) }.
Record host_config := mkHostConfig {
  hc_total : N; hc_num_intf : N; hc_value : N; hc_string : N;
  hc_attributes : N; hc_power : N;
  hc_interfaces : list host_intf }.

Definition at8 (b : list N) (i : nat) : N := nth i b 0.
Definition host_ep (b : list N) : N * N * N * N :=
  (at8 b 2, at8 b 3, at8 b 4 + 256 * at8 b 5, at8 b 6).
(** An interface descriptor (type 4) with the descriptors up to the next one. *)
Definition host_interface (b : list N) (follow : list (list N)) : host_intf :=
  mkHostIntf (at8 b 2) (at8 b 3) (at8 b 4) (at8 b 5) (at8 b 6) (at8 b 7) (at8 b 8)
    (mjoin (filter (fun x => block_type x <> 5) follow))
    (host_ep <$> filter (fun x => block_type x = 5) follow).
Fixpoint host_group (bs : list (list N)) : list (list N) * list host_intf :=
  match bs with
  | [] => ([], [])
  | b :: bs' => let '(pre, is) := host_group bs' in
                if block_type b =? 4 then ([], host_interface b pre :: is) else (b :: pre, is)
  end.
(** A configuration descriptor tree: first block of type 2, then interfaces. *)
Definition host_config_of (bs : list (list N)) : option host_config :=
  match bs with
  | c :: bs' =>
      if block_type c =? 2 then
        Some (mkHostConfig (at8 c 2 + 256 * at8 c 3) (at8 c 4) (at8 c 5) (at8 c 6) (at8 c 7) (at8 c 8)
                (host_group bs').2)
      else None
  | [] => None
  end.
(** Decoding a byte string as a configuration. *)
Definition reads_as_config (b : list N) (c : host_config) : Prop :=
  exists bs, blocks b bs /\ host_config_of bs = Some c.

(** What the host should see of the [n]-th interface / of a device's configuration. *)
Definition intf_view (n : N) (f : interface) : host_intf :=
  mkHostIntf n 0 (len (if_endpoints f)) (if_class f) (if_subclass f) (if_protocol f) (if_string f)
    (if_class_specific f)
    ((fun e => (ep_address e, ep_attributes e, ep_max_packet_size e, ep_interval e)) <$> if_endpoints f).
Definition config_view (d : device) (total : N) : host_config :=
  mkHostConfig total (len (d_interfaces d)) (d_configuration_value d) (d_string_configuration d)
    128 50 (imap (fun n f => intf_view (N.of_nat n) f) (d_interfaces d)).

(** Class-specific bytes that are themselves descriptors, none of them an interface or
    endpoint descriptor. *)
Definition csd_ok (b : list N) : Prop :=
  exists bs, blocks b bs /\ Forall (fun x => block_type x <> 4 /\ block_type x <> 5) bs.
(** The limits of the configuration descriptor format. *)
Definition config_limits (d : device) : Prop :=
  len (d_interfaces d) <= 255
  /\ Forall (fun f => len (if_endpoints f) <= 255 /\ csd_ok (if_class_specific f)) (d_interfaces d).
(** Size of the whole configuration descriptor. *)
Definition config_size (d : device) : N :=
  fold_right (fun f n => 9 + len (if_class_specific f) + 7 * len (if_endpoints f) + n) 9
    (d_interfaces d).
