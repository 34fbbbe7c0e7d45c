(** * Specification: what a host should see of a device built with the public API *)
From Verif Require Export SpecNames SpecSession.

(** The interfaces asked for, in order: class, subclass, protocol, endpoints, class-specific bytes
    of the handler at that time, handler. *)
Record asked_intf := mkAsked {
  a_class : N; a_subclass : N; a_protocol : N; a_endpoints : list endpoint; a_specific : list N; a_handler : href }.
Definition asked {H} (w : world H) (ops : list name_op) : list asked_intf :=
  omap (fun o => match o with
                 | AddInterface c sc p _ eps h => Some (mkAsked c sc p eps (i_csd H (c_state (w_intf w h))) h)
                 | _ => None
                 end) ops.

(** Arguments within the limits of USB and of the Rust types. *)
Definition name_ok (s : rstring) : Prop := is_rstring s = true /\ len (utf16 s) <= 126.
Definition intf_ok (a : asked_intf) : Prop :=
  u8 (a_class a) /\ u8 (a_subclass a) /\ u8 (a_protocol a) /\ Forall typed_endpoint (a_endpoints a) /\
  len (a_endpoints a) <= 255 /\ Forall u8 (a_specific a) /\ csd_ok (a_specific a).
Definition op_names (o : name_op) : list rstring :=
  match o with
  | SetName _ s => [s]
  | UnsetName _ => []
  | AddInterface _ _ _ name _ _ => match name with Some s => [s] | None => [] end
  end.
Definition total_size (l : list asked_intf) : N :=
  fold_right (fun a n => 9 + len (a_specific a) + 7 * len (a_endpoints a) + n) 9 l.
Record reasonable {H} (w : world H) (ops : list name_op) : Prop := mkReasonable {
  rs_handlers : forall h, c_poisoned (w_intf w h) = false;
  rs_count : forall p, p `prefix_of` ops -> (names_count (names_run fresh_names p).1 <= 254)%nat;
  rs_names : Forall name_ok (ops ≫= op_names);
  rs_intfs : Forall intf_ok (asked w ops);
  rs_number : len (asked w ops) <= 255;
  rs_total : total_size (asked w ops) < 65536 }.

(** ** The host's side *)

(** Whoever asks for descriptor [ty], index [ix] gets the first wLength bytes of a descriptor
    satisfying [P]. *)
Definition host_gets {H} (dbg : bool) (st : cstate H) (d : device) (ty ix : N) (P : list N -> Prop) : Prop :=
  forall m sb s, control_in dbg st m sb d s -> get_desc s ty ix ->
    exists desc, P desc /\ replies dbg st m sb (take (N.to_nat (s_length s)) desc) st.

(** The name behind a string index: none for index 0, otherwise the string descriptor. *)
Definition host_name {H} (dbg : bool) (st : cstate H) (d : device) (i : N) (o : option rstring) : Prop :=
  match o with
  | None => i = 0
  | Some s => i <> 0 /\ host_gets dbg st d 3 i (fun desc => string_desc_layout desc s)
  end.

Definition ep_view (e : endpoint) : N * N * N * N :=
  (ep_address e, ep_attributes e, ep_max_packet_size e, ep_interval e).
Definition asked_view (n : nat) (ai : asked_intf * N) : host_intf :=
  mkHostIntf (N.of_nat n) 0 (len (a_endpoints ai.1)) (a_class ai.1) (a_subclass ai.1) (a_protocol ai.1) ai.2
    (a_specific ai.1) (ep_view <$> a_endpoints ai.1).

(** Everything a host learns by enumerating: device descriptor, configuration, and the text of every
    name, where [im], [ip], [is], [ic], [ii] are the string indices it finds on the way. *)
Definition host_learns {H} (dbg : bool) (st : cstate H) (d : device) (l : list asked_intf) (n : names) : Prop :=
  exists im ip is ic ii,
    (forall ix, host_gets dbg st d 1 ix (fun desc => desc = [18; 1; 0; 0; 0; 0; 0; 64; 0; 0; 0; 0; 0; 0; im; ip; is; 1])) /\
    (forall ix, host_gets dbg st d 2 ix (fun desc => len desc = total_size l /\
      let c := mkHostConfig (total_size l) (len l) 1 ic 128 50 (imap asked_view (zip l ii)) in
      reads_as_config desc c /\ forall c', reads_as_config desc c' -> c' = c)) /\
    length ii = length l /\
    host_name dbg st d im (n_manu n) /\ host_name dbg st d ip (n_prod n) /\
    host_name dbg st d is (n_serial n) /\ host_name dbg st d ic (n_conf n) /\
    Forall2 (fun i o => host_name dbg st d i o) ii (n_intf n).

(** ** Builder calls on any device (C95) *)

(** The interfaces are those asked for. *)
Definition as_asked (f : interface) (a : asked_intf) : Prop :=
  if_class f = a_class a /\ if_subclass f = a_subclass a /\ if_protocol f = a_protocol a /\
  if_endpoints f = a_endpoints a /\ if_class_specific f = a_specific a /\ if_handler f = a_handler a.

(** The calls of the public API that change a device. *)
Inductive build_call :=
| BName (o : name_op)
| BHandler (h : href).   (* [with_device_handler] *)
(** Everything that is neither a name, nor an interface, nor the device handler. *)
Definition own_fields (d : device) :=
  (d_path d, d_bus_id d, (d_bus_num d, d_dev_num d, d_speed d), (d_vendor_id d, d_product_id d, d_bcd d),
   (d_class d, d_subclass d, d_protocol d), (d_configuration_value d, d_num_configurations d, d_usb_version d),
   (d_ep0_in d, d_ep0_out d)).
Definition name_fields (d : device) :=
  (d_string_pool d, d_string_configuration d, d_string_manufacturer d, d_string_product d, d_string_serial d).
Definition handler_after (o : option href) (cs : list build_call) : option href :=
  fold_left (fun o c => match c with BHandler h => Some h | _ => o end) cs o.
Definition name_ops (cs : list build_call) : list name_op :=
  omap (fun c => match c with BName o => Some o | _ => None end) cs.
Fixpoint build_run {H} (dbg : bool) (w : world H) (d : device) (cs : list build_call) : outcome device :=
  match cs with
  | [] => Val d
  | BName o :: cs => obind (api_step dbg w d o) (fun '(d1, _) => build_run dbg w d1 cs)
  | BHandler h :: cs => build_run dbg w (with_device_handler d h) cs
  end.
