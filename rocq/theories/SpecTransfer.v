(** * Specification of submits: what a handler is expected to do *)
From Verif Require Export SpecDesc.

(** What the handler of a target answers to a call. *)
Definition handler_answer {H} (w : world H) (e : endpoint) (tbl : N) (s : setup_packet) (req : list N)
    (t : target) : hres :=
  match t with
  | TIntf f => call_answer (i_step H (c_state (w_intf w (if_handler f))) f e tbl s req)
  | TDev r => call_answer (d_step H (c_state (w_dev w r)) tbl s req)
  end.

(** A submit of message [m] that is delivered to the handler of target [t]. *)
Record delivered {H} (dbg : bool) (st : cstate H) (m : list N) (sb : submit) (d : device)
    (e : endpoint) (i : option interface) (s : setup_packet) (t : target) : Prop := mkDelivered {
  dl_bytes : all_u8 m = true;
  dl_layout : cmd_layout dbg m (CmdSubmit sb);
  dl_imported : exists id, cs_current st = Some id /\ sv_used (cs_server st) !! id = Some d;
  dl_addressed : addressed d (ep_byte (sb_header sb)) e i;
  dl_setup : setup_of (sb_setup sb) s;
  dl_routed : routed d e i s t;
  dl_usable : usable (cs_world st) t }.
Arguments mkDelivered {H dbg st m sb d e i s t}.

(** Handlers that return no data for OUT endpoints and for OUT requests. *)
Definition quiet (H : handlers) : Prop :=
  (forall st f e tbl s req st' data, i_step H st f e tbl s req = CallOk st' data ->
     ~ in_ep e -> s_request_type s < 128 -> data = [])
  /\ (forall st tbl s req st' data, d_step H st tbl s req = CallOk st' data ->
     s_request_type s < 128 -> data = []).

(** Handlers that return at most [transfer_buffer_length] bytes, as src/interface.rs:23-26 and
    src/device.rs:533-536 demand. *)
Definition honours_length (H : handlers) : Prop :=
  (forall st f e tbl s req st' data, i_step H st f e tbl s req = CallOk st' data -> len data <= tbl)
  /\ (forall st tbl s req st' data, d_step H st tbl s req = CallOk st' data -> len data <= tbl).

(** A device whose descriptors fit the 16-bit lengths of USB. *)
Definition descriptors_fit (d : device) : Prop :=
  config_size d < 65536
  /\ forall i s, d_string_pool d !! i = Some s -> 2 + 2 * len (utf16 s) < 65536.

(** A second submit for the same setup packet and payload on another endpoint number. *)
Definition same_endpoint (h1 h2 : header) : Prop := ep_byte h1 = ep_byte h2.
