(** * Specification of some conventions of USB and of the Linux client *)
From Verif Require Export SpecHost SpecSession SpecSys SpecIso.

(** ** Interface numbers of host devices *)

(** The control transfer [c] is addressed to the interface that the device itself calls number
    [k]: recipient "interface" (bits 0-4 of bmRequestType), number in the low byte of wIndex. *)
Definition meant_for (c : usb_call) (k : N) : Prop :=
  match c with
  | ReadControl rt _ _ ix _ | WriteControl rt _ _ ix _ => rt mod 32 = 1 /\ ix mod 256 = k
  | NControlIn _ NInterface _ _ ix _ | NControlOut _ NInterface _ _ ix _ => ix mod 256 = k
  | _ => False
  end.

(** A request of the client for the interface it knows as number [n], on control endpoint [e] of
    the device [d] it has imported. *)
Record interface_request {H} (dbg : bool) (st : cstate H) (m : list N) (sb : submit) (d : device)
    (e : endpoint) (i : option interface) (s : setup_packet) (n : N) : Prop := mkIntfReq {
  ir_bytes : all_u8 m = true;
  ir_layout : cmd_layout dbg m (CmdSubmit sb);
  ir_imported : exists id, cs_current st = Some id /\ sv_used (cs_server st) !! id = Some d;
  ir_addressed : addressed d (ep_byte (sb_header sb)) e i;
  ir_control : ep_attributes e = 0;
  ir_setup : setup_of (sb_setup sb) s;
  ir_recipient : s_request_type s mod 32 = 1;
  ir_index : s_index s mod 256 = n }.
Arguments mkIntfReq {H dbg st m sb d e i s n}.

(** ** Failures *)

(** What makes a submit fail without ending the connection: no such endpoint, no such string, or
    the handler returned an error. *)
Inductive failing {H} (w : world H) (d : device) (sb : submit) : Prop :=
| fl_endpoint : unknown_ep d (ep_byte (sb_header sb)) -> failing w d sb
| fl_string e i s ix : addressed d (ep_byte (sb_header sb)) e i -> ep_attributes e = 0 -> in_ep e ->
    setup_of (sb_setup sb) s -> get_desc s 3 ix -> ix <> 0 -> d_string_pool d !! ix = None -> failing w d sb
| fl_handler e i s t x : addressed d (ep_byte (sb_header sb)) e i -> setup_of (sb_setup sb) s ->
    routed d e i s t -> usable w t ->
    handler_answer w e (sb_transfer_buffer_length sb) s (sb_data sb) t = HErr x -> failing w d sb.

(** The status of a reply as Linux reads it: 0, or a negative error number (two's complement,
    error numbers are below 4096). *)
Definition linux_status (v : N) : Prop := v = 0 \/ 4294967296 - 4096 < v < 4294967296.

(** ** Configurations *)

(** SET_CONFIGURATION of [v], without data. *)
Definition set_config (s : setup_packet) (v : N) : Prop :=
  s_request_type s = 0 /\ s_request s = 9 /\ s_value s = v /\ s_length s = 0.

(** ** Handing over *)

(** During [evs'] (after [evs]) no connection holds a device satisfying [P]. *)
Definition unattended (P : device -> Prop) (evs evs' : list event) : Prop :=
  forall e1 e2 t d, evs' = e1 ++ e2 -> held (evs ++ e1) t = Some d -> ~ P d.
