(** * Specification: the requests of the drivers of Linux for the devices of the example programs

    After the attach the USB core of the client enumerates the device (SpecSession.v,
    [enum_request]); then the driver for the class of the interface takes over.  The lists below
    are what usbhid asks of a keyboard without LEDs whose interface is not a boot interface, and
    what cdc_acm asks of a modem whose control and data endpoints sit on one interface. *)
From Verif Require Export SpecSession SpecProg SpecReport.

(** usbhid: the report descriptor, SET_IDLE, and polls of the interrupt endpoint. *)
Inductive hid_driver (h : header) (s : setup_packet) : Prop :=
| hd_report : h_direction h = 1 -> h_ep h = 0 ->
    s_request_type s = 129 -> s_request s = 6 -> s_value s = 0x2200 -> s_index s = 0 -> hid_driver h s
| hd_idle : h_direction h = 0 -> h_ep h = 0 -> s_request_type s = 33 -> s_request s = 10 -> s_index s = 0 -> hid_driver h s
| hd_poll : h_direction h = 1 -> h_ep h = 1 -> hid_driver h s.
(** What it should get: the report descriptor [rd]; nothing; a report, or nothing. *)
Inductive hid_answer (rd : list N) (h : header) (s : setup_packet) : list N -> Prop :=
| ha_report : h_direction h = 1 -> h_ep h = 0 -> s_request_type s = 129 -> hid_answer rd h s rd
| ha_idle : h_direction h = 0 -> hid_answer rd h s []
| ha_key : h_direction h = 1 -> h_ep h = 1 -> hid_answer rd h s [0; 0; 0x1e; 0; 0; 0; 0; 0]
| ha_up : h_direction h = 1 -> h_ep h = 1 -> hid_answer rd h s [0; 0; 0; 0; 0; 0]
| ha_none : h_direction h = 1 -> h_ep h = 1 -> hid_answer rd h s [].

(** cdc_acm: SET_LINE_CODING, SET_CONTROL_LINE_STATE, SEND_BREAK; notifications on endpoint 1,
    data from and to endpoint 2. *)
Inductive acm_driver (h : header) (s : setup_packet) : Prop :=
| ad_line : h_direction h = 0 -> h_ep h = 0 -> s_request_type s = 33 -> s_request s ∈ [0x20; 0x22; 0x23] -> s_index s = 0 ->
    acm_driver h s
| ad_note : h_direction h = 1 -> h_ep h = 1 -> acm_driver h s
| ad_read : h_direction h = 1 -> h_ep h = 2 -> acm_driver h s
| ad_write : h_direction h = 0 -> h_ep h = 2 -> acm_driver h s.
Inductive acm_answer (h : header) (s : setup_packet) : list N -> Prop :=
| aa_out : h_direction h = 0 -> acm_answer h s []
| aa_note : h_direction h = 1 -> h_ep h = 1 -> acm_answer h s []
| aa_read n : h_direction h = 1 -> h_ep h = 2 -> acm_answer h s (replicate n 97).

(** The clients behave: their URBs are those of the USB core and of the driver, what they send
    can be read.  They import and leave when they like, and may be cut off at any time. *)
Definition driver_command (d : device) (P : header -> setup_packet -> Prop) (c : command) : Prop :=
  match c with
  | CmdSubmit sb => exists s, setup_of (sb_setup sb) s /\ (enum_request d (sb_header sb) s \/ P (sb_header sb) s)
  | _ => True
  end.
Definition by_drivers {H} (d : device) (P : header -> setup_packet -> Prop) (l : plabel H) : Prop :=
  match l with
  | PServer (ASys (LRecv _ c)) => driver_command d P c
  | PServer (ASys (LReadPanic _)) => False
  | _ => True
  end.
(** All is well: every URB of a connection that has the device is answered, with status 0 and
    what the USB core or the driver expects, and only a connection that submits without
    having the device can be ended by a panic. *)
Definition drivers_work (d : device) (A : header -> setup_packet -> list N -> Prop) (evs : list event) : Prop :=
  (forall e1 t sb o e2, evs = e1 ++ EvServe t (CmdSubmit sb) o :: e2 -> held e1 t = Some d ->
     exists s rs, setup_of (sb_setup sb) s /\ o = Val (RetSubmit rs) /\ rs_status rs = 0 /\
       (enum_reply d s (rs_transfer_buffer rs) \/ A (sb_header sb) s (rs_transfer_buffer rs))) /\
  (forall t x, EvEnd t (EndPanic x) ∈ evs ->
     exists e1 sb o e2, evs = e1 ++ EvServe t (CmdSubmit sb) o :: e2 /\ held e1 t = None).
