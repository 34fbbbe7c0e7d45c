(** * Specification vocabulary: what the clients of a server with host devices make them do *)
From Verif Require Export HostProg SpecHost SpecSys SpecNet.

(** The transfer that URB [sb] for device [d] asks of the host, and the handler of [d] that has
    to make it: interface transfers and requests follow the endpoint, requests to the device
    as a whole bmRequestType.  Nothing is asked by URBs that no handler is there for, and by
    isochronous ones. *)
Definition wants (d : device) (sb : submit) (tg : target) (c : usb_call) : Prop :=
  exists e i s, addressed d (ep_byte (sb_header sb)) e i /\ setup_of (sb_setup sb) s /\ routed d e i s tg /\
    match tg with
    | TIntf _ => libusb_transfer e (sb_transfer_buffer_length sb) s (sb_data sb) c
    | TDev _ => device_transfer (sb_transfer_buffer_length sb) s (sb_data sb) c
    end.

(** Two targets are the same handler. *)
Definition same_handler (t1 t2 : target) : bool :=
  match t1, t2 with
  | TIntf f, TIntf g => if_handler f =? if_handler g
  | TDev r, TDev q => r =? q
  | _, _ => false
  end.
(** The transfers of handler [tg] among [l]. *)
Definition made_by (tg : target) (l : list (device * target * usb_call)) : list usb_call :=
  omap (fun x => if same_handler x.1.2 tg then Some x.2 else None) l.

(** A result that carries [data], if it reaches the client at all. *)
Definition told (sb : submit) (r : outcome response) (data : list N) : Prop :=
  exists x, r = Val x /\ forall dbg b, response_to_bytes dbg x = Val b -> submit_ok_reply (sb_header sb) data b.
(** What the client gets for a transfer that the host answered with [o]: the bytes of a read that
    succeeded; nothing for a write, and for a transfer that failed. *)
Definition passed_on (c : usb_call) (o : option (list N)) : list N :=
  match reading c, o with Some _, Some data => data | _, _ => [] end.

(** [asked w evs l]: the URBs served in [evs] for connections that held a device ask for the
    transfers [l], in this order, on these devices; and each was answered with what the host said
    to that transfer, after the handler's earlier ones. *)
Inductive asked (w : world rusb_h) : list event -> list (device * target * usb_call) -> Prop :=
| as_nil : asked w [] []
| as_urb evs l t sb r d tg c : asked w evs l -> held evs t = Some d -> wants d sb tg c ->
    told sb r (passed_on c (hd_oracle (host_of w tg) (hd_log (host_of w tg) ++ made_by tg l) c)) ->
    asked w (evs ++ [EvServe t (CmdSubmit sb) r]) (l ++ [(d, tg, c)])
| as_other evs l e : asked w evs l ->
    (forall t sb r d tg c, e = EvServe t (CmdSubmit sb) r -> held evs t = Some d -> ~ wants d sb tg c) ->
    asked w (evs ++ [e]) l.

(** The handlers work: no mutex is poisoned and libusb keeps to the length of its buffers. *)
Definition in_order (w : world rusb_h) : Prop := forall tg, usable w tg /\ respects_buffer (host_of w tg).

(** Of the steps of the host program, those that a byte stream can cause. *)
Definition a_readable {H} (dbg : bool) (l : alabel H) : Prop :=
  match l with ASys l' => readable dbg l' | _ => True end.
(** The host: values that fit their descriptor fields, and no two devices at one place. *)
Definition proper_host (listed : option (list (option rusb_handle))) : Prop :=
  forall l, listed = Some l -> Forall (fun o => forall h, o = Some h -> rusb_sane h) l /\
    NoDup ((fun h => (rh_bus h, rh_address h)) <$> omap id l).
