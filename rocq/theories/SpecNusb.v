(** * Specification vocabulary: what clients make devices shared through nusb do *)
From Verif Require Export SpecHostProg.

(** URB [sb] for device [d] is for handler [tg]. *)
Definition reaches (d : device) (sb : submit) (tg : target) : Prop :=
  exists e i s, addressed d (ep_byte (sb_header sb)) e i /\ setup_of (sb_setup sb) s /\ routed d e i s tg.

(** nusb can make the transfer [c] the URB asks for: a control transfer with a type and recipient
    it has names for. *)
Definition nusb_wants (d : device) (sb : submit) (tg : target) (c : usb_call) : Prop :=
  exists e i s isin, addressed d (ep_byte (sb_header sb)) e i /\ setup_of (sb_setup sb) s /\ routed d e i s tg /\
    match tg with
    | TIntf _ => ep_attributes e = 0 /\ (isin = true <-> in_ep e)
    | TDev _ => isin = true <-> 128 <= s_request_type s
    end /\ nusb_transfer isin (sb_transfer_buffer_length sb) s (sb_data sb) c.

(** The handler gives up: the setup packet, which comes with every URB, has another type or
    recipient; or the transfer is bulk or interrupt. *)
Definition nusb_kills (d : device) (sb : submit) (tg : target) : Prop :=
  exists e i s, addressed d (ep_byte (sb_header sb)) e i /\ setup_of (sb_setup sb) s /\ routed d e i s tg /\
    ((forall t r, ~ nusb_request (s_request_type s) t r) \/
     (exists f, tg = TIntf f) /\ (ep_attributes e = 2 \/ ep_attributes e = 3)).

Definition is_dead (dead : list target) (tg : target) : bool := existsb (same_handler tg) dead.

(** [nusb_asked w evs l dead]: the URBs served in [evs] for connections that held a device ask
    for the transfers [l], in this order, and each was answered with what the host said; the
    handlers [dead] gave up, one URB each, and whatever was sent to them later ended the
    connection that sent it. *)
Inductive nusb_asked (w : world nusb_h) : list event -> list (device * target * usb_call) -> list target -> Prop :=
| na_nil : nusb_asked w [] [] []
| na_urb evs l dead t sb r d tg c : nusb_asked w evs l dead -> held evs t = Some d -> nusb_wants d sb tg c ->
    is_dead dead tg = false ->
    told sb r (passed_on c (hd_oracle (host_of w tg) (hd_log (host_of w tg) ++ made_by tg l) c)) ->
    nusb_asked w (evs ++ [EvServe t (CmdSubmit sb) r]) (l ++ [(d, tg, c)]) dead
| na_kill evs l dead t sb p d tg : nusb_asked w evs l dead -> held evs t = Some d -> nusb_kills d sb tg ->
    is_dead dead tg = false ->
    nusb_asked w (evs ++ [EvServe t (CmdSubmit sb) (Panic p)]) l (dead ++ [tg])
| na_dead evs l dead t sb d tg : nusb_asked w evs l dead -> held evs t = Some d -> reaches d sb tg ->
    is_dead dead tg = true ->
    nusb_asked w (evs ++ [EvServe t (CmdSubmit sb) (Panic PPoisoned)]) l dead
| na_other evs l dead e : nusb_asked w evs l dead ->
    (forall t sb r d tg, e = EvServe t (CmdSubmit sb) r -> held evs t = Some d -> reaches d sb tg ->
       is_dead dead tg = false /\ ~ nusb_kills d sb tg /\ forall c, ~ nusb_wants d sb tg c) ->
    nusb_asked w (evs ++ [e]) l dead.
