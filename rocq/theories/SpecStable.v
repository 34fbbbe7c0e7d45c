(** * Specification vocabulary: requests for descriptors, and what a reply says *)
From Verif Require Export SpecSys SpecConn.

(** [sb] asks device [d] for a descriptor: GET_DESCRIPTOR to the device, on a control endpoint
    for reading. *)
Definition asks_descriptor (d : device) (sb : submit) : Prop :=
  exists e i s, addressed d (ep_byte (sb_header sb)) e i /\ ep_attributes e = 0 /\ in_ep e /\
    all_u8 (sb_setup sb) = true /\ setup_of (sb_setup sb) s /\ s_request_type s = 128 /\ s_request s = 6.

(** What is sent for result [r] behind the header, which echoes the request; or how the connection
    ends instead. *)
Definition said (dbg : bool) (r : outcome response) : outcome bytes :=
  obind r (fun x => obind (response_to_bytes dbg x) (fun b => Val (drop 20 b))).

(** The same question: setup packet, endpoint and direction.  The number of the request, the
    device id, the flags, the length of the buffer and data may differ. *)
Definition same_question (sb1 sb2 : submit) : Prop :=
  sb_setup sb1 = sb_setup sb2 /\ h_direction (sb_header sb1) = h_direction (sb_header sb2) /\
  h_ep (sb_header sb1) = h_ep (sb_header sb2).

(** [d] is not removed in [evs]. *)
Definition stays (id : rstring) (evs : list event) : Prop := forall u, EvRemove u id (IOk tt) ∉ evs.
