(** * Specification vocabulary for the example programs *)
From Verif Require Export Prog SpecHandlers SpecConn SpecNet.

(** How often the main task has come round. *)
Definition ticks {H} (ls : list (plabel H)) : nat :=
  length (List.filter (fun l => match l with PTick => true | _ => false end) ls).

(** The data of the replies to the URBs of which [want] holds, in the order of service. *)
Definition handed_out (want : submit -> bool) (evs : list event) : list (list N) :=
  omap (fun e => match e with
                 | EvServe _ (CmdSubmit sb) (Val (RetSubmit r)) =>
                     if want sb then Some (rs_transfer_buffer r) else None
                 | _ => None
                 end) evs.

(** Polls of endpoint 1 IN of the keyboard, endpoint 2 IN of the serial port. *)
Definition polls_1 (sb : submit) : bool := ep_byte (sb_header sb) =? 0x81.
Definition polls_2 (sb : submit) : bool := ep_byte (sb_header sb) =? 0x82.
(** The key "1". *)
Definition key_1 : kb_report := mkReport 0 [0x1e; 0; 0; 0; 0; 0].
(** A control request in IN direction that is addressed to an interface. *)
Definition interface_in (sb : submit) : bool :=
  (ep_byte (sb_header sb) =? 0x80) && (nth 0 (sb_setup sb) 0 mod 16 =? 1).

(** A control request to interface 0 that the keyboard does not know. *)
Definition unknown_to_keyboard (sb : submit) : Prop :=
  ep_byte (sb_header sb) mod 128 = 0 /\
  exists s, setup_of (sb_setup sb) s /\ s_request_type s mod 16 = 1 /\ s_index s mod 256 = 0 /\
    ~ (s_request_type s = 129 /\ s_request s = 6 /\ s_value s / 256 = 34) /\
    ~ (s_request_type s = 33 /\ s_request s = 10).

(** Only commands that can be read from a socket are received. *)
Definition p_readable {H} (dbg : bool) (l : plabel H) : Prop :=
  match l with PServer (ASys l') => readable dbg l' | _ => True end.
