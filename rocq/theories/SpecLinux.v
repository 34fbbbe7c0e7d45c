(** * A Linux client

    Written from the sources of the USB/IP client of Linux as known to the author
    (tools/usb/usbip/src/usbip_attach.c: import_device; drivers/usb/usbip/vhci_tx.c, vhci_rx.c,
    usbip_common.c: usbip_recv_xbuff, usbip_recv_iso).  Only the data types of the model are used. *)
From Verif Require Export SpecServed.

(** The big-endian word number [i] of a message. *)
Definition word (b : list N) (i : nat) : N :=
  match take 4 (drop (4 * i) b) with
  | [x; y; z; w] => x * 16777216 + y * 65536 + z * 256 + w
  | _ => 0
  end.

(** What the driver remembers of an URB until it is given back. *)
Record l_urb := mkLurb { u_seq : N; u_out : bool; u_len : N; u_iso : bool }.
Record vhci := mkVhci {
  v_urbs : list l_urb;                (* priv_rx: sent, not given back *)
  v_unlinks : list (N * N) }.         (* unlink_rx: seqnum of the CMD_UNLINK, seqnum it names *)

(** What the driver tells the rest of the kernel. *)
Inductive l_note :=
| GivenBack (seq status : N) (data : list N)
| Unlinked (seq status : N).

Inductive l_state :=
| Attaching                           (* usbip attach has sent OP_REQ_IMPORT and waits for the reply *)
| Attached (v : vhci)                 (* the socket belongs to the driver *)
| Refused                             (* the server has no such device *)
| Broken.                             (* VDEV_EVENT_ERROR_TCP: the driver gives the connection up *)
Record client := mkClient { l_st : l_state; l_unread : list N; l_notes : list l_note }.

(** Sending: the driver makes a note of what it has sent. *)
Definition note_urb (c : command) : option l_urb :=
  match c with
  | CmdSubmit s => Some (mkLurb (h_seqnum (sb_header s)) (h_direction (sb_header s) =? 0) (sb_transfer_buffer_length s)
                           (negb (sb_number_of_packets s =? 0) && negb (sb_number_of_packets s =? 4294967295)))
  | _ => None
  end.
Definition note_unlink (c : command) : option (N * N) :=
  match c with CmdUnlink h us => Some (h_seqnum h, us) | _ => None end.
Definition remember (v : vhci) (c : command) : vhci :=
  mkVhci (v_urbs v ++ option_list (note_urb c)) (v_unlinks v ++ option_list (note_unlink c)).

(** Sequence numbers are not reused while they are remembered (the kernel counts upwards). *)
Definition fresh_seq (v : vhci) (c : command) : Prop :=
  match c with
  | CmdSubmit s => h_seqnum (sb_header s) ∉ (u_seq <$> v_urbs v) /\ h_seqnum (sb_header s) ∉ (v_unlinks v).*2
  | CmdUnlink h _ => h_seqnum h ∉ (v_unlinks v).*1
  | _ => False
  end.

(** Receiving one message from [b]: not all there yet, not acceptable, or understood, with the
    number of bytes used. *)
Inductive l_rx := NeedMore | Reject | Understood (v : vhci) (notes : list l_note) (used : nat).

Definition rx_submit (v : vhci) (b : list N) : l_rx :=
  match find (fun u => u_seq u =? word b 1) (v_urbs v) with
  | None => Reject                                                         (* "cannot find a urb of seqnum" *)
  | Some u =>
      (* usbip_recv_xbuff: nothing follows for OUT; the size is a signed int *)
      let n := if u_out u || (2147483648 <=? word b 6) then 0 else word b 6 in
      if u_len u <? n then Reject
      else
        (* usbip_recv_iso *)
        let np := if u_iso u then word b 8 else 0 in
        let size := (48 + N.to_nat n + 16 * N.to_nat np)%nat in
        if (length b <? size)%nat then NeedMore
        else
          let total := fold_right N.add 0
            ((fun k => word (drop (48 + N.to_nat n + 16 * k) b) 2) <$> seq 0 (N.to_nat np)) in
          if negb (np =? 0) && negb (total =? word b 6) then Reject
          else Understood (mkVhci (List.filter (fun u' => negb (u_seq u' =? word b 1)) (v_urbs v)) (v_unlinks v))
                 [GivenBack (word b 1) (word b 5) (take (N.to_nat n) (drop 48 b))] size
  end.
Definition rx_unlink (v : vhci) (b : list N) : l_rx :=
  match find (fun x => x.1 =? word b 1) (v_unlinks v) with
  | None => Understood v [] 48                                              (* only logged *)
  | Some (_, us) =>
      let rest := List.filter (fun x => negb (x.1 =? word b 1)) (v_unlinks v) in
      match find (fun u => u_seq u =? us) (v_urbs v) with
      | None => Understood (mkVhci (v_urbs v) rest) [Unlinked (word b 1) (word b 5)] 48   (* already given back *)
      | Some _ =>
          Understood (mkVhci (List.filter (fun u => negb (u_seq u =? us)) (v_urbs v)) rest)
            [GivenBack us (word b 5) []; Unlinked (word b 1) (word b 5)] 48
      end
  end.
Definition rx_pdu (v : vhci) (b : list N) : l_rx :=
  if (length b <? 48)%nat then NeedMore
  else if word b 0 =? 3 then rx_submit v b
  else if word b 0 =? 4 then rx_unlink v b
  else Reject.

(** One message out of what has arrived; [None]: it waits for more, or for ever. *)
Definition l_step (c : client) : option client :=
  let b := l_unread c in
  match l_st c with
  | Attaching =>
      if (length b <? 8)%nat then None
      else if negb (word b 0 =? 0x01110003) then Some (mkClient Broken [] (l_notes c))
      else if negb (word b 1 =? 0) then Some (mkClient Refused [] (l_notes c))
      else if (length b <? 320)%nat then None
      else Some (mkClient (Attached (mkVhci [] [])) (drop 320 b) (l_notes c))
  | Attached v =>
      match rx_pdu v b with
      | NeedMore => None
      | Reject => Some (mkClient Broken [] (l_notes c))
      | Understood v' ns used => Some (mkClient (Attached v') (drop used b) (l_notes c ++ ns))
      end
  | Refused | Broken => None
  end.
Fixpoint l_settle (fuel : nat) (c : client) : client :=
  match fuel, l_step c with
  | S f, Some c' => l_settle f c'
  | _, _ => c
  end.
(** Bytes arrive at the client. *)
Definition l_hear (c : client) (b : list N) : client :=
  let c' := mkClient (l_st c) (l_unread c ++ b) (l_notes c) in l_settle (length (l_unread c')) c'.

(** ** The client on connection [t] of the server

    [linux_session … n evs c said cmds heard]: the server [n] and the client [c] have got there,
    together with all other clients; the client has written the messages of [cmds], which are the
    bytes [said], and read [heard].  Bytes travel in pieces of any size and at any speed, and the
    client may send while replies are outstanding. *)
Inductive linux_session {H} (dbg : bool) (t : tid) (ds : list device) (w : world H) :
    net H -> list event -> client -> list N -> list command -> list N -> Prop :=
| ls_start : linux_session dbg t ds w (init_net ds w) [] (mkClient Attaching [] []) [] [] []
| ls_server n evs c said cmds heard l n' ev :
    linux_session dbg t ds w n evs c said cmds heard -> nstep dbg n l = Some (n', ev) ->
    (forall k, n_socks n' !! t = Some k -> k_got k `prefix_of` said) ->      (* nobody else writes to [t] *)
    linux_session dbg t ds w n' (evs ++ ev) c said cmds heard
| ls_attach n evs c heard m f :
    linux_session dbg t ds w n evs c [] [] heard ->
    all_u8 m = true -> cmd_layout true m (OpReqImport 0 f) ->
    linux_session dbg t ds w n evs c m [OpReqImport 0 f] heard
| ls_send n evs v unread notes said cmds heard m cmd :
    linux_session dbg t ds w n evs (mkClient (Attached v) unread notes) said cmds heard ->
    all_u8 m = true -> cmd_layout true m cmd -> fresh_seq v cmd ->
    linux_session dbg t ds w n evs (mkClient (Attached (remember v cmd)) unread notes) (said ++ m) (cmds ++ [cmd]) heard
| ls_hear n evs c said cmds heard b k :
    linux_session dbg t ds w n evs c said cmds heard ->
    n_socks n !! t = Some k -> heard ++ b `prefix_of` k_sent k ->
    linux_session dbg t ds w n evs (l_hear c b) said cmds (heard ++ b).

(** A reply to [sb] that the driver can take: no payload for OUT, not more than the buffer for IN. *)
Definition takes_up (sb : submit) (b : list N) : Prop :=
  if h_direction (sb_header sb) =? 0 then length b = 48%nat
  else len b <= 48 + N.min (sb_transfer_buffer_length sb) 2147483647.
(** The server has answered an URB of [t] otherwise. *)
Definition answered_badly (dbg : bool) (t : tid) (evs : list event) : Prop :=
  exists sb r b, (CmdSubmit sb, r) ∈ served t evs /\ carries dbg (CmdSubmit sb, r) b /\ ~ takes_up sb b.

(** What the kernel is told about a command and its reply. *)
Definition told (cb : command * list N) (n : l_note) : Prop :=
  match cb.1 with
  | CmdSubmit s =>
      (exists data, submit_ok_reply (sb_header s) data cb.2 /\ n = GivenBack (h_seqnum (sb_header s)) 0 data) \/
      (submit_fail_reply (sb_header s) cb.2 /\ n = GivenBack (h_seqnum (sb_header s)) 1 [])
  | CmdUnlink h _ => n = Unlinked (h_seqnum h) 0
  | _ => False
  end.

(** An URB as the kernel makes it: the direction of the transfer agrees with that of the request
    (bulk and interrupt URBs carry no request: their setup bytes are zero), a control IN request
    asks for no more than the buffer holds, SET_CONFIGURATION carries no data. *)
Definition kernel_urb (c : command) : Prop :=
  forall sb, c = CmdSubmit sb -> exists s, setup_of (sb_setup sb) s /\
    ((h_direction (sb_header sb) = 0 /\ h_ep (sb_header sb) < 16 /\ s_request_type s < 128 /\
      (s_request_type s = 0 -> s_request s = 9 -> s_length s = 0)) \/
     (h_direction (sb_header sb) = 1 /\ s_length s <= sb_transfer_buffer_length sb /\
      sb_transfer_buffer_length sb < 2147483648)).
(** The devices that have been exported so far. *)
Definition ever_exported (ds : list device) (evs : list event) (d : device) : Prop :=
  d ∈ ds \/ exists t, EvAdd t d ∈ evs.

(** The client is in step: of the messages it has sent, those of [past] have been answered, in
    order, by the bytes read so far, and the replies carry what the server found out; the rest,
    [pending], is what the driver remembers; what is unread is less than the next reply. *)
Definition in_step (dbg : bool) (t : tid) (evs : list event) (c : client) (cmds : list command) (heard : list N) : Prop :=
  exists (past : list (command * list N)) pending l1 later,
    cmds = past.*1 ++ pending /\ heard = mjoin past.*2 ++ l_unread c /\
    served t evs = l1 ++ later /\ l1.*1 = past.*1 /\ Forall2 (carries dbg) l1 past.*2 /\
    match later with
    | [] => l_unread c = []
    | cr :: _ => forall b, carries dbg cr b -> (length (l_unread c) < length b)%nat
    end /\
    match past with
    | [] => l_st c = Attaching /\ l_notes c = []
    | (_, b) :: urbs =>
        (length b = 8%nat /\ l_st c = Refused /\ l_notes c = [] /\ pending = [] /\ urbs = []) \/
        (length b = 320%nat /\ l_st c = Attached (mkVhci (omap note_urb pending) (omap note_unlink pending)) /\
         Forall2 told urbs (l_notes c))
    end.
