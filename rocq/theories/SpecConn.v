(** * Specification of a connection, as the client sees it *)
From Verif Require Export SpecWire Conn.

(** A reply header: the request's header with the reply's code. *)
Definition echo (code : N) (h : header) : header :=
  mkHeader code (h_seqnum h) (h_devid h) (h_direction h) (h_ep h).

(** A RET_SUBMIT for request header [h] that succeeded with [data] / that failed. *)
Definition submit_ok_reply (h : header) (data b : list N) : Prop :=
  ret_submit_layout b (mkRetSubmit (echo 3 h) 0 (len data mod 4294967296) 0 0 0 data []).
Definition submit_fail_reply (h : header) (b : list N) : Prop :=
  ret_submit_layout b (mkRetSubmit (echo 3 h) 1 0 0 0 0 [] []).

(** [answers c b]: the bytes [b] are one reply message of the kind [c] asks for, with
    seqnum, devid, direction and ep of the request. *)
Definition answers (c : command) (b : list N) : Prop :=
  match c with
  | OpReqDevlist _ => u16_at b 0 0x111 /\ u16_at b 2 5 /\ u32_at b 4 0
  | OpReqImport _ _ =>
      u16_at b 0 0x111 /\ u16_at b 2 3 /\
      ((length b = 320%nat /\ u32_at b 4 0) \/ (length b = 8%nat /\ u32_at b 4 1))
  | CmdSubmit s =>
      (exists data, submit_ok_reply (sb_header s) data b) \/ submit_fail_reply (sb_header s) b
  | CmdUnlink h _ => ret_unlink_layout b (echo 4 h) 0
  end.

(** [inp] starts with the messages of [cs], followed by [rest]. *)
Inductive messages (strict : bool) : list N -> list command -> list N -> Prop :=
| msgs_nil rest : messages strict rest [] rest
| msgs_cons m c inp cs rest :
    cmd_layout strict m c -> messages strict inp cs rest ->
    messages strict (m ++ inp) (c :: cs) rest.

(** The endpoint byte a request addresses: number, and bit 7 for IN. *)
Definition ep_byte (h : header) : N :=
  if h_direction h =? 0 then h_ep h mod 256 else 128 + h_ep h mod 128.

(** [addressed d a e i]: on device [d], endpoint byte [a] means endpoint [e], which belongs to
    interface [i] ([None] for endpoint zero).  The control endpoints come first; then the
    first endpoint of the first interface that declares [a]. *)
Definition declares (f : interface) (a : N) : Prop := exists e, e ∈ if_endpoints f /\ ep_address e = a.
Inductive addressed (d : device) (a : N) : endpoint -> option interface -> Prop :=
| addr_ep0_in : ep_address (d_ep0_in d) = a -> addressed d a (d_ep0_in d) None
| addr_ep0_out : ep_address (d_ep0_in d) <> a -> ep_address (d_ep0_out d) = a ->
    addressed d a (d_ep0_out d) None
| addr_intf fs1 f fs2 es1 e es2 :
    ep_address (d_ep0_in d) <> a -> ep_address (d_ep0_out d) <> a ->
    d_interfaces d = fs1 ++ f :: fs2 -> (forall g, g ∈ fs1 -> ~ declares g a) ->
    if_endpoints f = es1 ++ e :: es2 -> ep_address e = a ->
    (forall x, x ∈ es1 -> ep_address x <> a) ->
    addressed d a e (Some f).
Definition unknown_ep (d : device) (a : N) : Prop :=
  ep_address (d_ep0_in d) <> a /\ ep_address (d_ep0_out d) <> a
  /\ forall f, f ∈ d_interfaces d -> ~ declares f a.

(** The setup packet: 8 bytes, little endian. *)
Definition setup_of (b : list N) (s : setup_packet) : Prop :=
  exists b0 b1 b2 b3 b4 b5 b6 b7, b = [b0; b1; b2; b3; b4; b5; b6; b7]
  /\ s = mkSetup b0 b1 (b2 + 256 * b3) (b4 + 256 * b5) (b6 + 256 * b7).

(** The connection resumed in a given state (at [read_from_socket]). *)
Definition connection {H} (dbg : bool) (st : cstate H) (inp : list N) (fin : stream_end)
    (bud : budget) : list N * conn_end * cstate H :=
  conn_loop (S (length inp)) dbg st inp fin bud.

(** ** Which handler serves a request *)
Inductive target := TIntf (f : interface) | TDev (r : href).

(** Requests on a control endpoint that the library answers itself: GET_DESCRIPTOR from a
    device (IN) and SET_CONFIGURATION of a device (OUT). *)
Definition in_ep (e : endpoint) : Prop := 128 <= ep_address e mod 256.
Definition library_request (e : endpoint) (s : setup_packet) : Prop :=
  (in_ep e /\ s_request_type s = 128 /\ s_request s = 6) \/
  (~ in_ep e /\ s_request_type s = 0 /\ s_request s = 9).

(** Non-control transfers go to the interface that owns the endpoint; control requests go
    to the interface or the device named by the recipient field. *)
Inductive routed (d : device) (e : endpoint) (i : option interface) (s : setup_packet)
  : target -> Prop :=
| rt_transfer f : 1 <= ep_attributes e <= 3 -> i = Some f -> routed d e i s (TIntf f)
| rt_interface f : ep_attributes e = 0 -> ~ library_request e s ->
    s_request_type s mod 16 = 1 -> d_interfaces d !! N.to_nat (s_index s mod 256) = Some f ->
    routed d e i s (TIntf f)
| rt_device r : ep_attributes e = 0 -> ~ library_request e s ->
    s_request_type s mod 16 = 0 -> d_handler d = Some r ->
    routed d e i s (TDev r).

(** What a handler call did. *)
Inductive hres := HOk (data : list N) | HErr (x : io_error) | HPanic (p : panic).
Definition call_state {S} (c : call_result S) : S :=
  match c with CallOk s _ | CallErr s _ | CallPanic s _ => s end.
Definition call_answer {S} (c : call_result S) : hres :=
  match c with CallOk _ d => HOk d | CallErr _ x => HErr x | CallPanic _ p => HPanic p end.
Definition panicked (o : hres) : bool := match o with HPanic _ => true | _ => false end.

(** The handler of the target was usable, was called exactly once with these arguments,
    answered [o], and nothing but its own state changed. *)
Inductive invoked {H} (w : world H) (e : endpoint) (tbl : N) (s : setup_packet) (req : list N)
  : target -> hres -> world H -> Prop :=
| inv_intf f st c w' :
    w_intf w (if_handler f) = mkCell false st -> i_step H st f e tbl s req = c ->
    w_intf w' (if_handler f) = mkCell (panicked (call_answer c)) (call_state c) ->
    (forall r, r <> if_handler f -> w_intf w' r = w_intf w r) ->
    (forall r, w_dev w' r = w_dev w r) ->
    invoked w e tbl s req (TIntf f) (call_answer c) w'
| inv_dev r st c w' :
    w_dev w r = mkCell false st -> d_step H st tbl s req = c ->
    w_dev w' r = mkCell (panicked (call_answer c)) (call_state c) ->
    (forall r', r' <> r -> w_dev w' r' = w_dev w r') ->
    (forall r', w_intf w' r' = w_intf w r') ->
    invoked w e tbl s req (TDev r) (call_answer c) w'.

(** The target's mutex is not poisoned. *)
Definition usable {H} (w : world H) (t : target) : Prop :=
  match t with
  | TIntf f => c_poisoned (w_intf w (if_handler f)) = false
  | TDev r => c_poisoned (w_dev w r) = false
  end.
