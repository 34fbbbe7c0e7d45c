(** * Specification of the remaining device-level behaviour: which requests abort, block
    structure of descriptors, BCD versions *)
From Verif Require Export SpecTransfer Util.

(** The situations in which serving an URB aborts the connection's task. *)
Inductive aborting {H} (dbg : bool) (w : world H) (d : device) (e : endpoint) (i : option interface)
    (tbl : N) (s : setup_packet) (req : list N) : Prop :=
| ab_unknown_kind : 3 < ep_attributes e -> aborting dbg w d e i tbl s req
| ab_no_interface : 1 <= ep_attributes e <= 3 -> i = None -> aborting dbg w d e i tbl s req
| ab_long_string str : dbg = true -> ep_attributes e = 0 -> in_ep e ->
    s_request_type s = 128 -> s_request s = 6 -> s_value s / 256 = 3 -> s_value s mod 256 <> 0 ->
    d_string_pool d !! (s_value s mod 256) = Some str -> 127 <= len (utf16 str) mod 256 ->
    aborting dbg w d e i tbl s req
| ab_recipient : ep_attributes e = 0 -> ~ library_request e s -> 2 <= s_request_type s mod 16 ->
    aborting dbg w d e i tbl s req
| ab_no_handler : ep_attributes e = 0 -> ~ library_request e s -> s_request_type s mod 16 = 0 ->
    d_handler d = None -> aborting dbg w d e i tbl s req
| ab_bad_interface : ep_attributes e = 0 -> ~ library_request e s -> s_request_type s mod 16 = 1 ->
    len (d_interfaces d) <= s_index s mod 256 -> aborting dbg w d e i tbl s req
| ab_poisoned t : routed d e i s t -> ~ usable w t -> aborting dbg w d e i tbl s req
| ab_handler_panics t p : routed d e i s t -> usable w t ->
    handler_answer w e tbl s req t = HPanic p -> aborting dbg w d e i tbl s req.

(** Bytes that are a sequence of blocks whose first byte is the block's own length. *)
Inductive self_blocks : list N -> Prop :=
| sb_nil : self_blocks []
| sb_cons n body rest : n = 1 + len body -> self_blocks rest -> self_blocks (n :: body ++ rest).
(** ... whose last block announces more bytes than there are / announces length zero. *)
Definition overrun (b : list N) : Prop :=
  exists good n body, b = good ++ n :: body /\ self_blocks good /\ 1 + len body < n.
Definition stuck (b : list N) : Prop :=
  exists good body, b = good ++ 0 :: body /\ self_blocks good.
