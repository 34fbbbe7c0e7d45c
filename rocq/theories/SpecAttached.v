(** * Specification: a Linux client attached to an example program

    A session of SpecLinux.v with the program at work: while clients come and go, the main task
    gives [x]s to its handler with [put], under the handler's mutex, at any time. *)
From Verif Require Export SpecLinux SpecProg SpecReport.

(** Steps in which the application has no part. *)
Definition app_free {H} (l : nlabel H) : bool :=
  match l with NSys (LAdd _ _) | NSys (LRemove _ _) | NSys (LApp _ _) => false | _ => true end.

Inductive program_session {H X} (dbg : bool) (t : tid) (d : device) (w : world H) (put : IS H -> X -> IS H) :
    net H -> list event -> client -> list N -> list command -> list N -> list X -> Prop :=
| ps_start : program_session dbg t d w put (init_net [d] w) [] (mkClient Attaching [] []) [] [] [] []
| ps_server n evs c said cmds heard xs l n' ev :
    program_session dbg t d w put n evs c said cmds heard xs -> nstep dbg n l = Some (n', ev) -> app_free l = true ->
    (forall k, n_socks n' !! t = Some k -> k_got k `prefix_of` said) ->
    program_session dbg t d w put n' (evs ++ ev) c said cmds heard xs
| ps_put n evs c said cmds heard xs x n' ev :
    program_session dbg t d w put n evs c said cmds heard xs ->
    nstep dbg n (NSys (LApp 0 (fun st => put st x))) = Some (n', ev) ->
    program_session dbg t d w put n' (evs ++ ev) c said cmds heard (xs ++ [x])
| ps_attach n evs c heard m f xs :
    program_session dbg t d w put n evs c [] [] heard xs ->
    all_u8 m = true -> cmd_layout true m (OpReqImport 0 f) ->
    program_session dbg t d w put n evs c m [OpReqImport 0 f] heard xs
| ps_send n evs v unread notes said cmds heard m cmd xs :
    program_session dbg t d w put n evs (mkClient (Attached v) unread notes) said cmds heard xs ->
    all_u8 m = true -> cmd_layout true m cmd -> fresh_seq v cmd ->
    program_session dbg t d w put n evs (mkClient (Attached (remember v cmd)) unread notes) (said ++ m) (cmds ++ [cmd]) heard xs
| ps_hear n evs c said cmds heard b k xs :
    program_session dbg t d w put n evs c said cmds heard xs ->
    n_socks n !! t = Some k -> heard ++ b `prefix_of` k_sent k ->
    program_session dbg t d w put n evs (l_hear c b) said cmds (heard ++ b) xs.

(** Nobody but the client on [t] has used the device so far. *)
Definition alone (t : tid) (evs : list event) : Prop :=
  forall u sb r, EvServe u (CmdSubmit sb) r ∈ evs -> u = t.

(** The data that the kernel got for the URBs of which [want] holds, in order: the first command
    is the import, the others are told in the order in which they were sent. *)
Definition handed_back (want : submit -> bool) (cmds : list command) (notes : list l_note) : list (list N) :=
  omap (fun cn => match cn with
                  | (CmdSubmit sb, GivenBack _ _ data) => if want sb then Some data else None
                  | _ => None
                  end) (zip (drop 1 cmds) notes).

(** Requests for the report descriptor of interface 0: GET_DESCRIPTOR, type 0x22, index 0. *)
Definition asks_report (sb : submit) : bool :=
  (ep_byte (sb_header sb) =? 0x80) && bool_decide (take 6 (sb_setup sb) = [129; 6; 0; 0x22; 0; 0]).

(** URBs of a HID driver: its buffers hold a report of 8 bytes, and for requests to the interface
    the report descriptor of [n] bytes. *)
Definition hid_urb (n : N) (c : command) : Prop :=
  forall sb, c = CmdSubmit sb ->
    (polls_1 sb = true -> 8 <= sb_transfer_buffer_length sb) /\
    (interface_in sb = true -> n <= sb_transfer_buffer_length sb).
(** URBs of a serial driver: no IN request to the interface (C86), and buffers of at least [n]
    bytes. *)
Definition acm_urb (n : N) (c : command) : Prop :=
  forall sb, c = CmdSubmit sb -> interface_in sb = false /\ (polls_2 sb = true -> n <= sb_transfer_buffer_length sb).

(** Both sides of the connection are idle and everything written has been read. *)
Definition caught_up_with {H} (dbg : bool) (t : tid) (n : net H) (said heard : list N) : Prop :=
  exists k cur, n_socks n !! t = Some k /\ y_tasks (n_sys n) !! t = Some (mkTask PRead cur) /\
    nstep dbg n (NPoll t) = None /\ k_got k = said /\ k_sent k = heard.
