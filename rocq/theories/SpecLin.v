(** * Specification of atomicity: one operation after another *)
From Verif Require Export SpecSys.

(** The server as a sequential object: the devices, the handlers, and what each connection
    has imported. *)
Record seqst (H : handlers) := mkSeq {
  q_server : server;
  q_world : world H;
  q_cur : tid -> option rstring }.
Arguments mkSeq {H} _ _ _.
Arguments q_server {H} _.
Arguments q_world {H} _.
Arguments q_cur {H} _.

Definition upd (f : tid -> option rstring) (t : tid) (x : option rstring) : tid -> option rstring :=
  fun u => if u =? t then x else f u.

(** One operation, executed without interference by the functions of Server.v and Conn.v. *)
Inductive operation (H : handlers) :=
| OEvent (e : event)
| OApp (r : href) (f : IS H -> IS H).
Arguments OEvent {H} e.
Arguments OApp {H} r f.

Inductive does {H} (dbg : bool) (q : seqst H) : operation H -> seqst H -> Prop :=
| do_serve t c r st' : serve dbg (mkC (q_server q) (q_world q) (q_cur q t)) c = (r, st') ->
    does dbg q (OEvent (EvServe t c r)) (mkSeq (cs_server st') (cs_world st') (upd (q_cur q) t (cs_current st')))
| do_release t id sv' : q_cur q t = Some id -> release_device (q_server q) id = Val sv' ->
    does dbg q (OEvent (EvRelease t id)) (mkSeq sv' (q_world q) (upd (q_cur q) t None))
| do_add t d : does dbg q (OEvent (EvAdd t d)) (mkSeq (add_device (q_server q) d) (q_world q) (q_cur q))
| do_remove t id r sv' : remove_device (q_server q) id = (r, sv') ->
    does dbg q (OEvent (EvRemove t id r)) (mkSeq sv' (q_world q) (q_cur q))
| do_sent t b : does dbg q (OEvent (EvSent t b)) q
| do_end t r : does dbg q (OEvent (EvEnd t r)) (mkSeq (q_server q) (q_world q) (upd (q_cur q) t None))
| do_app r f : c_poisoned (w_intf (q_world q) r) = false ->
    does dbg q (OApp r f)
      (mkSeq (q_server q)
         (set_intf (q_world q) r (mkCell false (f (c_state (w_intf (q_world q) r))))) (q_cur q)).
Inductive does_all {H} (dbg : bool) : seqst H -> list (operation H) -> seqst H -> Prop :=
| da_nil q : does_all dbg q [] q
| da_cons q1 o q2 os q3 : does dbg q1 o q2 -> does_all dbg q2 os q3 -> does_all dbg q1 (o :: os) q3.

(** An execution: every label with the events its step produced. *)
Inductive execution {H} (dbg : bool) : sys H -> list (label H * list event) -> sys H -> Prop :=
| ex_nil s : execution dbg s [] s
| ex_cons s1 l ev s2 tr s3 : step dbg s1 l = Some (s2, ev) -> execution dbg s2 tr s3 ->
    execution dbg s1 ((l, ev) :: tr) s3.

(** The operations of an execution, in the order in which they took effect. *)
Definition ops_of_step {H} (x : label H * list event) : list (operation H) :=
  (match x.1 with LApp r f => [OApp r f] | _ => [] end) ++ (OEvent <$> x.2).
Definition ops_of {H} (tr : list (label H * list event)) : list (operation H) := tr ≫= ops_of_step.

(** ** What one task's history looks like *)

(** Requests and completions of task [t], in order: environment labels and events. *)
Inductive item := IConnect | IRecv (c : command) | IReadErr (e : io_error) | IReadPanic
| ISent | ISendErr (e : io_error) | IAdd (d : device) | IRemove (id : rstring) | IEv (e : event).
Definition item_of {H} (t : tid) (l : label H) : list item :=
  match l with
  | LConnect u => if u =? t then [IConnect] else []
  | LRecv u c => if u =? t then [IRecv c] else []
  | LReadErr u e => if u =? t then [IReadErr e] else []
  | LReadPanic u => if u =? t then [IReadPanic] else []
  | LSent u => if u =? t then [ISent] else []
  | LSendErr u e => if u =? t then [ISendErr e] else []
  | LAdd u d => if u =? t then [IAdd d] else []
  | LRemove u id => if u =? t then [IRemove id] else []
  | _ => []
  end.
Definition ev_of (t : tid) (e : event) : list item :=
  let u := match e with
           | EvServe u _ _ | EvRelease u _ | EvAdd u _ | EvRemove u _ _ | EvSent u _ | EvEnd u _ => u
           end in
  if u =? t then [IEv e] else [].
Definition items {H} (t : tid) (tr : list (label H * list event)) : list item :=
  tr ≫= fun x => item_of t x.1 ++ (x.2 ≫= ev_of t).

(** The stages of a task. *)
Inductive stage :=
| SNew                               (* no such task yet *)
| SIdle                              (* the connection waits for a command *)
| SBusy (c : command)                (* it received [c] *)
| SReply (r : outcome response)      (* the answer to it is [r] *)
| SSent (b : list N)                 (* the bytes [b] went out *)
| SClosing (e : io_error)            (* reading failed *)
| SDead (r : conn_end)               (* it is about to end *)
| SDone
| SAdding (d : device)
| SRemoving (id : rstring).

(** [stage_step dbg t a i b]: at stage [a], item [i] is legal and leads to stage [b]. *)
Inductive stage_step (dbg : bool) (t : tid) : stage -> item -> stage -> Prop :=
| ss_connect : stage_step dbg t SNew IConnect SIdle
| ss_recv c : stage_step dbg t SIdle (IRecv c) (SBusy c)
| ss_serve c r : stage_step dbg t (SBusy c) (IEv (EvServe t c r)) (SReply r)
| ss_send r x b : r = Val x -> response_to_bytes dbg x = Val b ->
    stage_step dbg t (SReply r) ISent (SSent b)
| ss_sent b : stage_step dbg t (SSent b) (IEv (EvSent t b)) SIdle
| ss_send_err r e : stage_step dbg t (SReply r) (ISendErr e) (SDead (EndErr e))
| ss_crash r e : (forall x b, r = Val x -> response_to_bytes dbg x <> Val b) ->
    (e = EndDiverge \/ exists p, e = EndPanic p) ->
    stage_step dbg t (SReply r) (IEv (EvEnd t e)) SDone
| ss_read_panic : dbg = true -> stage_step dbg t SIdle IReadPanic (SDead (EndPanic PDebugAssert))
| ss_read_err e : stage_step dbg t SIdle (IReadErr e) (SClosing e)
| ss_release e id : stage_step dbg t (SClosing e) (IEv (EvRelease t id)) (SDead (read_end e))
| ss_close e : stage_step dbg t (SClosing e) (IEv (EvEnd t (read_end e))) SDone
| ss_close_panic e : stage_step dbg t (SClosing e) (IEv (EvEnd t (EndPanic PUnreachable))) SDone
| ss_dead r : stage_step dbg t (SDead r) (IEv (EvEnd t r)) SDone
| ss_add d : stage_step dbg t SNew (IAdd d) (SAdding d)
| ss_added d : stage_step dbg t (SAdding d) (IEv (EvAdd t d)) SDone
| ss_remove id : stage_step dbg t SNew (IRemove id) (SRemoving id)
| ss_removed id r : stage_step dbg t (SRemoving id) (IEv (EvRemove t id r)) SDone.
Inductive legal (dbg : bool) (t : tid) : stage -> list item -> stage -> Prop :=
| lg_nil a : legal dbg t a [] a
| lg_cons a i b is c : stage_step dbg t a i b -> legal dbg t b is c -> legal dbg t a (i :: is) c.
