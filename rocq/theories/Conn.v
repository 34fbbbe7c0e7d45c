(** * One connection: handler (src/lib.rs:386-524), run without interference *)
From Verif Require Export Server.

(** State seen by a connection: the server, the handlers, and
    [current_import_device_id]. *)
Record cstate (H : handlers) := mkC {
  cs_server : server;
  cs_world : world H;
  cs_current : option rstring }.
Arguments mkC {H} _ _ _.
Arguments cs_server {H} _.
Arguments cs_world {H} _.
Arguments cs_current {H} _.

(** src/lib.rs:416-522: compute the response to one command and the new state;
    writing it to the socket follows. *)
Definition serve {H} (dbg : bool) (st : cstate H) (c : command)
    : outcome response * cstate H :=
  match c with
  | OpReqDevlist _ => (Val (op_rep_devlist (sv_available (cs_server st))), st)
  | OpReqImport _ busid =>
      let '(sv', r) := import_device (cs_server st) busid in
      (Val (import_response r), mkC sv' (cs_world st) (d_bus_id <$> r))
  | CmdSubmit sb =>
      let '(r, w') := serve_submit dbg (cs_world st)
                        (current_device (cs_server st) (cs_current st)) sb in
      (r, mkC (cs_server st) w' (cs_current st))
  | CmdUnlink h _ => (Val (serve_unlink h), st)
  end.

(** [write_to_socket] = [to_bytes] then [write_all].  [Some (n, e)] means the
    socket accepts [n] more bytes and then fails with error [e]; [None] means
    it never fails.  Result: the bytes that went out and either the remaining
    budget or the error. *)
Notation budget := (option (N * io_error)) (only parsing).
Definition write_all (bud : budget) (b : bytes) : bytes * (budget + io_error) :=
  match bud with
  | None => (b, inl None)
  | Some (n, e) => if len b <=? n then (b, inl (Some (n - len b, e)))
                   else (take (N.to_nat n) b, inr e)
  end.

(** How [handler] ends. *)
Inductive conn_end :=
| EndOk                    (* Ok(()) *)
| EndErr (e : io_error)    (* Err(e) *)
| EndPanic (p : panic)     (* the task panicked *)
| EndDiverge               (* never: see ConnProofs *)
| EndCancelled.            (* the future was dropped; only in Cancel.v *)

(** src/lib.rs:393-409: a read failed; release the device, then return. *)
Definition finish {H} (st : cstate H) (e : io_error) : conn_end * cstate H :=
  let res := match e with EUnexpectedEof => EndOk | _ => EndErr e end in
  match cs_current st with
  | None => (res, st)
  | Some id => match release_device (cs_server st) id with
               | Val sv' => (res, mkC sv' (cs_world st) (cs_current st))
               | Panic p => (EndPanic p, st)
               | Diverge => (EndDiverge, st)
               end
  end.

(** src/lib.rs:391-523, the loop.  Every iteration consumes at least one byte of
    input, so [S (length inp)] iterations suffice (ConnProofs). *)
Fixpoint conn_loop {H} (fuel : nat) (dbg : bool) (st : cstate H) (inp : bytes)
    (fin : stream_end) (bud : budget) : bytes * conn_end * cstate H :=
  match fuel with
  | O => ([], EndDiverge, st)
  | S fuel' =>
      match run_rd (read_from_socket dbg) inp fin with
      | RErr e => let '(r, st') := finish st e in ([], r, st')
      | RPan p => ([], EndPanic p, st)
      | ROk c rest =>
          let '(r, st1) := serve dbg st c in
          match obind r (response_to_bytes dbg) with
          | Panic p => ([], EndPanic p, st1)
          | Diverge => ([], EndDiverge, st1)
          | Val b =>
              match write_all bud b with
              | (sent, inl bud') =>
                  let '(out, e, st') := conn_loop fuel' dbg st1 rest fin bud' in
                  (sent ++ out, e, st')
              | (sent, inr e) => (sent, EndErr e, st1)
              end
          end
      end
  end.

(** src/lib.rs:386-390 *)
Definition handler {H} (dbg : bool) (sv : server) (w : world H) (inp : bytes)
    (fin : stream_end) (bud : budget) : bytes * conn_end * cstate H :=
  conn_loop (S (length inp)) dbg (mkC sv w None) inp fin bud.
