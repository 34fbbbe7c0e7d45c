(** * The server on the network: byte streams instead of whole commands

    Sys.v receives a command and finishes a reply in one step each.  Here every
    connection has a socket: bytes arrive in chunks of any size at any time,
    [read_from_socket] (src/usbip_protocol.rs:147-250) is suspended inside its
    [read_exact]s while other tasks run, and [write_all] hands out a reply piece
    by piece. *)
From Verif Require Export Sys.

Record sock := mkSock {
  k_in : list bytes;            (* arrived and not read yet, in order *)
  k_end : option stream_end;    (* set when the stream ends after these *)
  k_rd : rd command;            (* the rest of [read_from_socket] *)
  k_buf : bytes;                (* what its current [read_exact] has got so far *)
  k_pos : N;                    (* how much of the current reply has been written *)
  k_got : bytes;                (* history: everything that arrived *)
  k_sent : bytes }.             (* history: everything that went out *)

(** One poll of the reader, if it does not finish with it: the next [poll_read] of
    [read_exact] copies from the first chunk what still fits (tokio); a full
    buffer lets the program go on. *)
Definition poll (k : sock) : option sock :=
  match k_rd k with
  | RAlloc _ p =>
      Some (mkSock (k_in k) (k_end k) p (k_buf k) (k_pos k) (k_got k) (k_sent k))
  | RRead n f =>
      if n <=? len (k_buf k)
      then Some (mkSock (k_in k) (k_end k) (f (k_buf k)) [] (k_pos k) (k_got k) (k_sent k))
      else match k_in k with
           | [] => None
           | c :: cs =>
               let need := N.to_nat (n - len (k_buf k)) in
               Some (mkSock (if (length c <=? need)%nat then cs else drop need c :: cs)
                       (k_end k) (k_rd k) (k_buf k ++ take need c) (k_pos k)
                       (k_got k) (k_sent k))
           end
  | _ => None
  end.

(** How [read_from_socket] finishes at this poll, if it does. *)
Definition polled {H} (t : tid) (k : sock) : option (label H) :=
  match k_rd k with
  | RRet c => Some (LRecv t c)
  | RFail e => Some (LReadErr t e)
  | RPanic _ => Some (LReadPanic t)
  | RAlloc _ _ => None
  | RRead n _ =>
      if n <=? len (k_buf k) then None
      else match k_in k, k_end k with
           | [], Some f => Some (LReadErr t (end_error f))
           | _, _ => None
           end
  end.

Record net (H : handlers) := mkNet {
  n_sys : sys H;
  n_socks : gmap tid sock }.
Arguments mkNet {H} _ _.
Arguments n_sys {H} _.
Arguments n_socks {H} _.

Inductive nlabel (H : handlers) :=
| NSys (l : label H)                   (* a step that involves no socket *)
| NArrive (t : tid) (c : bytes)        (* bytes arrive at connection [t] *)
| NClose (t : tid) (f : stream_end)    (* the incoming stream ends *)
| NPoll (t : tid)                      (* the reader of [t] is polled *)
| NWrite (t : tid) (n : N)             (* the socket takes [n] bytes of the reply *)
| NFlushed (t : tid)                   (* [write_all] returns *)
| NWriteErr (t : tid) (e : io_error).  (* [write_all] fails *)
Arguments NSys {H} l.
Arguments NArrive {H} t c.
Arguments NClose {H} t f.
Arguments NPoll {H} t.
Arguments NWrite {H} t n.
Arguments NFlushed {H} t.
Arguments NWriteErr {H} t e.

(** Labels of Sys.v that are decided by sockets here. *)
Definition socket_label {H} (l : label H) : bool :=
  match l with
  | LRecv _ _ | LReadErr _ _ | LReadPanic _ | LSent _ | LSendErr _ _ => true
  | _ => false
  end.

Section NStep.
  Context {H : handlers} (dbg : bool).

  (** A connection at src/lib.rs:392: about to read a command. *)
  Definition fresh_sock : sock := mkSock [] None (read_from_socket dbg) [] 0 [] [].

  Definition set_sock (n : net H) (t : tid) (k : sock) : net H :=
    mkNet (n_sys n) (<[t := k]> (n_socks n)).

  (** Let the server do a step of Sys.v. *)
  Definition sys_step (n : net H) (l : label H) : option (net H * list event) :=
    match step dbg (n_sys n) l with
    | Some (s', ev) => Some (mkNet s' (n_socks n), ev)
    | None => None
    end.

  Definition nstep (n : net H) (l : nlabel H) : option (net H * list event) :=
    match l with
    | NSys l =>
        if socket_label l then None
        else match l with
             | LConnect t => sys_step (set_sock n t fresh_sock) l
             | _ => sys_step n l
             end
    | NArrive t c =>
        match n_socks n !! t, c with
        | Some (mkSock i None r b p g s), _ :: _ =>
            Some (set_sock n t (mkSock (i ++ [c]) None r b p (g ++ c) s), [])
        | _, _ => None
        end
    | NClose t f =>
        match n_socks n !! t with
        | Some (mkSock i None r b p g s) =>
            Some (set_sock n t (mkSock i (Some f) r b p g s), [])
        | _ => None
        end
    | NPoll t =>
        match n_socks n !! t, y_tasks (n_sys n) !! t with
        | Some k, Some (mkTask PRead _) =>
            match polled t k with
            | Some l => sys_step n l
            | None => match poll k with
                      | Some k' => Some (set_sock n t k', [])
                      | None => None
                      end
            end
        | _, _ => None
        end
    | NWrite t m =>
        match n_socks n !! t, y_tasks (n_sys n) !! t with
        | Some (mkSock i f r b p g s), Some (mkTask (PWrite out) _) =>
            if (1 <=? m) && (p + m <=? len out)
            then Some (set_sock n t (mkSock i f r b (p + m) g
                         (s ++ take (N.to_nat m) (drop (N.to_nat p) out))), [])
            else None
        | _, _ => None
        end
    | NFlushed t =>
        match n_socks n !! t, y_tasks (n_sys n) !! t with
        | Some (mkSock i f _ _ p g s), Some (mkTask (PWrite out) _) =>
            if p =? len out
            then sys_step (set_sock n t (mkSock i f (read_from_socket dbg) [] 0 g s)) (LSent t)
            else None
        | _, _ => None
        end
    | NWriteErr t e =>
        match n_socks n !! t with
        | Some _ => sys_step n (LSendErr t e)
        | None => None
        end
    end.

  Fixpoint nrun (n : net H) (ls : list (nlabel H)) : option (net H * list event) :=
    match ls with
    | [] => Some (n, [])
    | l :: ls' => match nstep n l with
                  | None => None
                  | Some (n1, e1) => match nrun n1 ls' with
                                     | None => None
                                     | Some (n2, e2) => Some (n2, e1 ++ e2)
                                     end
                  end
    end.
End NStep.

(** A server just created, with no connection yet. *)
Definition init_net {H} (ds : list device) (w : world H) : net H :=
  mkNet (init_sys ds w) ∅.
