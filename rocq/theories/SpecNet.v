(** * Specification vocabulary for the byte-level server *)
From Verif Require Export Net SpecConn.

(** What arrives are bytes. *)
Definition byte_label {H} (l : nlabel H) : Prop :=
  match l with NArrive _ c => Forall (fun x => x < 256) c | _ => True end.

(** What a reader can report, whatever the bytes: a complete command, the end or a
    failure of the stream, a version or a command code that the protocol does not know. *)
Definition readable {H} (dbg : bool) (l : label H) : Prop :=
  match l with
  | LRecv _ c => wf_command dbg c
  | LReadErr _ e =>
      match e with
      | EUnexpectedEof | EIo _ => True
      | EUnknownVersion v => v < 65536 /\ ~ version_ok v
      | EUnknownCommand c => c < 65536 /\ ~ known_code c
      | _ => False
      end
  | _ => True
  end.

(** Connection [t] has answered everything it has been sent: [got] is a sequence of
    complete messages and the beginning [rest] of another one at most; [sent] consists
    of their replies and the first [part] of the reply to what follows. *)
Definition dialogue (dbg : bool) (got sent : list N) (l : list (command * list N)) (rest part : list N) : Prop :=
  messages dbg got l.*1 rest /\ Forall (fun cb => answers cb.1 cb.2) l /\
  sent = mjoin l.*2 ++ part /\
  (part = [] \/ exists m c rest' more, rest = m ++ rest' /\ cmd_layout dbg m c /\ answers c (part ++ more)).

(** Steps the server, its runtime and the sockets of clients that read take by themselves. *)
Definition n_internal {H} (l : nlabel H) : bool :=
  match l with NSys l' => is_internal l' | NPoll _ | NWrite _ _ | NFlushed _ => true | _ => false end.
Definition at_rest {H} (dbg : bool) (n : net H) : Prop :=
  forall l, n_internal l = true -> nstep dbg n l = None.
