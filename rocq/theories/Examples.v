(** * Concrete devices, handlers and sessions used by the examples beside the theorems *)
From Verif Require Export TransferProofs.
From Verif Require Export PropsCodec.
From Coq Require Strings.String.
Import Strings.String.StringSyntax.

(** Handlers that remember OUT payloads: IN returns (at most [tbl] bytes of) what was stored,
    OUT appends, an empty OUT is refused with an error. *)
Definition ex_h : handlers := mkHandlers (list N) (list N)
  (fun st _ e tbl _ req =>
     match ep_direction e with
     | DIn => CallOk st (take (N.to_nat tbl) st)
     | DOut => match req with [] => CallErr st (EHandler 5) | _ => CallOk (st ++ req) [] end
     end)
  (fun _ => [])
  (fun st tbl s _ => CallErr st (EHandler 7)).
Definition ex_world : world ex_h :=
  @mkWorld ex_h (fun _ => mkCell false [65; 66; 67]) (fun _ => mkCell false []).

(** A device with one interface: bulk IN endpoint 0x81 and bulk OUT endpoint 0x02. *)
Definition ex_intf : interface :=
  mkInterface 255 0 0 [mkEndpoint 129 2 512 0; mkEndpoint 2 2 512 0] 0 [] 4.
Definition ex_dev : device :=
  mkDevice (lit "/sys/bus/0/0/0") (lit "0-0-0") 0 0 3 4660 22136 (mkVersion 1 2 0) 0 0 0 1 1
    [ex_intf] None (mkVersion 2 0 0) (mkEndpoint 128 0 64 0) (mkEndpoint 0 0 64 0)
    (<[1 := lit "Default Configuration"]> (<[2 := lit "Manufacturer"]>
       (<[3 := lit "Product"]> (<[4 := lit "Serial"]> ∅)))) 1 2 3 4.

(** A connection that imported it. *)
Definition ex_state : cstate ex_h :=
  mkC (mkServer [] {[ lit "0-0-0" := ex_dev ]}) ex_world (Some (lit "0-0-0")).
Lemma ex_imported : imported ex_state ex_dev.
Proof. exists (lit "0-0-0"). split; [done|]. apply lookup_singleton. Qed.

(** Wire messages. *)
Definition wire (c : command) : list N :=
  match command_to_bytes false c with Val b => b | _ => [] end.
Definition submit_cmd (dir ep tbl : N) (setup data : list N) : submit :=
  mkSubmit (mkHeader 1 9 65538 dir ep) 0 tbl 0 0 0 setup data [].
Lemma wire_ok dbg c : wf_command dbg c -> wf_command false c ->
  all_u8 (wire c) = true /\ cmd_layout dbg (wire c) c.
Proof.
  intros H1 H2. unfold wire. destruct (encode_total false c H2) as [b Hb]. rewrite Hb.
  split; [exact (encode_u8 _ _ _ H2 Hb)|].
  destruct dbg; [|exact (encode_layout _ _ _ H2 Hb)].
  destruct (encode_total true c H1) as [b' Hb'].
  assert (b' = b) as ->; [|exact (encode_layout _ _ _ H1 Hb')].
  destruct c; cbn in Hb, Hb'; unfold debug_assert in *; cbn in Hb; repeat case_match; congruence.
Qed.

Definition ex_in : submit := submit_cmd 1 1 2 (replicate 8 0) [].
Definition ex_out : submit := submit_cmd 0 2 3 (replicate 8 0) [1; 2; 3].
Definition ex_out0 : submit := submit_cmd 0 2 0 (replicate 8 0) [].
Definition ex_unknown : submit := submit_cmd 0 3 1 (replicate 8 0) [1].
(** SET_CONFIGURATION(1), with wLength [wl] *)
Definition ex_setconf (wl : N) : submit := submit_cmd 0 0 0 [0; 9; 1; 0; 0; 0; wl; 0] [].

Ltac wf_ex := cbn; unfold wf_header, byte_list, u32; cbn; split_and!; auto; try lia; try done; repeat constructor.
Lemma ex_wire dbg sb : sb ∈ [ex_in; ex_out; ex_out0; ex_unknown; ex_setconf 0; ex_setconf 1] ->
  all_u8 (wire (CmdSubmit sb)) = true /\ cmd_layout dbg (wire (CmdSubmit sb)) (CmdSubmit sb).
Proof.
  intros Hin. repeat (apply elem_of_cons in Hin as [-> |Hin]); [..|by apply elem_of_nil in Hin];
    apply wire_ok; destruct dbg; wf_ex.
Qed.
Lemma ex_unlink_wire dbg : all_u8 (wire ex_unlink) = true /\ cmd_layout dbg (wire ex_unlink) ex_unlink.
Proof. apply wire_ok; destruct dbg; wf_ex. Qed.

Ltac in_list := repeat (first [left; reflexivity | right]).

(** The bulk submits are delivered to the interface's handler. *)
Lemma ex_delivered dbg : 
  delivered dbg ex_state (wire (CmdSubmit ex_in)) ex_in ex_dev (mkEndpoint 129 2 512 0) (Some ex_intf)
    (mkSetup 0 0 0 0 0) (TIntf ex_intf) /\
  delivered dbg ex_state (wire (CmdSubmit ex_out)) ex_out ex_dev (mkEndpoint 2 2 512 0) (Some ex_intf)
    (mkSetup 0 0 0 0 0) (TIntf ex_intf) /\
  delivered dbg ex_state (wire (CmdSubmit ex_out0)) ex_out0 ex_dev (mkEndpoint 2 2 512 0) (Some ex_intf)
    (mkSetup 0 0 0 0 0) (TIntf ex_intf).
Proof.
  destruct (ex_wire dbg ex_in) as [A1 B1]; [in_list|].
  destruct (ex_wire dbg ex_out) as [A2 B2]; [in_list|].
  destruct (ex_wire dbg ex_out0) as [A3 B3]; [in_list|].
  split_and!; (split; [assumption|assumption|exact ex_imported| | | |]);
    try (apply find_ep_some; reflexivity); try (unfold setup_of; do 8 eexists; split; reflexivity);
    try (apply rt_transfer; cbn; [lia|done]); reflexivity.
Qed.
