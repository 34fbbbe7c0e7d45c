(** * HID keyboard handler (src/hid.rs) *)
From Verif Require Export Handlers.

(** src/hid.rs:10-13 *)
Inductive kb_state := KbIdle | KbKeyDown.

(** src/hid.rs:29-34; [keys] is a [[u8; 6]] *)
Record kb_report := mkReport { r_modifier : N; r_keys : bytes }.

(** src/hid.rs:18-22 *)
Record keyboard := mkKeyboard {
  k_report_descriptor : bytes;
  k_pending : list kb_report;        (* VecDeque, front first *)
  k_state : kb_state }.

(** src/hid.rs:37-50 [from_ascii]; the subtractions cannot underflow in their arms. *)
Definition from_ascii (ascii : N) : outcome kb_report :=
  let mk key := Val (mkReport 0 [key; 0; 0; 0; 0; 0]) in
  if (97 <=? ascii) && (ascii <=? 122) then mk (ascii - 97 + 4)
  else if (49 <=? ascii) && (ascii <=? 57) then mk (ascii - 49 + 30)
  else if ascii =? 48 then mk 39
  else if (ascii =? 13) || (ascii =? 10) then mk 40
  else Panic PUnimplemented.

(** src/hid.rs:58-85 *)
Definition keyboard_report_descriptor : bytes :=
  [ 5; 1;  9; 6;  161; 1;
    5; 7;  25; 224;  41; 231;  21; 0;  37; 1;  117; 1;  149; 8;  129; 2;
    149; 1;  117; 8;  129; 1;
    149; 6;  117; 8;  21; 0;  37; 101;  5; 7;  25; 0;  41; 101;  129; 0;
    192 ].

(** src/hid.rs:54-87 [new_keyboard] *)
Definition new_keyboard : keyboard :=
  mkKeyboard keyboard_report_descriptor [] KbIdle.

(** src/hid.rs:91-142 [handle_urb] *)
Definition kb_handle_urb (k : keyboard) (_ : interface) (ep : endpoint) (_ : N)
    (s : setup_packet) (_ : bytes) : call_result keyboard :=
  if is_ep0 ep then
    if (s_request_type s =? 129) && (s_request s =? 6) then
      match hid_desc_type_of (N.shiftr (s_value s) 8) with
      | Some HReport => CallOk k (k_report_descriptor k)
      | _ => CallPanic k PUnimplemented
      end
    else if (s_request_type s =? 33) && (s_request s =? 10) then CallOk k []
    else CallPanic k PUnimplemented
  else
    match ep_direction ep with
    | DIn =>
        match k_state k with
        | KbIdle =>
            match k_pending k with
            | r :: rest =>
                CallOk (mkKeyboard (k_report_descriptor k) rest KbKeyDown)
                       ([r_modifier r; 0] ++ r_keys r)
            | [] => CallOk k []
            end
        | KbKeyDown =>
            CallOk (mkKeyboard (k_report_descriptor k) (k_pending k) KbIdle)
                   (replicate 6 0)
        end
    | DOut => CallOk k []
    end.

(** src/hid.rs:144-156 [get_class_specific_descriptor] *)
Definition kb_csd (k : keyboard) : bytes :=
  let l := len (k_report_descriptor k) in
  [ 9; hid_desc_type_val HHid; 17; 1; 0; 1; hid_desc_type_val HReport;
    as_u8 l; as_u8 (N.shiftr l 8) ].

(** Application side: [pending_key_events.push_back(r)] under the handler's mutex
    (the field is public; examples/hid_keyboard.rs). *)
Definition kb_push (k : keyboard) (r : kb_report) : keyboard :=
  mkKeyboard (k_report_descriptor k) (k_pending k ++ [r]) (k_state k).
