(** * UsbIpServer and the body of the connection loop (src/lib.rs) *)
From Verif Require Export Protocol Urb.

(** src/lib.rs:43-46 [UsbIpServer], without its locks (see Sys.v). *)
Record server := mkServer {
  sv_available : list device;
  sv_used : gmap rstring device }.

(** src/lib.rs:50-55 [new_simulated] *)
Definition new_simulated (ds : list device) : server := mkServer ds ∅.

(** src/lib.rs:356-358 [add_device] *)
Definition add_device (sv : server) (d : device) : server :=
  mkServer (sv_available sv ++ [d]) (sv_used sv).

(** [position] of the first device satisfying [p], then [Vec::remove]. *)
Fixpoint take_first (p : device -> bool) (ds : list device) : option (device * list device) :=
  match ds with
  | [] => None
  | d :: ds' => if p d then Some (d, ds')
                else match take_first p ds' with
                     | Some (x, r) => Some (x, d :: r)
                     | None => None
                     end
  end.

Definition str_eqb (a b : rstring) : bool := bool_decide (a = b).

(** src/lib.rs:363-364: look for an available device with this bus id. *)
Definition remove_available (sv : server) (id : rstring) : option server :=
  match take_first (fun d => str_eqb (d_bus_id d) id) (sv_available sv) with
  | Some (_, rest) => Some (mkServer rest (sv_used sv))
  | None => None
  end.

(** src/lib.rs:366-382: the answer when none is available.  [values().find(..)]
    visits the map in an unspecified order; all matches have bus id [id], so the
    message does not depend on it. *)
Definition remove_missing (sv : server) (id : rstring) : io_error :=
  if existsb (fun kd => str_eqb (d_bus_id kd.2) id) (map_to_list (sv_used sv))
  then EDeviceInUse id else EDeviceNotFound id.

(** src/lib.rs:360-383 [remove_device], run without interference. *)
Definition remove_device (sv : server) (id : rstring) : ioresult unit * server :=
  match remove_available sv id with
  | Some sv' => (IOk tt, sv')
  | None => (IErr (remove_missing sv id), sv)
  end.

(** src/lib.rs:436-437: the 32-byte field up to its first NUL. *)
Fixpoint until_nul (l : bytes) : bytes :=
  match l with
  | [] => []
  | b :: l' => if b =? 0 then [] else b :: until_nul l'
  end.

(** src/lib.rs:434-447: move the first matching available device to the in-use map.
    Returns the new server and the imported device, if any. *)
Definition import_device (sv : server) (busid : bytes) : server * option device :=
  match take_first (fun d => bool_decide (until_nul busid = utf8 (d_bus_id d)))
          (sv_available sv) with
  | Some (d, rest) => (mkServer rest (<[d_bus_id d := d]> (sv_used sv)), Some d)
  | None => (sv, None)
  end.

(** src/lib.rs:449-453 *)
Definition import_response (r : option device) : response :=
  match r with Some d => op_rep_import_success d | None => op_rep_import_fail end.

(** src/lib.rs:394-400: give the imported device back. *)
Definition release_device (sv : server) (id : rstring) : outcome server :=
  match sv_used sv !! id with
  | Some d => Val (mkServer (sv_available sv ++ [d]) (delete id (sv_used sv)))
  | None => Panic PUnreachable
  end.

(** src/lib.rs:412-414: the device this connection currently uses. *)
Definition current_device (sv : server) (cur : option rstring) : option device :=
  match cur with Some id => sv_used sv !! id | None => None end.

(** src/lib.rs:470 and 516: the reply header, with the command code replaced. *)
Definition reply_header (h : header) (code : N) : header :=
  mkHeader code (h_seqnum h) (h_devid h) (h_direction h) (h_ep h).

(** src/lib.rs:467-468 *)
Definition real_ep (h : header) : N :=
  if h_direction h =? 0 then h_ep h else N.lor (h_ep h) 128.

(** src/lib.rs:465-506: serve a CMD_SUBMIT.  [cur = None] is the [unwrap] on 465. *)
Definition serve_submit {H} (dbg : bool) (w : world H) (cur : option device)
    (sb : submit) : outcome response * world H :=
  match cur with
  | None => (Panic PUnwrapNone, w)
  | Some d =>
      let h := reply_header (sb_header sb) USBIP_RET_SUBMIT in
      match find_ep d (as_u8 (real_ep (sb_header sb))) with
      | None => (Val (usbip_ret_submit_fail h), w)
      | Some (ep, intf) =>
          let '(r, w') := handle_urb dbg w d ep intf (sb_transfer_buffer_length sb)
                            (setup_parse (sb_setup sb)) (sb_data sb) in
          match r with
          | UOk resp => (Val (usbip_ret_submit_success h 0 0 resp []), w')
          | UErr _ => (Val (usbip_ret_submit_fail h), w')
          | UPanic p => (Panic p, w')
          end
      end
  end.

(** src/lib.rs:510-518: serve a CMD_UNLINK. *)
Definition serve_unlink (h : header) : response :=
  usbip_ret_unlink_success (reply_header h USBIP_RET_UNLINK).
