(** * The example programs (examples/hid_keyboard.rs, examples/cdc_acm_serial.rs)

    Both build one device with one bundled handler, spawn [server] and then, for ever, sleep for
    a second and push one event into the handler under its mutex.  Simplifications: time is not
    modelled, the main task may come round its loop at any moment; the logger is left out. *)
From Verif Require Export Accept Hid Cdc.
From Coq Require Strings.String.
Import Strings.String.StringSyntax.

(** src/consts.rs:20-43 [ClassCode] *)
Inductive class_code :=
| ClSeeInterface | ClAudio | ClCDC | ClHID | ClPhysical | ClImage | ClPrinter | ClMassStorage | ClHub | ClCDCData
| ClSmartCard | ClContentSecurity | ClVideo | ClPersonalHealthcare | ClAudioVideo | ClBillboard | ClTypeCBridge
| ClDiagnostic | ClWirelessController | ClMisc | ClApplicationSpecific | ClVendorSpecific.
Definition class_code_val (c : class_code) : N :=
  match c with
  | ClSeeInterface => 0 | ClAudio => 1 | ClCDC => 2 | ClHID => 3 | ClPhysical => 5 | ClImage => 6 | ClPrinter => 7
  | ClMassStorage => 8 | ClHub => 9 | ClCDCData => 10 | ClSmartCard => 11 | ClContentSecurity => 13 | ClVideo => 14
  | ClPersonalHealthcare => 15 | ClAudioVideo => 16 | ClBillboard => 17 | ClTypeCBridge => 18 | ClDiagnostic => 0xDC
  | ClWirelessController => 0xE0 | ClMisc => 0xEF | ClApplicationSpecific => 0xFE | ClVendorSpecific => 0xFF
  end.

(** What the two programs differ in. *)
Record program (H : handlers) := mkProgram {
  g_world : world H;                    (* the handler, [Arc::new(Mutex::new(Box::new(..)))] *)
  g_handler : href;
  g_device : bool -> outcome device;
  g_tick : IS H -> outcome (IS H) }.    (* what the loop does to the handler *)
Arguments mkProgram {H} _ _ _ _.
Arguments g_world {H} _.
Arguments g_handler {H} _.
Arguments g_device {H} _ _.
Arguments g_tick {H} _ _.

(** examples/hid_keyboard.rs *)
Definition keyboard_handlers : handlers :=
  mkHandlers keyboard unit kb_handle_urb kb_csd (fun st _ _ _ => CallOk st []).
Definition keyboard_world : world keyboard_handlers :=                               (* :9-12 *)
  @mkWorld keyboard_handlers (fun _ => mkCell false new_keyboard) (fun _ => mkCell false tt).
Definition hid_keyboard : program keyboard_handlers :=
  mkProgram keyboard_world 0
    (fun dbg => obind (new_device dbg 0) (fun d =>                                   (* :13-27 *)
       with_interface dbg keyboard_world d (class_code_val ClHID) 0 0 (Some (lit "Test HID"))
         [mkEndpoint 0x81 0x03 0x08 10] 0))
    (fun k => obind (from_ascii 49) (fun r => Val (kb_push k r))).                   (* :39-40 *)

(** examples/cdc_acm_serial.rs *)
Definition serial_handlers : handlers :=
  mkHandlers cdc unit cdc_handle_urb cdc_csd (fun st _ _ _ => CallOk st []).
Definition serial_world : world serial_handlers :=                                   (* :9-11 *)
  @mkWorld serial_handlers (fun _ => mkCell false new_cdc) (fun _ => mkCell false tt).
Definition cdc_acm_serial : program serial_handlers :=
  mkProgram serial_world 0
    (fun dbg => obind (new_device dbg 0) (fun d =>                                   (* :12-21 *)
       with_interface dbg serial_world d (class_code_val ClCDC) CDC_ACM_SUBCLASS 0 (Some (lit "Test CDC ACM"))
         cdc_endpoints 0))
    (fun c => Val (cdc_push c [97])).                                                (* :33 *)

(** The process: running, or ended by a panic of its main task.  Then the runtime is dropped
    with all tasks, and nobody is served any more. *)
Inductive process (H : handlers) := Running (a : asys H) | Exited.
Arguments Running {H} a.
Arguments Exited {H}.

Inductive plabel (H : handlers) :=
| PServer (l : alabel H)     (* the listener or a connection *)
| PTick.                     (* the main task comes round its loop *)
Arguments PServer {H} l.
Arguments PTick {H}.

(** These programs call neither [add_device] nor [remove_device], touch the handler in the loop
    only, and keep the future of [server]. *)
Definition server_label {H} (l : alabel H) : bool :=
  match l with
  | ADropServer | ASys (LApp _ _) | ASys (LAdd _ _) | ASys (LRemove _ _) => false
  | _ => true
  end.

Section Step.
  Context {H : handlers} (dbg : bool) (g : program H).

  (** [main] up to the loop; a panic while the device is built ends the process. *)
  Definition start : process H :=
    match g_device g dbg with
    | Val d => Running (init_asys [d] (g_world g))
    | _ => Exited
    end.

  Definition pstep (p : process H) (l : plabel H) : option (process H * list event) :=
    match p, l with
    | Running a, PServer l' =>
        if server_label l'
        then match astep dbg a l' with Some (a', ev) => Some (Running a', ev) | None => None end
        else None
    | Running a, PTick =>
        let c := w_intf (y_world (a_sys a)) (g_handler g) in
        if c_poisoned c then Some (Exited, [])                  (* [lock().unwrap()] *)
        else match g_tick g (c_state c) with
             | Val st =>
                 match astep dbg a (ASys (LApp (g_handler g) (fun _ => st))) with
                 | Some (a', ev) => Some (Running a', ev)
                 | None => None
                 end
             | _ => Some (Exited, [])
             end
    | Exited, _ => None
    end.

  Fixpoint prun (p : process H) (ls : list (plabel H)) : option (process H * list event) :=
    match ls with
    | [] => Some (p, [])
    | l :: ls' => match pstep p l with
                  | None => None
                  | Some (p1, e1) => match prun p1 ls' with
                                     | None => None
                                     | Some (p2, e2) => Some (p2, e1 ++ e2)
                                     end
                  end
    end.
End Step.
