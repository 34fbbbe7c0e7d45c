(** * User-supplied handlers

    [UsbInterfaceHandler] (src/interface.rs:19-45) and [UsbDeviceHandler]
    (src/device.rs:532-553) are traits.  The model is parametric in their
    implementation: a [handlers] record gives the state types and the meaning of
    [handle_urb] and [get_class_specific_descriptor]; theorems quantify over it.
    Simplifications: a handler call that returns does so in one step (for calls that
    take time, or for ever, see C80), and it only changes its own state. *)
From Verif Require Export Types.

(** What [handle_urb] of a handler yields, with the handler's state after it. *)
Inductive call_result (S : Type) :=
| CallOk (st : S) (data : bytes)
| CallErr (st : S) (e : io_error)
| CallPanic (st : S) (p : panic).
Arguments CallOk {S} st data.
Arguments CallErr {S} st e.
Arguments CallPanic {S} st p.

Record handlers := mkHandlers {
  IS : Type;
  DS : Type;
  (** src/interface.rs:27-34: interface, ep, transfer_buffer_length, setup, req *)
  i_step : IS -> interface -> endpoint -> N -> setup_packet -> bytes -> call_result IS;
  (** src/interface.rs:21 [get_class_specific_descriptor] *)
  i_csd : IS -> bytes;
  (** src/device.rs:537-542: transfer_buffer_length, setup, req *)
  d_step : DS -> N -> setup_packet -> bytes -> call_result DS }.

(** A [std::sync::Mutex] cell: the guarded state and the poison flag. *)
Record cell (S : Type) := mkCell { c_poisoned : bool; c_state : S }.
Arguments mkCell {S} _ _.
Arguments c_poisoned {S} _.
Arguments c_state {S} _.

(** The heap of handlers.  An [Arc] always points to a live cell, so lookup is
    total; interface handlers and device handlers are distinct trait objects. *)
Record world (H : handlers) := mkWorld {
  w_intf : href -> cell (IS H);
  w_dev : href -> cell (DS H) }.
Arguments mkWorld {H} _ _.
Arguments w_intf {H} _ _.
Arguments w_dev {H} _ _.

Definition set_intf {H} (w : world H) (r : href) (c : cell (IS H)) : world H :=
  mkWorld (fun r' => if r' =? r then c else w_intf w r') (w_dev w).
Definition set_dev {H} (w : world H) (r : href) (c : cell (DS H)) : world H :=
  mkWorld (w_intf w) (fun r' => if r' =? r then c else w_dev w r').

(** What [UsbDevice::handle_urb] yields to its caller. *)
Inductive urb_result :=
| UOk (data : bytes)
| UErr (e : io_error)
| UPanic (p : panic).

(** [handler.lock().unwrap().handle_urb(..)] on an interface handler: a poisoned
    mutex makes [unwrap] panic; a panic inside the call unwinds through the
    guard and poisons the mutex (std::sync::Mutex). *)
Definition call_intf {H} (w : world H) (r : href) (i : interface) (e : endpoint)
    (tbl : N) (s : setup_packet) (req : bytes) : urb_result * world H :=
  if c_poisoned (w_intf w r) then (UPanic PPoisoned, w)
  else match i_step H (c_state (w_intf w r)) i e tbl s req with
       | CallOk st d => (UOk d, set_intf w r (mkCell false st))
       | CallErr st x => (UErr x, set_intf w r (mkCell false st))
       | CallPanic st p => (UPanic p, set_intf w r (mkCell true st))
       end.

(** The same for the device handler. *)
Definition call_dev {H} (w : world H) (r : href) (tbl : N) (s : setup_packet)
    (req : bytes) : urb_result * world H :=
  if c_poisoned (w_dev w r) then (UPanic PPoisoned, w)
  else match d_step H (c_state (w_dev w r)) tbl s req with
       | CallOk st d => (UOk d, set_dev w r (mkCell false st))
       | CallErr st x => (UErr x, set_dev w r (mkCell false st))
       | CallPanic st p => (UPanic p, set_dev w r (mkCell true st))
       end.
