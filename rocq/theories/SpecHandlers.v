(** * Specification of the bundled handlers: keyboard (HID) and serial port (CDC ACM) *)
From Verif Require Export SpecUrb Hid Cdc.

(** ** Keyboard *)

(** What happens to a keyboard handler: the application queues a key event, or a transfer on
    one of its endpoints or a control request arrives. *)
Inductive kb_op :=
| KQueue (r : kb_report)
| KCall (f : interface) (e : endpoint) (tbl : N) (s : setup_packet) (req : list N).

(** A poll: a transfer on an IN endpoint other than endpoint zero. *)
Definition polls (e : endpoint) : Prop := ep_address e mod 128 <> 0 /\ in_ep e.

(** [kb_exec k ops outs k']: started in [k], all of [ops] succeed; [outs] are the answers to
    the polls among them. *)
Inductive kb_exec : keyboard -> list kb_op -> list (list N) -> keyboard -> Prop :=
| kx_nil k : kb_exec k [] [] k
| kx_queue k r ops outs k' : kb_exec (kb_push k r) ops outs k' -> kb_exec k (KQueue r :: ops) outs k'
| kx_poll k f e tbl s req k1 b ops outs k' : polls e ->
    kb_handle_urb k f e tbl s req = CallOk k1 b -> kb_exec k1 ops outs k' ->
    kb_exec k (KCall f e tbl s req :: ops) (b :: outs) k'
| kx_other k f e tbl s req k1 b ops outs k' : ~ polls e ->
    kb_handle_urb k f e tbl s req = CallOk k1 b -> kb_exec k1 ops outs k' ->
    kb_exec k (KCall f e tbl s req :: ops) outs k'.

(** What the host should see: every queued event pressed, then released. *)
Inductive key_action := Press (r : kb_report) | Release.
Definition queued (ops : list kb_op) : list kb_report :=
  omap (fun o => match o with KQueue r => Some r | _ => None end) ops.
Definition script (rs : list kb_report) : list key_action := mjoin ((fun r => [Press r; Release]) <$> rs).
Definition shows (b : list N) (a : key_action) : Prop :=
  match a with
  | Press r => b = r_modifier r :: 0 :: r_keys r
  | Release => b <> [] /\ Forall (fun x => x = 0) b
  end.
Definition non_empty (outs : list (list N)) : list (list N) := filter (fun b => b <> []) outs.

(** ** HID report descriptors (HID 1.11, 6.2.2): how many input bits do they announce? *)
Definition le_value (b : list N) : N := fold_right (fun x n => x + 256 * n) 0 b.
(** Short items: prefix byte with size code (bits 0-1), type and tag (bits 2-7); only Report
    Size (0x74), Report Count (0x94) and Input (0x80) matter here. *)
Fixpoint input_bits (fuel : nat) (b : list N) (size count : N) : option N :=
  match fuel, b with
  | _, [] => Some 0
  | O, _ => None
  | S fuel, p :: rest =>
      let n := N.to_nat (if p mod 4 =? 3 then 4 else p mod 4) in
      let v := le_value (take n rest) in
      if (length rest <? n)%nat then None
      else if p / 4 =? 63 then None                                   (* long item *)
      else if p / 4 =? 0x74 / 4 then input_bits fuel (drop n rest) v count
      else if p / 4 =? 0x94 / 4 then input_bits fuel (drop n rest) size v
      else if p / 4 =? 0x80 / 4 then (fun k => size * count + k) <$> input_bits fuel (drop n rest) size count
      else input_bits fuel (drop n rest) size count
  end.
(** The report descriptor [desc] announces input reports of [n] bytes. *)
Definition announces (desc : list N) (n : N) : Prop :=
  input_bits (length desc) desc 0 0 = Some (8 * n).

(** ** Key codes (HID Usage Tables, page 7): character, usage id *)
Definition key_usage : list (N * N) :=
  [ (97, 0x04); (98, 0x05); (99, 0x06); (100, 0x07); (101, 0x08); (102, 0x09); (103, 0x0a);
    (104, 0x0b); (105, 0x0c); (106, 0x0d); (107, 0x0e); (108, 0x0f); (109, 0x10); (110, 0x11);
    (111, 0x12); (112, 0x13); (113, 0x14); (114, 0x15); (115, 0x16); (116, 0x17); (117, 0x18);
    (118, 0x19); (119, 0x1a); (120, 0x1b); (121, 0x1c); (122, 0x1d);           (* a .. z *)
    (49, 0x1e); (50, 0x1f); (51, 0x20); (52, 0x21); (53, 0x22); (54, 0x23); (55, 0x24);
    (56, 0x25); (57, 0x26); (48, 0x27);                                        (* 1 .. 9, 0 *)
    (13, 0x28); (10, 0x28) ].                                                  (* CR, LF: Return *)

(** ** Serial port *)
Inductive cdc_op :=
| CQueue (bs : list N)
| CCall (f : interface) (e : endpoint) (tbl : N) (s : setup_packet) (req : list N).
Definition bulk_in (e : endpoint) : Prop := ep_attributes e = 2 /\ in_ep e.
(** Transfers on the other endpoints a serial port has. *)
Definition bulk_out_or_interrupt (e : endpoint) : Prop :=
  (ep_attributes e = 2 /\ ~ in_ep e) \/ ep_attributes e = 3.

(** [outs]: answers to bulk IN polls; [others]: answers to the other transfers. *)
Inductive cdc_exec : cdc -> list cdc_op -> list (list N) -> list (list N) -> cdc -> Prop :=
| cx_nil c : cdc_exec c [] [] [] c
| cx_queue c bs ops outs others c' : cdc_exec (cdc_push c bs) ops outs others c' ->
    cdc_exec c (CQueue bs :: ops) outs others c'
| cx_poll c f e tbl s req c1 b ops outs others c' : bulk_in e ->
    cdc_handle_urb c f e tbl s req = CallOk c1 b -> cdc_exec c1 ops outs others c' ->
    cdc_exec c (CCall f e tbl s req :: ops) (b :: outs) others c'
| cx_other c f e tbl s req c1 b ops outs others c' : bulk_out_or_interrupt e ->
    cdc_handle_urb c f e tbl s req = CallOk c1 b -> cdc_exec c1 ops outs others c' ->
    cdc_exec c (CCall f e tbl s req :: ops) outs (b :: others) c'.
Definition cdc_queued (ops : list cdc_op) : list N :=
  mjoin (omap (fun o => match o with CQueue bs => Some bs | _ => None end) ops).

(** Handlers that never panic. *)
Definition never_panics (H : handlers) : Prop :=
  (forall st f e tbl s req st' p, i_step H st f e tbl s req <> CallPanic st' p)
  /\ (forall st tbl s req st' p, d_step H st tbl s req <> CallPanic st' p).
