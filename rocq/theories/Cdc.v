(** * CDC ACM handler (src/cdc.rs) *)
From Verif Require Export Handlers.

(** src/cdc.rs:6-8 *)
Record cdc := mkCdc { c_tx_buffer : bytes }.

(** src/cdc.rs:17 *)
Definition CDC_ACM_SUBCLASS : N := 2.

(** src/cdc.rs:20-22 [new] *)
Definition new_cdc : cdc := mkCdc [].

(** src/cdc.rs:24-48 [endpoints] *)
Definition cdc_endpoints : list endpoint :=
  [ mkEndpoint 129 (ep_attr_val AInterrupt) 8 10;
    mkEndpoint 130 (ep_attr_val ABulk) 512 0;
    mkEndpoint 2 (ep_attr_val ABulk) 512 0 ].

(** src/cdc.rs:52-85 [handle_urb] *)
Definition cdc_handle_urb (c : cdc) (_ : interface) (ep : endpoint) (_ : N)
    (_ : setup_packet) (_ : bytes) : call_result cdc :=
  if ep_attributes ep =? ep_attr_val AInterrupt then
    match ep_direction ep with
    | DIn => CallOk c []
    | DOut => CallOk c []
    end
  else
    match ep_direction ep with
    | DOut => CallOk c []
    | DIn => CallOk (mkCdc []) (c_tx_buffer c)
    end.

(** src/cdc.rs:87-100 [get_class_specific_descriptor] *)
Definition cdc_csd (_ : cdc) : bytes := [5; 36; 0; 16; 1;  4; 36; 2; 0].

(** Application side: [tx_buffer.extend(bs)] under the handler's mutex
    (the field is public; examples/cdc_acm_serial.rs). *)
Definition cdc_push (c : cdc) (bs : bytes) : cdc := mkCdc (c_tx_buffer c ++ bs).
