(** * Specification of the size of replies *)
From Verif Require Export SpecConform.

(** The size of the descriptor that a GET_DESCRIPTOR request asks for (USB 2.0 9.6, BOS without
    capabilities); types the device does not have give nothing. *)
Inductive descriptor_size (d : device) (s : setup_packet) : N -> Prop :=
| ds_device ix : get_desc s 1 ix -> descriptor_size d s 18
| ds_configuration ix : get_desc s 2 ix -> descriptor_size d s (config_size d)
| ds_languages : get_desc s 3 0 -> descriptor_size d s 4
| ds_string ix str : get_desc s 3 ix -> ix <> 0 -> d_string_pool d !! ix = Some str ->
    descriptor_size d s (2 + 2 * len (utf16 str))
| ds_qualifier ix : get_desc s 6 ix -> descriptor_size d s 10
| ds_bos ix : get_desc s 15 ix -> descriptor_size d s 5
| ds_other ty ix : get_desc s ty ix -> ty ∉ [1; 2; 3; 6; 15] -> descriptor_size d s 0.

(** How much of [n] bytes is sent when [wlength] are asked for: the library compares with the
    size in 16 bits. *)
Definition cut (n wlength : N) : N := if wlength <? n mod 65536 then wlength else n.

(** A submit brings [n] bytes: a descriptor, the configuration value (which the library sends back
    when it is set), or what the handler returned. *)
Inductive brings {H} (w : world H) (d : device) (sb : submit) : N -> Prop :=
| br_descriptor e i s n : addressed d (ep_byte (sb_header sb)) e i -> ep_attributes e = 0 -> in_ep e ->
    setup_of (sb_setup sb) s -> s_request_type s = 128 -> s_request s = 6 -> descriptor_size d s n ->
    brings w d sb (cut n (s_length s))
| br_configuration e i s : addressed d (ep_byte (sb_header sb)) e i -> ep_attributes e = 0 -> ~ in_ep e ->
    setup_of (sb_setup sb) s -> s_request_type s = 0 -> s_request s = 9 -> brings w d sb (cut 1 (s_length s))
| br_handler e i s t data : addressed d (ep_byte (sb_header sb)) e i -> setup_of (sb_setup sb) s ->
    routed d e i s t -> usable w t ->
    handler_answer w e (sb_transfer_buffer_length sb) s (sb_data sb) t = HOk data -> brings w d sb (len data).
