(** * Properties C39-C50: descriptors, strings, control requests *)
From Verif Require Export Examples PoolProofs UrbProofs.
From Coq Require Strings.String.
Import Strings.String.StringSyntax.

(** A connection that imported device [d], and a control IN submit on endpoint zero. *)
Definition on_device (d : device) : cstate ex_h :=
  mkC (mkServer [] {[ lit "0-0-0" := d ]}) ex_world (Some (lit "0-0-0")).
Definition ctl_in (setup : list N) : submit := submit_cmd 1 0 255 setup [].
Lemma ctl_wire dbg setup : length setup = 8%nat -> all_u8 setup = true ->
  all_u8 (wire (CmdSubmit (ctl_in setup))) = true /\
  cmd_layout dbg (wire (CmdSubmit (ctl_in setup))) (CmdSubmit (ctl_in setup)).
Proof.
  intros Hl Hu. apply all_u8_spec in Hu.
  apply wire_ok; unfold ctl_in, submit_cmd; cbn; unfold wf_header, byte_list, u32; cbn; split_and!; auto; lia.
Qed.
Lemma on_device_ctl dbg d b0 b1 b2 b3 b4 b5 b6 b7 :
  all_u8 [b0; b1; b2; b3; b4; b5; b6; b7] = true ->
  ep_address (d_ep0_in d) = 128 -> ep_attributes (d_ep0_in d) = 0 ->
  control_in dbg (on_device d) (wire (CmdSubmit (ctl_in [b0; b1; b2; b3; b4; b5; b6; b7])))
    (ctl_in [b0; b1; b2; b3; b4; b5; b6; b7]) d
    (mkSetup b0 b1 (b2 + 256 * b3) (b4 + 256 * b5) (b6 + 256 * b7)).
Proof.
  intros Hu H1 H2. destruct (ctl_wire dbg [b0; b1; b2; b3; b4; b5; b6; b7] eq_refl Hu) as [A B]. split.
  - exact A.
  - exact B.
  - exists (lit "0-0-0"). split; [done|]. apply lookup_singleton.
  - done.
  - do 8 eexists. split; reflexivity.
  - exists (d_ep0_in d), None. split; [by apply addr_ep0_in|done].
Qed.

Lemma ex_dev_typed : typed_device ex_dev.
Proof.
  unfold typed_device, typed_version, typed_endpoint, u8, u16, u32. cbn -[map_Forall].
  split_and!; try reflexivity; try lia.
  - repeat constructor; cbn; unfold typed_endpoint, u8, u16; cbn; try lia.
  - intros i s Hs. repeat (apply lookup_insert_Some in Hs as [[<- <-]|[_ Hs]]; [split; [lia|reflexivity]|]).
    by apply lookup_empty_Some in Hs.
Qed.

Theorem C39_device_descriptor : forall (H : handlers) dbg (st : cstate H) m sb d s ix,
  control_in dbg st m sb d s -> typed_device d -> get_desc s 1 ix ->
  exists desc, device_desc_layout desc d /\ replies dbg st m sb (take (N.to_nat (s_length s)) desc) st.
Proof. intros H dbg st m sb d s ix. exact (device_desc_reply dbg st m sb d s ix). Qed.
Print Assumptions C39_device_descriptor.
Example C39_example :
  control_in true (on_device ex_dev) (wire (CmdSubmit (ctl_in [128; 6; 0; 1; 0; 0; 8; 0])))
    (ctl_in [128; 6; 0; 1; 0; 0; 8; 0]) ex_dev (mkSetup 128 6 256 0 8) /\
  get_desc (mkSetup 128 6 256 0 8) 1 0 /\ typed_device ex_dev.
Proof.
  split; [by apply on_device_ctl|]. split; [by repeat split|exact ex_dev_typed].
Qed.
(** C20 again: descriptor replies are cut to wLength and never to the buffer the client offered. *)
Theorem C20_descriptor_ignores_buffer : forall (H : handlers) dbg (st : cstate H) m sb d s ix,
  control_in dbg st m sb d s -> typed_device d -> get_desc s 1 ix -> 18 <= s_length s ->
  exists desc, length desc = 18%nat /\ device_desc_layout desc d /\ replies dbg st m sb desc st.
Proof.
  intros H dbg st m sb d s ix HC HT HG Hl. destruct (device_desc_reply dbg st m sb d s ix HC HT HG) as (desc & HL & R).
  pose proof (proj1 HL) as L. exists desc. split; [done|]. split; [done|]. rewrite take_ge in R by lia. exact R.
Qed.
Print Assumptions C20_descriptor_ignores_buffer.
(** Eighteen bytes into a buffer of four. *)
Definition ctl_in4 : submit := submit_cmd 1 0 4 [128; 6; 0; 1; 0; 0; 18; 0] [].
Example C20_descriptor_example :
  control_in true (on_device ex_dev) (wire (CmdSubmit ctl_in4)) ctl_in4 ex_dev (mkSetup 128 6 256 0 18) /\
  sb_transfer_buffer_length ctl_in4 = 4 /\
  length (connection true (on_device ex_dev) (wire (CmdSubmit ctl_in4)) SEof None).1.1 = 66%nat.
Proof.
  assert (HW : all_u8 (wire (CmdSubmit ctl_in4)) = true /\ cmd_layout true (wire (CmdSubmit ctl_in4)) (CmdSubmit ctl_in4)).
  { apply wire_ok; unfold ctl_in4, submit_cmd; cbn; unfold wf_header, byte_list, u32; cbn; split_and!; auto; try lia; repeat constructor. }
  split; [|split; [done|vm_compute; reflexivity]].
  destruct (on_device_ctl true ex_dev 128 6 0 1 0 0 18 0) as [_ _ X1 _ X2 X3]; [done..|].
  split; [apply HW|apply HW|exact X1|done|exact X2|exact X3].
Qed.

Theorem C40_configuration_descriptor : forall (H : handlers) dbg (st : cstate H) m sb d s ix,
  control_in dbg st m sb d s -> typed_device d -> get_desc s 2 ix ->
  config_limits d -> config_size d < 65536 ->
  exists desc, len desc = config_size d /\ reads_as_config desc (config_view d (len desc)) /\
    (forall c, reads_as_config desc c -> c = config_view d (len desc)) /\
    replies dbg st m sb (take (N.to_nat (s_length s)) desc) st.
Proof. intros H dbg st m sb d s ix. exact (config_desc_reply dbg st m sb d s ix). Qed.
Print Assumptions C40_configuration_descriptor.
Example C40_example :
  control_in true (on_device ex_dev) (wire (CmdSubmit (ctl_in [128; 6; 0; 2; 0; 0; 255; 255])))
    (ctl_in [128; 6; 0; 2; 0; 0; 255; 255]) ex_dev (mkSetup 128 6 512 0 65535) /\
  get_desc (mkSetup 128 6 512 0 65535) 2 0 /\ typed_device ex_dev /\ config_limits ex_dev /\
  config_size ex_dev = 32.
Proof.
  split; [by apply on_device_ctl|]. split; [by repeat split|]. split; [exact ex_dev_typed|].
  split; [|reflexivity]. split; [vm_compute; done|]. constructor; [|constructor]. split; [vm_compute; done|].
  exists []. split; constructor.
Qed.

Theorem C41_string_descriptor : forall (H : handlers) dbg (st : cstate H) m sb d s ix,
  control_in dbg st m sb d s -> get_desc s 3 ix -> ix <> 0 ->
  (forall str, d_string_pool d !! ix = Some str -> is_rstring str = true -> len (utf16 str) <= 126 ->
    exists desc, string_desc_layout desc str /\ len desc < 256 /\
      replies dbg st m sb (take (N.to_nat (s_length s)) desc) st) /\
  (d_string_pool d !! ix = None -> replies_error dbg st m sb st).
Proof.
  intros H dbg st m sb d s ix HC HG H0. split.
  - intros str. exact (string_desc_reply dbg st m sb d s ix str HC HG H0).
  - exact (no_string_reply dbg st m sb d s ix HC HG H0).
Qed.
Print Assumptions C41_string_descriptor.
Theorem C41_language_table : forall (H : handlers) dbg (st : cstate H) m sb d s,
  control_in dbg st m sb d s -> get_desc s 3 0 ->
  replies dbg st m sb (take (N.to_nat (s_length s)) [4; 3; 0x09; 0x04]) st.
Proof. intros H dbg st m sb d s. exact (language_reply dbg st m sb d s). Qed.
Print Assumptions C41_language_table.
Example C41_example :
  control_in true (on_device ex_dev) (wire (CmdSubmit (ctl_in [128; 6; 3; 3; 9; 4; 255; 0])))
    (ctl_in [128; 6; 3; 3; 9; 4; 255; 0]) ex_dev (mkSetup 128 6 771 1033 255) /\
  get_desc (mkSetup 128 6 771 1033 255) 3 3 /\
  d_string_pool ex_dev !! 3 = Some (lit "Product") /\ d_string_pool ex_dev !! 9 = None.
Proof. split; [by apply on_device_ctl|]. split; [by repeat split|]. split; reflexivity. Qed.

(** C42 is false from 127 UTF-16 units on: a release build reports a wrong bLength, a debug build
    aborts the connection. *)
Definition long_name : rstring := replicate 127 65.
Definition ex_long : device := with_pool ex_dev (<[3 := long_name]> (d_string_pool ex_dev)).
Theorem C42_long_strings_refuted :
  let m := wire (CmdSubmit (ctl_in [128; 6; 3; 3; 9; 4; 255; 0])) in
  let sb := ctl_in [128; 6; 3; 3; 9; 4; 255; 0] in
  (forall dbg, control_in dbg (on_device ex_long) m sb ex_long (mkSetup 128 6 771 1033 255)) /\
  get_desc (mkSetup 128 6 771 1033 255) 3 3 /\ d_string_pool ex_long !! 3 = Some long_name /\
  (exists body, replies false (on_device ex_long) m sb (0 :: 3 :: body) (on_device ex_long) /\ len body = 253) /\
  aborts true (on_device ex_long) m POverflow (on_device ex_long).
Proof.
  assert (HC : forall dbg, control_in dbg (on_device ex_long) (wire (CmdSubmit (ctl_in [128; 6; 3; 3; 9; 4; 255; 0])))
    (ctl_in [128; 6; 3; 3; 9; 4; 255; 0]) ex_long (mkSetup 128 6 771 1033 255))
    by (intros dbg; by apply on_device_ctl).
  assert (HG : get_desc (mkSetup 128 6 771 1033 255) 3 3) by by repeat split.
  cbv zeta. split; [exact HC|]. split; [exact HG|]. split; [reflexivity|]. split.
  - pose proof (control_in_desc _ _ _ _ _ _ _ _ (HC false) HG) as R. vm_compute get_descriptor in R.
    eexists. split; [exact R|reflexivity].
  - pose proof (control_in_desc _ _ _ _ _ _ _ _ (HC true) HG) as R. vm_compute get_descriptor in R. exact R.
Qed.
Print Assumptions C42_long_strings_refuted.
(** Every longer string is affected: the first byte of the full descriptor is never its length in
    a release build, and in a debug build the connection aborts or the length is wrong. *)
Theorem C42_long_strings_wrong : forall (H : handlers) dbg (st : cstate H) m sb d s ix str,
  control_in dbg st m sb d s -> get_desc s 3 ix -> ix <> 0 ->
  d_string_pool d !! ix = Some str -> 127 <= len (utf16 str) -> s_length s = 65535 ->
  (dbg = true /\ 127 <= len (utf16 str) mod 256 /\ aborts dbg st m POverflow st) \/
  ((dbg = true -> len (utf16 str) mod 256 < 127) /\
   exists b0 body, replies dbg st m sb (b0 :: 3 :: body) st /\ b0 <> len (b0 :: 3 :: body)).
Proof.
  intros H dbg st m sb d s ix str HC HG H0 Hs Hl Hw.
  destruct (string_descriptor_long str Hl) as (Et & b0 & E & _ & Hne).
  pose proof (control_in_desc _ _ _ _ _ _ _ _ HC HG) as R.
  destruct (desc_type_ix _ _ _ HG) as [E1 E2]. unfold get_descriptor in R. rewrite E1, E2 in R. cbn [desc_type_of] in R.
  destruct (N.eqb_spec ix 0); [done|]. rewrite Hs in R. destruct dbg.
  - rewrite Et in R. destruct (N.leb_spec 127 (len (utf16 str) mod 256)) as [Hm|Hm].
    + left. split; [done|]. split; [exact Hm|]. exact R.
    + right. split; [done|]. rewrite Hw, limit_full in R. eexists _, _. split; [exact R|].
      rewrite !len_cons, units_le_len. lia.
  - right. split; [done|]. exists b0, (units_le (utf16 str)). split; [|exact Hne]. rewrite E, Hw, limit_full in R. exact R.
Qed.
Print Assumptions C42_long_strings_wrong.
(** What is true: up to 126 units bLength is right and nothing aborts. *)
Theorem C42_long_strings_partial : forall (H : handlers) dbg (st : cstate H) m sb d s ix str,
  control_in dbg st m sb d s -> get_desc s 3 ix -> ix <> 0 ->
  d_string_pool d !! ix = Some str -> is_rstring str = true -> len (utf16 str) <= 126 ->
  exists desc, string_desc_layout desc str /\ len desc < 256 /\
    replies dbg st m sb (take (N.to_nat (s_length s)) desc) st.
Proof. intros H dbg st m sb d s ix str. exact (string_desc_reply dbg st m sb d s ix str). Qed.
Print Assumptions C42_long_strings_partial.
Example C42_example : d_string_pool ex_dev !! 3 = Some (lit "Product") /\ is_rstring (lit "Product") = true /\
  len (utf16 (lit "Product")) <= 126 /\ len (utf16 long_name) = 127.
Proof. split_and!; vm_compute; done. Qed.

(** C43 is false: a configuration descriptor of exactly 65536 bytes is never cut. *)
Definition big_dev (csd : list N) : device := with_interfaces ex_dev [mkInterface 255 0 0 [] 0 csd 4].
Theorem C43_prefix_of_descriptor_refuted : forall dbg csd, Forall (fun x => x < 256) csd -> len csd = 65518 ->
  let m := wire (CmdSubmit (ctl_in [128; 6; 0; 2; 0; 0; 9; 0])) in
  let sb := ctl_in [128; 6; 0; 2; 0; 0; 9; 0] in
  control_in dbg (on_device (big_dev csd)) m sb (big_dev csd) (mkSetup 128 6 512 0 9) /\
  typed_device (big_dev csd) /\ get_desc (mkSetup 128 6 512 0 9) 2 0 /\
  exists data, replies dbg (on_device (big_dev csd)) m sb data (on_device (big_dev csd)) /\ len data = 65536.
Proof.
  intros dbg csd Hcsd Hl m sb. subst m sb.
  assert (HC : control_in dbg (on_device (big_dev csd)) (wire (CmdSubmit (ctl_in [128; 6; 0; 2; 0; 0; 9; 0])))
    (ctl_in [128; 6; 0; 2; 0; 0; 9; 0]) (big_dev csd) (mkSetup 128 6 512 0 9)) by by apply on_device_ctl.
  assert (HG : get_desc (mkSetup 128 6 512 0 9) 2 0) by by repeat split.
  assert (Hlen : len (configuration_descriptor (big_dev csd)) = 65536).
  { rewrite configuration_len. unfold config_size, big_dev. destruct ex_dev. cbn -[len].
    rewrite Hl. change (len (@nil endpoint)) with 0. lia. }
  split; [exact HC|]. split; [|split; [exact HG|]].
  - destruct ex_dev_typed as (? & ? & ? & ? & ? & ? & ? & ? & ? & ? & ? & ? & ? & _ & ? & ? & ? & ? & ? & ? & ? & ?).
    unfold typed_device. split_and!; try assumption. constructor; [|constructor].
    unfold typed_interface, u8. cbn. split_and!; try lia; [constructor|]. exact Hcsd.
  - pose proof (control_in_desc _ _ _ _ _ _ _ _ HC HG) as R. unfold get_descriptor in R.
    change (desc_type_of (N.shiftr (s_value (mkSetup 128 6 512 0 9)) 8)) with (Some TConfiguration) in R.
    cbv match in R. exists (configuration_descriptor (big_dev csd)). split; [|exact Hlen].
    unfold limit_to in R. rewrite Hlen in R. exact R.
Qed.
Print Assumptions C43_prefix_of_descriptor_refuted.
Example C43_refuted_example : exists csd, Forall (fun x => x < 256) csd /\ len csd = 65518.
Proof.
  exists (replicate (N.to_nat 65518) 1). split; [apply Forall_replicate; lia|].
  unfold len. rewrite replicate_length. apply N2Nat.id.
Qed.
(** What is true: the reply for any wLength is the prefix of that length of the reply for the
    largest wLength, or the whole of it; the prefix exactly when it is the whole or wLength is
    below the length modulo 64 KiB, so always below 64 KiB.  Errors do not depend on wLength. *)
Theorem C43_prefix_of_descriptor_partial : forall (H : handlers) dbg (st : cstate H) m sb d s ty ix m' sb' full,
  control_in dbg st m sb d s -> get_desc s ty ix -> s_length s < 65536 ->
  control_in dbg st m' sb' d (with_length s 65535) ->
  (replies dbg st m' sb' full st ->
     (replies dbg st m sb (take (N.to_nat (s_length s)) full) st <->
      len full <= s_length s \/ s_length s < len full mod 65536) /\
     (replies dbg st m sb (take (N.to_nat (s_length s)) full) st \/ replies dbg st m sb full st)) /\
  (replies_error dbg st m' sb' st -> replies_error dbg st m sb st).
Proof.
  intros H dbg st m sb d s ty ix m' sb' full HC HG Hw HC'.
  assert (HG' : get_desc (with_length s 65535) ty ix) by exact HG.
  pose proof (control_in_desc _ _ _ _ _ _ _ _ HC' HG') as R'.
  pose proof (control_in_desc _ _ _ _ _ _ _ _ HC HG) as R.
  assert (Es : with_length s (s_length s) = s) by by destruct s.
  split; intros HR.
  - assert (E : get_descriptor dbg d (with_length s 65535) = UOk full).
    { destruct (get_descriptor dbg d (with_length s 65535)) as [data|x|p].
      - f_equal. exact (replies_inj _ _ _ _ _ _ _ R' HR).
      - exfalso. exact (replies_not_error _ _ _ _ _ _ R' HR).
      - exfalso. exact (replies_not_abort _ _ _ _ _ _ _ _ R' HR). }
    pose proof (get_descriptor_limited dbg d s (s_length s) full E) as E2. rewrite Es in E2. rewrite E2 in R.
    destruct (limit_exact (s_length s) full Hw) as [[L1 L2] L3]. split.
    + split; [|intros Hc; by rewrite <- (L2 Hc)]. intros R2. apply L1. exact (replies_inj _ _ _ _ _ _ _ R R2).
    + destruct L3 as [<- |L3]; [by left|right]. by rewrite L3 in R.
  - destruct (get_descriptor dbg d (with_length s 65535)) as [data|x|p] eqn:E.
    + exfalso. exact (replies_not_error _ _ _ _ _ _ HR R').
    + apply (proj1 (get_descriptor_fails dbg d s (s_length s))) in E. rewrite Es in E. rewrite E in R. exact R.
    + exfalso. exact (error_not_abort _ _ _ _ _ _ _ R' HR).
Qed.
Print Assumptions C43_prefix_of_descriptor_partial.
Example C43_example :
  control_in true (on_device ex_dev) (wire (CmdSubmit (ctl_in [128; 6; 0; 2; 0; 0; 9; 0])))
    (ctl_in [128; 6; 0; 2; 0; 0; 9; 0]) ex_dev (mkSetup 128 6 512 0 9) /\
  get_desc (mkSetup 128 6 512 0 9) 2 0 /\
  control_in true (on_device ex_dev) (wire (CmdSubmit (ctl_in [128; 6; 0; 2; 0; 0; 255; 255])))
    (ctl_in [128; 6; 0; 2; 0; 0; 255; 255]) ex_dev (with_length (mkSetup 128 6 512 0 9) 65535).
Proof. split; [by apply on_device_ctl|]. split; [by repeat split|]. by apply on_device_ctl. Qed.

(** C44: after any sequence of calls on a fresh device that never needs more than 254 strings at
    once, the device reports exactly the names of the specification, and every call returned the
    previous name. *)
Theorem C44_names_consistent : forall (H : handlers) dbg index (w : world H) ops,
  (forall h, c_poisoned (w_intf w h) = false) ->
  (forall p, p `prefix_of` ops -> (names_count (names_run fresh_names p).1 <= 254)%nat) ->
  exists d0 d, new_device dbg index = Val d0 /\
    api_run dbg w d0 ops = Val (d, (names_run fresh_names ops).2) /\
    reports d (names_run fresh_names ops).1.
Proof.
  intros H dbg index w ops Hw Hc. destruct (new_device_names dbg index) as (d0 & E0 & I0).
  destruct (api_run_ok dbg w d0 fresh_names ops Hw I0 Hc) as (d & E & I).
  exists d0, d. split; [exact E0|]. split; [exact E|]. by apply inv_reports.
Qed.
Print Assumptions C44_names_consistent.
Definition ex_ops : list name_op :=
  [SetName WProd (lit "Widget"); AddInterface 3 0 0 (Some (lit "Keys")) [] 0; UnsetName WSerial;
   AddInterface 3 0 0 None [] 1; SetName WManu (lit "ACME"); SetName WSerial (lit "007")].
Example C44_example :
  (forall p, p `prefix_of` ex_ops -> (names_count (names_run fresh_names p).1 <= 254)%nat) /\
  names_run fresh_names ex_ops =
    (mkNames (Some (lit "Default Configuration")) (Some (lit "ACME")) (Some (lit "Widget")) (Some (lit "007"))
       [Some (lit "Keys"); None],
     [Some (Some (lit "Product")); None; Some (Some (lit "Serial")); None; Some (Some (lit "Manufacturer")); Some None]).
Proof.
  split; [|reflexivity]. intros p [q Hq].
  assert (Hl : (length p <= 6)%nat) by (apply (f_equal length) in Hq; rewrite app_length in Hq; cbn in Hq; lia).
  replace p with (take (length p) ex_ops) by (rewrite Hq, take_app; done).
  assert (Hall : Forall (fun k => (names_count (names_run fresh_names (take k ex_ops)).1 <= 254)%nat) (seq 0 7)).
  { repeat (constructor; [apply Nat.leb_le; vm_compute; reflexivity|]). constructor. }
  rewrite Forall_forall in Hall. apply Hall. apply elem_of_seq. lia.
Qed.

(** C45 is false: a release build hands out index 0 when 1..255 are in use, and loops for ever when
    0 is in use too; a debug build panics with an overflow while 255 is still vacant. *)
Theorem C45_exhaustion_reported_refuted : forall d s,
  (forall i, 1 <= i <= 254 -> is_Some (d_string_pool d !! i)) ->
  new_string true d s = Panic POverflow /\
  (is_Some (d_string_pool d !! 255) -> d_string_pool d !! 0 = None ->
     exists d', new_string false d s = Val (0, d')) /\
  (is_Some (d_string_pool d !! 255) -> is_Some (d_string_pool d !! 0) ->
     new_string false d s = Diverge /\ forall fuel, find_vacant false (d_string_pool d) 1 fuel = Diverge).
Proof.
  intros d s Hf. unfold new_string. split; [by rewrite find_vacant_full_debug|]. split.
  - intros H255 H0. rewrite find_vacant_full_0 by done. by eexists.
  - intros H255 H0.
    assert (Hall : forall fuel, find_vacant false (d_string_pool d) 1 fuel = Diverge).
    { intros fuel. apply find_vacant_loops; [|done]. intros j Hj. destruct (decide (j = 0)) as [-> |]; [done|].
      destruct (decide (j = 255)) as [-> |]; [done|]. apply Hf. lia. }
    split; [by rewrite Hall|exact Hall].
Qed.
Print Assumptions C45_exhaustion_reported_refuted.
(** Such pools are reached with public calls: 252 named interfaces on a fresh device.  A release
    build gives the last of them index 0 and never returns from the next call; a debug build
    panics at the 251st although 255 is vacant. *)
Theorem C45_exhaustion_reached : forall (H : handlers) (w : world H) index,
  (forall h, c_poisoned (w_intf w h) = false) ->
  (exists d0 d outs, new_device false index = Val d0 /\
     api_run false w d0 (replicate 252 named_interface) = Val (d, outs) /\
     if_string <$> last (d_interfaces d) = Some 0 /\ is_Some (d_string_pool d !! 0) /\
     forall s, new_string false d s = Diverge) /\
  (exists d0, new_device true index = Val d0 /\
     api_run true w d0 (replicate 251 named_interface) = Panic POverflow).
Proof.
  intros H w index Hw. split.
  - destruct (new_device_fills false index) as (d0 & E0 & F0).
    destruct (fill false w 250 Hw d0 4 F0 ltac:(lia)) as (d1 & o1 & E1 & F1). change (4 + N.of_nat 250) with 254 in F1.
    assert (L1 : low_full (d_string_pool d1)) by (intros i Hi; apply F1; lia).
    assert (N255 : d_string_pool d1 !! 255 = None) by (apply eq_None_not_Some; rewrite (F1 255); lia).
    assert (N0 : d_string_pool d1 !! 0 = None) by (apply eq_None_not_Some; rewrite (F1 0); lia).
    destruct (fill_step false w d1 255 Hw) as (d2 & E2 & P2 & _); [by apply find_vacant_full_255|].
    assert (L2 : low_full (d_string_pool d2)).
    { intros i Hi. unfold occupied. rewrite P2. rewrite lookup_insert_ne by lia. by apply L1. }
    assert (O2 : occupied (d_string_pool d2) 255) by (unfold occupied; rewrite P2, lookup_insert; by eexists).
    assert (N2 : d_string_pool d2 !! 0 = None) by (rewrite P2, lookup_insert_ne by lia; done).
    destruct (fill_step false w d2 0 Hw) as (d3 & E3 & P3 & Q3); [by apply find_vacant_full_0|].
    assert (S0 : is_Some (d_string_pool d3 !! 0)) by (rewrite P3, lookup_insert; by eexists).
    exists d0, d3, (o1 ++ [None; None]). split; [exact E0|]. split.
    { change 252%nat with (250 + 2)%nat. rewrite replicate_add, (api_run_app _ _ _ _ _ _ _ E1).
      cbn [replicate api_run]. rewrite E2. cbn [obind]. rewrite E3. reflexivity. }
    split; [exact Q3|]. split; [exact S0|]. intros s. unfold new_string.
    rewrite find_vacant_loops; [done| |lia]. intros j Hj. destruct (decide (j = 0)) as [-> |Hne]; [exact S0|].
    unfold occupied. rewrite P3, lookup_insert_ne by lia.
    destruct (decide (j = 255)) as [-> |]; [exact O2|]. apply L2. lia.
  - destruct (new_device_fills true index) as (d0 & E0 & F0).
    destruct (fill true w 250 Hw d0 4 F0 ltac:(lia)) as (d1 & o1 & E1 & F1). change (4 + N.of_nat 250) with 254 in F1.
    exists d0. split; [exact E0|]. change 251%nat with (250 + 1)%nat. rewrite replicate_add, (api_run_app _ _ _ _ _ _ _ E1).
    cbn [replicate api_run api_step named_interface]. unfold with_interface, new_string.
    rewrite find_vacant_full_debug; [reflexivity|]. intros i Hi. apply F1. lia.
Qed.
Print Assumptions C45_exhaustion_reached.
Example C45_example : forall h, c_poisoned (w_intf ex_world h) = false.
Proof. reflexivity. Qed.
(** What is true: while one of 1..254 is vacant, the least vacant one is returned. *)
Theorem C45_exhaustion_reported_partial : forall dbg d s,
  (exists i, 1 <= i <= 254 /\ d_string_pool d !! i = None) ->
  exists r d', new_string dbg d s = Val (r, d') /\ 1 <= r <= 254 /\ d_string_pool d !! r = None /\
    (forall j, 1 <= j < r -> is_Some (d_string_pool d !! j)) /\ d_string_pool d' = <[r := s]> (d_string_pool d).
Proof.
  intros dbg d s Hv. destruct (find_vacant_low dbg _ Hv) as (r & E & Hr & Hn & Hj).
  eexists r, _. unfold new_string. rewrite E. split; [reflexivity|]. split_and!; auto; lia.
Qed.
Print Assumptions C45_exhaustion_reported_partial.

(** C46, versions: see [C46_bcd_reported_partial] in PropsSession. *)
Lemma bcd_in_layouts : forall v d desc, v < 65536 -> device_desc_layout desc d ->
  (d_bcd d = version_of_bcd v -> (u16le_at desc 12 v <-> v mod 256 = 0)) /\
  (d_usb_version d = version_of_bcd v -> (u16le_at desc 2 v <-> v mod 256 = 0)) /\
  (d_bcd d = version_of_bcd v -> forall b o, dev_record_at b o (record_of d) ->
     (u16_at b (o + 304) v <-> v mod 256 = 0)).
Proof.
  intros v d desc Hv (_ & _ & _ & H2 & H3 & _ & _ & _ & _ & _ & _ & H12 & H13 & _). split_and!.
  - intros E. rewrite E in H12, H13. exact (proj2 (bcd_reported v desc 12 Hv H12 H13)).
  - intros E. rewrite E in H2, H3. exact (proj2 (bcd_reported v desc 2 Hv H2 H3)).
  - intros E b o (_ & _ & _ & _ & _ & _ & _ & Hhi & Hlo & _). cbn [record_of dr_bcd_hi dr_bcd_lo] in Hhi, Hlo.
    rewrite E in Hhi, Hlo. destruct (bcd_parts v) as [E1 E2]. unfold u8_at in Hhi, Hlo. rewrite E2 in Hhi. rewrite E1 in Hlo.
    replace (o + 305)%nat with (o + 304 + 1)%nat in Hlo by lia. split.
    + intros (x & y & Hx & Hy & ? & ? & ->). rewrite Hx in Hhi. rewrite Hy in Hlo.
      apply Some_inj in Hhi, Hlo. lia.
    + intros Hz. exists (v / 256 mod 256), (v / 16 mod 16). split_and!; auto; lia.
Qed.

(** C47 is false: a zero length byte makes the loop run for ever. *)
Theorem C47_verify_descriptor_refuted : forall fuel,
  verify_descriptor [0] = Diverge /\ verify_loop [0] 0 fuel = Diverge.
Proof.
  intros fuel. assert (Hs : stuck [0]) by (exists [], []; split; [done|constructor]).
  split; [apply (verify_stuck_diverges _ Hs)|apply (verify_stuck_diverges _ Hs)].
Qed.
Print Assumptions C47_verify_descriptor_refuted.
(** What is true: it returns exactly for well-formed bytes; it panics exactly when the last block
    overruns; it never returns exactly when a zero length byte is reached. *)
Theorem C47_verify_descriptor_partial : forall b,
  (verify_descriptor b = Val tt <-> self_blocks b) /\
  (verify_descriptor b = Panic PAssert <-> overrun b) /\
  (stuck b <-> forall fuel, verify_loop b 0 fuel = Diverge) /\
  (self_blocks b \/ overrun b \/ stuck b).
Proof.
  intros b. destruct (verify_iff b) as (H1 & H2 & H3). split; [exact H1|]. split; [exact H2|].
  split; [|apply blocks_trichotomy]. split; [apply verify_stuck_diverges|].
  intros Hd. apply H3. unfold verify_descriptor. by rewrite Hd.
Qed.
Print Assumptions C47_verify_descriptor_partial.
Example C47_example : self_blocks [3; 0; 0; 1] /\ overrun [3; 0; 0; 9] /\ stuck [3; 0; 0; 0; 7].
Proof.
  split_and!.
  - apply (sb_cons 3 [0; 0] [1] eq_refl). apply (sb_cons 1 [] [] eq_refl). constructor.
  - exists [3; 0; 0], 9, []. split_and!; [done| |reflexivity]. apply (sb_cons 3 [0; 0] [] eq_refl). constructor.
  - exists [3; 0; 0], [7]. split; [done|]. apply (sb_cons 3 [0; 0] [] eq_refl). constructor.
Qed.

Theorem C48_what_aborts : forall (H : handlers) dbg (w : world H) d e i tbl s req,
  (exists p w', handle_urb dbg w d e i tbl s req = (UPanic p, w')) <-> aborting dbg w d e i tbl s req.
Proof. intros H dbg w d e i tbl s req. exact (urb_aborts_iff dbg w d e i tbl s req). Qed.
Print Assumptions C48_what_aborts.
(** The same on the wire: a submit that reaches an endpoint aborts the connection without a reply
    exactly in these cases, or (debug build) when the handler returned data on an OUT transfer. *)
Theorem C48_what_aborts_on_the_wire : forall (H : handlers) dbg (st : cstate H) m sb d e i s,
  all_u8 m = true -> cmd_layout dbg m (CmdSubmit sb) -> imported st d ->
  addressed d (ep_byte (sb_header sb)) e i -> setup_of (sb_setup sb) s ->
  (aborting dbg (cs_world st) d e i (sb_transfer_buffer_length sb) s (sb_data sb) ->
     exists p st1, aborts dbg st m p st1) /\
  (~ aborting dbg (cs_world st) d e i (sb_transfer_buffer_length sb) s (sb_data sb) ->
     dbg = false \/ h_direction (sb_header sb) = 1 ->
     exists st1, (exists data, replies dbg st m sb data st1) \/ replies_error dbg st m sb st1).
Proof.
  intros H dbg st m sb d e i s Hm HL Hd Ha Hs. split.
  - intros Hab. apply urb_aborts_iff in Hab as (p & w' & E).
    exists p. eexists. exact (urb_replies dbg st m sb d e i s _ _ Hm HL Hd Ha Hs E).
  - intros Hn Hdir. exact (control_answered dbg st m sb d e i s Hm HL Hd Ha Hs Hn Hdir).
Qed.
Print Assumptions C48_what_aborts_on_the_wire.
Example C48_example :
  aborting true ex_world ex_dev (d_ep0_in ex_dev) None 2 (mkSetup 128 0 0 0 2) [] /\
  ~ aborting true ex_world ex_dev (d_ep0_in ex_dev) None 18 (mkSetup 128 6 256 0 18) [].
Proof.
  split.
  - apply ab_no_handler; try reflexivity. intros [(_ & _ & E)|(_ & E & _)]; discriminate.
  - intros Hab. apply urb_aborts_iff in Hab as (p & w' & E). vm_compute in E. discriminate.
Qed.

(** C49 is false: GET_STATUS of a device without a device handler, and every request to an
    endpoint, abort the connection. *)
Theorem C49_standard_requests_answered_refuted : forall dbg,
  (let sb := ctl_in [128; 0; 0; 0; 0; 0; 2; 0] in   (* GET_STATUS, device *)
   exists p, aborts dbg (on_device ex_dev) (wire (CmdSubmit sb)) p (on_device ex_dev)) /\
  (let sb := ctl_in [130; 0; 0; 0; 129; 0; 2; 0] in (* GET_STATUS, endpoint 0x81 *)
   exists p, aborts dbg (on_device ex_dev) (wire (CmdSubmit sb)) p (on_device ex_dev)).
Proof.
  intros dbg. split; intros sb; exists PUnimplemented.
  - destruct (on_device_ctl dbg ex_dev 128 0 0 0 0 0 2 0 eq_refl eq_refl eq_refl) as [Hm HL Hd _ Hs _].
    pose proof (urb_replies dbg (on_device ex_dev) _ _ ex_dev (d_ep0_in ex_dev) None _ (UPanic PUnimplemented) ex_world
      Hm HL Hd (addr_ep0_in _ _ eq_refl) Hs) as R.
    apply R. destruct dbg; reflexivity.
  - destruct (on_device_ctl dbg ex_dev 130 0 0 0 129 0 2 0 eq_refl eq_refl eq_refl) as [Hm HL Hd _ Hs _].
    pose proof (urb_replies dbg (on_device ex_dev) _ _ ex_dev (d_ep0_in ex_dev) None _ (UPanic PUnimplemented) ex_world
      Hm HL Hd (addr_ep0_in _ _ eq_refl) Hs) as R.
    apply R. destruct dbg; reflexivity.
Qed.
Print Assumptions C49_standard_requests_answered_refuted.
(** What is true: requests to the device or to an existing interface are answered if there is a
    device handler (or the library serves the request itself), handlers do not panic and are not
    poisoned, and no string is over-long. *)
Theorem C49_standard_requests_answered_partial : forall (H : handlers) dbg (st : cstate H) m sb d s r,
  control_in dbg st m sb d s ->
  d_handler d = Some r ->
  (s_request_type s mod 16 = 0 \/ s_request_type s mod 16 = 1 /\ s_index s mod 256 < len (d_interfaces d)) ->
  (forall i str, d_string_pool d !! i = Some str -> len (utf16 str) <= 126) ->
  (forall t, usable (cs_world st) t) ->
  (forall e t p, handler_answer (cs_world st) e (sb_transfer_buffer_length sb) s (sb_data sb) t <> HPanic p) ->
  exists st1, (exists data, replies dbg st m sb data st1) \/ replies_error dbg st m sb st1.
Proof.
  intros H dbg st m sb d s r [Hm HL Hd Hdir Hs (e & i & Ha & Hc)] Hh Hr Hstr Hu Hp.
  apply (control_answered dbg st m sb d e i s Hm HL Hd Ha Hs); [|by right].
  intros [?|? ?|str _ _ _ _ _ _ _ Hst Hl|_ _ ?|_ _ _ ?|_ _ ? Hlen|t _ Hus|t p _ _ Hpan]; try lia.
  - specialize (Hstr _ _ Hst). pose proof (N.mod_le (len (utf16 str)) 256 ltac:(done)). lia.
  - congruence.
  - exact (Hus (Hu t)).
  - exact (Hp e t p Hpan).
Qed.
Print Assumptions C49_standard_requests_answered_partial.
Definition ex_dev_h : device := with_device_handler ex_dev 2.
Example C49_example :
  control_in true (on_device ex_dev_h) (wire (CmdSubmit (ctl_in [128; 0; 0; 0; 0; 0; 2; 0])))
    (ctl_in [128; 0; 0; 0; 0; 0; 2; 0]) ex_dev_h (mkSetup 128 0 0 0 2) /\
  d_handler ex_dev_h = Some 2 /\ (forall t, usable ex_world t) /\
  (forall e tbl s req t p, handler_answer ex_world e tbl s req t <> HPanic p).
Proof.
  split; [by apply on_device_ctl|]. split; [reflexivity|]. split; [by intros []|].
  intros e tbl s req [f|r] p; cbn; [|done]. destruct (ep_direction e); [done|]. by destruct req.
Qed.

(** C50: whatever interface the host recovers from the configuration descriptor, a control request
    that names its number is delivered to the handler of that very interface and to no other. *)
Theorem C50_interface_numbers : forall (H : handlers) dbg (st : cstate H) m sb d s ix,
  control_in dbg st m sb d s -> typed_device d -> get_desc s 2 ix -> s_length s = 65535 ->
  config_limits d -> config_size d < 65536 ->
  exists desc c, replies dbg st m sb desc st /\ reads_as_config desc c /\
  forall hi, hi ∈ hc_interfaces c ->
  exists f, f ∈ d_interfaces d /\ hi = intf_view (hi_number hi) f /\
  forall (st2 : cstate H) m' sb' e i s',
    all_u8 m' = true -> cmd_layout dbg m' (CmdSubmit sb') -> imported st2 d ->
    addressed d (ep_byte (sb_header sb')) e i -> ep_attributes e = 0 -> setup_of (sb_setup sb') s' ->
    s_request_type s' mod 16 = 1 -> s_index s' mod 256 = hi_number hi ->
    c_poisoned (w_intf (cs_world st2) (if_handler f)) = false ->
  exists o w', invoked (cs_world st2) e (sb_transfer_buffer_length sb') s' (sb_data sb') (TIntf f) o w' /\
  let st3 := mkC (cs_server st2) w' (cs_current st2) in
  (exists data, replies dbg st2 m' sb' data st3) \/ replies_error dbg st2 m' sb' st3 \/
  (exists p, aborts dbg st2 m' p st3).
Proof.
  intros H dbg st m sb d s ix HC HT HG HL Hlim Hsz.
  destruct (config_desc_reply dbg st m sb d s ix HC HT HG Hlim Hsz) as (desc & Hlen & Hrd & _ & HR).
  rewrite HL in HR. rewrite firstn_all2 in HR by (unfold len in Hlen; lia).
  exists desc, (config_view d (len desc)). split; [exact HR|]. split; [exact Hrd|].
  intros hi Hin. destruct (view_number _ _ _ Hin) as (f & Hf & Hv). exists f.
  split; [by apply elem_of_list_lookup_2 in Hf|]. split; [exact Hv|].
  intros st2 m' sb' e i s' Hm HL' Hd Ha Hc Hs Hr Hi Hp.
  assert (HD : delivered dbg st2 m' sb' d e i s' (TIntf f)).
  { split; auto. eapply routed_interface; eauto. by rewrite Hi. }
  destruct (delivered_step _ _ _ _ _ _ _ _ _ HD) as (w' & Hinv & Hr').
  eexists _, w'. split; [exact Hinv|]. intros st3. subst st3.
  destruct (handler_answer _ _ _ _ _ _) as [data|x|p] eqn:Eo.
  - destruct Hr' as [Hr1 Hr2].
    assert (Hdd : (dbg = false \/ h_direction (sb_header sb') = 1 \/ len data mod 4294967296 = 0) \/
                 (dbg = true /\ h_direction (sb_header sb') <> 1 /\ len data mod 4294967296 <> 0)).
    { destruct dbg; [|tauto]. lia. }
    destruct Hdd as [Hdd|(-> & Hd1 & Hd2)].
    + left. exists data. exact (Hr1 Hdd).
    + right; right. exists PDebugAssert. exact (Hr2 eq_refl Hd1 Hd2).
  - right; left. exact Hr'.
  - right; right. exists p. exact Hr'.
Qed.
Print Assumptions C50_interface_numbers.
Example C50_example :
  control_in true (on_device ex_dev) (wire (CmdSubmit (ctl_in [128; 6; 0; 2; 0; 0; 255; 255])))
    (ctl_in [128; 6; 0; 2; 0; 0; 255; 255]) ex_dev (mkSetup 128 6 512 0 65535) /\
  hc_interfaces (config_view ex_dev 32) = [intf_view 0 ex_intf] /\
  routed ex_dev (d_ep0_in ex_dev) None (mkSetup 161 1 0 0 8) (TIntf ex_intf).
Proof.
  split; [by apply on_device_ctl|]. split; [reflexivity|].
  apply (routed_interface ex_dev (d_ep0_in ex_dev) None (mkSetup 161 1 0 0 8) ex_intf); reflexivity.
Qed.

(** C76: the remaining descriptor types.  The qualifier repeats the device's class, BOS announces
    no capability, and every type the library does not know is answered with success and no bytes
    (USB 2.0 section 9.4.3 asks for a request error there). *)
Theorem C76_other_descriptors : forall (H : handlers) dbg (st : cstate H) m sb d s ty ix,
  control_in dbg st m sb d s -> get_desc s ty ix ->
  (ty = 6 -> exists desc, qualifier_layout desc d /\
     replies dbg st m sb (take (N.to_nat (s_length s)) desc) st) /\
  (ty = 15 -> replies dbg st m sb (take (N.to_nat (s_length s)) [5; 15; 5; 0; 0]) st) /\
  (ty ∉ [1; 2; 3; 6; 15] -> replies dbg st m sb [] st).
Proof.
  intros H dbg st m sb d s ty ix HC HG. split_and!.
  - intros ->. eapply qualifier_reply; eauto.
  - intros ->. eapply bos_reply; eauto.
  - intros Hn. pose proof (control_in_desc _ _ _ _ _ _ _ _ HC HG) as R.
    unfold get_descriptor in R. rewrite (proj1 (desc_type_ix _ _ _ HG)) in R.
    rewrite !not_elem_of_cons in Hn. destruct Hn as (H1 & H2 & H3 & H6 & H15 & _).
    destruct ty as [|p]; [exact R|]. do 4 (try (destruct p as [p|p|]; try congruence; try exact R)).
Qed.
Print Assumptions C76_other_descriptors.
Example C76_example : forall dbg,
  control_in dbg (on_device ex_dev) (wire (CmdSubmit (ctl_in [128; 6; 0; 7; 0; 0; 9; 0])))
    (ctl_in [128; 6; 0; 7; 0; 0; 9; 0]) ex_dev (mkSetup 128 6 1792 0 9) /\
  get_desc (mkSetup 128 6 1792 0 9) 7 0 /\ (7 : N) ∉ [1; 2; 3; 6; 15].
Proof.
  intros dbg. split; [by apply on_device_ctl|]. split; [unfold get_desc; cbn; lia|].
  rewrite !not_elem_of_cons. split_and!; try lia. apply not_elem_of_nil.
Qed.
