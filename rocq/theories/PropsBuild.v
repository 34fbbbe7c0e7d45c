(** * Devices built with the public API (C75, C95) *)
From Verif Require Export BuildProofs PropsHandlers PropsConn.
From Coq Require Strings.String.
Import Strings.String.StringSyntax.

(** ** C75 *)
Theorem C75_host_sees_what_was_built : forall (H : handlers) dbg (w : world H) index ops,
  u32 index -> reasonable w ops ->
  exists d0 d r, new_device dbg index = Val d0 /\ api_run dbg w d0 ops = Val (d, r) /\ enumerable d /\
    d_bus_id d = lit "0-0-0" /\ d_dev_num d = index /\
    forall st : cstate H, host_learns dbg st d (asked w ops) (names_run fresh_names ops).1.
Proof.
  intros H dbg w index ops Hx Hr. destruct (built dbg w index ops Hr) as (d0 & d & r & E0 & E & I & B & F).
  exists d0, d, r. destruct (base_fields _ _ B) as (_ & B2 & _ & B4 & _). split_and!; try done.
  - by eapply built_enumerable.
  - intros st. by eapply built_learnt.
Qed.
Print Assumptions C75_host_sees_what_was_built.

(** Endpoints with different addresses, none of them 0 or 0x80, lead to the handler they were given with. *)
Theorem C75_endpoints_reach_handlers : forall (H : handlers) dbg (w : world H) index ops,
  reasonable w ops -> NoDup (0 :: 128 :: (asked w ops ≫= fun a => ep_address <$> a_endpoints a)) ->
  exists d0 d r, new_device dbg index = Val d0 /\ api_run dbg w d0 ops = Val (d, r) /\
    length (d_interfaces d) = length (asked w ops) /\
    forall k a e, asked w ops !! k = Some a -> e ∈ a_endpoints a ->
    exists f, d_interfaces d !! k = Some f /\ addressed d (ep_address e) e (Some f) /\ if_handler f = a_handler a.
Proof.
  intros H dbg w index ops Hr Hn. destruct (built dbg w index ops Hr) as (d0 & d & r & E0 & E & I & B & F).
  exists d0, d, r. split_and!; try done.
  - by eapply Forall2_length.
  - intros k a e Hk He. by eapply built_addressed.
Qed.
Print Assumptions C75_endpoints_reach_handlers.

(** The two example programs of the repository, whatever state their handler is in:
    examples/hid_keyboard.rs:13-29 and examples/cdc_acm_serial.rs:12-22. *)
Definition hid_example : list name_op :=
  [AddInterface 3 0 0 (Some (lit "Test HID")) [mkEndpoint 0x81 0x03 0x08 10] 0].
Definition cdc_example : list name_op :=
  [AddInterface 2 CDC_ACM_SUBCLASS 0 (Some (lit "Test CDC ACM")) cdc_endpoints 0].
Lemma one_op_prefix (o : name_op) p : p `prefix_of` [o] -> p = [] \/ p = [o].
Proof. intros [q E]. destruct p as [|x [|y p]]; [by left| |]; injection E; intros; subst; [by right|discriminate]. Qed.
Example C75_hid_example : forall w : world kb_h, (forall h, c_poisoned (w_intf w h) = false) ->
  reasonable w hid_example /\ NoDup (0 :: 128 :: (asked w hid_example ≫= fun a => ep_address <$> a_endpoints a)) /\
  names_run fresh_names hid_example = (mkNames (Some (lit "Default Configuration")) (Some (lit "Manufacturer")) (Some (lit "Product"))
    (Some (lit "Serial")) [Some (lit "Test HID")], [None]).
Proof.
  intros w Hw. split; [|split; [|reflexivity]].
  - split; [exact Hw| | | | |].
    + intros p Hp. apply one_op_prefix in Hp as [-> | ->]; apply Nat.leb_le; vm_compute; reflexivity.
    + repeat constructor; vm_compute; done.
    + constructor; [|constructor]. unfold intf_ok. cbn -[kb_csd]. split_and!; try done.
      * repeat constructor; vm_compute; done.
      * unfold kb_csd. repeat constructor; unfold u8, as_u8; try done; apply N.mod_lt; done.
      * apply C63_class_descriptors.
    + vm_compute. discriminate.
    + vm_compute. reflexivity.
  - cbn. repeat (apply NoDup_cons; split; [set_solver|]). by apply NoDup_nil.
Qed.
Example C75_cdc_example : forall w : world cdc_h, (forall h, c_poisoned (w_intf w h) = false) ->
  reasonable w cdc_example /\ NoDup (0 :: 128 :: (asked w cdc_example ≫= fun a => ep_address <$> a_endpoints a)).
Proof.
  intros w Hw. split.
  - split; [exact Hw| | | | |].
    + intros p Hp. apply one_op_prefix in Hp as [-> | ->]; apply Nat.leb_le; vm_compute; reflexivity.
    + repeat constructor; vm_compute; done.
    + constructor; [|constructor]. unfold intf_ok. cbn -[cdc_csd]. split_and!; try done.
      * repeat constructor; vm_compute; done.
      * unfold cdc_csd. repeat constructor; done.
      * apply C63_class_descriptors.
    + vm_compute. discriminate.
    + vm_compute. reflexivity.
  - cbn. repeat (apply NoDup_cons; split; [set_solver|]). by apply NoDup_nil.
Qed.
(** A larger one: names changed and removed, two interfaces. *)
Example C75_example : reasonable ex_world
  [SetName WProd (lit "Widget"); AddInterface 3 1 2 (Some (lit "Keys")) [mkEndpoint 0x81 3 8 10] 0; UnsetName WSerial;
   AddInterface 255 0 0 None [mkEndpoint 0x02 2 512 0; mkEndpoint 0x82 2 512 0] 1; SetName WManu (lit "ACME")].
Proof.
  split.
  - done.
  - intros p [q Hq].
    set (l := [SetName WProd (lit "Widget"); AddInterface 3 1 2 (Some (lit "Keys")) [mkEndpoint 0x81 3 8 10] 0; UnsetName WSerial;
      AddInterface 255 0 0 None [mkEndpoint 0x02 2 512 0; mkEndpoint 0x82 2 512 0] 1; SetName WManu (lit "ACME")]) in *.
    assert (Hl : (length p <= 5)%nat) by (apply (f_equal length) in Hq; rewrite app_length in Hq; cbn in Hq; lia).
    replace p with (take (length p) l) by (rewrite Hq, take_app; done).
    assert (Hall : Forall (fun k => (names_count (names_run fresh_names (take k l)).1 <= 254)%nat) (seq 0 6)).
    { repeat (constructor; [apply Nat.leb_le; vm_compute; reflexivity|]). constructor. }
    rewrite Forall_forall in Hall. apply Hall. apply elem_of_seq. lia.
  - repeat constructor; vm_compute; done.
  - repeat (constructor; [unfold intf_ok; cbn; split_and!; try done; [repeat constructor; vm_compute; done|]|]); [| |constructor].
    all: exists []; split; constructor.
  - vm_compute. discriminate.
  - vm_compute. reflexivity.
Qed.

(** ** C95 *)
Theorem C95_builder_calls : forall (H : handlers) dbg (w : world H) d cs d',
  build_run dbg w d cs = Val d' ->
  own_fields d' = own_fields d /\ d_handler d' = handler_after (d_handler d) cs /\
  (exists new, d_interfaces d' = d_interfaces d ++ new /\ Forall2 as_asked new (asked w (name_ops cs))) /\
  exists d2 r, api_run dbg w d (name_ops cs) = Val (d2, r) /\ name_fields d2 = name_fields d' /\ d_interfaces d2 = d_interfaces d'.
Proof.
  intros H dbg w d cs d' E. destruct (build_own _ _ _ _ _ E) as (O1 & O2 & O3). split_and!; try done. by eapply build_names.
Qed.
Print Assumptions C95_builder_calls.
(** A device with identifiers of its own, an interface, a product name, and two device handlers,
    the second of which stays. *)
Example C95_example : forall dbg, exists d',
  build_run dbg ex_world (mkDevice [47; 120] [120] 1 2 3 0x1234 0x5678 (mkVersion 1 2 3) 4 5 6 7 1 [] None (mkVersion 2 0 0)
      (mkEndpoint 128 0 64 0) (mkEndpoint 0 0 64 0) ∅ 0 0 0 0)
    [BHandler 5; BName (SetName WProd [87]); BName (AddInterface 3 1 2 None [mkEndpoint 0x81 3 8 10] 0); BHandler 6] = Val d' /\
  d_vendor_id d' = 0x1234 /\ d_product_id d' = 0x5678 /\ d_handler d' = Some 6 /\ length (d_interfaces d') = 1%nat.
Proof. intros dbg. eexists. split; [destruct dbg; vm_compute; reflexivity|]. vm_compute. done. Qed.
