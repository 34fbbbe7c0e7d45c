(** * Property C89: the numeric codes are those of the standards *)
From Verif Require Export SpecCodes Lemmas.
From Coq Require Strings.String.
Import Strings.String.StringSyntax.
Local Open Scope string_scope.
Local Open Scope N_scope.

Ltac in_table := repeat (apply elem_of_list_here || apply elem_of_list_further).
Ltac each_entry := let x := fresh in let E := fresh in
  intros x E; repeat (apply elem_of_cons in E as [->|E]); [..|by apply elem_of_nil in E].

Ltac apply_all n := let E := fresh in intros E; destruct n as [|n]; [|do 6 (try destruct n as [n|n|])];
  cbn in E; try discriminate E; injection E as <-; cbn; in_table.
Ltac from_table n a := let E := fresh in let E1 := fresh in let E2 := fresh in destruct a; cbn; intros E;
  repeat (apply elem_of_cons in E as [E|E]; [pose proof (f_equal fst E) as E1; pose proof (f_equal snd E) as E2; cbn in E1, E2;
    first [discriminate E1|rewrite E2; reflexivity]|]); by apply elem_of_nil in E.

(** Every enumeration that is cast to a number: each member has the number the standard gives its
    name, every entry of the table is a member, and no two members share a number. *)
Theorem C89_codes_of_the_standards :
  numbers usb_if_classes class_name class_code_val /\
  numbers usb_descriptor_types descriptor_name desc_type_val /\
  numbers hid_descriptor_types hid_name hid_desc_type_val /\
  numbers transfer_types transfer_name ep_attr_val /\
  numbers linux_speeds speed_name usb_speed_val.
Proof.
  split; [|split; [|split; [|split]]].
  - split; [|split].
    + intros []; cbn; in_table.
    + each_entry; eexists; first [exact (eq_refl (class_name ClSeeInterface))|exact (eq_refl (class_name ClAudio))|exact (eq_refl (class_name ClCDC))
        |exact (eq_refl (class_name ClHID))|exact (eq_refl (class_name ClPhysical))|exact (eq_refl (class_name ClImage))
        |exact (eq_refl (class_name ClPrinter))|exact (eq_refl (class_name ClMassStorage))|exact (eq_refl (class_name ClHub))
        |exact (eq_refl (class_name ClCDCData))|exact (eq_refl (class_name ClSmartCard))|exact (eq_refl (class_name ClContentSecurity))
        |exact (eq_refl (class_name ClVideo))|exact (eq_refl (class_name ClPersonalHealthcare))|exact (eq_refl (class_name ClAudioVideo))
        |exact (eq_refl (class_name ClBillboard))|exact (eq_refl (class_name ClTypeCBridge))|exact (eq_refl (class_name ClDiagnostic))
        |exact (eq_refl (class_name ClWirelessController))|exact (eq_refl (class_name ClMisc))
        |exact (eq_refl (class_name ClApplicationSpecific))|exact (eq_refl (class_name ClVendorSpecific))].
    + intros [] []; by cbn.
  - split; [|split].
    + intros []; cbn; in_table.
    + each_entry; eexists; first [exact (eq_refl (descriptor_name TDevice))|exact (eq_refl (descriptor_name TConfiguration))
        |exact (eq_refl (descriptor_name TString))|exact (eq_refl (descriptor_name TInterface))|exact (eq_refl (descriptor_name TEndpoint))
        |exact (eq_refl (descriptor_name TDeviceQualifier))|exact (eq_refl (descriptor_name TOtherSpeed))
        |exact (eq_refl (descriptor_name TInterfacePower))|exact (eq_refl (descriptor_name TOTG))|exact (eq_refl (descriptor_name TDebug))
        |exact (eq_refl (descriptor_name TInterfaceAssociation))|exact (eq_refl (descriptor_name TBOS))].
    + intros [] []; by cbn.
  - split; [|split].
    + intros []; cbn; in_table.
    + each_entry; eexists; first [exact (eq_refl (hid_name HHid))|exact (eq_refl (hid_name HReport))|exact (eq_refl (hid_name HPhysical))].
    + intros [] []; by cbn.
  - split; [|split].
    + intros []; cbn; in_table.
    + each_entry; eexists; first [exact (eq_refl (transfer_name AControl))|exact (eq_refl (transfer_name AIsochronous))
        |exact (eq_refl (transfer_name ABulk))|exact (eq_refl (transfer_name AInterrupt))].
    + intros [] []; by cbn.
  - split; [|split].
    + intros []; cbn; in_table.
    + each_entry; eexists; first [exact (eq_refl (speed_name SpUnknown))|exact (eq_refl (speed_name SpLow))|exact (eq_refl (speed_name SpFull))
        |exact (eq_refl (speed_name SpHigh))|exact (eq_refl (speed_name SpWireless))|exact (eq_refl (speed_name SpSuper))
        |exact (eq_refl (speed_name SpSuperPlus))].
    + intros [] []; by cbn.
Qed.
Print Assumptions C89_codes_of_the_standards.

(** Every number that is turned into a member ([FromPrimitive]): exactly the numbers of the table,
    out of all numbers, and each into the member of that name. *)
Theorem C89_decoding :
  decodes usb_requests request_name std_request_of /\
  decodes usb_descriptor_types descriptor_name desc_type_of /\
  decodes hid_descriptor_types hid_name hid_desc_type_of /\
  decodes transfer_types transfer_name ep_attr_of.
Proof.
  split; [|split; [|split]]; (intros n a; split; [apply_all n|from_table n a]).
Qed.
Print Assumptions C89_decoding.

(** The numbers of the USB/IP protocol. *)
Theorem C89_protocol_numbers : forall x, x ∈ [
    ("USBIP_VERSION", USBIP_VERSION); ("OP_REQ_DEVLIST", OP_REQ_DEVLIST); ("OP_REP_DEVLIST", OP_REP_DEVLIST);
    ("OP_REQ_IMPORT", OP_REQ_IMPORT); ("OP_REP_IMPORT", OP_REP_IMPORT); ("USBIP_CMD_SUBMIT", USBIP_CMD_SUBMIT);
    ("USBIP_CMD_UNLINK", USBIP_CMD_UNLINK); ("USBIP_RET_SUBMIT", USBIP_RET_SUBMIT);
    ("USBIP_RET_UNLINK", USBIP_RET_UNLINK); ("USBIP_DIR_OUT", DIR_OUT); ("USBIP_DIR_IN", DIR_IN)] -> x ∈ usbip_numbers.
Proof. each_entry; in_table. Qed.
Print Assumptions C89_protocol_numbers.

(** The tables do distinguish: 6 is GET_DESCRIPTOR and 2 is no request at all. *)
Example C89_example : std_request_of 6 = Some GetDescriptor /\ std_request_of 2 = None /\ desc_type_of 0x21 = None /\
  class_code_val ClHID <> class_code_val ClPhysical.
Proof. by vm_compute. Qed.
