(** * Property C102: the drivers of Linux on the example programs *)
From Verif Require Import Examples ProgProofs PropsProg PropsReport DriverProofs.
From Coq Require Strings.String.
Import Strings.String.StringSyntax.

(** C102: as long as the clients of an example program do what the USB core and the driver of Linux
    for its device do, whatever the number of clients, their order and the speed of the main
    task: the program goes on; every URB of the client that has the device is answered,
    with status 0 and what was asked for; no connection panics, but for one that submits
    without having imported the device. *)
Theorem C102_keyboard_and_usbhid : forall dbg d ls p evs, g_device hid_keyboard dbg = Val d ->
  Forall (p_readable dbg) ls -> Forall (by_drivers d hid_driver) ls ->
  prun dbg hid_keyboard (start dbg hid_keyboard) ls = Some (p, evs) ->
  p <> Exited /\ drivers_work d (hid_answer (k_report_descriptor new_keyboard)) evs.
Proof.
  intros dbg d ls p evs Hd HR HB E. destruct (shaped_ex _ _ (kb_shaped dbg)) as (d1 & f & Hd1 & Hs).
  rewrite Hd in Hd1. apply Val_inj in Hd1 as <-.
  destruct (C92_keyboard_is_hid dbg) as (d2 & Hd2 & He & _). rewrite Hd in Hd2. apply Val_inj in Hd2 as <-.
  destruct (driven_run dbg hid_keyboard d hid_driver (hid_answer (k_report_descriptor new_keyboard)) kb_fine Hd (proj1 (proj2 He)))
    with (ls := ls) (p := p) (evs := evs) as (a & -> & D); [|..|exact HR|exact HB|exact E|].
  - by repeat constructor.
  - intros w (Hp & Hr & Hq). split; [exact Hp|]. eexists. split; [reflexivity|]. split; [done|]. split; [exact Hr|].
    apply Forall_app. split; [exact Hq|by repeat constructor].
  - intros w sb Hw Hwf (s & Hset & Hreq). by eapply kb_driven.
  - split; [done|]. apply D.
Qed.
Print Assumptions C102_keyboard_and_usbhid.
Theorem C102_serial_and_cdc_acm : forall dbg d ls p evs, g_device cdc_acm_serial dbg = Val d ->
  Forall (p_readable dbg) ls -> Forall (by_drivers d acm_driver) ls ->
  prun dbg cdc_acm_serial (start dbg cdc_acm_serial) ls = Some (p, evs) ->
  p <> Exited /\ drivers_work d acm_answer evs.
Proof.
  intros dbg d ls p evs Hd HR HB E. destruct (shaped_ex _ _ (serial_shaped dbg)) as (d1 & f & Hd1 & Hs).
  rewrite Hd in Hd1. apply Val_inj in Hd1 as <-.
  destruct (C92_serial_is_acm dbg) as (d2 & Hd2 & He & _). rewrite Hd in Hd2. apply Val_inj in Hd2 as <-.
  destruct (driven_run dbg cdc_acm_serial d acm_driver acm_answer acm_fine Hd (proj1 (proj2 He)))
    with (ls := ls) (p := p) (evs := evs) as (a & -> & D); [|..|exact HR|exact HB|exact E|].
  - split; [done|by exists 0%nat].
  - intros w (Hp & n & Hn). split; [exact Hp|]. eexists. split; [reflexivity|]. split; [done|]. exists (n + 1)%nat.
    cbn. rewrite replicate_add. f_equal. exact Hn.
  - intros w sb Hw Hwf (s & Hset & Hreq). by eapply acm_driven.
  - split; [done|]. apply D.
Qed.
Print Assumptions C102_serial_and_cdc_acm.

(** A client that imports the keyboard, asks for the device descriptor, selects the
    configuration, and lets usbhid start and poll. *)
Definition usbhid_session : list submit :=
  [ submit_cmd 1 0 18 [128; 6; 0; 1; 0; 0; 18; 0] []; submit_cmd 0 0 0 [0; 9; 1; 0; 0; 0; 0; 0] [];
    submit_cmd 0 0 0 [33; 10; 0; 0; 0; 0; 0; 0] []; submit_cmd 1 0 45 [129; 6; 0; 0x22; 0; 0; 45; 0] [];
    submit_cmd 1 1 8 (replicate 8 0) []; submit_cmd 1 1 8 (replicate 8 0) [] ].
Definition usbhid_labels : list (plabel keyboard_handlers) :=
  arrives ++ [PTick] ++ mjoin ((fun sb => asks sb ++ answered_then) <$> usbhid_session).
Example C102_example_run : p_after (prun true hid_keyboard (start true hid_keyboard) usbhid_labels)
  (fun p evs => (exists a, p = Running a) /\
     drop 1 (handed_out (fun _ => true) evs) = [[]; []; k_report_descriptor new_keyboard; [0; 0; 0x1e; 0; 0; 0; 0; 0]; [0; 0; 0; 0; 0; 0]]).
Proof. vm_compute. split; [eexists; reflexivity|reflexivity]. Qed.
Example C102_example_hypotheses : exists d, g_device hid_keyboard true = Val d /\
  Forall (p_readable true) usbhid_labels /\ Forall (by_drivers d hid_driver) usbhid_labels.
Proof.
  destruct (shaped_ex _ _ (kb_shaped true)) as (d & f & Hd & _). exists d. split; [exact Hd|]. clear Hd.
  assert (Ha : forall P : plabel keyboard_handlers -> Prop,
    P (PServer ABindOk) -> P (PServer (AAccept 1)) -> (forall l, l ∈ [LGrantUsed; LGrantAvail; LRun 1; LSent 1] -> P (PServer (ASys l))) ->
    P (PServer (ASys (LRecv 1 (OpReqImport 0 (field_of (lit "0-0-0")))))) -> P PTick ->
    (forall sb, sb ∈ usbhid_session -> P (PServer (ASys (LRecv 1 (CmdSubmit sb))))) -> Forall P usbhid_labels).
  { intros P P1 P2 P3 P4 P5 P6.
    assert (P7 : forall sb, sb ∈ usbhid_session -> Forall P (asks sb ++ answered_then)).
    { intros sb Hsb. unfold asks, answered_then. cbn. repeat (apply Forall_cons; split); try (by apply P6); try (apply P3; in_list). constructor. }
    unfold usbhid_labels. apply Forall_app. split; [|apply Forall_app; split; [by repeat constructor|]].
    - unfold arrives. cbn [fmap list_fmap app]. repeat (apply Forall_cons; split); try assumption; try (apply P3; in_list). constructor.
    - unfold usbhid_session in *. cbn [fmap list_fmap mjoin list_join].
      repeat (apply Forall_app; split; [apply P7; in_list|]). constructor. }
  split; apply Ha; try done.
  - by intros l ?; repeat match goal with X : l ∈ _ |- _ => apply elem_of_cons in X as [-> |X] end; try done; apply elem_of_nil in H.
  - cbn [p_readable readable]. wf_ex.
  - intros sb Hsb. unfold usbhid_session in Hsb. cbn [p_readable readable].
    repeat (apply elem_of_cons in Hsb as [-> |Hsb]); try (unfold submit_cmd; wf_ex); by apply elem_of_nil in Hsb.
  - by intros l ?; repeat match goal with X : l ∈ _ |- _ => apply elem_of_cons in X as [-> |X] end; try done; apply elem_of_nil in H.
  - intros sb Hsb. unfold usbhid_session in Hsb. cbn [by_drivers driver_command].
    repeat (apply elem_of_cons in Hsb as [-> |Hsb]); try (by apply elem_of_nil in Hsb).
    + exists (mkSetup 128 6 256 0 18). split; [by exists 128, 6, 0, 1, 0, 0, 18, 0|]. left. left. split_and!; try done.
      exists 1, 0. split; [by repeat split|by left].
    + exists (mkSetup 0 9 1 0 0). split; [by exists 0, 9, 1, 0, 0, 0, 0, 0|]. left. right. by split_and!.
    + exists (mkSetup 33 10 0 0 0). split; [by exists 33, 10, 0, 0, 0, 0, 0, 0|]. right. by apply hd_idle.
    + exists (mkSetup 129 6 0x2200 0 45). split; [by exists 129, 6, 0, 0x22, 0, 0, 45, 0|]. right. by apply hd_report.
    + exists (mkSetup 0 0 0 0 0). split; [by exists 0, 0, 0, 0, 0, 0, 0, 0|]. right. by apply hd_poll.
    + exists (mkSetup 0 0 0 0 0). split; [by exists 0, 0, 0, 0, 0, 0, 0, 0|]. right. by apply hd_poll.
Qed.
