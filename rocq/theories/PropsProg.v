(** * Properties C85-C87: the example programs *)
From Verif Require Import Examples ProgProofs.
From Coq Require Strings.String.
Import Strings.String.StringSyntax.

(** A client of the examples below: accepted, imports the device; later submits a URB. *)
Definition arrives {H} : list (plabel H) :=
  PServer <$> [ABindOk; AAccept 1] ++
    (ASys <$> [LRecv 1 (OpReqImport 0 (field_of (lit "0-0-0"))); LGrantUsed; LRun 1; LRun 1; LGrantUsed; LRun 1; LGrantAvail;
               LRun 1; LSent 1]).
Definition asks {H} (sb : submit) : list (plabel H) :=
  PServer <$> (ASys <$> [LRecv 1 (CmdSubmit sb); LGrantUsed; LRun 1]).
Definition answered_then {H} : list (plabel H) := [PServer (ASys (LSent 1))].
Definition p_after {H} (x : option (process H * list event)) (P : process H -> list event -> Prop) : Prop :=
  match x with Some (p, evs) => P p evs | None => False end.
Lemma p_after_ex {H} (x : option (process H * list event)) P : p_after x P -> exists p evs, x = Some (p, evs) /\ P p evs.
Proof. destruct x as [[p evs]|]; [|done]. intros Hp. by exists p, evs. Qed.

(** C85: the keyboard program types "1" once per round of its loop.  What the polls of endpoint
    1 IN have returned, by whichever connections, is the beginning of "press, release, press,
    release, ..." with one press for every round; the next poll returns the next action, or
    nothing if there is none.  (Exceptions: a connection that has not imported the device, and a
    keyboard that a client has broken, see C87.) *)
Theorem C85_keyboard_types : forall dbg ls a evs,
  prun dbg hid_keyboard (start dbg hid_keyboard) ls = Some (Running a, evs) ->
  exists shown todo, script (replicate (ticks ls) key_1) = shown ++ todo /\
    Forall2 shows (non_empty (handed_out polls_1 evs)) shown /\
  forall l p ev t sb o, pstep dbg hid_keyboard (Running a) l = Some (p, ev) ->
    EvServe t (CmdSubmit sb) o ∈ ev -> polls_1 sb = true ->
    o = Panic PUnwrapNone \/
    (o = Panic PPoisoned /\ pstep dbg hid_keyboard (Running a) PTick = Some (Exited, [])) \/
    exists rs, o = Val (RetSubmit rs) /\
      match todo with [] => rs_transfer_buffer rs = [] | x :: _ => rs_transfer_buffer rs <> [] /\ shows (rs_transfer_buffer rs) x end.
Proof.
  intros dbg ls a evs E. destruct (shaped_ex _ _ (kb_shaped dbg)) as (d & f & Hd & Hs).
  destruct (kb_run dbg _ d f Hd Hs ls a evs (delivers_any ls) E) as [Q (shown & K1 & K2) _].
  eexists shown, _. split; [exact K1|]. split; [exact K2|].
  intros l p ev t sb o Es Hin Hp. destruct l as [l|].
  2: { apply pstep_tick in Es as [-> _]. by apply elem_of_nil in Hin. }
  apply (pserver_inv _ (fun _ => True) d) in Es as (a' & -> & [[Hn _]|(t' & sb' & r & _ & He & Hr)]); [by apply Hn in Hin| |by destruct l as [| | | | |[]]|done].
  apply (served_in _ _ _ _ _ _ _ He) in Hin as (-> & -> & ->).
  destruct Hr as [[-> _]|(w' & Er & _)]; [by left|right].
  pose proof (kb_serve _ _ _ _ _ _ _ Hs Er) as K. cbv zeta in K. rewrite Hp in K.
  destruct K as [(K & -> & _)|(_ & _ & rs & -> & Km)].
  - left. split; [done|]. cbn [pstep g_handler hid_keyboard]. by rewrite K.
  - right. exists rs. split; [done|]. destruct (kb_todo _); tauto.
Qed.
Print Assumptions C85_keyboard_types.
(** Two rounds, and five polls. *)
Definition poll1 : submit := submit_cmd 1 1 8 (replicate 8 0) [].
Example C85_example : p_after (prun true hid_keyboard (start true hid_keyboard)
  (arrives ++ [PTick; PTick] ++ mjoin (replicate 5 (asks poll1 ++ answered_then))))
  (fun p evs => exists a, p = Running a /\
    handed_out polls_1 evs = [[0; 0; 0x1e; 0; 0; 0; 0; 0]; [0; 0; 0; 0; 0; 0]; [0; 0; 0x1e; 0; 0; 0; 0; 0]; [0; 0; 0; 0; 0; 0]; []]).
Proof. vm_compute. eexists. split; reflexivity. Qed.

(** C86: the serial program sends "a" once per round of its loop.  Full statement: the bytes that
    polls of endpoint 2 IN have returned are the bytes sent so far but for the last few, and the
    next poll returns the rest. *)
Definition sends (want : submit -> bool) : Prop := forall dbg ls a evs,
  prun dbg cdc_acm_serial (start dbg cdc_acm_serial) ls = Some (Running a, evs) ->
  exists rest, mjoin (handed_out want evs) ++ rest = replicate (ticks ls) 97 /\
  forall l p ev t sb o, pstep dbg cdc_acm_serial (Running a) l = Some (p, ev) ->
    EvServe t (CmdSubmit sb) o ∈ ev -> polls_2 sb = true ->
    o = Panic PUnwrapNone \/ exists rs, o = Val (RetSubmit rs) /\ rs_transfer_buffer rs = rest.
(** It is false: a control request to the interface, here GET_LINE_CODING of the CDC class, is
    answered with the bytes that wait to be sent, and these are lost to the polls. *)
Definition poll2 : submit := submit_cmd 1 2 512 (replicate 8 0) [].
Definition get_line_coding : submit := submit_cmd 1 0 7 [0xa1; 0x21; 0; 0; 0; 0; 7; 0] [].
Theorem C86_serial_sends_refuted : ~ sends polls_2.
Proof.
  intros Hs.
  assert (W : p_after (prun true cdc_acm_serial (start true cdc_acm_serial)
    (arrives ++ [PTick] ++ asks get_line_coding ++ answered_then ++ [PServer (ASys (LRecv 1 (CmdSubmit poll2))); PServer (ASys LGrantUsed)]))
    (fun p evs => exists a, p = Running a /\ handed_out polls_2 evs = [] /\
       p_after (pstep true cdc_acm_serial p (PServer (ASys (LRun 1)))) (fun _ ev => exists rs,
         ev = [EvServe 1 (CmdSubmit poll2) (Val (RetSubmit rs))] /\ rs_transfer_buffer rs = []))).
  { vm_compute. eexists. split; [reflexivity|]. split; [reflexivity|]. eexists. split; reflexivity. }
  apply p_after_ex in W as (p & evs & E & a & -> & Eh & W). apply p_after_ex in W as (p' & ev & E' & rs & -> & Hrs).
  destruct (Hs _ _ _ _ E) as (rest & Er & Hn). rewrite Eh in Er.
  destruct (Hn _ _ _ 1 poll2 (Val (RetSubmit rs)) E' ltac:(left) eq_refl) as [[=]|(rs' & [= <-] & Hrs')].
  rewrite Hrs in Hrs'. subst rest. vm_compute in Er. discriminate.
Qed.
Print Assumptions C86_serial_sends_refuted.
(** What is true: nothing else takes bytes away.  Polls of endpoint 2 and control requests in IN
    direction to an interface together return the bytes sent, each once, in order; a poll
    returns all that is left. *)
Theorem C86_serial_sends_partial : sends (fun sb => polls_2 sb || interface_in sb).
Proof.
  intros dbg ls a evs E. destruct (shaped_ex _ _ (serial_shaped dbg)) as (d & f & Hd & Hs).
  destruct (cdc_run dbg _ d f Hd Hs ls _ evs (delivers_any ls) E) as (a1 & [= <-] & [Q F B]).
  eexists. split; [exact B|]. intros l p ev t sb o Es Hin Hp. destruct l as [l|].
  2: { apply pstep_tick in Es as [-> _]. by apply elem_of_nil in Hin. }
  apply (pserver_inv _ (fun _ => True) d) in Es as (a' & -> & [[Hn _]|(t' & sb' & r & _ & He & Hr)]); [by apply Hn in Hin| |by destruct l as [| | | | |[]]|done].
  apply (served_in _ _ _ _ _ _ _ He) in Hin as (-> & -> & ->).
  destruct Hr as [[-> _]|(w' & Er & _)]; [by left|right].
  destruct (cdc_serve _ _ _ _ _ _ _ Hs Er F) as (_ & K & _). cbv zeta in K.
  destruct (K Hp) as (rs & -> & Hb & _). eauto.
Qed.
Print Assumptions C86_serial_sends_partial.
Example C86_example : p_after (prun true cdc_acm_serial (start true cdc_acm_serial)
  (arrives ++ [PTick; PTick] ++ asks poll2 ++ answered_then ++ [PTick] ++ asks poll2 ++ answered_then))
  (fun p evs => (exists a, p = Running a) /\ handed_out polls_2 evs = [[97; 97]; [97]]).
Proof. vm_compute. split; [eexists; reflexivity|reflexivity]. Qed.

(** C87: a client cannot stop the example programs, whatever it sends. *)
Definition unstoppable {H} (g : program H) : Prop := forall dbg ls p evs, Forall (p_readable dbg) ls ->
  prun dbg g (start dbg g) ls = Some (p, evs) -> p <> Exited.
(** True of the serial program: *)
Theorem C87_serial_goes_on : unstoppable cdc_acm_serial.
Proof.
  intros dbg ls p evs _ E. destruct (shaped_ex _ _ (serial_shaped dbg)) as (d & f & Hd & Hs).
  destruct (cdc_run dbg _ d f Hd Hs ls _ evs (delivers_any ls) E) as (a1 & -> & _). done.
Qed.
Print Assumptions C87_serial_goes_on.
(** false of the keyboard program: after a GET_DESCRIPTOR for its HID descriptor, which every
    HID device has, its main task panics and the process is gone. *)
Definition get_hid_descriptor : submit := submit_cmd 1 0 9 [0x81; 6; 0; 0x21; 0; 0; 9; 0] [].
Theorem C87_keyboard_goes_on_refuted : ~ unstoppable hid_keyboard.
Proof.
  intros Hs. assert (W : p_after (prun true hid_keyboard (start true hid_keyboard)
    (arrives ++ asks get_hid_descriptor ++ [PTick])) (fun p _ => p = Exited)) by (vm_compute; reflexivity).
  apply p_after_ex in W as (p & evs & E & ->). refine (Hs _ _ _ _ _ E eq_refl).
  clear. apply Forall_app. split; [|apply Forall_app; split].
  - repeat constructor; vm_compute; auto.
  - unfold asks. cbn [fmap list_fmap]. repeat (apply Forall_cons; split); try exact I; [|by apply Forall_nil].
    cbn [p_readable readable]. unfold get_hid_descriptor, submit_cmd. wf_ex.
  - repeat constructor.
Qed.
Print Assumptions C87_keyboard_goes_on_refuted.
(** Exactly such requests stop it: the next round of the loop ends the process if and only if a
    connection that had imported the keyboard sent a control request to interface 0 that the
    keyboard does not know. *)
Theorem C87_keyboard_goes_on_partial : forall dbg ls a evs, Forall (p_readable dbg) ls ->
  prun dbg hid_keyboard (start dbg hid_keyboard) ls = Some (Running a, evs) ->
  (exists t sb o, EvServe t (CmdSubmit sb) o ∈ evs /\ unknown_to_keyboard sb /\ o <> Panic PUnwrapNone) <->
  pstep dbg hid_keyboard (Running a) PTick = Some (Exited, []).
Proof.
  intros dbg ls a evs HR E. destruct (shaped_ex _ _ (kb_shaped dbg)) as (d & f & Hd & Hs).
  destruct (kb_run dbg _ d f Hd Hs ls a evs (delivers_readable dbg ls HR) E) as [_ _ Kp].
  specialize (Kp (fun _ x => x)). unfold broke in Kp. rewrite <- Kp. split.
  - intros Hp. cbn [pstep g_handler hid_keyboard]. by rewrite Hp.
  - intros Ex. apply pstep_tick in Ex as (_ & [[_ [Hp|Hp]]|(st & a' & _ & _ & [=] & _)]); [exact Hp|].
    by destruct (Hp _ eq_refl).
Qed.
Print Assumptions C87_keyboard_goes_on_partial.
(** Before that request the program runs: its device can be built. *)
Theorem C87_programs_start : forall dbg,
  (exists d, start dbg hid_keyboard = Running (init_asys [d] keyboard_world)) /\
  (exists d, start dbg cdc_acm_serial = Running (init_asys [d] serial_world)).
Proof.
  intros dbg. destruct (shaped_ex _ _ (kb_shaped dbg)) as (d & f & Hd & _), (shaped_ex _ _ (serial_shaped dbg)) as (d' & f' & Hd' & _).
  unfold start. rewrite Hd, Hd'. split; eauto.
Qed.
Print Assumptions C87_programs_start.
Example C87_example : p_after (prun true hid_keyboard (start true hid_keyboard) (arrives ++ asks get_hid_descriptor))
  (fun p evs => exists a, p = Running a /\ EvServe 1 (CmdSubmit get_hid_descriptor) (Panic PUnimplemented) ∈ evs) /\
  unknown_to_keyboard get_hid_descriptor.
Proof.
  split; [vm_compute; eexists; split; [reflexivity|in_list]|]. split; [done|].
  exists (mkSetup 129 6 8448 0 9). split_and!; try done; [|intros (_ & _ & [=])|intros ([=] & _)].
  by exists 129, 6, 0, 33, 0, 0, 9, 0.
Qed.
