(** * Properties C106, C107: polls of idle devices, short reads *)
From Verif Require Import Examples PropsConn SessionProofs PropsSession ProgProofs PropsProg.

(** ** C106: a device that has nothing to send does not answer polls

    A USB device answers NAK, so the request of the host stays pending.  Every poll that is
    answered should therefore have brought something. *)
Definition polls_wait {H} (g : program H) (want : submit -> bool) : Prop := forall dbg ls a evs,
  prun dbg g (start dbg g) ls = Some (Running a, evs) -> Forall (fun b => b <> []) (handed_out want evs).
Theorem C106_idle_polls_refuted : ~ polls_wait hid_keyboard polls_1 /\ ~ polls_wait cdc_acm_serial polls_2.
Proof.
  split; intros Hw.
  - assert (W : p_after (prun true hid_keyboard (start true hid_keyboard) (arrives ++ asks poll1 ++ answered_then))
      (fun p evs => exists a, p = Running a /\ handed_out polls_1 evs = [[]])).
    { vm_compute. eexists. split; reflexivity. }
    apply p_after_ex in W as (p & evs & E & a & -> & Eh). specialize (Hw _ _ _ _ E). clear E. rewrite Eh in Hw.
    by apply Forall_cons in Hw as [Hw _].
  - assert (W : p_after (prun true cdc_acm_serial (start true cdc_acm_serial) (arrives ++ asks poll2 ++ answered_then))
      (fun p evs => exists a, p = Running a /\ handed_out polls_2 evs = [[]])).
    { vm_compute. eexists. split; reflexivity. }
    apply p_after_ex in W as (p & evs & E & a & -> & Eh). specialize (Hw _ _ _ _ E). clear E. rewrite Eh in Hw.
    by apply Forall_cons in Hw as [Hw _].
Qed.
Print Assumptions C106_idle_polls_refuted.

Lemma script_length n : length (script (replicate n key_1)) = (2 * n)%nat.
Proof.
  induction n as [|n IH]; [done|]. change (script (replicate (S n) key_1)) with (Press key_1 :: Release :: script (replicate n key_1)).
  cbn [length]. lia.
Qed.
Lemma joined_length (l : list (list N)) : (length (non_empty l) <= length (mjoin l))%nat.
Proof.
  induction l as [|b l IH]; [done|]. unfold non_empty. rewrite filter_cons. change (mjoin (b :: l)) with (b ++ mjoin l). rewrite app_length.
  fold (non_empty l). destruct (decide (b <> [])) as [Hb|Hb]; [|lia]. destruct b; [done|]. cbn. lia.
Qed.
(** What is true: answers that bring something are few, two for a key of the keyboard, one at most
    for a byte of the serial port; and once all has been fetched every further poll is answered at
    once with nothing (unless the connection has not imported the device, or the keyboard has been
    broken, C87). *)
Theorem C106_idle_polls_partial :
  (forall dbg ls a evs, prun dbg hid_keyboard (start dbg hid_keyboard) ls = Some (Running a, evs) ->
   (length (non_empty (handed_out polls_1 evs)) <= 2 * ticks ls)%nat /\
   (length (non_empty (handed_out polls_1 evs)) = (2 * ticks ls)%nat ->
    forall l p ev t sb o, pstep dbg hid_keyboard (Running a) l = Some (p, ev) -> EvServe t (CmdSubmit sb) o ∈ ev -> polls_1 sb = true ->
      o = Panic PUnwrapNone \/ o = Panic PPoisoned \/ exists rs, o = Val (RetSubmit rs) /\ rs_transfer_buffer rs = [])) /\
  (forall dbg ls a evs, prun dbg cdc_acm_serial (start dbg cdc_acm_serial) ls = Some (Running a, evs) ->
   let out := handed_out (fun sb => polls_2 sb || interface_in sb) evs in
   (length (non_empty out) <= ticks ls)%nat /\
   (length (mjoin out) = ticks ls ->
    forall l p ev t sb o, pstep dbg cdc_acm_serial (Running a) l = Some (p, ev) -> EvServe t (CmdSubmit sb) o ∈ ev -> polls_2 sb = true ->
      o = Panic PUnwrapNone \/ exists rs, o = Val (RetSubmit rs) /\ rs_transfer_buffer rs = [])).
Proof.
  split; intros dbg ls a evs E.
  - destruct (C85_keyboard_types _ _ _ _ E) as (shown & todo & Es & HF & Hn). clear E.
    pose proof (f_equal length Es) as El. rewrite script_length, app_length in El. apply Forall2_length in HF. rewrite HF.
    split; [lia|]. intros Hf l p ev t sb o Ep He Hp. destruct todo; [|cbn in El; lia].
    destruct (Hn _ _ _ _ _ _ Ep He Hp) as [-> |[[-> _]|(rs & -> & Hr)]]; eauto.
  - destruct (C86_serial_sends_partial _ _ _ _ E) as (rest & Es & Hn). clear E. cbv zeta.
    pose proof (f_equal length Es) as El. rewrite app_length, replicate_length in El.
    split; [pose proof (joined_length (handed_out (fun sb => polls_2 sb || interface_in sb) evs)); lia|].
    intros Hf l p ev t sb o Ep He Hp. assert (rest = []) as -> by (apply nil_length_inv; lia). by eapply Hn.
Qed.
Print Assumptions C106_idle_polls_partial.
(** One round, and five polls: two answers bring something. *)
Example C106_example : p_after (prun true hid_keyboard (start true hid_keyboard)
  (arrives ++ [PTick] ++ mjoin (replicate 5 (asks poll1 ++ answered_then))))
  (fun p evs => (exists a, p = Running a) /\ length (handed_out polls_1 evs) = 5%nat /\ length (non_empty (handed_out polls_1 evs)) = 2%nat).
Proof. vm_compute. split; [eexists; reflexivity|]. split; reflexivity. Qed.

(** ** C107: a short read is an error for a client that says so

    Linux lets the driver set [URB_SHORT_NOT_OK] (bit 0 of the transfer flags): a read that brings
    less than the buffer holds is then to be reported as an error, not as a success. *)
Definition short_not_ok (sb : submit) : Prop := h_direction (sb_header sb) = 1 /\ N.odd (sb_transfer_flags sb) = true.
Definition shorts_fail {H} dbg (st : cstate H) : Prop := forall m sb inp fin out en st' b out' v n,
  all_u8 m = true -> cmd_layout dbg m (CmdSubmit sb) -> short_not_ok sb -> connection dbg st (m ++ inp) fin None = (out, en, st') ->
  out = b ++ out' -> answers (CmdSubmit sb) b -> u32_at b 20 v -> u32_at b 24 n -> n < sb_transfer_buffer_length sb -> v <> 0.
(** A bulk read of eight bytes with the flag, from an endpoint that has three. *)
Definition ex_short : submit := mkSubmit (mkHeader 1 9 65538 1 1) 1 8 0 0 0 (replicate 8 0) [] [].
Lemma ex_short_wire dbg : all_u8 (wire (CmdSubmit ex_short)) = true /\ cmd_layout dbg (wire (CmdSubmit ex_short)) (CmdSubmit ex_short).
Proof. apply wire_ok; destruct dbg; wf_ex. Qed.
Lemma ex_short_reply dbg : exists b st', connection dbg ex_state (wire (CmdSubmit ex_short)) SEof None = (b, EndOk, st') /\
  submit_ok_reply (sb_header ex_short) [65; 66; 67] b.
Proof.
  destruct (ex_short_wire dbg) as [_ HL]. pose proof (layout_u32 _ _ _ HL) as Hu.
  destruct (response_to_bytes dbg (usbip_ret_submit_success (reply_header (sb_header ex_short) USBIP_RET_SUBMIT) 0 0 [65; 66; 67] [])) as [b| |] eqn:Eb;
    [|by destruct dbg..].
  exists b. eexists. split; [|exact (ok_reply dbg _ _ _ Hu Eb)].
  rewrite <- (app_nil_r (wire _)), <- (app_nil_r b). eapply connection_step; [exact HL|cbn; reflexivity|exact Eb|].
  vm_compute. reflexivity.
Qed.
Theorem C107_short_reads_refuted : exists H (st : cstate H), (exists d, imported st d) /\ forall dbg, ~ shorts_fail dbg st.
Proof.
  exists _, ex_state. split; [exists ex_dev; exact ex_imported|]. intros dbg Hs. destruct (ex_short_wire dbg) as [Hu HL].
  destruct (ex_short_reply dbg) as (b & st' & E & R). rewrite <- (app_nil_r (wire _)) in E.
  pose proof R as (_ & _ & Hv & Hn & _). cbn in Hv, Hn.
  assert (Ha : answers (CmdSubmit ex_short) b) by (left; exists [65; 66; 67]; exact R).
  refine (Hs _ _ _ _ _ _ _ b [] 0 3 Hu HL _ E _ Ha Hv Hn _ eq_refl); [done|by rewrite app_nil_r|cbn; lia].
Qed.
Print Assumptions C107_short_reads_refuted.

(** What is true: the server never looks at the flags.  Two submits that differ in nothing but
    the flags are answered with the same bytes, leave the same state, and the connection goes on
    alike; so a short read is reported as a success whatever the client asked for. *)
Lemma same_request {H} dbg (st : cstate H) m1 m2 sb1 sb2 inp fin :
  cmd_layout dbg m1 (CmdSubmit sb1) -> cmd_layout dbg m2 (CmdSubmit sb2) -> same_urb sb1 sb2 -> sb_header sb1 = sb_header sb2 ->
  connection dbg st (m1 ++ inp) fin None = connection dbg st (m2 ++ inp) fin None.
Proof.
  intros L1 L2 Su Eh.
  destruct (same_urb_serve dbg (cs_world st) (current_device (cs_server st) (cs_current st)) sb1 sb2 Su)
    as [(p & w' & E1 & E2)|(a & n & buf & w' & E)].
  - transitivity (([] : list N, EndPanic p, mkC (cs_server st) w' (cs_current st))); [|symmetry];
      (eapply connection_panic; [eassumption|cbn [serve]; rewrite ?E1, ?E2; reflexivity|reflexivity]).
  - assert (S : forall sb, sb ∈ [sb1; sb2] -> serve dbg st (CmdSubmit sb) =
      (Val (RetSubmit (mkRetSubmit (reply_header (sb_header sb) USBIP_RET_SUBMIT) a n 0 0 0 buf [])), mkC (cs_server st) w' (cs_current st))).
    { intros sb Hsb. cbn [serve]. by rewrite (E _ Hsb). }
    pose proof (S sb1 ltac:(left)) as S1. pose proof (S sb2 ltac:(right; left)) as S2.
    destruct (same_urb_bytes dbg (sb_header sb1) (sb_header sb2) a n buf (proj1 Su)) as [[P1 P2]|[tl B]].
    + rewrite (connection_panic dbg st m1 _ inp fin None _ _ _ L1 S1 P1). symmetry. exact (connection_panic dbg st m2 _ inp fin None _ _ _ L2 S2 P2).
    + pose proof (B (sb_header sb1) ltac:(left)) as B1. pose proof (B (sb_header sb2) ltac:(right; left)) as B2. rewrite <- Eh in B2 at 2.
      destruct (connection dbg (mkC (cs_server st) w' (cs_current st)) inp fin None) as [[out en] st'] eqn:Ec.
      etransitivity; [|symmetry]; eapply connection_step; eassumption.
Qed.
Theorem C107_short_reads_partial : forall H dbg (st : cstate H) m1 m2 h fl1 fl2 tbl sf np iv setup data iso inp fin,
  cmd_layout dbg m1 (CmdSubmit (mkSubmit h fl1 tbl sf np iv setup data iso)) ->
  cmd_layout dbg m2 (CmdSubmit (mkSubmit h fl2 tbl sf np iv setup data iso)) ->
  connection dbg st (m1 ++ inp) fin None = connection dbg st (m2 ++ inp) fin None.
Proof. intros. by eapply same_request. Qed.
Print Assumptions C107_short_reads_partial.
Example C107_example : forall dbg, short_not_ok ex_short /\ ~ short_not_ok (submit_cmd 1 1 8 (replicate 8 0) []) /\
  cmd_layout dbg (wire (CmdSubmit ex_short)) (CmdSubmit ex_short) /\
  cmd_layout dbg (wire (CmdSubmit (submit_cmd 1 1 8 (replicate 8 0) []))) (CmdSubmit (submit_cmd 1 1 8 (replicate 8 0) [])).
Proof.
  intros dbg. split; [done|]. split; [by intros [_ ?]|]. split; [apply ex_short_wire|]. apply wire_ok; destruct dbg; wf_ex.
Qed.
