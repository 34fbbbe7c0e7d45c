(** * Property C109: descriptors do not change while a device is shared *)
From Verif Require Import Examples SpecStable IsoProofs HostProgProofs PropsSys.

Lemma asks_serve {H} dbg (w : world H) d sb r w' : asks_descriptor d sb -> serve_submit dbg w (Some d) sb = (r, w') ->
  w' = w /\ r = match get_descriptor dbg d (setup_parse (sb_setup sb)) with
                | UOk resp => Val (usbip_ret_submit_success (reply_header (sb_header sb) USBIP_RET_SUBMIT) 0 0 resp [])
                | UErr _ => Val (usbip_ret_submit_fail (reply_header (sb_header sb) USBIP_RET_SUBMIT))
                | UPanic p => Panic p
                end.
Proof.
  intros (e & i & s & A & H0 & Hi & Hu & S & Ht & Hr) E. unfold serve_submit in E. apply find_ep_some in A.
  rewrite real_ep_byte, A in E.
  assert (Ep : setup_parse (sb_setup sb) = s).
  { destruct S as (b0 & b1 & b2 & b3 & b4 & b5 & b6 & b7 & Eb & ->). by apply setup_le. }
  rewrite Ep in *.
  destruct (handle_urb_cases dbg w d e i (sb_transfer_buffer_length sb) s (sb_data sb)) as
    [(_ & _ & _ & _ & Eu)|[(_ & Hi' & _)|[(tg & R & _)|(_ & HL & _)]]].
  - rewrite Eu in E. by destruct (get_descriptor dbg d s); injection E as <- <-.
  - done.
  - exfalso. assert (HL : library_request e s) by (by left). destruct R as [f Hx _|f _ Hx _ _|q _ Hx _ _]; [lia|by apply Hx|by apply Hx].
  - exfalso. apply HL. split; [done|]. by left.
Qed.
Lemma header_length h : length (header_to_bytes h) = 20%nat.
Proof. done. Qed.
Lemma said_same dbg h1 h2 st n a b c buf iso : h_command h1 = h_command h2 -> h_direction h1 = h_direction h2 ->
  said dbg (Val (RetSubmit (mkRetSubmit h1 st n a b c buf iso))) = said dbg (Val (RetSubmit (mkRetSubmit h2 st n a b c buf iso))).
Proof.
  intros Ec Ed. unfold said. cbn [obind response_to_bytes rs_header rs_status rs_actual_length rs_start_frame rs_number_of_packets rs_error_count rs_transfer_buffer rs_iso].
  rewrite Ec, Ed. unfold debug_assert.
  repeat match goal with |- context [if ?x then _ else _] => destruct x; try done end; cbn [obind]; f_equal; by rewrite !drop_app_alt.
Qed.
Lemma asks_same dbg {H1 H2} (w1 : world H1) (w2 : world H2) d sb1 sb2 r1 r2 w1' w2' : same_question sb1 sb2 ->
  asks_descriptor d sb1 -> serve_submit dbg w1 (Some d) sb1 = (r1, w1') -> serve_submit dbg w2 (Some d) sb2 = (r2, w2') ->
  said dbg r1 = said dbg r2.
Proof.
  intros (Q1 & Q2 & Q3) A E1 E2.
  assert (A2 : asks_descriptor d sb2).
  { destruct A as (e & i & s & X). exists e, i, s. unfold ep_byte in *. by rewrite <- Q1, <- Q2, <- Q3. }
  destruct (asks_serve _ _ _ _ _ _ A E1) as [_ ->]. destruct (asks_serve _ _ _ _ _ _ A2 E2) as [_ ->]. rewrite Q1.
  destruct (get_descriptor dbg d (setup_parse (sb_setup sb2))) as [resp| |p]; [|  |done]; by apply said_same.
Qed.
Lemma served_at {H} dbg ds (w : world H) ls s evs e1 e2 t sb r : run dbg (init_sys ds w) ls = Some (s, evs) -> distinct_ids ds evs ->
  evs = e1 ++ EvServe t (CmdSubmit sb) r :: e2 ->
  exists s1 s2 : sys H, dev_inv ds s1 e1 /\ serve_submit dbg (y_world s1) (held e1 t) sb = (r, y_world s2).
Proof.
  intros E Hd He.
  destruct (run_event _ _ _ _ _ _ _ _ E He) as (ls1 & l & ls2 & s1 & s2 & a1 & q1 & q2 & b1 & -> & R1 & S1 & R2 & -> & ->). clear E R2.
  pose proof (step_move _ _ _ _ _ S1) as M.
  destruct (ev_submit _ _ _ _ _ _ _ _ M ltac:(apply elem_of_app; right; left)) as (cur & _ & _ & _ & _ & An).
  assert (q1 = []) as -> by (by eapply answered_first). cbn [app] in *. rewrite app_nil_r in *.
  rewrite He in Hd. apply distinct_app in Hd. pose proof (dev_run _ _ _ _ _ _ R1 Hd) as HI.
  exists s1, s2. split; [exact HI|]. exact (submit_held _ _ _ _ _ _ _ _ _ _ HI M ltac:(left)).
Qed.

(** What is answered depends on nothing but the device and the question: not on the handlers or
    their state, other devices, other clients, the application, or anything sent before.  This
    compares any two servers that share the device, or one server with itself. *)
Theorem C109_descriptors : forall dbg H1 H2 ds1 ds2 (w1 : world H1) (w2 : world H2) ls1 ls2 s1 s2 evs1 evs2
    a1 b1 t1 sb1 r1 a2 b2 t2 sb2 r2 d,
  run dbg (init_sys ds1 w1) ls1 = Some (s1, evs1) -> distinct_ids ds1 evs1 ->
  run dbg (init_sys ds2 w2) ls2 = Some (s2, evs2) -> distinct_ids ds2 evs2 ->
  evs1 = a1 ++ EvServe t1 (CmdSubmit sb1) r1 :: b1 -> held a1 t1 = Some d ->
  evs2 = a2 ++ EvServe t2 (CmdSubmit sb2) r2 :: b2 -> held a2 t2 = Some d ->
  asks_descriptor d sb1 -> same_question sb1 sb2 -> said dbg r1 = said dbg r2.
Proof.
  intros dbg H1 H2 ds1 ds2 w1 w2 ls1 ls2 s1 s2 evs1 evs2 a1 b1 t1 sb1 r1 a2 b2 t2 sb2 r2 d E1 D1 E2 D2 X1 Y1 X2 Y2 A Q.
  destruct (served_at _ _ _ _ _ _ _ _ _ _ _ E1 D1 X1) as (x & x' & _ & S1).
  destruct (served_at _ _ _ _ _ _ _ _ _ _ _ E2 D2 X2) as (y & y' & _ & S2).
  rewrite Y1 in S1. rewrite Y2 in S2. exact (asks_same dbg _ _ _ _ _ _ _ _ _ Q A S1 S2).
Qed.
Print Assumptions C109_descriptors.

Lemma ledger_stays ds a m d : d ∈ ledger ds a -> stays (d_bus_id d) m -> d ∈ ledger ds (a ++ m).
Proof.
  unfold ledger. rewrite foldl_app. generalize (foldl ledger1 ds a) as l. induction m as [|e m IH]; intros l Hin Hs; [done|].
  cbn [foldl]. apply IH.
  - destruct e as [| |t x|t id [[]|]| |]; cbn; try done; [apply elem_of_app; by left|]. apply elem_of_list_filter. split; [|done].
    intros <-. apply (Hs t). left.
  - intros u Hu. apply (Hs u). by right.
Qed.
Lemma same_id ds d d' : NoDup (d_bus_id <$> ds) -> d ∈ ds -> d' ∈ ds -> d_bus_id d = d_bus_id d' -> d = d'.
Proof.
  intros Hn [i Hi]%elem_of_list_lookup [j Hj]%elem_of_list_lookup E.
  assert (i = j) as ->.
  { eapply (NoDup_lookup _ _ _ (d_bus_id d) Hn); rewrite list_lookup_fmap; [by rewrite Hi|by rewrite Hj, E]. }
  congruence.
Qed.

(** So, on one server: whoever has imported the device of some bus id, now or later, gets the same
    descriptors, unless the application has removed the device in between. *)
Theorem C109_stable : forall dbg H ds (w : world H) ls s evs a b c t1 sb1 r1 t2 sb2 r2 d1 d2,
  run dbg (init_sys ds w) ls = Some (s, evs) -> distinct_ids ds evs ->
  evs = a ++ EvServe t1 (CmdSubmit sb1) r1 :: b ++ EvServe t2 (CmdSubmit sb2) r2 :: c ->
  held a t1 = Some d1 -> held (a ++ EvServe t1 (CmdSubmit sb1) r1 :: b) t2 = Some d2 -> d_bus_id d1 = d_bus_id d2 ->
  stays (d_bus_id d1) b -> asks_descriptor d1 sb1 -> same_question sb1 sb2 -> said dbg r1 = said dbg r2.
Proof.
  intros dbg H ds w ls s evs a b c t1 sb1 r1 t2 sb2 r2 d1 d2 E D X Y1 Y2 Hid Hs A Q.
  destruct (served_at _ _ _ _ _ _ _ _ _ _ _ E D X) as (x & x' & I1 & S1).
  assert (X2 : evs = (a ++ EvServe t1 (CmdSubmit sb1) r1 :: b) ++ EvServe t2 (CmdSubmit sb2) r2 :: c) by (rewrite X, <- app_assoc; reflexivity).
  destruct (served_at _ _ _ _ _ _ _ _ _ _ _ E D X2) as (y & y' & I2 & S2). clear E.
  pose proof (held_in_ledger _ _ _ _ _ I1 Y1) as L1. pose proof (held_in_ledger _ _ _ _ _ I2 Y2) as L2.
  assert (L1' : d1 ∈ ledger ds (a ++ EvServe t1 (CmdSubmit sb1) r1 :: b)).
  { apply ledger_stays; [done|]. intros u Hu. apply elem_of_cons in Hu as [Hu|Hu]; [discriminate Hu|]. by apply (Hs u). }
  rewrite X2 in D. pose proof (same_id _ _ _ (distinct_last _ _ (distinct_app _ _ _ D)) L1' L2 Hid) as <-.
  rewrite Y1 in S1. rewrite Y2 in S2. exact (asks_same dbg _ _ _ _ _ _ _ _ _ Q A S1 S2).
Qed.
Print Assumptions C109_stable.

(** Two clients one after the other read the first bytes of the device descriptor, with different
    numbers and buffers. *)
Definition st_q1 : submit := submit_cmd 1 0 4 [128; 6; 0; 1; 0; 0; 8; 0] [].
Definition st_q2 : submit := mkSubmit (mkHeader 1 77 65539 1 0) 3 64 0 0 0 [128; 6; 0; 1; 0; 0; 8; 0] [] [].
Definition st_run : list (label ex_h) :=
  [LConnect 1] ++ do_import 1 id_a ++ [LSent 1] ++ do_submit 1 st_q1 ++ [LSent 1] ++ do_close 1 ++
  [LConnect 2] ++ do_import 2 id_a ++ [LSent 2] ++ do_submit 2 st_q2.
Example C109_example : asks_descriptor ex_dev st_q1 /\ same_question st_q1 st_q2 /\
  forall dbg, exists s evs x1 x2, run dbg sys0 st_run = Some (s, evs) /\ distinct_ids [ex_dev; dev_b] evs /\
    evs !! 2%nat = Some (EvServe 1 (CmdSubmit st_q1) (Val x1)) /\ held (take 2 evs) 1 = Some ex_dev /\
    evs !! 8%nat = Some (EvServe 2 (CmdSubmit st_q2) (Val x2)) /\ held (take 8 evs) 2 = Some ex_dev /\
    forallb (fun e => match e with EvRemove _ _ _ => false | _ => true end) evs = true /\
    said dbg (Val x1) = Val ([0; 0; 0; 0; 0; 0; 0; 8; 0; 0; 0; 0; 0; 0; 0; 0; 0; 0; 0; 0; 0; 0; 0; 0; 0; 0; 0; 0]
                              ++ [18; 1; 0; 2; 0; 0; 0; 64]) /\ x1 <> x2.
Proof.
  split.
  { exists (mkEndpoint 128 0 64 0), None, (mkSetup 128 6 256 0 8). split; [apply find_ep_some; vm_compute; reflexivity|].
    split; [done|]. split; [unfold in_ep; cbn; lia|]. split; [done|]. split; [unfold setup_of; do 8 eexists; split; reflexivity|done]. }
  split; [done|]. intros dbg.
  set (x := fun h => usbip_ret_submit_success (reply_header h USBIP_RET_SUBMIT) 0 0 [18; 1; 0; 2; 0; 0; 0; 64] []).
  destruct (after_run (run dbg sys0 st_run) (fun s evs => distinct_b [ex_dev; dev_b] evs = true /\
    evs !! 2%nat = Some (EvServe 1 (CmdSubmit st_q1) (Val (x (sb_header st_q1)))) /\ held (take 2 evs) 1 = Some ex_dev /\
    evs !! 8%nat = Some (EvServe 2 (CmdSubmit st_q2) (Val (x (sb_header st_q2)))) /\ held (take 8 evs) 2 = Some ex_dev /\
    forallb (fun e => match e with EvRemove _ _ _ => false | _ => true end) evs = true))
    as (s & evs & E & Hd & Hr); [destruct dbg; vm_compute; auto 10|].
  exists s, evs, (x (sb_header st_q1)), (x (sb_header st_q2)). split; [exact E|]. clear E. split; [by apply distinct_b_spec|].
  destruct Hr as (R1 & R2 & R3 & R4 & R5). split_and!; try assumption; [destruct dbg; vm_compute; reflexivity|done].
Qed.
