(** * Proofs about servers with devices shared through nusb *)
From Verif Require Export SpecNusb HostProgProofs.

Lemma reaches_fun d sb t1 t2 : reaches d sb t1 -> reaches d sb t2 -> t1 = t2.
Proof.
  intros (e & i & s & A & S & R) (e' & i' & s' & A' & S' & R').
  apply find_ep_some in A, A'. rewrite A in A'. injection A' as <- <-.
  pose proof (setup_fun _ _ _ S S') as <-. exact (routed_fun _ _ _ _ _ _ R R').
Qed.
Lemma wants_reaches d sb tg c : nusb_wants d sb tg c -> reaches d sb tg.
Proof. intros (e & i & s & _ & A & S & R & _). by exists e, i, s. Qed.
Lemma kills_reaches d sb tg : nusb_kills d sb tg -> reaches d sb tg.
Proof. intros (e & i & s & A & S & R & _). by exists e, i, s. Qed.
Lemma nusb_transfer_fun isin isin' tbl s req c c' : (isin = true <-> isin' = true) ->
  nusb_transfer isin tbl s req c -> nusb_transfer isin' tbl s req c' -> c = c'.
Proof.
  intros Hi [t r Ha Hq|t r Ha Hq] [t' r' Ha' Hq'|t' r' Ha' Hq'];
    apply nusb_request_of in Hq as [E1 E2], Hq' as [E1' E2']; subst isin isin'; try (exfalso; destruct Hi; intuition congruence); congruence.
Qed.
Lemma nusb_wants_fun d sb t1 c1 t2 c2 : nusb_wants d sb t1 c1 -> nusb_wants d sb t2 c2 -> t1 = t2 /\ c1 = c2.
Proof.
  intros (e & i & s & b & A & S & R & I & T) (e' & i' & s' & b' & A' & S' & R' & I' & T').
  apply find_ep_some in A, A'. rewrite A in A'. injection A' as <- <-.
  pose proof (setup_fun _ _ _ S S') as <-. pose proof (routed_fun _ _ _ _ _ _ R R') as <-. split; [done|].
  eapply (nusb_transfer_fun b b'); [|exact T|exact T']. destruct t1; [destruct I as [_ I], I' as [_ I']|]; by rewrite I, I'.
Qed.
Lemma wants_not_kills d sb tg c : nusb_wants d sb tg c -> ~ nusb_kills d sb tg.
Proof.
  intros (e & i & s & b & A & S & R & I & T) (e' & i' & s' & A' & S' & R' & K).
  apply find_ep_some in A, A'. rewrite A in A'. injection A' as <- <-. pose proof (setup_fun _ _ _ S S') as <-.
  destruct K as [K|[[f ->] K]]; [destruct T as [t r _ Hq|t r _ Hq]; by apply (K t r)|]. destruct I as [I _]. lia.
Qed.

(** ** One URB *)
Definition same_hosts (w w' : world nusb_h) : Prop := forall tg, host_of w' tg = host_of w tg /\ (usable w' tg <-> usable w tg).
Lemma same_hosts_refl w : same_hosts w w. Proof. by intros tg. Qed.
(** The handler [tg], and no other, has become unusable. *)
Definition broken (w w' : world nusb_h) (tg : target) : Prop := forall tg', host_of w' tg' = host_of w tg' /\
  (usable w' tg' <-> usable w tg' /\ same_handler tg tg' = false).
Definition kept_promises (w : world nusb_h) : Prop := forall tg, respects_buffer (host_of w tg).

Lemma result_cases (w : world nusb_h) d sb e i s tg : kept_promises w ->
  addressed d (ep_byte (sb_header sb)) e i -> setup_of (sb_setup sb) s -> routed d e i s tg -> s_request_type s < 256 ->
  let res := host_result w e (sb_transfer_buffer_length sb) s (sb_data sb) tg in
  (exists c out, nusb_wants d sb tg c /\ out = passed_on c (host_answers (host_of w tg) c) /\ performs (host_of w tg) c res out) \/
  (exists p, nusb_kills d sb tg /\ res = CallPanic (host_of w tg) p) \/
  ((forall c, ~ nusb_wants d sb tg c) /\ ~ nusb_kills d sb tg /\ res = CallOk (host_of w tg) []).
Proof.
  intros Hk A S R Hu. cbv zeta. destruct (nusb_request_dec (s_request_type s)) as [(t & r & Et & Er & Hq)|[Hq He]].
  2: { right; left. eexists. split; [exists e, i, s; split_and!; [done..|by left]|].
    destruct tg as [f|q]; cbn [host_result]; unfold nusb_intf_handle_urb, nusb_dev_handle_urb;
      destruct (nusb_type_of (s_request_type s)), (nusb_recipient_of (s_request_type s)); destruct He as [He|He]; try done; reflexivity. }
  assert (T : forall isin, exists c, nusb_transfer isin (sb_transfer_buffer_length sb) s (sb_data sb) c).
  { intros [|]; eexists; [by eapply nt_in|by eapply nt_out]. }
  destruct tg as [f|q].
  - destruct (N.eq_dec (ep_attributes e) 0) as [H0|H0].
    { left. destruct (T (is_in_ep e)) as [c Hc]. pose proof (is_in_ep_spec e) as Hi.
      destruct (nusb_intf_performs (host_of w (TIntf f)) f e _ _ _ _ _ (Hk _) H0 Hi Hc) as (out & HP & Hn & Hy).
      exists c, out. split; [exists e, i, s, (is_in_ep e); split_and!; done|]. split; [by eapply performs_passed|exact HP]. }
    assert (Ha : 1 <= ep_attributes e <= 3) by (inversion R; lia || done).
    destruct (N.eq_dec (ep_attributes e) 1) as [H1|H1].
    + right; right.
      assert (U : forall e' i' s', addressed d (ep_byte (sb_header sb)) e' i' -> setup_of (sb_setup sb) s' -> e' = e /\ s' = s).
      { intros e' i' s' A' S'. apply find_ep_some in A, A'. rewrite A in A'. injection A' as <- <-. split; [done|exact (setup_fun _ _ _ S' S)]. }
      split; [|split].
      * intros c (e' & i' & s' & b & A' & S' & _ & [I _] & _). destruct (U _ _ _ A' S') as [-> _]. lia.
      * intros (e' & i' & s' & A' & S' & _ & [K|[_ K]]); destruct (U _ _ _ A' S') as [-> ->]; [by apply (K t r)|lia].
      * cbn [host_result]. unfold nusb_intf_handle_urb. by rewrite Et, Er, H1.
    + right; left. eexists. split; [exists e, i, s; split_and!; [done..|]; right; split; [by exists f|lia]|].
      cbn [host_result]. unfold nusb_intf_handle_urb. rewrite Et, Er.
      assert (Hc : ep_attributes e = 2 \/ ep_attributes e = 3) by lia. destruct Hc as [-> | ->]; reflexivity.
  - left. destruct (T (128 <=? s_request_type s)) as [c Hc]. pose proof (N.leb_le 128 (s_request_type s)) as Hi.
    destruct (nusb_dev_performs (host_of w (TDev q)) _ _ _ _ _ (Hk _) Hu Hi Hc) as (out & HP & Hn & Hy).
    exists c, out. split; [exists e, i, s, (128 <=? s_request_type s); split_and!; done|]. split; [by eapply performs_passed|exact HP].
Qed.

Lemma serve_nusb dbg (w : world nusb_h) d sb r w' : wf_command dbg (CmdSubmit sb) -> kept_promises w ->
  serve_submit dbg w (Some d) sb = (r, w') ->
  (exists tg c, nusb_wants d sb tg c /\ usable w tg /\ told sb r (passed_on c (host_answers (host_of w tg) c)) /\ forwarded w w' tg c) \/
  (exists tg p, nusb_kills d sb tg /\ usable w tg /\ r = Panic p /\ broken w w' tg) \/
  (exists tg, reaches d sb tg /\ ~ usable w tg /\ r = Panic PPoisoned /\ w' = w) \/
  ((forall tg, reaches d sb tg -> usable w tg /\ ~ nusb_kills d sb tg /\ forall c, ~ nusb_wants d sb tg c) /\ same_hosts w w').
Proof.
  intros Hwf Ho E. destruct (wf_setup _ _ Hwf) as (s & Hs & Ep & Hu). unfold serve_submit in E.
  rewrite real_ep_byte, Ep in E. destruct (find_ep d (ep_byte (sb_header sb))) as [[e i]|] eqn:Ef.
  2: { injection E as <- <-. right; right; right. split; [|apply same_hosts_refl].
    intros tg (e & i & s' & A & _). apply find_ep_some in A. congruence. }
  apply find_ep_some in Ef as A.
  assert (Hh : u32_header (sb_header sb)) by (destruct Hwf as [Hh _]; unfold wf_header, u32_header in *; tauto).
  assert (RR : forall tg, reaches d sb tg -> routed d e i s tg).
  { intros tg (e' & i' & s' & A' & S' & R'). apply find_ep_some in A'. rewrite Ef in A'. injection A' as <- <-.
    by rewrite (setup_fun _ _ _ S' Hs) in R'. }
  assert (NL : ep_attributes e = 0 -> library_request e s -> forall tg, ~ routed d e i s tg).
  { intros H0 HL tg [f ? ?|f ? Hx ? ?|q ? Hx ? ?]; [lia|by apply Hx|by apply Hx]. }
  destruct (handle_urb_cases dbg w d e i (sb_transfer_buffer_length sb) s (sb_data sb)) as
    [(H0 & Hi & Ht & Hr & Eu)|[(H0 & Hi & Ht & Hr & Eu)|[(tg & Hr & Hx)|(Hn & _ & p & Eu)]]].
  - right; right; right. rewrite Eu in E. split.
    { intros tg R%RR. destruct (NL H0 (or_introl (conj Hi (conj Ht Hr))) tg R). }
    destruct (get_descriptor dbg d s); injection E as _ <-; apply same_hosts_refl.
  - right; right; right. rewrite Eu in E. split.
    { intros tg R%RR. destruct (NL H0 (or_intror (conj Hi (conj Ht Hr))) tg R). }
    injection E as _ <-. apply same_hosts_refl.
  - assert (HR : reaches d sb tg) by (by exists e, i, s).
    destruct (usable_dec w tg) as [Hus|Hus].
    2: { right; right; left. destruct Hx as [Hx|Hx]; [by destruct Hus|]. rewrite Hx in E. injection E as <- <-. by exists tg. }
    clear Hx.
    destruct (handle_urb_routed dbg w d e i (sb_transfer_buffer_length sb) s (sb_data sb) tg Hr Hus) as (o & w1 & Hi & Eu).
    rewrite Eu in E.
    destruct (result_cases w d sb e i s tg Ho A Hs Hr Hu) as [(c & out & HW & -> & HP)|[(p & HK & HP)|(HN & HK & HP)]].
    + left. exists tg, c. split; [done|]. split; [done|].
      inversion Hi as [f st0 c0 w2 Hc Hst Hc' Hoi Hod|q st0 c0 w2 Hc Hst Hc' Hod Hoi]; subst;
        unfold performs, host_result, host_of in HP; change (host_h nusb_intf_handle_urb nusb_dev_handle_urb) with nusb_h in HP; rewrite Hc in HP; cbn [c_state] in HP; cbn [nusb_h host_h i_step d_step] in *;
        rewrite HP in E, Hc'; cbn [call_answer urb_of call_state panicked] in E, Hc'; injection E as <- <-;
        (split; [eexists; split; [done|]; intros dbg' b Hb'; unfold host_of; change (host_h nusb_intf_handle_urb nusb_dev_handle_urb) with nusb_h; rewrite Hc; exact (ok_reply _ _ _ _ Hh Hb')|]);
        unfold forwarded, host_of, usable; change (host_h nusb_intf_handle_urb nusb_dev_handle_urb) with nusb_h; rewrite Hc', Hc; cbn; split_and!; auto.
      * intros r Hx. apply Hoi. intros ->. by apply (Hx f).
      * intros r' Hx. apply Hod. by intros ->.
    + right; left. exists tg, p. split; [done|]. split; [done|].
      inversion Hi as [f st0 c0 w2 Hc Hst Hc' Hoi Hod|q st0 c0 w2 Hc Hst Hc' Hod Hoi]; subst;
        unfold host_result, host_of in HP; change (host_h nusb_intf_handle_urb nusb_dev_handle_urb) with nusb_h in HP; rewrite Hc in HP; cbn [c_state] in HP; cbn [nusb_h host_h i_step d_step] in *;
        rewrite HP in E, Hc'; cbn [call_answer urb_of call_state panicked] in E, Hc'; injection E as <- <-; (split; [done|]);
        intros [g|q']; unfold host_of, usable, same_handler; change (host_h nusb_intf_handle_urb nusb_dev_handle_urb) with nusb_h.
      * destruct (N.eqb_spec (if_handler f) (if_handler g)) as [<- |Hne]; [rewrite Hc', Hc; cbn; intuition congruence|].
        rewrite Hoi by congruence. intuition.
      * rewrite Hod. intuition.
      * rewrite Hoi. intuition.
      * destruct (N.eqb_spec q q') as [<- |Hne]; [rewrite Hc', Hc; cbn; intuition congruence|].
        rewrite Hod by congruence. intuition.
    + right; right; right. split.
      { intros tg' R'. rewrite (reaches_fun _ _ _ _ R' HR). done. }
      inversion Hi as [f st0 c0 w2 Hc Hst Hc' Hoi Hod|q st0 c0 w2 Hc Hst Hc' Hod Hoi]; subst;
        unfold host_result, host_of in HP; change (host_h nusb_intf_handle_urb nusb_dev_handle_urb) with nusb_h in HP; rewrite Hc in HP; cbn [c_state] in HP; cbn [nusb_h host_h i_step d_step] in *;
        rewrite HP in E, Hc'; cbn [call_answer urb_of call_state panicked] in E, Hc'; injection E as _ <-;
        intros [g|q']; unfold host_of, usable; change (host_h nusb_intf_handle_urb nusb_dev_handle_urb) with nusb_h.
      * destruct (N.eq_dec (if_handler g) (if_handler f)) as [-> |Hne]; [rewrite Hc', Hc; done|by rewrite Hoi].
      * by rewrite Hod.
      * by rewrite Hoi.
      * destruct (N.eq_dec q' q) as [-> |Hne]; [rewrite Hc', Hc; done|by rewrite Hod].
  - right; right; right. rewrite Eu in E. split; [intros tg R%RR; by destruct (Hn tg)|]. injection E as _ <-. apply same_hosts_refl.
Qed.

(** ** Whole runs *)
Lemma nusb_asked_fun w evs l1 dd1 l2 dd2 : nusb_asked w evs l1 dd1 -> nusb_asked w evs l2 dd2 -> l1 = l2 /\ dd1 = dd2.
Proof.
  intros A. revert l2 dd2.
  induction A as [|evs l dead t sb r d tg c A IH Hh HW HD _|evs l dead t sb p d tg A IH Hh HK HD|evs l dead t sb d tg A IH Hh HR HD|evs l dead e A IH Hn];
    intros l2 dd2 B;
    inversion B as [E|? ? ? t' sb' r' d' tg' c' A' Hh' HW' HD' _ E|? ? ? t' sb' p' d' tg' A' Hh' HK' HD' E|? ? ? t' sb' d' tg' A' Hh' HR' HD' E|? ? ? e' A' Hn' E];
    try (by destruct evs); try done; try (by destruct evs0).
  all: apply app_inj_tail in E as [-> E].
  all: try (injection E as <- <- <-). 
  all: try (injection E as <- <-).
  all: try subst e'. all: try subst e.
  all: destruct (IH _ _ A') as [<- <-].
  all: try (rewrite Hh in Hh'; injection Hh' as <-).
  - by destruct (nusb_wants_fun _ _ _ _ _ _ HW HW') as [-> ->].
  - pose proof (reaches_fun _ _ _ _ (wants_reaches _ _ _ _ HW) (kills_reaches _ _ _ HK')) as <-. by destruct (wants_not_kills _ _ _ _ HW).
  - pose proof (reaches_fun _ _ _ _ (wants_reaches _ _ _ _ HW) HR') as <-. congruence.
  - destruct (Hn' _ _ _ _ _ eq_refl Hh (wants_reaches _ _ _ _ HW)) as (_ & _ & Hx). by destruct (Hx c).
  - pose proof (reaches_fun _ _ _ _ (wants_reaches _ _ _ _ HW') (kills_reaches _ _ _ HK)) as <-. by destruct (wants_not_kills _ _ _ _ HW').
  - by rewrite (reaches_fun _ _ _ _ (kills_reaches _ _ _ HK) (kills_reaches _ _ _ HK')).
  - pose proof (reaches_fun _ _ _ _ (kills_reaches _ _ _ HK) HR') as <-. congruence.
  - by destruct (Hn' _ _ _ _ _ eq_refl Hh (kills_reaches _ _ _ HK)) as (_ & Hx & _).
  - pose proof (reaches_fun _ _ _ _ (wants_reaches _ _ _ _ HW') HR) as <-. congruence.
  - pose proof (reaches_fun _ _ _ _ (kills_reaches _ _ _ HK') HR) as <-. congruence.
  - done.
  - done.
  - destruct (Hn _ _ _ _ _ eq_refl Hh' (wants_reaches _ _ _ _ HW')) as (_ & _ & Hx). by destruct (Hx c').
  - by destruct (Hn _ _ _ _ _ eq_refl Hh' (kills_reaches _ _ _ HK')) as (_ & Hx & _).
  - done.
  - done.
Qed.

(** What the handlers have done so far, and which of them still work. *)
Definition nusb_so_far (w w' : world nusb_h) (l : list (device * target * usb_call)) (dead : list target) : Prop :=
  forall tg, (usable w' tg <-> is_dead dead tg = false) /\ hd_log (host_of w' tg) = hd_log (host_of w tg) ++ made_by tg l /\
    hd_oracle (host_of w' tg) = hd_oracle (host_of w tg).
Lemma so_far_same w w1 w2 l dead : nusb_so_far w w1 l dead -> same_hosts w1 w2 -> nusb_so_far w w2 l dead.
Proof. intros D U tg. destruct (D tg) as (D1 & D2 & D3). destruct (U tg) as [U1 U2]. rewrite U1, U2. done. Qed.
Lemma same_handler_sym t1 t2 : same_handler t1 t2 = same_handler t2 t1.
Proof. destruct t1, t2; cbn; try done; apply N.eqb_sym. Qed.
Lemma so_far_broken w w1 w2 l dead tg : nusb_so_far w w1 l dead -> broken w1 w2 tg -> nusb_so_far w w2 l (dead ++ [tg]).
Proof.
  intros D U tg'. destruct (D tg') as (D1 & D2 & D3). destruct (U tg') as [U1 U2]. rewrite U1, U2, D1. split; [|done].
  unfold is_dead. rewrite existsb_app. cbn. rewrite orb_false_r, orb_false_iff, (same_handler_sym tg'). done.
Qed.
Lemma so_far_forwarded w w1 w2 l dead d tg c : nusb_so_far w w1 l dead -> is_dead dead tg = false -> forwarded w1 w2 tg c ->
  nusb_so_far w w2 (l ++ [(d, tg, c)]) dead.
Proof.
  intros D Hd (F1 & F2 & F3 & F4 & F5) tg'. destruct (D tg') as (D1 & D2 & D3). rewrite made_by_snoc. cbn [fst snd].
  destruct (same_handler tg tg') eqn:Es.
  - assert (Hsame : forall x : world nusb_h, host_of x tg' = host_of x tg /\ (usable x tg <-> usable x tg')).
    { intros x. destruct tg as [f|r], tg' as [g|q]; cbn in Es; try discriminate Es; apply N.eqb_eq in Es; unfold host_of, usable;
        by rewrite Es. }
    rewrite (proj1 (Hsame w2)), F1, F2. rewrite <- (proj1 (Hsame w1)), D2, D3, app_assoc. split; [|done].
    rewrite <- D1, <- (proj2 (Hsame w2)), <- (proj2 (Hsame w1)). destruct (D tg) as [Dt _]. rewrite Dt. tauto.
  - rewrite app_nil_r.
    assert (Hsame : host_of w2 tg' = host_of w1 tg' /\ (usable w1 tg' <-> usable w2 tg')).
    { destruct tg as [f|r], tg' as [g|q]; cbn in Es; unfold host_of, usable.
      - rewrite F4; [done|]. intros f0 [= <-] E. by rewrite E, N.eqb_refl in Es.
      - by rewrite F3.
      - by rewrite F4.
      - rewrite F3; [done|]. intros [= ->]. by rewrite N.eqb_refl in Es. }
    destruct Hsame as [-> Hu]. split; [by rewrite <- Hu|done].
Qed.
Lemma so_far_promises w w1 l dead : kept_promises w -> nusb_so_far w w1 l dead -> kept_promises w1.
Proof.
  intros O D tg. destruct (D tg) as (D1 & D2 & D3). intros log c n data Hr He. rewrite D3 in He. by apply (O tg log c).
Qed.
Lemma nusb_asked_quiet w evs l dead ev : nusb_asked w evs l dead -> (forall t sb r, EvServe t (CmdSubmit sb) r ∉ ev) ->
  nusb_asked w (evs ++ ev) l dead.
Proof.
  revert evs. induction ev as [|e ev IH]; intros evs A Hn; [by rewrite app_nil_r|].
  replace (evs ++ e :: ev) with ((evs ++ [e]) ++ ev) by (by rewrite <- app_assoc). apply IH.
  - apply na_other; [done|]. intros t sb r d tg ->. destruct (Hn t sb r). left.
  - intros t sb r Hin. apply (Hn t sb r). by right.
Qed.

Lemma nusb_sys_run dbg ds (w : world nusb_h) ls s evs : (forall tg, usable w tg) -> kept_promises w ->
  run dbg (init_sys ds w) ls = Some (s, evs) ->
  Forall (readable dbg) ls -> (forall r f, LApp r f ∉ ls) -> distinct_ids ds evs ->
  pending (wf_command dbg) s /\ exists l dead, nusb_asked w evs l dead /\ nusb_so_far w (y_world s) l dead.
Proof.
  intros HU HO. revert ls s evs. apply (run_ind dbg (init_sys ds w) (fun ls s evs => Forall (readable dbg) ls ->
    (forall r f, LApp r f ∉ ls) -> distinct_ids ds evs ->
    pending (wf_command dbg) s /\ exists l dead, nusb_asked w evs l dead /\ nusb_so_far w (y_world s) l dead)).
  - intros _ _ _. split; [intros t c cur Ht; cbn in Ht; by rewrite lookup_empty in Ht|].
    exists [], []. split; [constructor|]. intros tg. cbn. rewrite app_nil_r. pose proof (HU tg). tauto.
  - intros ls s evs l s' ev E IH M HF HA Hd.
    apply step_move in M. apply Forall_app in HF as [HF HL]. apply Forall_cons in HL as [HL _].
    pose proof (distinct_app _ _ _ Hd) as Hd'. pose proof (dev_run _ _ _ _ _ _ E Hd') as HI. clear E.
    destruct IH as (Hp & lst & dead & A & D); [done|intros r f Hin; apply (HA r f), elem_of_app; by left|done|].
    split; [eapply pending_move; [exact M|exact Hp|destruct l; done]|].
    destruct (move_world _ _ _ _ _ M) as [[Ew Hn]|[(t & sb & r & He & _)|(r & f & -> & _)]].
    + exists lst, dead. rewrite Ew. split; [by apply nusb_asked_quiet|done].
    + pose proof (submit_held _ _ _ _ _ _ _ _ _ _ HI M He) as Es.
      destruct (ev_submit _ _ _ _ _ _ _ _ M He) as (cur & _ & Ht & _). pose proof (Hp _ _ _ Ht) as Hwf.
      destruct (serve_first _ _ _ _ _ _ _ _ M He) as (ev' & -> & Hn).
      replace (evs ++ EvServe t (CmdSubmit sb) r :: ev') with ((evs ++ [EvServe t (CmdSubmit sb) r]) ++ ev') by (by rewrite <- app_assoc).
      destruct (held evs t) as [d|] eqn:Hh.
      * destruct (serve_nusb _ _ _ _ _ _ Hwf (so_far_promises _ _ _ _ HO D) Es) as
          [(tg & c & HW & Hus & HT & HF')|[(tg & p & HK & Hus & -> & HB)|[(tg & HR & Hus & -> & Ew)|[HW HS]]]].
        -- assert (Hd0 : is_dead dead tg = false) by (by apply D).
           exists (lst ++ [(d, tg, c)]), dead. split; [|by eapply so_far_forwarded]. apply nusb_asked_quiet; [|done].
           eapply na_urb; [done|done|done|done|].
           unfold host_answers in HT. destruct (D tg) as (_ & D2 & D3). rewrite D2, D3 in HT. exact HT.
        -- exists lst, (dead ++ [tg]). split; [|by eapply so_far_broken]. apply nusb_asked_quiet; [|done].
           eapply na_kill; [done|done|done|]. by apply D.
        -- exists lst, dead. rewrite Ew. split; [|done]. apply nusb_asked_quiet; [|done]. eapply na_dead; [done|done|done|].
           apply not_false_is_true. intros Hx. by apply Hus, D.
        -- exists lst, dead. split; [|by eapply so_far_same]. apply nusb_asked_quiet; [|done]. apply na_other; [done|].
           intros t' sb' r' d' tg [= <- <- <-] Hh' R'. rewrite Hh in Hh'. injection Hh' as <-.
           destruct (HW _ R') as (X1 & X2 & X3). split; [by apply D|done].
      * exists lst, dead. cbn in Es. injection Es as _ Ew. rewrite <- Ew. split; [|done]. apply nusb_asked_quiet; [|done].
        apply na_other; [done|]. intros t' sb' r' d' tg [= <- <- <-] Hh'. congruence.
    + destruct (HA r f). apply elem_of_app. right. left.
Qed.
