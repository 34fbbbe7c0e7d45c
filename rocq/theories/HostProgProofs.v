(** * Proofs about servers with host devices *)
From Verif Require Export SpecHostProg IsoProofs HostProofs SysProofs ConcProofs PropsAccept.

(** ** What waits to be served was readable *)
Definition pending {H} (P : command -> Prop) (s : sys H) : Prop :=
  forall t c cur, y_tasks s !! t = Some (mkTask (PUsedR c) cur) -> P c.
Lemma pending_set {H} P (s : sys H) t p cur : pending P s -> match p with PUsedR c => P c | _ => True end ->
  pending P (set_task s t (mkTask p cur)).
Proof.
  intros Hp Hk u c cur' Hu. cbn in Hu. destruct (decide (u = t)) as [-> |Hn].
  - rewrite lookup_insert in Hu. injection Hu as -> _. exact Hk.
  - rewrite lookup_insert_ne in Hu by done. exact (Hp _ _ _ Hu).
Qed.
Lemma pending_move {H} dbg P (s : sys H) l s' ev : move dbg s l s' ev -> pending P s ->
  match l with LRecv _ c => P c | _ => True end -> pending P s'.
Proof.
  intros M Hp Hl. destruct M;
    try match goal with A : answered _ _ _ _ _ _ _ _ |- _ => destruct A end;
    try exact Hp;
    try (by apply (pending_set P s)).
  all: try (apply (pending_set P); [exact Hp|done]).
Qed.

(** ** One URB *)
Lemma setup_fun b s1 s2 : setup_of b s1 -> setup_of b s2 -> s1 = s2.
Proof.
  intros (a0 & a1 & a2 & a3 & a4 & a5 & a6 & a7 & -> & ->) (b0 & b1 & b2 & b3 & b4 & b5 & b6 & b7 & E & ->).
  by injection E as <- <- <- <- <- <- <- <-.
Qed.
Lemma routed_fun d e i s t1 t2 : routed d e i s t1 -> routed d e i s t2 -> t1 = t2.
Proof. intros [] []; try lia; congruence. Qed.
Lemma device_transfer_fun tbl s req c1 c2 : device_transfer tbl s req c1 -> device_transfer tbl s req c2 -> c1 = c2.
Proof. intros [] []; try done; lia. Qed.
Lemma wants_fun d sb t1 c1 t2 c2 : wants d sb t1 c1 -> wants d sb t2 c2 -> t1 = t2 /\ c1 = c2.
Proof.
  intros (e & i & s & A & S & R & T) (e' & i' & s' & A' & S' & R' & T').
  apply find_ep_some in A, A'. rewrite A in A'. injection A' as <- <-.
  pose proof (setup_fun _ _ _ S S') as <-. pose proof (routed_fun _ _ _ _ _ _ R R') as <-. split; [done|].
  destruct t1; [by eapply libusb_unique|by eapply device_transfer_fun].
Qed.

Lemma performs_passed h c r out : performs h c r out -> (host_answers h c = None -> out = []) ->
  (host_answers h c <> None -> yields h c out) -> out = passed_on c (host_answers h c).
Proof.
  intros _ H0 Hy. unfold passed_on, yields in *. destruct (host_answers h c) as [data|].
  - specialize (Hy ltac:(done)). destruct (reading c); [|done]. by destruct Hy as (x & [= <-] & -> & _).
  - rewrite H0 by done. by destruct (reading c).
Qed.

Lemma wf_setup dbg sb : wf_command dbg (CmdSubmit sb) ->
  exists s, setup_of (sb_setup sb) s /\ setup_parse (sb_setup sb) = s /\ s_request_type s < 256.
Proof.
  intros (_ & _ & _ & _ & _ & _ & (Hl & Hb) & _).
  destruct (sb_setup sb) as [|b0 [|b1 [|b2 [|b3 [|b4 [|b5 [|b6 [|b7 [|]]]]]]]]]; try discriminate Hl.
  eexists. split; [do 8 eexists; split; reflexivity|]. split; [apply setup_le; [done|by apply all_u8_spec]|].
  cbn. by inversion Hb.
Qed.

Definition unchanged (w w' : world rusb_h) : Prop := forall tg, host_of w' tg = host_of w tg /\ (usable w tg -> usable w' tg).
Lemma unchanged_refl w : unchanged w w. Proof. by intros tg. Qed.

Lemma serve_host dbg (w : world rusb_h) d sb r w' : wf_command dbg (CmdSubmit sb) -> in_order w ->
  serve_submit dbg w (Some d) sb = (r, w') ->
  (exists tg c, wants d sb tg c /\ told sb r (passed_on c (host_answers (host_of w tg) c)) /\ forwarded w w' tg c) \/
  ((forall tg c, ~ wants d sb tg c) /\ unchanged w w').
Proof.
  intros Hwf Ho E. destruct (wf_setup _ _ Hwf) as (s & Hs & Ep & Hu). unfold serve_submit in E.
  rewrite real_ep_byte, Ep in E. destruct (find_ep d (ep_byte (sb_header sb))) as [[e i]|] eqn:Ef.
  2: { injection E as <- <-. right. split; [|apply unchanged_refl].
    intros tg c (e & i & s' & A & _). apply find_ep_some in A. congruence. }
  apply find_ep_some in Ef as A.
  assert (Hh : u32_header (sb_header sb)) by (destruct Hwf as [Hh _]; unfold wf_header, u32_header in *; tauto).
  assert (NW : (forall tg, ~ routed d e i s tg) -> forall tg c, ~ wants d sb tg c).
  { intros Hn tg c (e' & i' & s' & A' & S' & R' & _). apply find_ep_some in A'. rewrite Ef in A'. injection A' as <- <-.
    rewrite (setup_fun _ _ _ S' Hs) in R'. by apply (Hn tg). }
  assert (NL : ep_attributes e = 0 -> library_request e s -> forall tg, ~ routed d e i s tg).
  { intros H0 HL tg [f ? ?|f ? Hx ? ?|q ? Hx ? ?]; [lia|by apply Hx|by apply Hx]. }
  destruct (handle_urb_cases dbg w d e i (sb_transfer_buffer_length sb) s (sb_data sb)) as
    [(H0 & Hi & Ht & Hr & Eu)|[(H0 & Hi & Ht & Hr & Eu)|[(tg & Hr & Hx)|(Hn & _ & p & Eu)]]].
  - right. rewrite Eu in E. split; [apply NW, NL; [done|by left]|]. destruct (get_descriptor dbg d s); injection E as _ <-; apply unchanged_refl.
  - right. rewrite Eu in E. split; [apply NW, NL; [done|by right]|]. injection E as _ <-. apply unchanged_refl.
  - destruct (Ho tg) as [Hus Hb]. clear Hx.
    destruct (handle_urb_routed dbg w d e i (sb_transfer_buffer_length sb) s (sb_data sb) tg Hr Hus) as (o & w1 & Hi & Eu).
    rewrite Eu in E.
    assert (K : (exists c out, wants d sb tg c /\ out = passed_on c (host_answers (host_of w tg) c) /\
                   performs (host_of w tg) c (host_result w e (sb_transfer_buffer_length sb) s (sb_data sb) tg) out) \/
                ((forall tg c, ~ wants d sb tg c) /\
                   host_result w e (sb_transfer_buffer_length sb) s (sb_data sb) tg = CallOk (host_of w tg) [])).
    { destruct tg as [f|q].
      - assert (Ha : ep_attributes e < 4) by (inversion Hr; lia).
        destruct (libusb_total e (sb_transfer_buffer_length sb) s (sb_data sb) Ha) as [H1|(c & Hc)].
        + right. split; [|by apply rusb_intf_iso].
          intros tg c (e' & i' & s' & A' & S' & R' & T'). apply find_ep_some in A'. rewrite Ef in A'. injection A' as <- <-.
          rewrite (setup_fun _ _ _ S' Hs) in R'. rewrite (routed_fun _ _ _ _ _ _ R' Hr) in T'. destruct T'; lia.
        + left. destruct (rusb_intf_performs (host_of w (TIntf f)) f _ _ _ _ _ Hb Hc) as (out & HP & H0 & Hy).
          exists c, out. split; [exists e, i, s; done|]. split; [by eapply performs_passed|exact HP].
      - left. assert (exists c, device_transfer (sb_transfer_buffer_length sb) s (sb_data sb) c) as (c & Hc).
        { destruct (N.lt_ge_cases (s_request_type s mod 256) 128); eexists; [by apply dt_out|by apply dt_in]. }
        destruct (rusb_dev_performs (host_of w (TDev q)) _ _ _ _ Hb Hu Hc) as (out & HP & H0 & Hy).
        exists c, out. split; [exists e, i, s; done|]. split; [by eapply performs_passed|exact HP]. }
    destruct K as [(c & out & HW & -> & HP)|(HN & HP)]; [left|right].
    + exists tg, c. split; [done|].
      inversion Hi as [f st0 c0 w2 Hc Hst Hc' Hoi Hod|q st0 c0 w2 Hc Hst Hc' Hod Hoi]; subst;
        unfold performs, host_result, host_of in HP; change (host_h rusb_intf_handle_urb rusb_dev_handle_urb) with rusb_h in HP; rewrite Hc in HP; cbn [c_state] in HP; cbn [rusb_h host_h i_step d_step] in *;
        rewrite HP in E, Hc'; cbn [call_answer urb_of call_state panicked] in E, Hc'; injection E as <- <-;
        (split; [eexists; split; [done|]; intros dbg' b Hb'; unfold host_of; change (host_h rusb_intf_handle_urb rusb_dev_handle_urb) with rusb_h; rewrite Hc; exact (ok_reply _ _ _ _ Hh Hb')|]);
        unfold forwarded, host_of, usable; change (host_h rusb_intf_handle_urb rusb_dev_handle_urb) with rusb_h; rewrite Hc', Hc; cbn; split_and!; auto.
      * intros r Hx. apply Hoi. intros ->. by apply (Hx f).
      * intros r' Hx. apply Hod. by intros ->.
    + split; [done|].
      inversion Hi as [f st0 c0 w2 Hc Hst Hc' Hoi Hod|q st0 c0 w2 Hc Hst Hc' Hod Hoi]; subst;
        unfold host_result, host_of in HP; change (host_h rusb_intf_handle_urb rusb_dev_handle_urb) with rusb_h in HP; rewrite Hc in HP; cbn [c_state] in HP; cbn [rusb_h host_h i_step d_step] in *;
        rewrite HP in E, Hc'; cbn [call_answer urb_of call_state panicked] in E, Hc'; injection E as _ <-;
        intros [g|q']; unfold host_of, usable; change (host_h rusb_intf_handle_urb rusb_dev_handle_urb) with rusb_h.
      * destruct (N.eq_dec (if_handler g) (if_handler f)) as [-> |Hne]; [rewrite Hc', Hc; done|by rewrite Hoi].
      * by rewrite Hod.
      * by rewrite Hoi.
      * destruct (N.eq_dec q' q) as [-> |Hne]; [rewrite Hc', Hc; done|by rewrite Hod].
  - right. rewrite Eu in E. split; [by apply NW|]. injection E as _ <-. apply unchanged_refl.
Qed.

(** ** Whole runs *)
Lemma asked_fun w evs l1 l2 : asked w evs l1 -> asked w evs l2 -> l1 = l2.
Proof.
  intros A. revert l2. induction A as [|evs l t sb r d tg c A IH Hh HW _|evs l e A IH Hn]; intros l2 B; inversion B as [E|? ? t' sb' r' d' tg' c' A' Hh' HW' _ E|? ? e' A' Hn' E].
  - done.
  - by destruct evs.
  - by destruct evs.
  - by destruct evs.
  - apply app_inj_tail in E as [-> [= -> -> ->]]. rewrite (IH _ A'). rewrite Hh in Hh'. injection Hh' as <-.
    by destruct (wants_fun _ _ _ _ _ _ HW HW') as [-> ->].
  - apply app_inj_tail in E as [-> ->]. by destruct (Hn' _ _ _ _ _ _ eq_refl Hh HW).
  - by destruct evs.
  - apply app_inj_tail in E as [-> <-]. by destruct (Hn _ _ _ _ _ _ eq_refl Hh' HW').
  - apply app_inj_tail in E as [-> ->]. by apply IH.
Qed.

Lemma made_by_snoc tg l x : made_by tg (l ++ [x]) = made_by tg l ++ (if same_handler x.1.2 tg then [x.2] else []).
Proof. unfold made_by. rewrite omap_app. cbn. by destruct (same_handler x.1.2 tg). Qed.

(** What the handlers have done so far. *)
Definition done_so_far (w w' : world rusb_h) (l : list (device * target * usb_call)) : Prop :=
  forall tg, usable w' tg /\ hd_log (host_of w' tg) = hd_log (host_of w tg) ++ made_by tg l /\
    hd_oracle (host_of w' tg) = hd_oracle (host_of w tg).
Lemma done_unchanged w w1 w2 l : done_so_far w w1 l -> unchanged w1 w2 -> done_so_far w w2 l.
Proof.
  intros D U tg. destruct (D tg) as (D1 & D2 & D3). destruct (U tg) as [U1 U2]. rewrite U1. split; [by apply U2|done].
Qed.
Lemma done_forwarded w w1 w2 l d tg c : done_so_far w w1 l -> forwarded w1 w2 tg c -> done_so_far w w2 (l ++ [(d, tg, c)]).
Proof.
  intros D (F1 & F2 & F3 & F4 & F5) tg'. destruct (D tg') as (D1 & D2 & D3). rewrite made_by_snoc. cbn [fst snd].
  destruct (same_handler tg tg') eqn:Es.
  - assert (Hsame : forall x : world rusb_h, host_of x tg' = host_of x tg /\ (usable x tg -> usable x tg')).
    { intros x. destruct tg as [f|r], tg' as [g|q]; cbn in Es; try discriminate Es; apply N.eqb_eq in Es; unfold host_of, usable;
        by rewrite Es. }
    rewrite (proj1 (Hsame w2)), F1, F2. rewrite <- (proj1 (Hsame w1)), D2, D3, app_assoc. split; [by apply Hsame|done].
  - rewrite app_nil_r.
    assert (Hsame : host_of w2 tg' = host_of w1 tg' /\ (usable w1 tg' -> usable w2 tg')).
    { destruct tg as [f|r], tg' as [g|q]; cbn in Es; unfold host_of, usable.
      - rewrite F4; [done|]. intros f0 [= <-] E. by rewrite E, N.eqb_refl in Es.
      - by rewrite F3.
      - by rewrite F4.
      - rewrite F3; [done|]. intros [= ->]. by rewrite N.eqb_refl in Es. }
    destruct Hsame as [-> Hu]. split; [by apply Hu|done].
Qed.
Lemma done_in_order w w1 l : in_order w -> done_so_far w w1 l -> in_order w1.
Proof.
  intros O D tg. destruct (D tg) as (D1 & D2 & D3). split; [done|]. intros log c n data Hr He. rewrite D3 in He.
  by apply (proj2 (O tg) log c).
Qed.

Lemma asked_quiet w evs l ev : asked w evs l -> (forall t sb r, EvServe t (CmdSubmit sb) r ∉ ev) -> asked w (evs ++ ev) l.
Proof.
  revert evs. induction ev as [|e ev IH]; intros evs A Hn; [by rewrite app_nil_r|].
  replace (evs ++ e :: ev) with ((evs ++ [e]) ++ ev) by (by rewrite <- app_assoc). apply IH.
  - apply as_other; [done|]. intros t sb r d tg c ->. destruct (Hn t sb r). left.
  - intros t sb r Hin. apply (Hn t sb r). by right.
Qed.
Lemma serve_first {H} dbg (s s' : sys H) l ev t sb r : move dbg s l s' ev -> EvServe t (CmdSubmit sb) r ∈ ev ->
  exists ev', ev = EvServe t (CmdSubmit sb) r :: ev' /\ forall t sb r, EvServe t (CmdSubmit sb) r ∉ ev'.
Proof.
  intros M He. destruct (ev_submit _ _ _ _ _ _ _ _ M He) as (cur & _ & _ & _ & _ & A). destruct A.
  - exists []. split; [done|]. intros ? ? ? Hx. by apply elem_of_nil in Hx.
  - eexists. split; [done|]. intros ? ? ? Hx. apply elem_of_cons in Hx as [Hx|Hx]; [done|]. by apply elem_of_nil in Hx.
Qed.

Lemma host_sys_run dbg ds (w : world rusb_h) ls s evs : in_order w -> run dbg (init_sys ds w) ls = Some (s, evs) ->
  Forall (readable dbg) ls -> (forall r f, LApp r f ∉ ls) -> distinct_ids ds evs ->
  pending (wf_command dbg) s /\ exists l, asked w evs l /\ done_so_far w (y_world s) l.
Proof.
  intros HO. revert ls s evs. apply (run_ind dbg (init_sys ds w) (fun ls s evs => Forall (readable dbg) ls ->
    (forall r f, LApp r f ∉ ls) -> distinct_ids ds evs ->
    pending (wf_command dbg) s /\ exists l, asked w evs l /\ done_so_far w (y_world s) l)).
  - intros _ _ _. split; [intros t c cur Ht; cbn in Ht; by rewrite lookup_empty in Ht|].
    exists []. split; [constructor|]. intros tg. cbn. rewrite app_nil_r. split; [apply HO|done].
  - intros ls s evs l s' ev E IH M HF HA Hd.
    apply step_move in M. apply Forall_app in HF as [HF HL]. apply Forall_cons in HL as [HL _].
    pose proof (distinct_app _ _ _ Hd) as Hd'. pose proof (dev_run _ _ _ _ _ _ E Hd') as HI.
    destruct IH as (Hp & lst & A & D); [done|intros r f Hin; apply (HA r f), elem_of_app; by left|done|].
    split; [eapply pending_move; [exact M|exact Hp|destruct l; done]|].
    destruct (move_world _ _ _ _ _ M) as [[Ew Hn]|[(t & sb & r & He & _)|(r & f & -> & _)]].
    + exists lst. rewrite Ew. split; [by apply asked_quiet|done].
    + pose proof (submit_held _ _ _ _ _ _ _ _ _ _ HI M He) as Es.
      destruct (ev_submit _ _ _ _ _ _ _ _ M He) as (cur & _ & Ht & _). pose proof (Hp _ _ _ Ht) as Hwf.
      destruct (serve_first _ _ _ _ _ _ _ _ M He) as (ev' & -> & Hn).
      replace (evs ++ EvServe t (CmdSubmit sb) r :: ev') with ((evs ++ [EvServe t (CmdSubmit sb) r]) ++ ev') by (by rewrite <- app_assoc).
      destruct (held evs t) as [d|] eqn:Hh.
      * destruct (serve_host _ _ _ _ _ _ Hwf (done_in_order _ _ _ HO D) Es) as [(tg & c & HW & HT & HF')|[HW HU]].
        -- exists (lst ++ [(d, tg, c)]). split; [|by eapply done_forwarded]. apply asked_quiet; [|done]. apply as_urb; [done|done|done|].
           unfold host_answers in HT. destruct (D tg) as (_ & D2 & D3). rewrite D2, D3 in HT. exact HT.
        -- exists lst. split; [|by eapply done_unchanged]. apply asked_quiet; [|done]. apply as_other; [done|].
           intros t' sb' r' d' tg c [= <- <- <-] Hh'. rewrite Hh in Hh'. injection Hh' as <-. apply HW.
      * exists lst. cbn in Es. injection Es as _ Ew. rewrite <- Ew. split; [|done]. apply asked_quiet; [|done]. apply as_other; [done|].
        intros t' sb' r' d' tg c [= <- <- <-] Hh'. congruence.
    + destruct (HA r f). apply elem_of_app. right. left.
Qed.

(** ** The program *)
Definition api_free {H} (s : sys H) : Prop := forall t p cur, y_tasks s !! t = Some (mkTask p cur) ->
  match p with PAddAvailW _ | PRemAvailW _ | PRemUsedR _ => False | _ => True end.
Definition no_api_event (e : event) : Prop := match e with EvAdd _ _ | EvRemove _ _ _ => False | _ => True end.
Lemma api_free_set {H} (s : sys H) t p cur : api_free s -> match p with PAddAvailW _ | PRemAvailW _ | PRemUsedR _ => False | _ => True end ->
  api_free (set_task s t (mkTask p cur)).
Proof.
  intros Hp Hk u q cur' Hu. cbn in Hu. destruct (decide (u = t)) as [-> |Hn].
  - rewrite lookup_insert in Hu. injection Hu as -> _. exact Hk.
  - rewrite lookup_insert_ne in Hu by done. exact (Hp _ _ _ Hu).
Qed.
Lemma api_free_move {H} dbg (s : sys H) l s' ev : move dbg s l s' ev -> api_free s ->
  match l with LAdd _ _ | LRemove _ _ => False | _ => True end -> api_free s' /\ Forall no_api_event ev.
Proof.
  intros M Hp Hl. destruct M; try done;
    try match goal with Ht : y_tasks _ !! _ = Some (mkTask (PAddAvailW _) _) |- _ => by destruct (Hp _ _ _ Ht) end;
    try match goal with Ht : y_tasks _ !! _ = Some (mkTask (PRemAvailW _) _) |- _ => by destruct (Hp _ _ _ Ht) end;
    try match goal with Ht : y_tasks _ !! _ = Some (mkTask (PRemUsedR _) _) |- _ => by destruct (Hp _ _ _ Ht) end;
    try match goal with A : answered _ _ _ _ _ _ _ _ |- _ => destruct A end;
    (split; [|repeat constructor]); try exact Hp; try (by apply (api_free_set s)).
  all: apply api_free_set; [exact Hp|done].
Qed.
Lemma ledger_same ds evs : Forall no_api_event evs -> ledger ds evs = ds.
Proof.
  unfold ledger. revert ds. induction evs as [|e evs IH]; intros ds HF; [done|]. apply Forall_cons in HF as [He HF]. cbn.
  by destruct e; try done; apply IH.
Qed.
Lemma api_free_run {H} dbg ds (w : world H) ls s evs : run dbg (init_sys ds w) ls = Some (s, evs) ->
  Forall (fun l => match l with LAdd _ _ | LRemove _ _ => False | _ => True end) ls -> api_free s /\ Forall no_api_event evs.
Proof.
  revert ls s evs. apply (run_ind dbg (init_sys ds w) (fun ls s evs =>
    Forall (fun l => match l with LAdd _ _ | LRemove _ _ => False | _ => True end) ls -> api_free s /\ Forall no_api_event evs)).
  - intros _. split; [intros t p cur Ht; cbn in Ht; by rewrite lookup_empty in Ht|constructor].
  - intros ls s evs l s' ev _ IH M [HF HL]%Forall_app. apply step_move in M. apply Forall_cons in HL as [HL _].
    destruct (IH HF) as [A B]. destruct (api_free_move _ _ _ _ _ M A HL) as [A' B']. split; [done|]. by apply Forall_app.
Qed.

Lemma host_run_sys dbg a ls a' evs : host_run dbg a ls = Some (a', evs) -> Forall (a_readable dbg) ls ->
  exists ls', run dbg (a_sys a) ls' = Some (a_sys a', evs) /\ Forall (readable dbg) ls' /\ (forall r f, LApp r f ∉ ls') /\
    Forall (fun l => match l with LAdd _ _ | LRemove _ _ => False | _ => True end) ls'.
Proof.
  revert a evs. induction ls as [|l ls IH]; intros a evs E HF; cbn [host_run] in E.
  { injection E as <- <-. exists []. split; [done|]. split; [constructor|]. split; [intros r f Hx; by apply elem_of_nil in Hx|constructor]. }
  destruct (host_step dbg a l) as [[a1 e1]|] eqn:E1; [|done]. destruct (host_run dbg a1 ls) as [[a2 e2]|] eqn:E2; [|done].
  injection E as -> <-. apply Forall_cons in HF as [HL HF]. destruct (IH _ _ E2 HF) as (ls' & R & A & B & C). clear IH E2.
  unfold host_step in E1. destruct (server_label l) eqn:Hs; [|done]. apply astep_below in E1.
  exists (below1 l ++ ls'). split; [by eapply run_app_intro|].
  assert (X : Forall (readable dbg) (below1 l) /\ (forall r f, LApp r f ∉ below1 l) /\
              Forall (fun l => match l with LAdd _ _ | LRemove _ _ => False | _ => True end) (below1 l)).
  { destruct l as [| |t| | |l]; cbn [below1 a_readable] in *; split_and!; try (by constructor);
      try (by intros r f Hx; apply elem_of_nil in Hx); try (by constructor; [|constructor]).
    - intros r f Hx. apply elem_of_list_singleton in Hx. done.
    - intros r f Hx. apply elem_of_list_singleton in Hx as <-. done.
    - constructor; [|constructor]. by destruct l. }
  destruct X as (X1 & X2 & X3). split; [by apply Forall_app|]. split; [|by apply Forall_app].
  intros r f Hx. apply elem_of_app in Hx as [Hx|Hx]; [by apply (X2 r f)|by apply (B r f)].
Qed.
