(** * The drivers of Linux on the example programs: proofs *)
From Verif Require Export SpecDriver.
From Verif Require Import SysFacts ConcProofs IsoProofs SessionProofs ProgProofs HostProgProofs PropsAccept.

(** ** Enumeration, seen at the device *)
Lemma enum_descriptor dbg d s ty ix : enumerable d -> get_desc s ty ix ->
  (ty = 1 \/ ty = 2 \/ ty = 6 \/ ty = 3 /\ (ix = 0 \/ is_Some (d_string_pool d !! ix))) ->
  exists data, get_descriptor dbg d s = UOk data /\ enum_reply d s data.
Proof.
  intros (Ht & Hfit & Hin & Hia & Hout & Hoa & Hcl & Hcs & Hst) Hg Hty.
  unfold get_descriptor. rewrite (proj1 (desc_type_ix _ _ _ Hg)), (proj2 (desc_type_ix _ _ _ Hg)).
  destruct Hty as [-> |[-> |[-> |[-> Hix]]]]; cbn [desc_type_of].
  - eexists. split; [reflexivity|]. rewrite limit_take by (unfold len; cbn; lia).
    eapply er_device; [exact Hg|]. by apply device_descriptor_layout.
  - eexists. split; [reflexivity|]. rewrite limit_take by (rewrite configuration_len; lia).
    pose proof (configuration_back d Ht Hcl Hcs) as Hb.
    eapply er_config; [exact Hg|apply configuration_len|rewrite configuration_len; exact Hb|].
    rewrite configuration_len. intros c (bs & Hbs & Hcf). destruct Hb as (bs' & Hbs' & Hcf').
    rewrite (blocks_det _ _ _ Hbs Hbs') in Hcf. congruence.
  - eexists. split; [reflexivity|]. rewrite limit_take by (unfold len; cbn; lia).
    eapply er_qualifier; [exact Hg|]. apply qualifier_descriptor_layout.
  - destruct (N.eqb_spec ix 0) as [-> |H0].
    + eexists. split; [reflexivity|]. rewrite limit_take by (unfold len; cbn; lia). by apply er_languages.
    + destruct Hix as [?|[str Hp]]; [done|]. rewrite Hp.
      assert (Hr : is_rstring str = true).
      { unfold typed_device in Ht. destruct_and! Ht. match goal with M : map_Forall _ _ |- _ => by destruct (M _ _ Hp) end. }
      pose proof (Hst _ _ Hp) as Hl. rewrite string_descriptor_ok by done.
      set (desc := 2 + 2 * len (utf16 str) :: 3 :: units_le (utf16 str)).
      assert (Hlen : len desc = 2 + 2 * len (utf16 str)) by (unfold desc; rewrite !len_cons, units_le_len; lia).
      eexists. split; [reflexivity|]. rewrite limit_take by lia. eapply er_string; [exact Hg|done|exact Hp|].
      exists (units_le (utf16 str)). rewrite Hlen. split; [done|].
      unfold utf16le_decode, units_le. rewrite le16_units_spec by (by apply utf16_u16). by apply utf16_roundtrip.
Qed.
Lemma serve_at {H} dbg (w : world H) d sb e i s u w' : addressed d (ep_byte (sb_header sb)) e i ->
  setup_parse (sb_setup sb) = s ->
  handle_urb dbg w d e i (sb_transfer_buffer_length sb) s (sb_data sb) = (u, w') ->
  serve_submit dbg w (Some d) sb = (reply_of sb u, w').
Proof.
  intros Ha <- Eu. unfold serve_submit. rewrite real_ep_byte, (proj2 (find_ep_some _ _ _ _) Ha), Eu. by destruct u.
Qed.
Lemma enum_serve {H} dbg (w : world H) d sb s : enumerable d -> setup_parse (sb_setup sb) = s ->
  enum_request d (sb_header sb) s ->
  exists data, serve_submit dbg w (Some d) sb = (reply_of sb (UOk data), w) /\ enum_reply d s data /\
    (h_direction (sb_header sb) = 1 \/ data = []).
Proof.
  intros He Hs [(Hdir & Hep & ty & ix & Hg & Hty)|(Hdir & Hep & R1 & R2 & R3)]; pose proof He as (_ & _ & Hin & Hia & Hout & Hoa & _).
  - destruct (enum_descriptor dbg d s ty ix He Hg Hty) as (data & Ed & Hr). exists data. split; [|by auto].
    assert (Ha : addressed d (ep_byte (sb_header sb)) (d_ep0_in d) None).
    { apply addr_ep0_in. rewrite Hin. unfold ep_byte. by rewrite Hdir, Hep. }
    eapply serve_at; [exact Ha|exact Hs|]. rewrite (get_desc_urb dbg w d _ _ _ s _ ty ix Hia) by (try done; unfold in_ep; by rewrite Hin).
    by rewrite Ed.
  - exists []. split; [|split; [by apply er_set_configuration|by right]].
    assert (Ha : addressed d (ep_byte (sb_header sb)) (d_ep0_out d) None).
    { unfold ep_byte. rewrite Hdir, Hep. cbn. apply addr_ep0_out; [by rewrite Hin|done]. }
    eapply serve_at; [exact Ha|exact Hs|]. unfold handle_urb. rewrite Hoa. unfold ep_direction. rewrite Hout.
    cbn -[limit_to]. rewrite R1, R2, R3. reflexivity.
Qed.

(** ** Runs of a program whose clients behave *)
Section Driven.
  Context {H : handlers} (dbg : bool) (g : program H) (d : device) (P : header -> setup_packet -> Prop)
    (A : header -> setup_packet -> list N -> Prop) (I : world H -> Prop).
  Definition well_served (w : world H) (sb : submit) : Prop :=
    exists data w' s, serve_submit dbg w (Some d) sb = (reply_of sb (UOk data), w') /\ I w' /\
      setup_of (sb_setup sb) s /\ (enum_reply d s data \/ A (sb_header sb) s data) /\
      (h_direction (sb_header sb) = 1 \/ data = []).
  Hypothesis Hd : g_device g dbg = Val d.
  Hypothesis Hfit : fits d.
  Hypothesis I0 : I (g_world g).
  Hypothesis It : forall w, I w -> c_poisoned (w_intf w (g_handler g)) = false /\
    exists st, g_tick g (c_state (w_intf w (g_handler g))) = Val st /\ I (set_intf w (g_handler g) (mkCell false st)).
  Hypothesis Is : forall w sb, I w -> wf_command dbg (CmdSubmit sb) -> driver_command d P (CmdSubmit sb) -> well_served w sb.

  Record driven (a : asys H) (evs : list event) : Prop := mkDriven {
    dn_dev : dev_inv [d] (a_sys a) evs;
    dn_locks : locks_ok (a_sys a);
    dn_quiet : ProgProofs.quiet (fun c => wf_command dbg c /\ driver_command d P c) d (a_sys a);
    dn_free : Forall no_api_event evs;
    dn_world : I (y_world (a_sys a));
    dn_work : drivers_work d A evs }.

  Lemma work_quiet evs ev : drivers_work d A evs -> no_urb ev -> (forall t x, EvEnd t (EndPanic x) ∉ ev) -> drivers_work d A (evs ++ ev).
  Proof.
    intros [W1 W2] Hn He. split.
    - intros e1 t sb o e2 E Hh. apply app_eq_inv in E as [(k & -> & E)|(k & -> & E)].
      + destruct k as [|x k].
        * destruct (Hn t sb o). cbn in E. rewrite <- E. left.
        * injection E as <- ->. by eapply (W1 e1 t sb o k).
      + destruct (Hn t sb o). rewrite E. apply elem_of_app. right. left.
    - intros t x [Hx|Hx]%elem_of_app; [|by apply He in Hx].
      destruct (W2 t x Hx) as (e1 & sb & o & e2 & -> & Hh). exists e1, sb, o, (e2 ++ ev). split; [by rewrite <- app_assoc|done].
  Qed.

  Lemma work_submit evs t sb o w w' : drivers_work d A evs -> I w -> wf_command dbg (CmdSubmit sb) ->
    driver_command d P (CmdSubmit sb) -> serve_submit dbg w (held evs t) sb = (o, w') ->
    held evs t = None \/ held evs t = Some d -> forall ev,
    ev = [EvServe t (CmdSubmit sb) o] \/ (exists e, ev = [EvServe t (CmdSubmit sb) o; EvEnd t e] /\
      forall b, obind o (response_to_bytes dbg) <> Val b) -> I w' /\ drivers_work d A (evs ++ ev).
  Proof.
    intros [W1 W2] Hw Hwf Hdr Es Hh ev Hev.
    assert (Hg : held evs t = Some d -> I w' /\ exists s rs, setup_of (sb_setup sb) s /\ o = Val (RetSubmit rs) /\ rs_status rs = 0 /\
       (enum_reply d s (rs_transfer_buffer rs) \/ A (sb_header sb) s (rs_transfer_buffer rs)) /\
       exists b, obind o (response_to_bytes dbg) = Val b).
    { intros E. rewrite E in Es. destruct (Is w sb Hw Hwf Hdr) as (data & w1 & s & E1 & HI & Hs & Ha & Hdir). rewrite E1 in Es. injection Es as <- <-.
      split; [done|]. eexists s, _. split; [done|]. split; [reflexivity|]. split; [done|]. split; [exact Ha|].
      cbn [reply_of obind]. apply ok_total. destruct Hdir as [?| ->]; auto. }
    split. { destruct Hh as [E|E]; [|by apply Hg]. rewrite E in Es. cbn in Es. by injection Es as _ <-. }
    split.
    - intros e1 u sb' o' e2 E Hu. apply app_eq_inv in E as [(k & -> & E)|(k & -> & E)].
      + destruct k as [|x k].
        * rewrite app_nil_r in *. cbn in E.
          assert (u = t /\ sb' = sb /\ o' = o) as (-> & -> & ->) by (destruct Hev as [-> |(e & -> & _)]; by injection E as -> -> -> _).
          destruct (Hg Hu) as (_ & s & rs & ? & ? & ? & ? & _). eauto 10.
        * injection E as <- ->. by eapply (W1 e1 u sb' o' k).
      + destruct k as [|x k].
        * rewrite app_nil_r in *. cbn in E.
          assert (u = t /\ sb' = sb /\ o' = o) as (-> & -> & ->) by (destruct Hev as [-> |(e & -> & _)]; by injection E as -> -> -> _).
          destruct (Hg Hu) as (_ & s & rs & ? & ? & ? & ? & _). eauto 10.
        * exfalso. destruct Hev as [-> |(e & -> & _)]; injection E as <- E; destruct k as [|? [|]]; discriminate.
    - intros u x [Hx|Hx]%elem_of_app.
      + destruct (W2 u x Hx) as (e1 & sb' & o' & e2 & -> & Hu). exists e1, sb', o', (e2 ++ ev). split; [by rewrite <- app_assoc|done].
      + destruct Hev as [-> |(e & -> & Hp)]; [by apply elem_of_list_singleton in Hx|].
        apply elem_of_cons in Hx as [Hx|Hx]; [discriminate|]. apply elem_of_list_singleton in Hx as [= -> <-].
        exists evs, sb, o, [EvEnd t (EndPanic x)]. split; [done|]. destruct Hh as [E|E]; [done|].
        destruct (Hg E) as (_ & s & rs & _ & _ & _ & _ & b & Hb). by destruct (Hp b).
  Qed.

  Definition mild (l : label H) : Prop :=
    match l with
    | LAdd _ _ | LRemove _ _ | LApp _ _ | LReadPanic _ => False
    | LRecv _ c => wf_command dbg c /\ driver_command d P c
    | _ => True
    end.
  Lemma other_answers dbg' (s s' : sys H) t cur c r ev : answered dbg' s t cur c (Val r) s' ev ->
    reply_ok r -> (forall sb, c <> CmdSubmit sb) -> no_urb ev /\ forall u x, EvEnd u (EndPanic x) ∉ ev.
  Proof.
    intros An Hr Hc. destruct An as [b _|e Hb _ _].
    - split.
      + intros u sb o Hx. apply elem_of_list_singleton in Hx as [= _ <- _]. by apply (Hc sb).
      + intros u x Hx. by apply elem_of_list_singleton in Hx.
    - exfalso. cbn [obind] in Hb. destruct (proj2 (response_total dbg' r)) as [b E]; [done|]. by apply (Hb b).
  Qed.
  Lemma read_end_fine e x : read_end e <> EndPanic x.
  Proof. by destruct e. Qed.
  Lemma mild_move (s s' : sys H) evs l ev : move dbg s l s' ev -> mild l -> dev_inv [d] s evs ->
    ProgProofs.quiet (fun c => wf_command dbg c /\ driver_command d P c) d s ->
    (no_urb ev /\ (forall u x, EvEnd u (EndPanic x) ∉ ev) /\ y_world s' = y_world s) \/
    (exists t sb r, wf_command dbg (CmdSubmit sb) /\ driver_command d P (CmdSubmit sb) /\ EvServe t (CmdSubmit sb) r ∈ ev /\
       (ev = [EvServe t (CmdSubmit sb) r] \/ exists e, ev = [EvServe t (CmdSubmit sb) r; EvEnd t e] /\
          forall b, obind r (response_to_bytes dbg) <> Val b)).
  Proof.
    intros M Hl HD [[Qa Qu] Qp].
    assert (Hx : forall P' : Prop, (forall u x, EvEnd u (EndPanic x) ∉ ev) -> no_urb ev -> P' -> no_urb ev /\ (forall u x, EvEnd u (EndPanic x) ∉ ev) /\ P') by done.
    destruct M; try done;
      try (left; apply Hx; [intros ? ?; apply not_elem_of_nil|apply no_urb_nil|done]);
      try match goal with Ht : y_tasks s !! _ = Some (mkTask (PAddAvailW _) _) |- _ => by destruct (Qp _ _ Ht) end;
      try match goal with Ht : y_tasks s !! _ = Some (mkTask (PRemAvailW _) _) |- _ => by destruct (Qp _ _ Ht) end;
      try match goal with Ht : y_tasks s !! _ = Some (mkTask (PRemUsedR _) _) |- _ => by destruct (Qp _ _ Ht) end.
    - left. apply Hx; [|no_urb_tac|done]. intros u x Hy. apply elem_of_list_singleton in Hy as [= _ Hz]. by destruct (read_end_fine e x).
    - left. apply Hx; [|no_urb_tac|done]. intros u x Hy. by apply elem_of_list_singleton in Hy.
    - left. apply Hx; [|no_urb_tac|done]. intros u x Hy. by apply elem_of_list_singleton in Hy.
    - right. exists t, sb, r. pose proof (Qp _ _ H0) as [Q1 Q2]. split; [done|]. split; [done|].
      destruct H3 as [b _|e Hb _ _]; (split; [left|]); eauto.
    - left. destruct (other_answers _ _ _ _ _ _ _ _ H2) as [N1 N2]; [done|done|]. apply Hx; [done|done|]. by destruct H2.
    - left. destruct (other_answers _ _ _ _ _ _ _ _ H2) as [N1 N2]; [|done|].
      { cbn. apply Forall_forall. intros y ->%Qa. done. }
      apply Hx; [done|done|]. by destruct H2.
    - left. destruct (other_answers _ _ _ _ _ _ _ _ H3) as [N1 N2]; [|done|].
      { destruct r as [y|]; [|done]. cbn. unfold import_device in H2. destruct (take_first _ _) as [[z rest]|] eqn:Et; injection H2 as _ H2; [|done].
        apply ProgProofs.take_first_some in Et as [Hy _]. rewrite <- H2. by rewrite (Qa _ Hy). }
      apply Hx; [done|done|]. by destruct H3.
    - left. apply Hx; [|no_urb_tac|done]. intros u x Hy. apply elem_of_cons in Hy as [Hy|Hy]; [done|].
      apply elem_of_list_singleton in Hy as [= _ Hz]. by destruct (read_end_fine e x).
    - exfalso. pose proof (di_cur _ _ _ HD _ _ H0 eq_refl eq_refl) as Hc. cbn in Hc. destruct (held evs t) as [y|] eqn:Eh; [|done].
      injection Hc as ->. apply (di_held _ _ _ HD) in Eh. unfold release_device in H2. by rewrite Eh in H2.
  Qed.
  Lemma driven_move a evs l s' ev : driven a evs -> move dbg (a_sys a) l s' ev -> mild l ->
    forall a', a_sys a' = s' -> driven a' (evs ++ ev).
  Proof.
    intros [Dd Dl Dq Df Dw Dk] M Hl a' Ea. pose proof Dq as [Qo Qp].
    assert (Hl' : match l with LAdd _ _ | LRemove _ _ | LApp _ _ => False | LRecv _ c => wf_command dbg c /\ driver_command d P c | _ => True end)
      by (by destruct l).
    destruct (quiet_move _ _ _ _ _ _ _ M Dq Hl') as [Dq' _].
    assert (Dfr : api_free (a_sys a)).
    { intros t p cur Ht. pose proof (Qp t _ Ht) as X. cbn in X. by destruct p. }
    destruct (api_free_move _ _ _ _ _ M Dfr) as [_ Df']; [by destruct l|].
    assert (Hled : ledger [d] evs = [d]) by (by apply ledger_same).
    assert (Dd' : dev_inv [d] s' (evs ++ ev)).
    { eapply dev_move; [exact M|done|done|]. rewrite Hled. apply NoDup_singleton. }
    assert (Dl' : locks_ok s') by (by eapply locks_move).
    assert (Hh : forall t, held evs t = None \/ held evs t = Some d).
    { intros t. destruct (held evs t) as [x|] eqn:E; [|by left]. right. f_equal.
      apply (held_in_ledger _ _ _ _ _ Dd) in E. rewrite Hled in E. by apply elem_of_list_singleton in E. }
    assert (K : I (y_world s') /\ drivers_work d A (evs ++ ev)).
    { destruct (mild_move _ _ _ _ _ M Hl Dd Dq) as [(Hn & He & Ew)|(t & sb & r & Hwf & Hdr & Hin & Hev)].
      - rewrite Ew. split; [done|]. by apply work_quiet.
      - eapply work_submit; [done|exact Dw|exact Hwf|exact Hdr| |apply Hh|exact Hev].
        by apply (submit_held _ _ _ _ _ _ _ _ _ _ Dd M Hin). }
    destruct K as [K1 K2]. split; rewrite ?Ea; try done. by apply Forall_app.
  Qed.
  Lemma driven_tick a evs r f : driven a evs -> c_poisoned (w_intf (y_world (a_sys a)) r) = false ->
    I (set_intf (y_world (a_sys a)) r (mkCell false (f (c_state (w_intf (y_world (a_sys a)) r))))) ->
    forall a', a_sys a' = set_world (a_sys a) (set_intf (y_world (a_sys a)) r (mkCell false (f (c_state (w_intf (y_world (a_sys a)) r))))) ->
    driven a' evs.
  Proof.
    intros [Dd Dl [Qo Qp] Df Dw Dk] Hp HI a' Ea.
    pose proof (mv_app dbg (a_sys a) r f Hp) as M. rewrite <- Ea in M.
    assert (Hled : ledger [d] evs = [d]) by (by apply ledger_same).
    split; try done.
    - rewrite <- (app_nil_r evs). eapply dev_move; [exact M|done|done|]. rewrite Hled. apply NoDup_singleton.
    - by eapply locks_move.
    - rewrite Ea. by split.
    - by rewrite Ea.
  Qed.
  Lemma driven_run ls p evs : Forall (p_readable dbg) ls -> Forall (by_drivers d P) ls ->
    prun dbg g (start dbg g) ls = Some (p, evs) -> exists a, p = Running a /\ driven a evs.
  Proof.
    revert p evs. induction ls as [|l ls IH] using rev_ind; intros p evs HR HB E.
    - cbn in E. unfold start in E. rewrite Hd in E. injection E as <- <-. eexists. split; [reflexivity|]. split; cbn.
      + apply dev_init.
      + apply locks_init.
      + apply quiet_start.
      + constructor.
      + exact I0.
      + split; [by intros [] ? ? ? ? ?|]. intros t x Hx. by apply elem_of_nil in Hx.
    - apply Forall_app in HR as [HR Hr], HB as [HB Hb]. rewrite Forall_singleton in Hr, Hb.
      apply prun_running in E as (a & e1 & e2 & E1 & E2 & ->).
      destruct (IH _ _ HR HB E1) as (a0 & [= <-] & D). clear IH E1. destruct l as [l|].
      + cbn [pstep] in E2. destruct (server_label l) eqn:Es; [|done]. destruct (astep dbg a l) as [[a1 e]|] eqn:Ea; [|done].
        injection E2 as <- <-. exists a1. split; [done|]. pose proof (astep_below _ _ _ _ _ Ea) as Hb1.
        assert (X : (below1 l = [] \/ exists l', below1 l = [l'] /\ mild l')).
        { destruct l as [| |t| | |l]; cbn; auto; right; eexists; (split; [reflexivity|]); try done.
          destruct l; try done. }
        destruct X as [X|(l' & X & Hm)]; rewrite X in Hb1; cbn [run] in Hb1.
        * injection Hb1 as Ea' <-. rewrite app_nil_r. destruct D. split; rewrite <- ?Ea'; done.
        * destruct (step dbg (a_sys a) l') as [[s' e']|] eqn:Est; [|done]. injection Hb1 as -> <-. rewrite app_nil_r in *.
          eapply driven_move; [exact D|by apply step_move|exact Hm|done].
      + cbn [pstep] in E2. destruct (It _ (dn_world _ _ D)) as (Hp & st & Et & HI). rewrite Hp, Et in E2.
        destruct (astep dbg a _) as [[a1 e]|] eqn:Ea; [|done]. injection E2 as <- <-. exists a1. split; [done|].
        apply astep_below in Ea. cbn [below1 run step] in Ea. rewrite Hp in Ea. injection Ea as Ea <-. rewrite app_nil_r.
        by apply (driven_tick a e1 (g_handler g) (fun _ => st)).
  Qed.
End Driven.

(** ** The two programs *)
Lemma setup_parsed dbg sb s : wf_command dbg (CmdSubmit sb) -> setup_of (sb_setup sb) s -> setup_parse (sb_setup sb) = s.
Proof.
  intros Hw Hs. destruct (ProgProofs.wf_setup _ _ Hw) as (?&?&?&?&?&?&?&?& E1 & E3), Hs as (?&?&?&?&?&?&?&?& E2 & ->).
  rewrite E3. rewrite E1 in E2. by injection E2 as -> -> -> -> -> -> -> ->.
Qed.
Lemma setup_first sb s : setup_of (sb_setup sb) s -> nth 0 (sb_setup sb) 0 = s_request_type s.
Proof. by intros (?&?&?&?&?&?&?&?& -> & ->). Qed.

Definition kb_fine (w : world keyboard_handlers) : Prop :=
  c_poisoned (w_intf w 0) = false /\ k_report_descriptor (c_state (w_intf w 0)) = k_report_descriptor new_keyboard /\
  Forall (eq key_1) (k_pending (c_state (w_intf w 0))).
Lemma kb_driven dbg w d f sb s : shape d [mkEndpoint 129 3 8 10] f -> enumerable d -> kb_fine w ->
  wf_command dbg (CmdSubmit sb) -> setup_of (sb_setup sb) s ->
  enum_request d (sb_header sb) s \/ hid_driver (sb_header sb) s ->
  well_served dbg d (hid_answer (k_report_descriptor new_keyboard)) kb_fine w sb.
Proof.
  intros Hsh He (Hp & Hr & Hq) Hw Hs Hreq. pose proof (setup_parsed _ _ _ Hw Hs) as Hps.
  destruct Hreq as [Hreq|Hreq].
  { destruct (enum_serve dbg w d sb s He Hps Hreq) as (data & E & Hd & Hdir). exists data, w, s. by split_and!; auto. }
  destruct (serve_submit dbg w (Some d) sb) as [r w'] eqn:E. unfold well_served. rewrite E.
  pose proof (shape_serve _ _ _ _ _ _ _ _ Hsh ltac:(intros e ->%elem_of_list_singleton; cbn; lia) E) as K. cbv zeta in K.
  rewrite Hps in K. unfold to_interface in K. rewrite (setup_first _ _ Hs), Hps in K.
  destruct Hreq as [D Ep R1 R2 R3 R4|D Ep R1 R2 R3|D Ep]; unfold ep_byte in K; rewrite D, Ep in K; cbn [N.eqb N.modulo N.add] in K.
  - destruct K as [(e & He' & u & Ec & ->)|(_ & [[_ Hn]|[Hn _]] & _)]; [|destruct Hn; by rewrite R1, R4|done].
    destruct He' as [(_ & _ & Ea & Et)|(Hn & _)]; [|done].
    unfold call_intf in Ec. rewrite Hp in Ec. cbn [i_step keyboard_handlers] in Ec. unfold kb_handle_urb in Ec.
    rewrite is_ep0_mod, Ea, R1, R2, R3 in Ec. cbn in Ec. injection Ec as <- <-.
    assert (Xr : forall rd, rd = k_report_descriptor new_keyboard -> hid_answer (k_report_descriptor new_keyboard) (sb_header sb) s rd)
      by (intros rd ->; by constructor).
    eexists _, _, s. split; [reflexivity|]. split; [by split_and!|]. split; [done|]. split; [right; by apply Xr|by left].
  - destruct K as [(e & He' & u & Ec & ->)|(_ & [[_ Hn]|[Hn _]] & _)]; [|destruct Hn; by rewrite R1, R3|done].
    destruct He' as [(_ & _ & Ea & Et)|(Hn & _)]; [|done].
    unfold call_intf in Ec. rewrite Hp in Ec. cbn [i_step keyboard_handlers] in Ec. unfold kb_handle_urb in Ec.
    rewrite is_ep0_mod, Ea, R1, R2 in Ec. cbn in Ec. injection Ec as <- <-.
    eexists _, _, s. split; [reflexivity|]. split; [by split_and!|]. split; [done|]. split; [right; by constructor|by right].
  - destruct K as [(e & He' & u & Ec & ->)|(_ & [[Hn _]|[_ Hn]] & _)]; [|done|].
    2: { by destruct (Hn (mkEndpoint 129 3 8 10)); [left|]. }
    destruct He' as [(Hn & _)|(_ & Hin & Ea)]; [done|]. apply elem_of_list_singleton in Hin as ->.
    unfold call_intf in Ec. rewrite Hp in Ec. cbn [i_step keyboard_handlers] in Ec.
    destruct (c_state (w_intf w 0)) as [rd [|k pend] st]; cbn in Hr, Hq; destruct st; cbn in Ec; injection Ec as <- <-;
      eexists _, _, s; (split; [reflexivity|]); (split; [split_and!; cbn; try done; by inversion Hq|]); (split; [done|]);
      (split; [right|by left]); try (by constructor).
    apply Forall_cons in Hq as [<- _]. by constructor.
Qed.

Definition acm_fine (w : world serial_handlers) : Prop :=
  c_poisoned (w_intf w 0) = false /\ exists n, c_tx_buffer (c_state (w_intf w 0)) = replicate n 97.
Lemma acm_driven dbg w d f sb s : shape d cdc_endpoints f -> enumerable d -> acm_fine w ->
  wf_command dbg (CmdSubmit sb) -> setup_of (sb_setup sb) s ->
  enum_request d (sb_header sb) s \/ acm_driver (sb_header sb) s -> well_served dbg d acm_answer acm_fine w sb.
Proof.
  intros Hsh He (Hp & n & Hn) Hw Hs Hreq. pose proof (setup_parsed _ _ _ Hw Hs) as Hps.
  destruct Hreq as [Hreq|Hreq].
  { destruct (enum_serve dbg w d sb s He Hps Hreq) as (data & E & Hd & Hdir). exists data, w, s.
    split_and!; auto. split; [done|]. by exists n. }
  destruct (serve_submit dbg w (Some d) sb) as [r w'] eqn:E. unfold well_served. rewrite E.
  assert (Hat : forall e, e ∈ cdc_endpoints -> 1 <= ep_attributes e <= 3).
  { intros e Hi. unfold cdc_endpoints in Hi. rewrite !elem_of_cons, elem_of_nil in Hi.
    destruct Hi as [-> |[-> |[-> |[]]]]; cbn; lia. }
  pose proof (shape_serve _ _ _ _ _ _ _ _ Hsh Hat E) as K. cbv zeta in K.
  rewrite Hps in K. unfold to_interface in K. rewrite (setup_first _ _ Hs), Hps in K.
  assert (Hcall : forall e b, e ∈ cdc_endpoints -> ep_address e = b ->
    (b = 129 -> e = mkEndpoint 129 3 8 10) /\ (b = 130 -> e = mkEndpoint 130 2 512 0) /\ (b = 2 -> e = mkEndpoint 2 2 512 0)).
  { intros e b Hi <-. unfold cdc_endpoints in Hi. rewrite !elem_of_cons, elem_of_nil in Hi. destruct Hi as [-> |[-> |[-> |[]]]]; done. }
  destruct Hreq as [D Ep R1 R2 R3|D Ep|D Ep|D Ep]; unfold ep_byte in K; rewrite D, Ep in K; cbn [N.eqb N.modulo N.add] in K.
  - destruct K as [(e & He' & u & Ec & ->)|(_ & [[_ Hx]|[Hx _]] & _)]; [|destruct Hx; by rewrite R1, R3|done].
    destruct He' as [(_ & _ & Ea & Et)|(Hx & _)]; [|done].
    unfold call_intf in Ec. rewrite Hp in Ec. cbn [i_step serial_handlers] in Ec. unfold cdc_handle_urb in Ec.
    assert (Ed : ep_direction e = DOut) by (apply ep_direction_out; unfold in_ep; rewrite Ea; cbn; lia).
    rewrite Et, Ed in Ec. cbn in Ec. injection Ec as <- <-.
    eexists _, _, s. split; [reflexivity|]. split; [split; [done|by exists n]|]. split; [done|]. split; [right; by constructor|by right].
  - destruct K as [(e & He' & u & Ec & ->)|(_ & [[Hx _]|[_ Hx]] & _)]; [|done|].
    2: { by destruct (Hx (mkEndpoint 129 3 8 10)); [left|]. }
    destruct He' as [(Hx & _)|(_ & Hin & Ea)]; [done|]. pose proof (proj1 (Hcall _ _ Hin Ea) eq_refl) as ->.
    unfold call_intf in Ec. rewrite Hp in Ec. cbn in Ec. injection Ec as <- <-.
    eexists _, _, s. split; [reflexivity|]. split; [split; [done|by exists n]|]. split; [done|]. split; [right; by constructor|by left].
  - destruct K as [(e & He' & u & Ec & ->)|(_ & [[Hx _]|[_ Hx]] & _)]; [|done|].
    2: { by destruct (Hx (mkEndpoint 130 2 512 0)); [right; left|]. }
    destruct He' as [(Hx & _)|(_ & Hin & Ea)]; [done|]. pose proof (proj1 (proj2 (Hcall _ _ Hin Ea)) eq_refl) as ->.
    unfold call_intf in Ec. rewrite Hp in Ec. cbn in Ec. injection Ec as <- <-.
    eexists _, _, s. split; [reflexivity|]. split; [split; [done|by exists 0%nat]|]. split; [done|].
    assert (Xn : forall b, b = replicate n 97 -> acm_answer (sb_header sb) s b) by (intros b ->; by constructor).
    split; [right; apply Xn; exact Hn|by left].
  - destruct K as [(e & He' & u & Ec & ->)|(_ & [[Hx _]|[_ Hx]] & _)]; [|done|].
    2: { by destruct (Hx (mkEndpoint 2 2 512 0)); [right; right; left|]. }
    destruct He' as [(Hx & _)|(_ & Hin & Ea)]; [done|]. pose proof (proj2 (proj2 (Hcall _ _ Hin Ea)) eq_refl) as ->.
    unfold call_intf in Ec. rewrite Hp in Ec. cbn in Ec. injection Ec as <- <-.
    eexists _, _, s. split; [reflexivity|]. split; [split; [done|by exists n]|]. split; [done|]. split; [right; by constructor|by right].
Qed.
