(** * A Linux client attached to the example programs (C94) *)
From Verif Require Import Examples Cdc PropsSys PropsConn PropsNet ProgProofs PropsReport PropsLinux AttachedProofs.

Lemma program_step {H X} dbg t d (w : world H) (put : IS H -> X -> IS H) n evs c said cmds heard xs :
  program_session dbg t d w put n evs c said cmds heard xs -> ~ answered_badly dbg t evs ->
  linux_session dbg t [d] w n evs c said cmds heard /\ stepping dbg t evs c cmds heard.
Proof.
  intros S B. pose proof (program_linux _ _ _ _ _ _ _ _ _ _ _ _ S) as L. split; [done|].
  by destruct (session_step _ _ _ _ _ _ _ _ _ _ L).
Qed.
Lemma handed_back_all {H X} dbg t d (w : world H) (put : IS H -> X -> IS H) n evs c said cmds heard xs want :
  program_session dbg t d w put n evs c said cmds heard xs -> ~ answered_badly dbg t evs -> alone t evs ->
  caught_up_with dbg t n said heard -> handed_back want cmds (l_notes c) = handed_out want evs.
Proof.
  intros S B A (k & cur & Hk & Ht & Hs & Hg & Hh). destruct (program_step _ _ _ _ _ _ _ _ _ _ _ _ S B) as [L St].
  rewrite (handed_out_alone _ _ _ A).
  destruct (stepping_first _ _ _ _ _ _ St) as [Ec|(f & rest & Ef)].
  { destruct (C93_all_given_back _ _ _ _ _ _ _ _ _ _ _ _ _ L B Hk Ht Hs Hg Hh) as (_ & past & Ep & _ & F & _).
    rewrite Ec in Ep. destruct past; [|discriminate]. inversion F as [E1 E2|]. subst cmds. done. }
  destruct (C93_all_given_back _ _ _ _ _ _ _ _ _ _ _ _ _ L B Hk Ht Hs Hg Hh) as (_ & past & Ep & _ & F & T).
  destruct (session_facts _ _ _ _ _ _ _ _ _ _ L) as (W & U & M & _ & N1). destruct (N1 k Hk) as [Hgp _].
  destruct (proj2 W t k Hk) as (p & cur' & _ & Tk).
  destruct (wtalk_wire _ _ _ _ Tk) as ((rest' & Mk) & _).
  { destruct Hgp as (z & Ez). rewrite Ez in U. by apply all_u8_app in U as [U _]. }
  assert (Hp : (served t evs).*1 `prefix_of` cmds). { destruct Hgp as (z & Ez). rewrite Ez in M. by eapply messages_prefix. }
  assert (E1 : (served t evs).*1 = past.*1).
  { destruct Hp as (z & Ez). rewrite Ep in Ez. pose proof (Forall2_length _ _ _ F) as Hl. rewrite fmap_length in Hl.
    assert (z = []) as ->. { apply length_zero_iff_nil. apply (f_equal length) in Ez. rewrite app_length, !fmap_length in Ez. lia. }
    by rewrite app_nil_r in Ez. }
  apply (past_out dbg want (served t evs) f rest cmds [] past (l_notes c) Ef); [by rewrite app_nil_r|exact E1|exact F|by eapply regular_served|].
  destruct past as [|[c0 b] urbs]; [by destruct T|]. destruct T as [(_ & _ & En & Eu)|(_ & _ & T)]; [by left|by right].
Qed.

(** ** The keyboard *)
Lemma kb_not_badly dbg t d n evs c said cmds heard xs : g_device hid_keyboard dbg = Val d ->
  program_session dbg t d keyboard_world kb_push n evs c said cmds heard xs ->
  Forall (fun r => length (r_keys r) = 6%nat) xs -> Forall kernel_urb cmds ->
  Forall (hid_urb (len (k_report_descriptor new_keyboard))) cmds -> ~ answered_badly dbg t evs.
Proof.
  intros Ed S Hx K U (sb & r & b & Hin & C & T). apply T. clear T.
  destruct (kbi_run _ _ _ _ _ _ _ _ _ _ Ed S) as [_ _ _ _ I].
  destruct (served_layout _ _ _ _ _ _ _ _ _ _ _ _ (program_linux _ _ _ _ _ _ _ _ _ _ _ _ S) Hin) as (Hc & m & Hm & HL).
  rewrite Forall_forall in K, U. apply LinuxProofs.served_in in Hin. exact (I Hx t sb r m b Hin Hm HL (K _ Hc) (U _ Hc) C).
Qed.
Lemma ascii_keys c r : c < 256 -> from_ascii c = Val r -> length (r_keys r) = 6%nat.
Proof.
  intros Hc E. unfold from_ascii in E. repeat case_match; try discriminate; apply Val_inj in E as <-; done.
Qed.

Theorem C94_keyboard : forall dbg t d n evs c said cmds heard xs text,
  g_device hid_keyboard dbg = Val d ->
  program_session dbg t d keyboard_world kb_push n evs c said cmds heard xs ->
  Forall u8 text -> Forall2 (fun c r => from_ascii c = Val r) text xs -> alone t evs ->
  let desc := k_report_descriptor new_keyboard in
  Forall kernel_urb cmds -> Forall (hid_urb (len desc)) cmds ->
  in_step dbg t evs c cmds heard /\
  Forall (fun b => b = desc) (handed_back asks_report cmds (l_notes c)) /\
  exists seen todo, typed_keys text (seen ++ todo) /\
    Forall2 (fun b ks => host_keys desc b = Some ks) (non_empty (handed_back polls_1 cmds (l_notes c))) seen /\
    (caught_up_with dbg t n said heard ->
     k_pending (c_state (w_intf (y_world (n_sys n)) 0)) = [] -> k_state (c_state (w_intf (y_world (n_sys n)) 0)) = KbIdle ->
     todo = []).
Proof.
  intros dbg t d n evs c said cmds heard xs text Ed S Ht HF A desc K U.
  assert (Hx : Forall (fun r => length (r_keys r) = 6%nat) xs).
  { clear -HF Ht. induction HF as [|a r text xs Ha HF IH]; [constructor|]. apply Forall_cons in Ht as [Hc Ht].
    constructor; [by eapply ascii_keys|auto]. }
  pose proof (kb_not_badly _ _ _ _ _ _ _ _ _ _ Ed S Hx K U) as B.
  destruct (program_step _ _ _ _ _ _ _ _ _ _ _ _ S B) as [L St].
  destruct (kbi_run _ _ _ _ _ _ _ _ _ _ Ed S) as [_ _ (shown & I3 & I4) I5 _].
  split; [by apply stepping_in_step|]. split.
  - destruct (handed_back_out _ _ _ _ _ _ _ _ _ _ asks_report L St) as (more & Em).
    rewrite (handed_out_alone _ _ _ A), Em in I5. by apply Forall_app in I5 as [I5 _].
  - destruct (script_keys text xs Ht HF) as (ks & HT & HS).
    pose proof I4 as I4'. rewrite (handed_out_alone _ _ _ A) in I4.
    destruct (handed_back_out _ _ _ _ _ _ _ _ _ _ polls_1 L St) as (more & Em). rewrite Em, non_empty_app in I4.
    apply Forall2_app_inv_l in I4 as (sh1 & sh2 & F1 & F2 & ->).
    rewrite I3, <- app_assoc in HS. apply Forall2_app_inv_l in HS as (seen & todo & HS1 & HS2 & ->).
    exists seen, todo. split; [exact HT|]. split.
    + clear -F1 HS1. revert seen HS1. induction F1 as [|b a bs as_ Hb _ IH]; intros seen HS; inversion HS; subst; constructor; auto.
    + intros Cu Hp Hi. rewrite <- (handed_back_all _ _ _ _ _ _ _ _ _ _ _ _ polls_1 S B A Cu) in I4'.
      apply Forall2_length in I4', F1. rewrite app_length in I4'.
      assert (sh2 = []) as -> by (apply length_zero_iff_nil; lia).
      unfold kb_todo in HS2. rewrite Hp, Hi in HS2. by inversion HS2.
Qed.
Print Assumptions C94_keyboard.

(** ** The serial port *)
Lemma serial_not_badly dbg t d n evs c said cmds heard xs : g_device cdc_acm_serial dbg = Val d ->
  program_session dbg t d serial_world cdc_push n evs c said cmds heard xs ->
  Forall kernel_urb cmds -> Forall (acm_urb (len (mjoin xs))) cmds -> ~ answered_badly dbg t evs.
Proof.
  intros Ed S K U (sb & r & b & Hin & C & T). apply T. clear T.
  destruct (cdci_run _ _ _ _ _ _ _ _ _ _ Ed S) as [_ _ I].
  destruct (served_layout _ _ _ _ _ _ _ _ _ _ _ _ (program_linux _ _ _ _ _ _ _ _ _ _ _ _ S) Hin) as (Hc & m & Hm & HL).
  rewrite Forall_forall in K, U. apply LinuxProofs.served_in in Hin. exact (I t sb r m b Hin Hm HL (K _ Hc) (U _ Hc) C).
Qed.
Lemma handed_back_ext want want' cmds notes : (forall sb, CmdSubmit sb ∈ cmds -> want sb = want' sb) ->
  handed_back want cmds notes = handed_back want' cmds notes.
Proof.
  intros E. unfold handed_back. assert (E' : forall sb, CmdSubmit sb ∈ drop 1 cmds -> want sb = want' sb).
  { intros sb Hs. apply E. apply elem_of_list_lookup in Hs as [i Hi]. rewrite lookup_drop in Hi. by eapply elem_of_list_lookup_2. }
  clear E. revert notes E'. induction (drop 1 cmds) as [|x l IH]; intros [|y notes] E; try done.
  cbn [zip zip_with omap list_omap]. rewrite IH by (intros sb Hs; apply E; by right).
  destruct x as [| |sb|]; try done. rewrite (E sb) by left. done.
Qed.

Theorem C94_serial : forall dbg t d n evs c said cmds heard xs,
  g_device cdc_acm_serial dbg = Val d ->
  program_session dbg t d serial_world cdc_push n evs c said cmds heard xs -> alone t evs ->
  Forall kernel_urb cmds -> Forall (acm_urb (len (mjoin xs))) cmds ->
  in_step dbg t evs c cmds heard /\
  exists todo, mjoin xs = mjoin (handed_back polls_2 cmds (l_notes c)) ++ todo /\
    (caught_up_with dbg t n said heard -> c_tx_buffer (c_state (w_intf (y_world (n_sys n)) 0)) = [] -> todo = []).
Proof.
  intros dbg t d n evs c said cmds heard xs Ed S A K U.
  pose proof (serial_not_badly _ _ _ _ _ _ _ _ _ _ Ed S K U) as B.
  destruct (program_step _ _ _ _ _ _ _ _ _ _ _ _ S B) as [L St].
  destruct (cdci_run _ _ _ _ _ _ _ _ _ _ Ed S) as [_ I _].
  split; [by apply stepping_in_step|].
  rewrite (handed_back_ext polls_2 takes).
  - destruct (handed_back_out _ _ _ _ _ _ _ _ _ _ takes L St) as (more & Em). rewrite (handed_out_alone _ _ _ A), Em in I.
    rewrite <- I. rewrite join_app, <- app_assoc. eexists. split; [done|]. intros Cu Hn. rewrite Hn, app_nil_r.
    rewrite <- (handed_out_alone _ _ _ A), <- (handed_back_all _ _ _ _ _ _ _ _ _ _ _ _ takes S B A Cu) in Em.
    rewrite <- (app_nil_r (handed_back _ _ _)) in Em at 1. apply app_inv_head in Em as <-. done.
  - intros sb Hs. rewrite Forall_forall in U. destruct (U _ Hs sb eq_refl) as [Hi _]. unfold takes. rewrite Hi. by rewrite orb_false_r.
Qed.
Print Assumptions C94_serial.

(** ** Sessions that can be run *)
Inductive pact (H : handlers) (X : Type) := PAct (a : act H) | PPut (x : X).
Arguments PAct {H X} a.
Arguments PPut {H X} x.
Definition act_free {H} (a : act H) : bool := match a with AServer l | ATry l => app_free l | _ => true end.
Definition pact1 {H X} (dbg : bool) (t : tid) (put : IS H -> X -> IS H) (p : play H * list X) (a : pact H X) : option (play H * list X) :=
  match a with
  | PAct a => if act_free a then match act1 dbg t p.1 a with Some p' => Some (p', p.2) | None => None end else None
  | PPut x =>
      let q := p.1 in
      match nstep dbg (p_net q) (NSys (LApp 0 (fun st => put st x))) with
      | Some (n', ev) => Some (mkPlay n' (p_evs q ++ ev) (p_client q) (p_said q) (p_cmds q) (p_heard q), p.2 ++ [x])
      | None => None
      end
  end.
Fixpoint pacts {H X} (dbg : bool) (t : tid) (put : IS H -> X -> IS H) (p : play H * list X) (l : list (pact H X)) : option (play H * list X) :=
  match l with
  | [] => Some p
  | a :: l => match pact1 dbg t put p a with Some p' => pacts dbg t put p' l | None => None end
  end.
Definition pact_ok {H X} (a : pact H X) : Prop := match a with PAct a => act_ok a | PPut _ => True end.
Definition pplays {H X} (dbg : bool) (t : tid) (d : device) (w : world H) (put : IS H -> X -> IS H) (p : play H * list X) : Prop :=
  program_session dbg t d w put (p_net p.1) (p_evs p.1) (p_client p.1) (p_said p.1) (p_cmds p.1) (p_heard p.1) p.2.
Lemma pserver1_ok {H X} dbg t d (w : world H) (put : IS H -> X -> IS H) p xs l p' : server1 dbg t p l = Some p' -> app_free l = true ->
  pplays dbg t d w put (p, xs) -> pplays dbg t d w put (p', xs).
Proof.
  unfold pplays, server1. destruct p as [n evs c said cmds heard]. intros E Hl S. cbn in S, E.
  destruct (nstep dbg n l) as [[n' ev]|] eqn:En; [|discriminate].
  destruct (match n_socks n' !! t with Some k => prefix_b (k_got k) said | None => true end) eqn:Ep; [|discriminate].
  injection E as <-. cbn. eapply ps_server; [exact S|exact En|exact Hl|]. intros k Hk. rewrite Hk in Ep. by apply prefix_b_spec.
Qed.
Lemma pact1_ok {H X} dbg t d (w : world H) (put : IS H -> X -> IS H) p a p' : pact1 dbg t put p a = Some p' -> pact_ok a ->
  pplays dbg t d w put p -> pplays dbg t d w put p'.
Proof.
  destruct p as [p xs]. destruct a as [a|x]; cbn [pact1 pact_ok fst snd]; intros E A S.
  - destruct (act_free a) eqn:Ef; [|discriminate]. destruct (act1 dbg t p a) as [p1|] eqn:E1; [|discriminate]. injection E as <-.
    destruct a as [l|l|m f|m cmd|j]; cbn [act1] in E1.
    + by eapply pserver1_ok.
    + destruct (server1 dbg t p l) as [p2|] eqn:E2; injection E1 as <-; [by eapply pserver1_ok|done].
    + unfold pplays in *. destruct p as [n evs c said cmds heard]. cbn in S, E1. destruct said; [|discriminate].
      destruct cmds; [|discriminate]. injection E1 as <-. cbn. destruct A. by eapply ps_attach.
    + unfold pplays in *. destruct p as [n evs c said cmds heard]. cbn in S, E1.
      destruct c as [[|v| |] unread notes]; try discriminate. destruct (fresh_b v cmd) eqn:Eb; [|discriminate].
      injection E1 as <-. cbn. destruct A. apply ps_send; auto. destruct cmd; cbn in Eb |- *; try discriminate.
      * apply andb_prop in Eb as [F1 F2]. apply bool_decide_eq_true in F1, F2. done.
      * by apply bool_decide_eq_true in Eb.
    + unfold pplays in *. destruct p as [n evs c said cmds heard]. cbn in S, E1.
      destruct (n_socks n !! t) as [k|] eqn:Ek; [|discriminate]. destruct (prefix_b heard (k_sent k)) eqn:Ep; [|discriminate].
      injection E1 as <-. cbn. eapply ps_hear; [exact S|exact Ek|].
      apply prefix_b_spec in Ep as (z & Ez). rewrite Ez, drop_app. apply prefix_app. exists (drop j z). by rewrite take_drop.
  - unfold pplays in *. destruct p as [n evs c said cmds heard]. cbn [p_net p_evs p_client p_said p_cmds p_heard fst snd] in *.
    destruct (nstep dbg n _) as [[n' ev]|] eqn:En; [|discriminate]. injection E as <-. cbn [p_net p_evs p_client p_said p_cmds p_heard fst snd].
    eapply ps_put; [exact S|exact En].
Qed.
Lemma pacts_ok {H X} dbg t d (w : world H) (put : IS H -> X -> IS H) l : forall p p', pacts dbg t put p l = Some p' -> Forall pact_ok l ->
  pplays dbg t d w put p -> pplays dbg t d w put p'.
Proof.
  induction l as [|a l IH]; intros p p' E F S; cbn in E; [by injection E as <-|].
  apply Forall_cons in F as [A F]. destruct (pact1 dbg t put p a) as [p1|] eqn:E1; [|discriminate].
  eapply IH; [exact E|exact F|]. by eapply pact1_ok.
Qed.
Definition after_pacts {H X} (x : option (play H * list X)) (P : play H * list X -> Prop) : Prop := match x with Some p => P p | None => False end.
Lemma after_pacts_run {H X} (x : option (play H * list X)) P : after_pacts x P -> exists p, x = Some p /\ P p.
Proof. destruct x; [|done]. cbn. eauto. Qed.

Definition device_or (o : outcome device) : device := match o with Val d => d | _ => ex_dev end.
(** The client sends [c], the server answers with [n] bytes, the client reads them. *)
Definition urb_cycle {H X} (c : command) (n : N) : list (pact H X) :=
  PAct <$> [ASend (wire c) c; AServer (NArrive 2 (wire c))] ++ pulls 2 ++ serve_urb 2 ++
    [AServer (NWrite 2 n); AServer (NFlushed 2)] ++ pulls 2 ++ [AHear 1000].
Definition kb_poll_urb (seq : N) : command := urb seq 1 1 8 (replicate 8 0) [].
Definition kb_desc_urb (seq : N) : command := urb seq 1 0 1024 [129; 6; 0; 34; 0; 0; 0; 4] [].
Definition kb_cmds : list command :=
  [kb_desc_urb 1; kb_poll_urb 2; kb_poll_urb 3; kb_poll_urb 4; kb_poll_urb 5; kb_poll_urb 6].
Definition char_report (c : N) : kb_report := match from_ascii c with Val r => r | _ => key_1 end.
Definition kb_acts : list (pact keyboard_handlers kb_report) :=
  (PAct <$> attach 2) ++ [PPut (char_report 49)] ++ urb_cycle (kb_desc_urb 1) (48 + len (k_report_descriptor new_keyboard)) ++
  urb_cycle (kb_poll_urb 2) 56 ++ [PPut (char_report 97)] ++ urb_cycle (kb_poll_urb 3) 54 ++ urb_cycle (kb_poll_urb 4) 56 ++
  urb_cycle (kb_poll_urb 5) 54 ++ urb_cycle (kb_poll_urb 6) 48.
Definition idle_net {H} (dbg : bool) (p : play H) : Prop :=
  nstep dbg (p_net p) (NPoll 2) = None /\
  (k_got <$> n_socks (p_net p) !! 2) = Some (p_said p) /\ (k_sent <$> n_socks (p_net p) !! 2) = Some (p_heard p) /\
  (t_pc <$> y_tasks (n_sys (p_net p)) !! 2) = Some PRead.
Lemma idle_caught_up {H} dbg (p : play H) : idle_net dbg p -> caught_up_with dbg 2 (p_net p) (p_said p) (p_heard p).
Proof.
  intros (E1 & E2 & E3 & E4). unfold caught_up_with. destruct (n_socks (p_net p) !! 2) as [k|]; [|discriminate].
  destruct (y_tasks (n_sys (p_net p)) !! 2) as [[pc cur]|]; [|discriminate]. cbn in *. injection E2 as E2. injection E3 as E3. injection E4 as ->.
  by exists k, cur.
Qed.
Definition alone_b (t : tid) (evs : list event) : bool :=
  forallb (fun e => match e with EvServe u (CmdSubmit _) _ => u =? t | _ => true end) evs.
Lemma alone_b_spec t evs : alone_b t evs = true -> alone t evs.
Proof.
  intros E u sb r Hin. unfold alone_b in E. rewrite forallb_forall in E. apply elem_of_list_In in Hin. specialize (E _ Hin). by apply N.eqb_eq.
Qed.
Lemma cycle_ok {H X} c n : wf_command true c -> wf_command false c -> Forall (@pact_ok H X) (urb_cycle c n).
Proof. intros Hc Hc0. unfold urb_cycle. apply Forall_fmap. constructor; [exact (wire_ok true c Hc Hc0)|]. repeat constructor. Qed.
Lemma kb_acts_ok : Forall pact_ok kb_acts.
Proof.
  unfold kb_acts. rewrite !Forall_app. split_and!; try (apply cycle_ok; wf_ex); [|repeat constructor..].
  apply Forall_fmap. apply (attach_ok 2).
Qed.
(** "1a" is typed, the descriptor is asked for, and the client polls five times; client 1 is only
    connected. *)
Example C94_keyboard_example : forall dbg, exists d (p : play keyboard_handlers * list kb_report),
  (g_device hid_keyboard dbg = Val d /\ pplays dbg 2 d keyboard_world kb_push p /\
   Forall u8 [49; 97] /\ Forall2 (fun c r => from_ascii c = Val r) [49; 97] p.2 /\ alone 2 (p_evs p.1) /\
   Forall kernel_urb (p_cmds p.1) /\ Forall (hid_urb (len (k_report_descriptor new_keyboard))) (p_cmds p.1) /\
   caught_up_with dbg 2 (p_net p.1) (p_said p.1) (p_heard p.1)) /\
  let k := c_state (w_intf (y_world (n_sys (p_net p.1))) 0) in
  k_pending k = [] /\ k_state k = KbIdle /\
  handed_back asks_report (p_cmds p.1) (l_notes (p_client p.1)) = [k_report_descriptor new_keyboard] /\
  non_empty (handed_back polls_1 (p_cmds p.1) (l_notes (p_client p.1))) =
    [[0; 0; 30; 0; 0; 0; 0; 0]; [0; 0; 0; 0; 0; 0]; [0; 0; 4; 0; 0; 0; 0; 0]; [0; 0; 0; 0; 0; 0]].
Proof.
  intros dbg. destruct (shaped_ex _ _ (kb_shaped dbg)) as (d & f & Ed & _).
  assert (X : exists p, @pacts keyboard_handlers kb_report dbg 2 kb_push (play0 [device_or (g_device hid_keyboard dbg)] keyboard_world, []) kb_acts = Some p /\
    let k := c_state (w_intf (y_world (n_sys (p_net p.1))) 0) in
    p_cmds p.1 = OpReqImport 0 (field_of id_a) :: kb_cmds /\ p.2 = char_report <$> [49; 97] /\ alone_b 2 (p_evs p.1) = true /\
    idle_net dbg p.1 /\ k_pending k = [] /\ k_state k = KbIdle /\
    handed_back asks_report (p_cmds p.1) (l_notes (p_client p.1)) = [k_report_descriptor new_keyboard] /\
    non_empty (handed_back polls_1 (p_cmds p.1) (l_notes (p_client p.1))) =
    [[0; 0; 30; 0; 0; 0; 0; 0]; [0; 0; 0; 0; 0; 0]; [0; 0; 4; 0; 0; 0; 0; 0]; [0; 0; 0; 0; 0; 0]]).
  { apply after_pacts_run. destruct dbg; vm_compute; repeat split; reflexivity. }
  rewrite Ed in X. destruct X as (p & E & X). exists d, p.
  assert (P : pplays dbg 2 d keyboard_world kb_push p).
  { eapply pacts_ok; [exact E|exact kb_acts_ok|constructor]. }
  clear E. cbv zeta in *. destruct X as (Ec & Ex & Ea & Ei & X). rewrite Ec in *. split_and!; try apply X; auto.
  - repeat constructor.
  - rewrite Ex. repeat constructor.
  - by apply alone_b_spec.
  - assert (S0 : setup_of (replicate 8 0) (mkSetup 0 0 0 0 0)) by (unfold setup_of; do 8 eexists; split; reflexivity).
    repeat (constructor; [intros sb E; try discriminate E|]); [| | | | | |constructor]; injection E as <-.
    { eexists. split; [unfold setup_of; do 8 eexists; split; reflexivity|]. right. cbn. split_and!; lia. }
    all: eexists; (split; [exact S0|]); right; cbn; split_and!; lia.
  - repeat (constructor; [intros sb E; try discriminate E; injection E as <-; split; first [intros Hp; vm_compute in Hp; discriminate Hp|intros _; vm_compute; discriminate|done]|]). constructor.
  - by apply idle_caught_up.
Qed.

Definition acm_read (seq : N) : command := urb seq 1 2 512 (replicate 8 0) [].
Definition acm_acts : list (pact serial_handlers (list N)) :=
  (PAct <$> attach 2) ++ [PPut [97; 98]] ++ urb_cycle (acm_read 1) 50 ++ urb_cycle (acm_read 2) 48 ++
  [PPut [99]; PPut [100; 101]] ++ urb_cycle (acm_read 3) 51.
Lemma acm_acts_ok : Forall pact_ok acm_acts.
Proof.
  unfold acm_acts. rewrite !Forall_app. split_and!; try (apply cycle_ok; wf_ex); [|repeat constructor..].
  apply Forall_fmap. apply (attach_ok 2).
Qed.
Example C94_serial_example : forall dbg, exists d (p : play serial_handlers * list (list N)),
  (g_device cdc_acm_serial dbg = Val d /\ pplays dbg 2 d serial_world cdc_push p /\ alone 2 (p_evs p.1) /\
   Forall kernel_urb (p_cmds p.1) /\ Forall (acm_urb (len (mjoin p.2))) (p_cmds p.1) /\
   caught_up_with dbg 2 (p_net p.1) (p_said p.1) (p_heard p.1)) /\
  c_tx_buffer (c_state (w_intf (y_world (n_sys (p_net p.1))) 0)) = [] /\
  handed_back polls_2 (p_cmds p.1) (l_notes (p_client p.1)) = [[97; 98]; []; [99; 100; 101]].
Proof.
  intros dbg. destruct (shaped_ex _ _ (serial_shaped dbg)) as (d & f & Ed & _).
  assert (X : exists p, @pacts serial_handlers (list N) dbg 2 cdc_push (play0 [device_or (g_device cdc_acm_serial dbg)] serial_world, []) acm_acts = Some p /\
    (p_cmds p.1 = OpReqImport 0 (field_of id_a) :: [acm_read 1; acm_read 2; acm_read 3] /\ p.2 = [[97; 98]; [99]; [100; 101]] /\ alone_b 2 (p_evs p.1) = true /\
    idle_net dbg p.1 /\ c_tx_buffer (c_state (w_intf (y_world (n_sys (p_net p.1))) 0)) = [] /\
    handed_back polls_2 (p_cmds p.1) (l_notes (p_client p.1)) = [[97; 98]; []; [99; 100; 101]])).
  { apply after_pacts_run. destruct dbg; vm_compute; repeat split; reflexivity. }
  rewrite Ed in X. destruct X as (p & E & X). exists d, p.
  assert (P : pplays dbg 2 d serial_world cdc_push p).
  { eapply pacts_ok; [exact E|exact acm_acts_ok|constructor]. }
  clear E. destruct X as (Ec & Ex & Ea & Ei & X). rewrite Ec in *. split_and!; try apply X; auto.
  - by apply alone_b_spec.
  - assert (S0 : setup_of (replicate 8 0) (mkSetup 0 0 0 0 0)) by (unfold setup_of; do 8 eexists; split; reflexivity).
    repeat (constructor; [intros sb E; try discriminate E|]); [| | |constructor]; injection E as <-.
    all: eexists; (split; [exact S0|]); right; cbn; split_and!; lia.
  - rewrite Ex. repeat (constructor; [intros sb E; try discriminate E; injection E as <-; split; first [intros Hp; vm_compute in Hp; discriminate Hp|intros _; vm_compute; discriminate|done]|]). constructor.
  - by apply idle_caught_up.
Qed.
