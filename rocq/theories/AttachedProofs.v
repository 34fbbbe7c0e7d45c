(** * A Linux client attached to an example program: proofs *)
From Verif Require Export SpecAttached LinuxProofs.
From Verif Require Import ProgProofs.

Lemma program_linux {H X} dbg t d (w : world H) (put : IS H -> X -> IS H) n evs c said cmds heard xs :
  program_session dbg t d w put n evs c said cmds heard xs -> linux_session dbg t [d] w n evs c said cmds heard.
Proof.
  induction 1.
  - constructor.
  - by eapply ls_server.
  - eapply ls_server; [done|exact H1|]. intros k Hk.
    assert (E : n_socks n' = n_socks n).
    { cbn in H1. unfold sys_step in H1. destruct (step dbg (n_sys n) _) as [[s e]|]; [|discriminate]. injection H1 as <- _. done. }
    rewrite E in Hk. destruct (session_facts _ _ _ _ _ _ _ _ _ _ IHprogram_session) as (_ & _ & _ & _ & N1). by apply N1.
  - by eapply ls_attach.
  - by eapply ls_send.
  - by eapply ls_hear.
Qed.

(** ** The steps of the server *)
Definition step_label {H} (l : label H) : Prop :=
  match l with LAdd _ _ | LRemove _ _ | LApp _ _ => False | _ => True end.
Lemma nstep_label {H} dbg (n n' : net H) l ev : nstep dbg n l = Some (n', ev) -> app_free l = true ->
  (ev = [] /\ n_sys n' = n_sys n) \/ exists l', step_label l' /\ move dbg (n_sys n) l' (n_sys n') ev.
Proof.
  intros E Hl. assert (X : forall n0 l', n_sys n0 = n_sys n -> step_label l' -> sys_step dbg n0 l' = Some (n', ev) ->
    (ev = [] /\ n_sys n' = n_sys n) \/ exists l', step_label l' /\ move dbg (n_sys n) l' (n_sys n') ev).
  { intros n0 l' <- Hl' E'. apply sys_step_move in E' as (M & _). eauto. }
  destruct l as [l|u c|u f|u|u m|u|u e]; cbn [nstep] in E.
  - destruct (socket_label l) eqn:Es; [discriminate|]. destruct l; try discriminate; (eapply X; [| |exact E]; done).
  - destruct (n_socks n !! u) as [[i [f|] r b p g s]|]; try discriminate. destruct c; [discriminate|]. injection E as <- <-. by left.
  - destruct (n_socks n !! u) as [[i [?|] r b p g s]|]; try discriminate. injection E as <- <-. by left.
  - destruct (n_socks n !! u) as [k|]; [|discriminate]. destruct (y_tasks (n_sys n) !! u) as [[[] ?]|]; try discriminate.
    destruct (polled u k) as [l'|] eqn:Ep.
    + eapply X; [done| |exact E]. unfold polled in Ep. repeat case_match; try discriminate; by injection Ep as <-.
    + destruct (poll k); [|discriminate]. injection E as <- <-. by left.
  - destruct (n_socks n !! u) as [[i f r b p g s]|]; [|discriminate].
    destruct (y_tasks (n_sys n) !! u) as [[[] ?]|]; try discriminate.
    destruct (_ && _); [|discriminate]. injection E as <- <-. by left.
  - destruct (n_socks n !! u) as [[i f r b p g s]|]; [|discriminate].
    destruct (y_tasks (n_sys n) !! u) as [[[] ?]|]; try discriminate.
    destruct (_ =? _); [|discriminate]. eapply X; [| |exact E]; done.
  - destruct (n_socks n !! u) as [[i f r b p g s]|]; [|discriminate].
    eapply X; [| |exact E]; done.
Qed.
Definition event_of (ev : list event) (u : tid) (sb : submit) (r : outcome response) : Prop :=
  ev = [EvServe u (CmdSubmit sb) r] \/ exists e, ev = [EvServe u (CmdSubmit sb) r; EvEnd u e].

(** An invariant of the world, what the application has put in, and what has happened. *)
Lemma program_inv {H X} dbg t d (w : world H) (put : IS H -> X -> IS H) (Inv : world H -> list X -> list event -> Prop) :
  Inv w [] [] ->
  (forall w1 xs evs x, c_poisoned (w_intf w1 0) = false -> Inv w1 xs evs ->
     Inv (set_intf w1 0 (mkCell false (put (c_state (w_intf w1 0)) x))) (xs ++ [x]) evs) ->
  (forall w1 xs evs ev, Inv w1 xs evs -> no_urb ev -> Inv w1 xs (evs ++ ev)) ->
  (forall w1 xs evs u sb r w2 ev, Inv w1 xs evs -> event_of ev u sb r ->
     (r = Panic PUnwrapNone /\ w2 = w1) \/ serve_submit dbg w1 (Some d) sb = (r, w2) -> Inv w2 xs (evs ++ ev)) ->
  forall n evs c said cmds heard xs, program_session dbg t d w put n evs c said cmds heard xs ->
  Inv (y_world (n_sys n)) xs evs.
Proof.
  intros I0 Ip In Is n evs c said cmds heard xs S.
  enough (ProgProofs.quiet (fun _ => True) d (n_sys n) /\ Inv (y_world (n_sys n)) xs evs) as [_ ?] by done.
  induction S as [|n evs c said cmds heard xs l n' ev S [Q I] E Hl Hg|n evs c said cmds heard xs x n' ev S [Q I] E| | |]; try done.
  - split; [|exact I0]. split; cbn.
    + split; cbn; [by intros x ->%elem_of_list_singleton|]. intros k x Hk. by rewrite lookup_empty in Hk.
    + intros t' k Hk. cbn in Hk. by rewrite lookup_empty in Hk.
  - destruct (nstep_label _ _ _ _ _ E Hl) as [[-> Es]|(l' & Hl' & M)].
    + rewrite app_nil_r, Es. done.
    + destruct (quiet_move _ (fun _ => True) d _ _ _ _ M Q) as [Q' K]; [by destruct l'|]. split; [exact Q'|].
      destruct K as [[Hn Ew]|(u & sb & cur & r & w' & _ & _ & _ & Er & Ew & Hc & He)].
      * rewrite Ew. by apply In.
      * rewrite Ew. apply (Is (y_world (n_sys n)) xs evs u sb r w' ev); [done|exact He|].
        destruct Hc as [Hc|Hc]; rewrite Hc in Er; [left|by right]. cbn in Er. by injection Er as <- <-.
  - cbn in E. unfold sys_step in E. cbn [step] in E. destruct (c_poisoned (w_intf (y_world (n_sys n)) 0)) eqn:Ep; [discriminate|].
    injection E as <- <-. cbn. rewrite app_nil_r. split; [|by apply Ip]. destruct Q as [Q1 Q2]. split; [done|]. intros u k Hk. by apply (Q2 u).
Qed.

(** ** What the client has been handed is what the server has handed out *)
Definition out_of (want : submit -> bool) (cr : command * outcome response) : option (list N) :=
  match cr with
  | (CmdSubmit sb, Val (RetSubmit rs)) => if want sb then Some (rs_transfer_buffer rs) else None
  | _ => None
  end.
Lemma handed_out_alone want t evs : alone t evs -> handed_out want evs = omap (out_of want) (served t evs).
Proof.
  induction evs as [|e evs IH]; intros A; [done|].
  assert (A' : alone t evs) by (intros u sb r Hx; apply (A u sb r); by right). specialize (IH A').
  change (e :: evs) with ([e] ++ evs). rewrite handed_out_app, served_app, omap_app, <- IH. f_equal.
  destruct e as [u c r|u|u|u|u|u]; try done. destruct c as [|?|sb|? ?].
  - unfold served. cbn. destruct (u =? t); done.
  - unfold served. cbn. destruct (u =? t); done.
  - assert (u = t) as -> by (apply (A u sb r); left). unfold served. cbn. rewrite N.eqb_refl. cbn.
    destruct r as [[]| |]; try done.
  - unfold served. cbn. destruct (u =? t); done.
Qed.
Lemma ret_submit_data dbg rs b : rs_iso rs = [] -> response_to_bytes dbg (RetSubmit rs) = Val b -> drop 48 b = rs_transfer_buffer rs.
Proof.
  intros Hi E. cbn [response_to_bytes] in E. unfold debug_assert in E.
  destruct (dbg && _); [discriminate|]. destruct (dbg && _); [discriminate|]. apply Val_inj in E as <-.
  rewrite Hi, app_nil_r. rewrite !app_assoc. apply drop_app_alt.
  rewrite !app_length. unfold header_to_bytes. rewrite !app_length. by rewrite !be32_length, replicate_length.
Qed.
Lemma serve_submit_data {H} dbg (w : world H) od sb x w' : serve_submit dbg w od sb = (Val x, w') ->
  exists rs, x = RetSubmit rs /\ rs_iso rs = [].
Proof.
  unfold serve_submit. destruct od as [d|]; [|discriminate]. destruct (find_ep _ _) as [[e i]|].
  - destruct (handle_urb _ _ _ _ _ _ _ _) as [[] w1]; intros E; try discriminate; injection E as <- <-; eexists; done.
  - intros E. injection E as <- <-. eexists. done.
Qed.
Lemma told_data sb b n : told (CmdSubmit sb, b) n -> exists seq st, n = GivenBack seq st (drop 48 b).
Proof.
  cbn. intros [(data & R & ->)|[R ->]].
  - pose proof (ok_length _ _ _ R) as L. destruct R as (_ & _ & _ & _ & _ & _ & _ & _ & B & _).
    cbn [rs_transfer_buffer] in B. unfold bytes_at in B. rewrite <- B. do 2 eexists. f_equal.
    apply take_ge. rewrite drop_length. lia.
  - pose proof (fail_length _ _ R) as L. rewrite drop_ge by lia. eauto.
Qed.
Lemma stepping_first dbg t evs c cmds heard : stepping dbg t evs c cmds heard ->
  cmds = [] \/ exists f rest, cmds = OpReqImport 0 f :: rest.
Proof.
  intros (dn & pending & l1 & later & Ec & _ & _ & _ & _ & _ & St). destruct dn as [|[c0 b] urbs].
  - destruct St as (_ & _ & [-> |[f ->]]); [by left|right]. subst cmds. by exists f, [].
  - destruct St as (f & -> & _). right. subst cmds. by exists f, (urbs.*1 ++ pending).
Qed.

Definition regular (l : list (command * outcome response)) : Prop :=
  forall sb x, (CmdSubmit sb, Val x) ∈ l -> exists rs, x = RetSubmit rs /\ rs_iso rs = [].
Lemma told_out dbg (want : submit -> bool) (l : list (command * outcome response)) : forall (urbs : list (command * list N)) notes,
  l.*1 = urbs.*1 -> Forall2 (carries dbg) l urbs.*2 -> regular l -> Forall2 told urbs notes ->
  omap (fun cn : command * l_note => match cn with
                  | (CmdSubmit sb, GivenBack _ _ data) => if want sb then Some data else None
                  | _ => None
                  end) (zip urbs.*1 notes) = omap (out_of want) l.
Proof.
  induction l as [|[c r] l IH]; intros urbs notes E1 F R T; destruct urbs as [|[c' b] urbs]; try discriminate.
  - by inversion T.
  - cbn in E1. injection E1 as <- E1. rewrite fmap_cons in F. apply Forall2_cons_1 in F as [C F].
    apply Forall2_cons_inv_l in T as (n & notes' & Tn & T & ->). cbn [fst snd] in *.
    assert (R' : regular l) by (intros sb x Hx; apply (R sb x); by right).
    specialize (IH _ _ E1 F R' T). destruct C as [_ (x & Er & Eb)]. cbn [fst snd] in *. subst r.
    rewrite fmap_cons. cbn [zip zip_with omap list_omap fst out_of].
    destruct c as [?|? ?|sb|h us]; [done|done| |by cbn in Tn; subst n].
    destruct (told_data _ _ _ Tn) as (sq & st & ->). destruct (R sb x) as (rs & -> & Hi); [left|].
    rewrite (ret_submit_data _ _ _ Hi Eb). destruct (want sb); by rewrite <- IH.
Qed.
Lemma regular_served {H} dbg t ds (w : world H) n evs c said cmds heard :
  linux_session dbg t ds w n evs c said cmds heard -> regular (served t evs).
Proof.
  intros S sb x Hx. destruct (session_submits _ _ _ _ _ _ _ _ _ _ S) as (_ & _ & Sb).
  destruct (Sb _ _ Hx) as (_ & w1 & od & w2 & Es & _). by eapply serve_submit_data.
Qed.
Lemma past_out dbg want (l : list (command * outcome response)) f rest cmds pending (past : list (command * list N)) notes :
  cmds = OpReqImport 0 f :: rest -> cmds = past.*1 ++ pending -> l.*1 = past.*1 -> Forall2 (carries dbg) l past.*2 -> regular l ->
  match past with [] => notes = [] | _ :: urbs => (urbs = [] /\ notes = []) \/ Forall2 told urbs notes end ->
  handed_back want cmds notes = omap (out_of want) l.
Proof.
  intros Ef Ec E1 F R T. unfold handed_back. destruct past as [|[c0 b0] urbs].
  - subst notes. destruct l; [|discriminate]. by rewrite zip_with_nil_r.
  - destruct l as [|[c r] l]; [discriminate|]. rewrite !fmap_cons in *. cbn [fst snd] in *. injection E1 as -> E1.
    rewrite Ec in Ef. cbn in Ef. injection Ef as -> _. rewrite Ec. cbn [drop app].
    apply Forall2_cons_1 in F as [_ F].
    assert (R' : regular l) by (intros sb x Hx; apply (R sb x); by right).
    cbn [omap list_omap out_of]. destruct T as [[-> ->]|T].
    + destruct l; [|discriminate]. by rewrite zip_with_nil_r.
    + rewrite <- (told_out dbg want l urbs notes E1 F R' T). f_equal.
      rewrite drop_0. clear -T. revert notes T. induction urbs as [|u urbs IH]; intros notes T; inversion T; subst; cbn.
      { by rewrite zip_with_nil_r. }
      f_equal. by apply IH.
Qed.
(** The server may be ahead of the client. *)
Lemma handed_back_out {H} dbg t ds (w : world H) n evs c said cmds heard want :
  linux_session dbg t ds w n evs c said cmds heard -> stepping dbg t evs c cmds heard ->
  exists more, omap (out_of want) (served t evs) = handed_back want cmds (l_notes c) ++ more.
Proof.
  intros S St. pose proof (regular_served _ _ _ _ _ _ _ _ _ _ S) as R.
  destruct (stepping_first _ _ _ _ _ _ St) as [-> |(f & rest & Ef)].
  { unfold handed_back. cbn. eauto. }
  destruct St as (dn & pending & l1 & later & Ec & _ & Es & E1 & F & _ & St). rewrite Es, omap_app.
  exists (omap (out_of want) later). f_equal. symmetry. eapply past_out; eauto.
  - intros sb x Hx. apply (R sb x). rewrite Es. apply elem_of_app. by left.
  - destruct dn as [|[c0 b] urbs]; [by destruct St as (_ & En & _)|].
    destruct St as (f' & _ & [(_ & _ & En & _ & Eu)|(_ & _ & _ & T)]); [by left|by right].
Qed.

(** ** The keyboard *)
Lemma kb_quiet : SpecTransfer.quiet keyboard_handlers.
Proof.
  split.
  - intros st f e tbl s req st' data E He Hr. cbn [i_step keyboard_handlers] in E. unfold kb_handle_urb in E.
    apply ep_direction_out in He. rewrite He in E.
    destruct (is_ep0 e).
    + destruct (N.eqb_spec (s_request_type s) 129) as [E1|_]; [lia|]. cbn [andb] in E. repeat case_match; congruence.
    + congruence.
  - intros st tbl s req st' data E _. cbn in E. congruence.
Qed.
Record kbi (dbg : bool) (w : world keyboard_handlers) (xs : list kb_report) (evs : list event) : Prop := mkKbi {
  kbi_desc : k_report_descriptor (c_state (w_intf w 0)) = k_report_descriptor new_keyboard;
  kbi_pending : forall r, r ∈ k_pending (c_state (w_intf w 0)) -> r ∈ xs;
  kbi_keys : exists shown, script xs = shown ++ kb_todo (c_state (w_intf w 0)) /\
     Forall2 shows (non_empty (handed_out polls_1 evs)) shown;
  kbi_report : Forall (fun b => b = k_report_descriptor new_keyboard) (handed_out asks_report evs);
  kbi_fit : Forall (fun r => length (r_keys r) = 6%nat) xs ->
     forall u sb r m b, EvServe u (CmdSubmit sb) r ∈ evs -> all_u8 m = true -> cmd_layout dbg m (CmdSubmit sb) ->
     kernel_urb (CmdSubmit sb) -> hid_urb (len (k_report_descriptor new_keyboard)) (CmdSubmit sb) ->
     carries dbg (CmdSubmit sb, r) b -> takes_up sb b }.
Lemma kb_call_cases k f e tbl s req :
  (kb_handle_urb k f e tbl s req = CallOk k (k_report_descriptor k) /\ is_ep0 e = true) \/
  kb_handle_urb k f e tbl s req = CallOk k [] \/
  (exists p, kb_handle_urb k f e tbl s req = CallPanic k p) \/
  (is_ep0 e = false /\
   ((exists r rest, k_pending k = r :: rest /\ kb_handle_urb k f e tbl s req =
      CallOk (mkKeyboard (k_report_descriptor k) rest KbKeyDown) ([r_modifier r; 0] ++ r_keys r)) \/
    kb_handle_urb k f e tbl s req = CallOk (mkKeyboard (k_report_descriptor k) (k_pending k) KbIdle) (replicate 6 0))).
Proof.
  unfold kb_handle_urb. destruct (is_ep0 e) eqn:E0.
  - destruct (_ && _).
    { destruct (hid_desc_type_of _) as [[]|]; first [by left|right; right; left; by eexists]. }
    destruct (_ && _); first [by right; left|right; right; left; by eexists].
  - destruct (ep_direction e); [|by right; left]. right. destruct (k_state k).
    + destruct (k_pending k) as [|r rest]; [by left|]. right; right. split; [done|]. left. by exists r, rest.
    + right; right. split; [done|]. by right.
Qed.
Lemma kb_serve_state dbg (w : world keyboard_handlers) d f sb r w' : shape d [mkEndpoint 129 3 8 10] f ->
  serve_submit dbg w (Some d) sb = (r, w') ->
  k_report_descriptor (c_state (w_intf w' 0)) = k_report_descriptor (c_state (w_intf w 0)) /\
  (forall x, x ∈ k_pending (c_state (w_intf w' 0)) -> x ∈ k_pending (c_state (w_intf w 0))) /\
  (asks_report sb = true -> forall rs, r = Val (RetSubmit rs) -> rs_transfer_buffer rs = k_report_descriptor (c_state (w_intf w 0))).
Proof.
  intros Hs E. pose proof (shape_serve _ _ _ _ _ _ _ _ Hs ltac:(intros e ->%elem_of_list_singleton; cbn; lia) E) as K. cbv zeta in *.
  set (a := ep_byte (sb_header sb)) in *.
  destruct K as [(e & He & u & Ec & ->)|(-> & Ha & _ & _)].
  - unfold call_intf in Ec. destruct (c_poisoned (w_intf w 0)).
    { injection Ec as <- <-. done. }
    set (k := c_state (w_intf w 0)) in *. cbn [i_step keyboard_handlers] in Ec. split_and!.
    + destruct (kb_call_cases k f e (sb_transfer_buffer_length sb) (setup_parse (sb_setup sb)) (sb_data sb))
        as [[E1 _]|[E1|[[p E1]|[_ [(x & rest & Ex & E1)|E1]]]]]; rewrite E1 in Ec; injection Ec as <- <-; done.
    + destruct (kb_call_cases k f e (sb_transfer_buffer_length sb) (setup_parse (sb_setup sb)) (sb_data sb))
        as [[E1 _]|[E1|[[p E1]|[_ [(x & rest & Ex & E1)|E1]]]]]; rewrite E1 in Ec; injection Ec as <- <-; cbn; try done.
      intros y Hy. rewrite Ex. by right.
    + intros Hq rs Er. unfold asks_report in Hq. fold a in Hq. apply andb_prop in Hq as [Ha Hq].
      apply N.eqb_eq in Ha. apply bool_decide_eq_true in Hq.
      destruct He as [(_ & _ & Ea & _)|(Hx & _)]; [|by rewrite Ha in Hx].
      assert (Eh : kb_handle_urb k f e (sb_transfer_buffer_length sb) (setup_parse (sb_setup sb)) (sb_data sb) = CallOk k (k_report_descriptor k)).
      { destruct (sb_setup sb) as [|b0 [|b1 [|b2 [|b3 [|b4 [|b5 r5]]]]]]; try discriminate.
        cbn in Hq. injection Hq as -> -> -> -> -> ->. unfold kb_handle_urb, is_ep0. rewrite Ea, Ha. done. }
      rewrite Eh in Ec. injection Ec as <- <-. cbn in Er. by injection Er as <-.
  - split; [done|]. split; [done|]. intros Hq. exfalso. unfold asks_report in Hq. fold a in Hq. apply andb_prop in Hq as [Hb Hq].
    apply N.eqb_eq in Hb. apply bool_decide_eq_true in Hq. destruct Ha as [[_ Ht]|[Hx _]]; [|by rewrite Hb in Hx]. apply Ht.
    unfold to_interface. destruct (sb_setup sb) as [|b0 [|b1 [|b2 [|b3 [|b4 [|b5 r5]]]]]]; try discriminate.
    cbn in Hq. injection Hq as -> -> -> -> -> ->. by split.
Qed.

(** Devices of that shape: where an IN submit can get to. *)
Lemma shape_routed d es f sb e i s t : shape d es f -> (forall e, e ∈ es -> 1 <= ep_attributes e <= 3) ->
  addressed d (ep_byte (sb_header sb)) e i -> setup_of (sb_setup sb) s -> h_direction (sb_header sb) = 1 -> routed d e i s t ->
  t = TIntf f /\
  ((e ∈ es /\ ep_address e = ep_byte (sb_header sb)) \/ (interface_in sb = true /\ ep_address e = 128 /\ ep_attributes e = 0)).
Proof.
  intros [[Ia It] [Oa Ot] Hf He Hh Hd] Hes A (b0&b1&b2&b3&b4&b5&b6&b7&Eb&Es) Hdir R.
  assert (Ha : 128 <= ep_byte (sb_header sb)) by (unfold ep_byte; rewrite Hdir; cbn; lia).
  assert (A' : (e ∈ es /\ ep_address e = ep_byte (sb_header sb) /\ i = Some f) \/ (ep_byte (sb_header sb) = 128 /\ ep_address e = 128 /\ ep_attributes e = 0 /\ i = None)).
  { destruct A as [A|A1 A2|fs1 g fs2 es1 e es2 A1 A2 A3 A4 A5 A6 A7].
    - right. rewrite Ia in A. by rewrite <- A.
    - exfalso. rewrite Oa in A2. lia.
    - left. rewrite Hf in A3. destruct fs1 as [|? [|]]; try discriminate A3. injection A3 as <- <-. split_and!; try done.
      rewrite He in A5. rewrite A5. apply elem_of_app. right. left. }
  destruct R as [g R1 R2|g R1 R2 R3 R4|r R1 R2 R3 R4].
  - destruct A' as [(A1 & A2 & A3)|(_ & _ & _ & A3)]; [|congruence]. split; [congruence|]. by left.
  - destruct A' as [(A1 & _)|(A1 & A2 & A3 & _)]; [specialize (Hes _ A1); lia|].
    split.
    + rewrite Hf in R4. f_equal. apply elem_of_list_lookup_2, elem_of_list_singleton in R4. done.
    + right. split; [|done]. unfold interface_in. rewrite A1, Eb. rewrite Es in R3. cbn in R3. cbn [nth]. by rewrite R3.
  - congruence.
Qed.

Definition fits (o : outcome device) : bool :=
  match o with
  | Val d => (config_size d <? 65536) && forallb (fun kv => 2 + 2 * len (utf16 kv.2) <? 65536) (map_to_list (d_string_pool d))
  | _ => true
  end.
Lemma fits_fit o d : fits o = true -> o = Val d -> descriptors_fit d.
Proof.
  intros Hf ->. apply andb_prop in Hf as [F1 F2]. split; [by apply N.ltb_lt|]. intros i s Hs. rewrite forallb_forall in F2.
  apply N.ltb_lt, (F2 (i, s)), elem_of_list_In. by apply elem_of_map_to_list.
Qed.
Lemma kb_fits dbg : fits (g_device hid_keyboard dbg) = true.
Proof. destruct dbg; vm_compute; reflexivity. Qed.
Lemma serial_fits dbg : fits (g_device cdc_acm_serial dbg) = true.
Proof. destruct dbg; vm_compute; reflexivity. Qed.

Lemma kbi_run dbg t d n evs c said cmds heard xs : g_device hid_keyboard dbg = Val d ->
  program_session dbg t d keyboard_world kb_push n evs c said cmds heard xs -> kbi dbg (y_world (n_sys n)) xs evs.
Proof.
  intros Ed S. destruct (shaped_ex _ _ (kb_shaped dbg)) as (d' & f & Ed' & Hs). rewrite Ed in Ed'. injection Ed' as <-.
  pose proof (fits_fit _ _ (kb_fits dbg) Ed) as Fit.
  revert n evs c said cmds heard xs S. apply (program_inv dbg t d keyboard_world kb_push (kbi dbg)).
  - split; cbn; try done.
    + exists []. split; [done|constructor].
    + intros _ u sb r m b Hin. by apply elem_of_nil in Hin.
  - intros w1 xs evs x Hp [I1 I2 (shown & I3 & I4) I5 I6]. split; cbn [set_intf w_intf N.eqb c_state kb_push k_report_descriptor k_pending]; try done.
    + intros r Hr. apply elem_of_app in Hr as [Hr|Hr]; apply elem_of_app; [left; by apply I2|by right].
    + exists shown. split; [|done]. rewrite script_app, I3, <- app_assoc. f_equal.
      unfold kb_todo, kb_push. cbn [k_state k_pending]. rewrite script_app, <- app_assoc. done.
    + intros [Hf _]%Forall_app. by apply I6.
  - intros w1 xs evs ev [I1 I2 I3 I4 I5] Hn. split; try done.
    + by rewrite handed_out_app, (no_urb_handed _ _ Hn), app_nil_r.
    + by rewrite handed_out_app, (no_urb_handed _ _ Hn), app_nil_r.
    + intros Hf u sb r m b [Hin|Hin]%elem_of_app; [by apply (I5 Hf u sb r m b)|by apply Hn in Hin].
  - intros w1 xs evs u sb r w2 ev [I1 I2 (shown & I3 & I4) I5 I6] He Hr.
    destruct Hr as [[-> ->]|Er].
    { split; try done.
      + rewrite handed_out_app, (served_handed _ _ _ _ _ He), app_nil_r. eauto.
      + by rewrite handed_out_app, (served_handed _ _ _ _ _ He), app_nil_r.
      + intros Hf u' sb' r' m b [Hin|Hin]%elem_of_app; [by apply (I6 Hf u' sb' r' m b)|].
        apply (ProgProofs.served_in _ _ _ _ _ _ _ He) in Hin as (-> & -> & ->). intros _ _ _ _ [_ (x & Hx & _)]. discriminate Hx. }
    destruct (kb_serve_state _ _ _ _ _ _ _ Hs Er) as (J1 & J2 & J3).
    split.
    + congruence.
    + auto.
    + rewrite handed_out_app, (served_handed _ _ _ _ _ He), non_empty_app.
      pose proof (kb_serve _ _ _ _ _ _ _ Hs Er) as K. cbv zeta in K. destruct (polls_1 sb) eqn:Epo.
      * destruct K as [(_ & -> & ->)|(_ & _ & rs & -> & Km)]; [rewrite app_nil_r; eauto|].
        destruct (kb_todo (c_state (w_intf w1 0))) as [|x rest].
        -- destruct Km as [-> ->]. cbn. rewrite app_nil_r. eauto.
        -- destruct Km as (Hb & Hx & ->). exists (shown ++ [x]). split; [by rewrite I3, <- app_assoc|].
           apply Forall2_app; [done|]. unfold non_empty. rewrite filter_cons_True by done. by repeat constructor.
      * destruct K as (-> & _). assert (Ez : match r with Val (RetSubmit rs) => [] | _ => ([] : list (list N)) end = []) by (by destruct r as [[]| |]).
        rewrite Ez, app_nil_r. eauto.
    + rewrite handed_out_app, (served_handed _ _ _ _ _ He). apply Forall_app. split; [done|].
      destruct r as [[| |rs|]| |]; try constructor. destruct (asks_report sb) eqn:Eq; [|constructor].
      repeat constructor. rewrite (J3 eq_refl rs eq_refl). done.
    + intros Hf u' sb' r' m b [Hin|Hin]%elem_of_app; [by apply (I6 Hf u' sb' r' m b)|].
      apply (ProgProofs.served_in _ _ _ _ _ _ _ He) in Hin as (-> & -> & ->). intros Um HL Hk Hu Hc.
      apply (kernel_takes_up_at dbg w1 w2 (Some d) sb r b m kb_quiet); try done; [|by intros d0 [= <-]].
      intros d0 e i s tg data [= <-] Ha Hset Hdir Hrt Hans. destruct (Hu sb eq_refl) as [U1 U2].
      destruct (shape_routed _ _ _ _ _ _ _ _ Hs ltac:(intros z ->%elem_of_list_singleton; cbn; lia) Ha Hset Hdir Hrt) as [-> Hcase].
      cbn [handler_answer] in Hans. rewrite (sh_handler _ _ _ Hs) in Hans. cbn [i_step keyboard_handlers] in Hans.
      assert (H0 : len ([] : list N) = 0) by done.
      destruct Hcase as [[Hin Hea]|[Hii [Hea _]]].
      * apply elem_of_list_singleton in Hin as ->. cbn in Hea. assert (Hp1 : polls_1 sb = true) by (unfold polls_1; by rewrite <- Hea).
        specialize (U1 Hp1).
        destruct (kb_call_cases (c_state (w_intf w1 0)) f (mkEndpoint 129 3 8 10) (sb_transfer_buffer_length sb) s (sb_data sb))
          as [[_ E1]|[E1|[[p E1]|[_ [(x & rest & Ex & E1)|E1]]]]]; [discriminate E1|..]; rewrite E1 in Hans; cbn [call_answer] in Hans; try discriminate Hans;
          injection Hans as <-; [lia| |change (len [0; 0; 0; 0; 0; 0]) with 6; lia].
        assert (Hx : length (r_keys x) = 6%nat). { rewrite Forall_forall in Hf. apply Hf, I2. rewrite Ex. left. }
        unfold len. cbn [length app]. rewrite Hx. lia.
      * specialize (U2 Hii).
        destruct (kb_call_cases (c_state (w_intf w1 0)) f e (sb_transfer_buffer_length sb) s (sb_data sb))
          as [[E1 _]|[E1|[[p E1]|[E0 _]]]]; [..|by unfold is_ep0 in E0; rewrite Hea in E0]; rewrite E1 in Hans; cbn [call_answer] in Hans; rewrite ?I1 in Hans; try discriminate Hans;
          injection Hans as <-; [exact U2|lia].
Qed.

(** ** The serial port *)
Lemma serial_quiet : SpecTransfer.quiet serial_handlers.
Proof.
  split.
  - intros st f e tbl s req st' data E He Hr. cbn [i_step serial_handlers] in E. unfold cdc_handle_urb in E.
    apply ep_direction_out in He. rewrite He in E. repeat case_match; congruence.
  - intros st tbl s req st' data E _. cbn in E. congruence.
Qed.
Record cdci (dbg : bool) (w : world serial_handlers) (xs : list (list N)) (evs : list event) : Prop := mkCdci {
  cdci_fine : c_poisoned (w_intf w 0) = false;
  cdci_bytes : mjoin (handed_out takes evs) ++ c_tx_buffer (c_state (w_intf w 0)) = mjoin xs;
  cdci_fit : forall u sb r m b, EvServe u (CmdSubmit sb) r ∈ evs -> all_u8 m = true -> cmd_layout dbg m (CmdSubmit sb) ->
     kernel_urb (CmdSubmit sb) -> acm_urb (len (mjoin xs)) (CmdSubmit sb) ->
     carries dbg (CmdSubmit sb, r) b -> takes_up sb b }.
Lemma acm_le n n' c : n <= n' -> acm_urb n' c -> acm_urb n c.
Proof. intros Hn Hc sb E. destruct (Hc sb E) as [? Hp]. split; [done|]. intros Hx. specialize (Hp Hx). lia. Qed.
Lemma cdci_run dbg t d n evs c said cmds heard xs : g_device cdc_acm_serial dbg = Val d ->
  program_session dbg t d serial_world cdc_push n evs c said cmds heard xs -> cdci dbg (y_world (n_sys n)) xs evs.
Proof.
  intros Ed S. destruct (shaped_ex _ _ (serial_shaped dbg)) as (d' & f & Ed' & Hs). rewrite Ed in Ed'. injection Ed' as <-.
  pose proof (fits_fit _ _ (serial_fits dbg) Ed) as Fit.
  assert (Hat : forall e, e ∈ cdc_endpoints -> 1 <= ep_attributes e <= 3).
  { intros e He. unfold cdc_endpoints in He. rewrite !elem_of_cons, elem_of_nil in He.
    destruct He as [-> |[-> |[-> |[]]]]; cbn; lia. }
  revert n evs c said cmds heard xs S. apply (program_inv dbg t d serial_world cdc_push (cdci dbg)).
  - split; [done|done|]. intros u sb r m b Hin. by apply elem_of_nil in Hin.
  - intros w1 xs evs x Hp [I1 I2 I3]. split; cbn [set_intf w_intf N.eqb c_state c_poisoned cdc_push c_tx_buffer]; try done.
    + rewrite app_assoc, I2, join_app. cbn. by rewrite app_nil_r.
    + intros u sb r m b Hin Um HL Hk Hu. apply (I3 u sb r m b); try done. eapply acm_le; [|exact Hu].
      rewrite join_app. unfold len. rewrite app_length. lia.
  - intros w1 xs evs ev [I1 I2 I3] Hn. split; try done.
    + by rewrite handed_out_app, (no_urb_handed _ _ Hn), app_nil_r.
    + intros u sb r m b [Hin|Hin]%elem_of_app; [by apply (I3 u sb r m b)|by apply Hn in Hin].
  - intros w1 xs evs u sb r w2 ev [I1 I2 I3] He Hr.
    destruct Hr as [[-> ->]|Er].
    { split; try done.
      + by rewrite handed_out_app, (served_handed _ _ _ _ _ He), app_nil_r.
      + intros u' sb' r' m b [Hin|Hin]%elem_of_app; [by apply (I3 u' sb' r' m b)|].
        apply (ProgProofs.served_in _ _ _ _ _ _ _ He) in Hin as (-> & -> & ->). intros _ _ _ _ [_ (x & Hx & _)]. discriminate Hx. }
    destruct (cdc_serve _ _ _ _ _ _ _ Hs Er I1) as (K1 & _ & K3). cbv zeta in *.
    split; [done| |].
    + rewrite handed_out_app, (served_handed _ _ _ _ _ He), join_app, <- app_assoc, <- I2. f_equal.
      destruct (takes sb).
      * rewrite <- K3. destruct r as [[]| |]; cbn; try done. by rewrite app_nil_r.
      * rewrite K3. destruct r as [[]| |]; done.
    + intros u' sb' r' m b [Hin|Hin]%elem_of_app; [by apply (I3 u' sb' r' m b)|].
      apply (ProgProofs.served_in _ _ _ _ _ _ _ He) in Hin as (-> & -> & ->). intros Um HL Hk Hu Hc.
      apply (kernel_takes_up_at dbg w1 w2 (Some d) sb r b m serial_quiet); try done; [|by intros d0 [= <-]].
      intros d0 e i s tg data [= <-] Ha Hset Hdir Hrt Hans. destruct (Hu sb eq_refl) as [U1 U2].
      destruct (shape_routed _ _ _ _ _ _ _ _ Hs Hat Ha Hset Hdir Hrt) as [-> Hcase].
      cbn [handler_answer] in Hans. rewrite (sh_handler _ _ _ Hs) in Hans. cbn [i_step serial_handlers] in Hans.
      destruct Hcase as [[Hin Hea]|[Hii _]]; [|congruence].
      assert (H0 : len ([] : list N) = 0) by done.
      unfold cdc_endpoints in Hin. rewrite !elem_of_cons, elem_of_nil in Hin.
      destruct Hin as [-> |[-> |[-> |[]]]]; cbn in Hans; injection Hans as <-; [lia| |lia].
      assert (Hp2 : polls_2 sb = true) by (unfold polls_2; by rewrite <- Hea). specialize (U2 Hp2).
      rewrite <- I2 in U2. unfold len in *. rewrite app_length in U2.  etrans; [|exact U2]. rewrite Nat2N.inj_add. first [apply N.le_add_l|apply N.le_add_r].
Qed.
