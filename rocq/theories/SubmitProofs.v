(** * Proofs about CMD_SUBMIT and CMD_UNLINK *)
From Verif Require Export ConnProofs.

Lemma ep_direction_spec e : ep_direction e = DIn <-> in_ep e.
Proof.
  unfold ep_direction, in_ep. rewrite land_128.
  destruct (N.eqb_spec ((ep_address e / 128) mod 2 * 128) 0); cbn; split; intros; try done; [exfalso|]; lia.
Qed.
Lemma ep_direction_out e : ep_direction e = DOut <-> ~ in_ep e.
Proof. rewrite <- ep_direction_spec. destruct (ep_direction e); split; congruence. Qed.

Lemma std_get_descriptor n : std_request_of n = Some GetDescriptor <-> n = 6.
Proof.
  split; [|by intros ->]. unfold std_request_of.
  repeat match goal with |- context [match ?x with _ => _ end] => destruct x end; try done; discriminate.
Qed.
Lemma std_set_configuration n : std_request_of n = Some SetConfiguration <-> n = 9.
Proof.
  split; [|by intros ->]. unfold std_request_of.
  repeat match goal with |- context [match ?x with _ => _ end] => destruct x end; try done; discriminate.
Qed.

Lemma ep_attr_cases n :
  (n = 0 /\ ep_attr_of n = Some AControl) \/
  (1 <= n <= 3 /\ exists a, ep_attr_of n = Some a /\ a <> AControl) \/
  (3 < n /\ ep_attr_of n = None).
Proof.
  destruct (N.leb_spec n 3) as [Hn|Hn].
  - assert (n = 0 \/ n = 1 \/ n = 2 \/ n = 3) as [-> |[-> |[-> | ->]]] by lia; cbn;
      [left; done|right; left; split; [lia|eauto]..].
  - right; right. split; [done|]. unfold ep_attr_of.
    repeat match goal with |- context [match ?x with _ => _ end] => destruct x end; try done; lia.
Qed.

(** The library-answered test as handle_urb performs it. *)
Lemma control_not_library {H} dbg (w : world H) d e i tbl s req :
  ep_attributes e = 0 -> ~ library_request e s ->
  handle_urb dbg w d e i tbl s req = control_dispatch w d e tbl s req.
Proof.
  intros Ha Hl. unfold handle_urb. rewrite Ha. cbn [ep_attr_of].
  destruct (ep_direction e) eqn:Ed.
  - destruct (N.eqb_spec (s_request_type s) 128); [|done].
    destruct (std_request_of (s_request s)) as [[]|] eqn:Er; try done.
    apply std_get_descriptor in Er. exfalso. apply Hl. left. apply ep_direction_spec in Ed. done.
  - destruct (N.eqb_spec (s_request_type s) 0); [|done].
    destruct (std_request_of (s_request s)) as [[]|] eqn:Er; try done.
    apply std_set_configuration in Er. exfalso. apply Hl. right. apply ep_direction_out in Ed. done.
Qed.

Definition urb_of (o : hres) : urb_result :=
  match o with HOk d => UOk d | HErr x => UErr x | HPanic p => UPanic p end.

Lemma call_intf_invoked {H} (w : world H) f e tbl s req :
  c_poisoned (w_intf w (if_handler f)) = false ->
  exists o w', invoked w e tbl s req (TIntf f) o w' /\
    call_intf w (if_handler f) f e tbl s req = (urb_of o, w').
Proof.
  intros Hp. unfold call_intf. rewrite Hp.
  destruct (w_intf w (if_handler f)) as [p st] eqn:Ew. cbn in Hp; subst p. cbn [c_state].
  assert (G : forall c, i_step H st f e tbl s req = c ->
    invoked w e tbl s req (TIntf f) (call_answer c)
      (set_intf w (if_handler f) (mkCell (panicked (call_answer c)) (call_state c)))).
  { intros c Hc. eapply inv_intf; [exact Ew|exact Hc|..]; cbn.
    - by rewrite N.eqb_refl.
    - intros r Hr. by destruct (N.eqb_spec r (if_handler f)).
    - done. }
  specialize (G _ eq_refl).
  destruct (i_step H st f e tbl s req) as [st' d|st' x|st' q]; cbn in *; eauto.
Qed.
Lemma call_dev_invoked {H} (w : world H) r e tbl s req :
  c_poisoned (w_dev w r) = false ->
  exists o w', invoked w e tbl s req (TDev r) o w' /\
    call_dev w r tbl s req = (urb_of o, w').
Proof.
  intros Hp. unfold call_dev. rewrite Hp.
  destruct (w_dev w r) as [p st] eqn:Ew. cbn in Hp; subst p. cbn [c_state].
  assert (G : forall c, d_step H st tbl s req = c ->
    invoked w e tbl s req (TDev r) (call_answer c)
      (set_dev w r (mkCell (panicked (call_answer c)) (call_state c)))).
  { intros c Hc. eapply inv_dev; [exact Ew|exact Hc|..]; cbn.
    - by rewrite N.eqb_refl.
    - intros r' Hr. by destruct (N.eqb_spec r' r).
    - done. }
  specialize (G _ eq_refl).
  destruct (d_step H st tbl s req) as [st' d|st' x|st' q]; cbn in *; eauto.
Qed.

Lemma handle_urb_routed {H} dbg (w : world H) d e i tbl s req t :
  routed d e i s t -> usable w t ->
  exists o w', invoked w e tbl s req t o w' /\ handle_urb dbg w d e i tbl s req = (urb_of o, w').
Proof.
  intros [f Ha ->|f Ha Hl Hr Hf|r Ha Hl Hr Hd] Hu; cbn [usable] in Hu.
  - destruct (ep_attr_cases (ep_attributes e)) as [[? _]|[[_ (a & Ea & Hc)]|[? _]]]; [lia| |lia].
    destruct (call_intf_invoked w f e tbl s req Hu) as (o & w' & Hi & Ec).
    exists o, w'. split; [done|]. unfold handle_urb. rewrite Ea. destruct a; done.
  - rewrite control_not_library by assumption. unfold control_dispatch.
    rewrite land_15, Hr, N.eqb_refl, land_255, Hf. by apply call_intf_invoked.
  - rewrite control_not_library by assumption. unfold control_dispatch.
    rewrite land_15, Hr. cbn [N.eqb]. rewrite Hd. by apply call_dev_invoked.
Qed.

(** ** find_ep *)
Lemma real_ep_byte h : as_u8 (real_ep h) = ep_byte h.
Proof.
  unfold real_ep, ep_byte, as_u8. destruct (h_direction h =? 0); [done|].
  set (x := h_ep h). change 256 with (2 ^ 8).
  rewrite <- (N.land_ones (N.lor x 128) 8). rewrite N.land_lor_distr_l.
  rewrite N.land_ones. change (N.land 128 (N.ones 8)) with 128. change (2 ^ 8) with 256.
  assert (x mod 256 < 256) by lia. rewrite lor_128 by lia.
  destruct (N.ltb_spec (x mod 256) 128); lia.
Qed.

Lemma find_ep_in_some es a e : find_ep_in es a = Some e <->
  exists es1 es2, es = es1 ++ e :: es2 /\ ep_address e = a /\ forall x, x ∈ es1 -> ep_address x <> a.
Proof.
  induction es as [|x es IH]; cbn.
  - split; [done|]. intros (es1 & es2 & E & _). by destruct es1.
  - destruct (N.eqb_spec (ep_address x) a) as [Hx|Hx].
    + split.
      * intros [= <-]. exists [], es. split; [done|]. split; [done|]. intros y Hy. by apply elem_of_nil in Hy.
      * intros (es1 & es2 & E & Ha & Hn). destruct es1 as [|y es1]; [by injection E as <- <-|].
        injection E as <- _. destruct (Hn x); [left|done].
    + rewrite IH. split.
      * intros (es1 & es2 & -> & Ha & Hn). exists (x :: es1), es2. split; [done|]. split; [done|].
        intros y [-> |Hy]%elem_of_cons; auto.
      * intros (es1 & es2 & E & Ha & Hn). destruct es1 as [|y es1]; [injection E as -> _; done|].
        injection E as <- ->. exists es1, es2. split; [done|]. split; [done|]. intros z Hz.
        apply Hn. by right.
Qed.
Lemma find_ep_in_none es a : find_ep_in es a = None <-> forall e, e ∈ es -> ep_address e <> a.
Proof.
  induction es as [|x es IH]; cbn.
  - split; [|done]. intros _ e He. by apply elem_of_nil in He.
  - destruct (N.eqb_spec (ep_address x) a) as [Hx|Hx].
    + split; [done|]. intros Hn. destruct (Hn x); [left|done].
    + rewrite IH. split.
      * intros Hn e [-> |He]%elem_of_cons; auto.
      * intros Hn e He. apply Hn. by right.
Qed.

Lemma find_ep_intf_some fs a e i : find_ep_intf fs a = Some (e, i) <->
  exists fs1 f fs2 es1 es2, i = Some f /\ fs = fs1 ++ f :: fs2 /\ (forall g, g ∈ fs1 -> ~ declares g a)
  /\ if_endpoints f = es1 ++ e :: es2 /\ ep_address e = a /\ forall x, x ∈ es1 -> ep_address x <> a.
Proof.
  induction fs as [|f fs IH]; cbn.
  - split; [done|]. intros (fs1 & f & fs2 & ? & ? & _ & E & _). by destruct fs1.
  - destruct (find_ep_in (if_endpoints f) a) as [e'|] eqn:Ef.
    + split.
      * intros [= -> <-]. apply find_ep_in_some in Ef as (es1 & es2 & ? & ? & ?).
        exists [], f, fs, es1, es2. split; [done|]. split; [done|].
        split; [|done]. intros g Hg. by apply elem_of_nil in Hg.
      * intros (fs1 & f' & fs2 & es1 & es2 & -> & E & Hd & He & Ha & Hn).
        destruct fs1 as [|g fs1].
        -- injection E as -> _. do 2 f_equal. apply Some_inj. rewrite <- Ef. apply find_ep_in_some. eauto.
        -- injection E as -> _. destruct (Hd g); [left|]. apply find_ep_in_some in Ef as (xs & ys & Ex & Hx & _).
           exists e'. split; [|done]. rewrite Ex. apply elem_of_app. right. left.
    + rewrite IH. rewrite find_ep_in_none in Ef. split.
      * intros (fs1 & f' & fs2 & es1 & es2 & -> & -> & Hd & Hrest).
        exists (f :: fs1), f', fs2, es1, es2. split; [done|]. split; [done|]. split; [|done].
        intros g [-> |Hg]%elem_of_cons; [|by apply Hd]. intros (x & Hx & Ha). by apply (Ef x).
      * intros (fs1 & f' & fs2 & es1 & es2 & -> & E & Hd & He & Ha & Hn).
        destruct fs1 as [|g fs1].
        -- injection E as -> _. destruct (Ef e); [|done]. rewrite He. apply elem_of_app. right. left.
        -- injection E as <- ->. exists fs1, f', fs2, es1, es2. split; [done|]. split; [done|].
           split; [|done]. intros x Hx. apply Hd. by right.
Qed.
Lemma find_ep_intf_none fs a : find_ep_intf fs a = None <-> forall f, f ∈ fs -> ~ declares f a.
Proof.
  induction fs as [|f fs IH]; cbn.
  - split; [|done]. intros _ e He. by apply elem_of_nil in He.
  - destruct (find_ep_in (if_endpoints f) a) as [e'|] eqn:Ef.
    + split; [done|]. intros Hn. destruct (Hn f); [left|]. exists e'.
      apply find_ep_in_some in Ef as (xs & ys & -> & Hx & _). split; [|done].
      apply elem_of_app. right. left.
    + rewrite IH. rewrite find_ep_in_none in Ef. split.
      * intros Hn g [-> |Hg]%elem_of_cons; [|by apply Hn]. intros (x & Hx & Ha). by apply (Ef x).
      * intros Hn g Hg. apply Hn. by right.
Qed.

Lemma find_ep_some d a e i : find_ep d a = Some (e, i) <-> addressed d a e i.
Proof.
  unfold find_ep. destruct (N.eqb_spec a (ep_address (d_ep0_in d))) as [Ha|Ha].
  - split; [intros [= <- <-]; by apply addr_ep0_in|]. destruct 1; congruence.
  - destruct (N.eqb_spec a (ep_address (d_ep0_out d))) as [Hb|Hb].
    + split; [intros [= <- <-]; apply addr_ep0_out; congruence|]. destruct 1; congruence.
    + rewrite find_ep_intf_some. split.
      * intros (fs1 & f & fs2 & es1 & es2 & -> & ? & ? & ? & ? & ?). eapply addr_intf; eauto.
      * destruct 1; [congruence|congruence|]. eauto 12.
Qed.
Lemma find_ep_none d a : find_ep d a = None <-> unknown_ep d a.
Proof.
  unfold find_ep, unknown_ep. destruct (N.eqb_spec a (ep_address (d_ep0_in d))) as [Ha|Ha];
    [split; [done|]; intros (? & _); congruence|].
  destruct (N.eqb_spec a (ep_address (d_ep0_out d))) as [Hb|Hb];
    [split; [done|]; intros (_ & ? & _); congruence|].
  rewrite find_ep_intf_none. split; [|by intros (? & ? & ?)]. intros; split_and!; congruence || done.
Qed.

(** ** One step of the connection *)
Lemma connection_step {H} dbg (st : cstate H) m c inp fin b st1 : cmd_layout dbg m c ->
  serve dbg st c = (b, st1) -> forall bs, obind b (response_to_bytes dbg) = Val bs ->
  forall out e st', connection dbg st1 inp fin None = (out, e, st') ->
  connection dbg st (m ++ inp) fin None = (bs ++ out, e, st').
Proof.
  intros HL Es bs Eb out e st' Ec. rewrite connection_unfold.
  rewrite (reader_complete _ _ _ inp fin HL), Es, Eb. cbn [write_all]. by rewrite Ec.
Qed.
Lemma connection_panic {H} dbg (st : cstate H) m c inp fin bud b st1 p : cmd_layout dbg m c ->
  serve dbg st c = (b, st1) -> obind b (response_to_bytes dbg) = Panic p ->
  connection dbg st (m ++ inp) fin bud = ([], EndPanic p, st1).
Proof.
  intros HL Es Eb. rewrite connection_unfold.
  by rewrite (reader_complete _ _ _ inp fin HL), Es, Eb.
Qed.

Lemma unlink_step {H} dbg (st : cstate H) m h us inp fin : cmd_layout dbg m (CmdUnlink h us) ->
  exists b, ret_unlink_layout b (echo 4 h) 0 /\
  forall out e st', connection dbg st inp fin None = (out, e, st') ->
    connection dbg st (m ++ inp) fin None = (b ++ out, e, st').
Proof.
  intros HL.
  destruct (proj2 (response_total dbg (serve_unlink h))) as [b Hb]; [done|].
  exists b. split.
  - apply layout_u32 in HL. exact (serve_answers dbg st (CmdUnlink h us) b HL Hb).
  - intros. eapply connection_step; [exact HL|reflexivity|exact Hb|done].
Qed.

Lemma submit_no_device {H} dbg (st : cstate H) m sb inp fin bud : cmd_layout dbg m (CmdSubmit sb) ->
  cs_current st = None ->
  connection dbg st (m ++ inp) fin bud = ([], EndPanic PUnwrapNone, st).
Proof.
  intros HL Hc. destruct st as [sv w cur]; cbn in Hc; subst cur.
  eapply connection_panic; [exact HL| |]; cbn; reflexivity.
Qed.

(** The device this connection has imported. *)
Definition imported {H} (st : cstate H) (d : device) : Prop :=
  exists id, cs_current st = Some id /\ sv_used (cs_server st) !! id = Some d.
Lemma imported_current {H} (st : cstate H) d :
  imported st d -> current_device (cs_server st) (cs_current st) = Some d.
Proof. intros (id & -> & Hd). exact Hd. Qed.

Lemma unknown_ep_step {H} dbg (st : cstate H) m sb d inp fin : cmd_layout dbg m (CmdSubmit sb) ->
  imported st d -> unknown_ep d (ep_byte (sb_header sb)) ->
  exists b, submit_fail_reply (sb_header sb) b /\
  forall out e st', connection dbg st inp fin None = (out, e, st') ->
    connection dbg st (m ++ inp) fin None = (b ++ out, e, st').
Proof.
  intros HL Hd Hu. destruct (fail_reply_total dbg (sb_header sb)) as [b Hb]. exists b.
  split; [eapply fail_reply; [exact (layout_u32 _ _ _ HL)|exact Hb]|].
  intros out e st' Hc. eapply connection_step; [exact HL| | |exact Hc].
  - cbn [serve]. rewrite (imported_current _ _ Hd). cbn [serve_submit].
    rewrite real_ep_byte, (proj2 (find_ep_none _ _) Hu). destruct st; reflexivity.
  - exact Hb.
Qed.

Lemma setup_of_parse dbg m sb s : all_u8 m = true -> cmd_layout dbg m (CmdSubmit sb) ->
  setup_of (sb_setup sb) s -> setup_parse (sb_setup sb) = s.
Proof.
  intros Hm HL (b0 & b1 & b2 & b3 & b4 & b5 & b6 & b7 & E & ->). apply setup_le; [exact E|].
  inversion HL as [| |? ? ? ? ? ? ? ? ? ? ? ? ? ? ? ? ? ? ? ? ? ? Hb|]; subst. cbn.
  rewrite <- Hb. apply all_u8_take, all_u8_drop. exact Hm.
Qed.
Lemma setup_of_exists dbg m sb : cmd_layout dbg m (CmdSubmit sb) -> exists s, setup_of (sb_setup sb) s.
Proof.
  inversion 1 as [| |? ? ? ? ? ? ? ? ? ? ? ? ? ? ? ? ? ? ? ? ? Hl|]; subst. cbn.
  destruct setup as [|? [|? [|? [|? [|? [|? [|? [|? []]]]]]]]]; try discriminate.
  unfold setup_of. eauto 20.
Qed.

(** A routed submit: the effect on the connection, by what the handler did. *)
Lemma submit_step {H} dbg (st : cstate H) m sb d e i s t inp fin :
  all_u8 m = true -> cmd_layout dbg m (CmdSubmit sb) -> imported st d ->
  addressed d (ep_byte (sb_header sb)) e i -> setup_of (sb_setup sb) s ->
  routed d e i s t -> usable (cs_world st) t ->
  exists o w', invoked (cs_world st) e (sb_transfer_buffer_length sb) s (sb_data sb) t o w' /\
  let st1 := mkC (cs_server st) w' (cs_current st) in
  match o with
  | HOk data =>
      (dbg = false \/ h_direction (sb_header sb) = 1 \/ data = [] ) ->
      exists b, submit_ok_reply (sb_header sb) data b /\
      forall out e st', connection dbg st1 inp fin None = (out, e, st') ->
        connection dbg st (m ++ inp) fin None = (b ++ out, e, st')
  | HErr _ =>
      exists b, submit_fail_reply (sb_header sb) b /\
      forall out e st', connection dbg st1 inp fin None = (out, e, st') ->
        connection dbg st (m ++ inp) fin None = (b ++ out, e, st')
  | HPanic p => connection dbg st (m ++ inp) fin None = ([], EndPanic p, st1)
  end.
Proof.
  intros Hm HL Hd Ha Hs Hr Hu. pose proof (layout_u32 _ _ _ HL) as H32. cbn in H32.
  destruct (handle_urb_routed dbg (cs_world st) d e i (sb_transfer_buffer_length sb) s (sb_data sb) t Hr Hu)
    as (o & w' & Hi & Ho).
  exists o, w'. split; [exact Hi|]. cbv zeta.
  assert (Es : serve dbg st (CmdSubmit sb) =
    (match o with
     | HOk data => Val (usbip_ret_submit_success (reply_header (sb_header sb) USBIP_RET_SUBMIT) 0 0 data [])
     | HErr _ => Val (usbip_ret_submit_fail (reply_header (sb_header sb) USBIP_RET_SUBMIT))
     | HPanic p => Panic p
     end, mkC (cs_server st) w' (cs_current st))).
  { cbn [serve]. rewrite (imported_current _ _ Hd). cbn [serve_submit].
    rewrite real_ep_byte, (proj2 (find_ep_some _ _ _ _) Ha), (setup_of_parse _ _ _ _ Hm HL Hs), Ho.
    destruct o; reflexivity. }
  destruct o as [data|x|p].
  - intros Hok.
    destruct (proj2 (response_total dbg (usbip_ret_submit_success
      (reply_header (sb_header sb) USBIP_RET_SUBMIT) 0 0 data []))) as [b Hb].
    { intros ->. cbn. split; [done|]. destruct Hok as [|[-> | ->]]; [done|done|]. by destruct (_ =? 1). }
    exists b. split; [eapply ok_reply; eassumption|]. intros. eapply connection_step; [exact HL|exact Es|exact Hb|done].
  - destruct (fail_reply_total dbg (sb_header sb)) as [b Hb]. exists b.
    split; [eapply fail_reply; eassumption|]. intros. eapply connection_step; [exact HL|exact Es|exact Hb|done].
  - eapply connection_panic; [exact HL|exact Es|reflexivity].
Qed.
