(** * Proofs about submits: routing, OUT replies, reply lengths *)
From Verif Require Export SpecTransfer DescProofs.

Lemma join_app (l1 l2 : list (list N)) : mjoin (l1 ++ l2) = mjoin l1 ++ mjoin l2.
Proof. induction l1 as [|x l1 IH]; [done|]. cbn [app]. by rewrite !join_cons, IH, app_assoc. Qed.

Lemma invoked_answer {H} (w : world H) e tbl s req t o w' :
  invoked w e tbl s req t o w' -> o = handler_answer w e tbl s req t.
Proof. intros [f st c w1 E Ec _ _ _|r st c w1 E Ec _ _ _]; cbn; rewrite E; cbn; by subst c. Qed.

Lemma not_imported_current {H} (st : cstate H) :
  (forall d, ~ imported st d) -> current_device (cs_server st) (cs_current st) = None.
Proof.
  intros Hn. unfold current_device. destruct (cs_current st) as [id|] eqn:E; [|done].
  destruct (sv_used (cs_server st) !! id) as [d|] eqn:Ed; [|done].
  exfalso. apply (Hn d). exists id. done.
Qed.
Lemma submit_not_imported {H} dbg (st : cstate H) m sb inp fin bud : cmd_layout dbg m (CmdSubmit sb) ->
  (forall d, ~ imported st d) ->
  connection dbg st (m ++ inp) fin bud = ([], EndPanic PUnwrapNone, st).
Proof.
  intros HL Hc. apply (connection_panic dbg st m _ inp fin bud (Panic PUnwrapNone) st PUnwrapNone HL); [|reflexivity].
  cbn [serve]. rewrite (not_imported_current _ Hc). cbn. by destruct st.
Qed.
Lemma imported_dec {H} (st : cstate H) : (exists d, imported st d) \/ (forall d, ~ imported st d).
Proof.
  destruct (current_device (cs_server st) (cs_current st)) as [d|] eqn:E.
  - left. exists d. unfold current_device in E. destruct (cs_current st) as [id|] eqn:Ec; [|done].
    exists id. done.
  - right. intros d Hd. rewrite (imported_current _ _ Hd) in E. done.
Qed.
Lemma addressed_dec d a : (exists e i, addressed d a e i) \/ unknown_ep d a.
Proof.
  destruct (find_ep d a) as [[e i]|] eqn:E.
  - left. exists e, i. by apply find_ep_some.
  - right. by apply find_ep_none.
Qed.

(** What [handle_urb] can do, case by case. *)
Lemma handle_urb_cases {H} dbg (w : world H) d e i tbl s req :
  (ep_attributes e = 0 /\ in_ep e /\ s_request_type s = 128 /\ s_request s = 6 /\
     handle_urb dbg w d e i tbl s req = (get_descriptor dbg d s, w))
  \/ (ep_attributes e = 0 /\ ~ in_ep e /\ s_request_type s = 0 /\ s_request s = 9 /\
     handle_urb dbg w d e i tbl s req = (UOk (limit_to (s_length s) [d_configuration_value d]), w))
  \/ (exists t, routed d e i s t /\ (usable w t \/ handle_urb dbg w d e i tbl s req = (UPanic PPoisoned, w)))
  \/ ((forall t, ~ routed d e i s t) /\ ~ (ep_attributes e = 0 /\ library_request e s) /\
      exists p, handle_urb dbg w d e i tbl s req = (UPanic p, w)).
Proof.
  destruct (ep_attr_cases (ep_attributes e)) as [[Ha Ea]|[[Ha (a & Ea & Hc)]|[Ha Ea]]].
  - assert (Hd : library_request e s \/ ~ library_request e s).
    { unfold library_request, in_ep.
      destruct (N.le_gt_cases 128 (ep_address e mod 256)); destruct (N.eq_decidable (s_request_type s) 128);
      destruct (N.eq_decidable (s_request_type s) 0); destruct (N.eq_decidable (s_request s) 6);
      destruct (N.eq_decidable (s_request s) 9); lia. }
    destruct Hd as [[(Hi & Ht & Hr)|(Hi & Ht & Hr)]|Hl].
    + left. split_and!; try done. unfold handle_urb. rewrite Ea, Ht, Hr.
      by rewrite (proj2 (ep_direction_spec e) Hi).
    + right; left. split_and!; try done. unfold handle_urb. rewrite Ea, Ht, Hr.
      by rewrite (proj2 (ep_direction_out e) Hi).
    + right; right. rewrite control_not_library by assumption. unfold control_dispatch.
      rewrite land_15, land_255. destruct (N.eqb_spec (s_request_type s mod 16) 1) as [E1|E1].
      * destruct (d_interfaces d !! N.to_nat (s_index s mod 256)) as [f|] eqn:Ef.
        -- left. exists (TIntf f). split; [by apply rt_interface|]. cbn. unfold call_intf.
           destruct (c_poisoned (w_intf w (if_handler f))); auto.
        -- right. split; [|split; [tauto|by eexists]]. intros t [? ? ?|? ? ? ? ?|? ? ? ? ?]; [lia|congruence|lia].
      * destruct (N.eqb_spec (s_request_type s mod 16) 0) as [E0|E0].
        -- destruct (d_handler d) as [r|] eqn:Ed.
           ++ left. exists (TDev r). split; [by apply rt_device|]. cbn. unfold call_dev.
              destruct (c_poisoned (w_dev w r)); auto.
           ++ right. split; [|split; [tauto|by eexists]]. intros t [? ? ?|? ? ? ? ?|? ? ? ? ?]; [lia|lia|congruence].
        -- right. split; [|split; [tauto|by eexists]]. intros t [? ? ?|? ? ? ? ?|? ? ? ? ?]; lia.
  - right; right. destruct i as [f|].
    + left. exists (TIntf f). split; [by apply rt_transfer|]. cbn. unfold handle_urb, call_intf.
      rewrite Ea. destruct (c_poisoned (w_intf w (if_handler f))); [|by left]. right. by destruct a.
    + right. split; [|split; [lia|]].
      * intros t [? ? ?|? ? ? ? ?|? ? ? ? ?]; [done|lia|lia].
      * exists PUnwrapNone. unfold handle_urb. rewrite Ea. by destruct a.
  - right; right; right. split; [|split; [lia|]].
    + intros t [? ? ?|? ? ? ? ?|? ? ? ? ?]; lia.
    + exists PUnimplemented. unfold handle_urb. by rewrite Ea.
Qed.

Lemma urb_cases_ok {H} dbg (w : world H) d e i tbl s req data w' :
  handle_urb dbg w d e i tbl s req = (UOk data, w') ->
  (in_ep e /\ get_descriptor dbg d s = UOk data)
  \/ (~ in_ep e /\ s_request_type s = 0 /\ s_request s = 9 /\
      data = limit_to (s_length s) [d_configuration_value d])
  \/ (exists t, routed d e i s t /\ handler_answer w e tbl s req t = HOk data).
Proof.
  intros E. destruct (handle_urb_cases dbg w d e i tbl s req) as
    [(_ & Hi & _ & _ & E')|[(_ & Hi & Ht & Hr & E')|[(t & Hr & [Hu|E'])|(_ & _ & p & E')]]].
  - left. split; [done|]. congruence.
  - right; left. split_and!; try done. congruence.
  - right; right. exists t. split; [done|].
    destruct (handle_urb_routed dbg w d e i tbl s req t Hr Hu) as (o & w1 & Hi & E').
    apply invoked_answer in Hi. rewrite E in E'. destruct o; cbn in E'; try discriminate. congruence.
  - rewrite E in E'. discriminate.
  - rewrite E in E'. discriminate.
Qed.

(** One submit at the head of the input: nothing but its own message matters. *)
Lemma submit_head {H} dbg (st : cstate H) m sb inp fin out en st' :
  all_u8 m = true -> cmd_layout dbg m (CmdSubmit sb) ->
  connection dbg st (m ++ inp) fin None = (out, en, st') ->
  (out = [] /\ exists p, en = EndPanic p) \/
  (exists b out' st1, out = b ++ out' /\ connection dbg st1 inp fin None = (out', en, st') /\
     exists d, imported st d /\
     ((unknown_ep d (ep_byte (sb_header sb)) /\ submit_fail_reply (sb_header sb) b /\ st1 = st) \/
      (exists e i s r w', addressed d (ep_byte (sb_header sb)) e i /\ setup_of (sb_setup sb) s /\
         handle_urb dbg (cs_world st) d e i (sb_transfer_buffer_length sb) s (sb_data sb) = (r, w') /\
         st1 = mkC (cs_server st) w' (cs_current st) /\
         match r with
         | UOk data => submit_ok_reply (sb_header sb) data b
         | UErr _ => submit_fail_reply (sb_header sb) b
         | UPanic _ => False
         end))).
Proof.
  intros Hm HL E. destruct (imported_dec st) as [[d Hd]|Hn].
  2: { rewrite (submit_not_imported _ _ _ _ _ _ _ HL Hn) in E. left. split; [congruence|].
       exists PUnwrapNone. congruence. }
  destruct (addressed_dec d (ep_byte (sb_header sb))) as [(e & i & Ha)|Hu].
  - destruct (setup_of_exists _ _ _ HL) as [s Hs].
    pose proof (urb_serve dbg st m sb d e i s Hm HL Hd Ha Hs) as Es.
    destruct (handle_urb dbg (cs_world st) d e i (sb_transfer_buffer_length sb) s (sb_data sb)) as [r w'] eqn:Eh.
    destruct (obind (serve dbg st (CmdSubmit sb)).1 (response_to_bytes dbg)) as [b|p|] eqn:Eb.
    + right. rewrite Es in Eb. cbn [fst] in Eb.
      destruct (connection dbg (mkC (cs_server st) w' (cs_current st)) inp fin None) as [[out' en'] st''] eqn:Ec.
      pose proof (connection_step _ _ _ _ _ _ _ _ HL Es _ Eb _ _ _ Ec) as E'.
      rewrite E in E'. injection E' as -> -> ->.
      exists b, out', (mkC (cs_server st) w' (cs_current st)). split; [done|]. split; [done|].
      exists d. split; [done|]. right. exists e, i, s, r, w'. split_and!; try done.
      pose proof (layout_u32 _ _ _ HL) as H32.
      destruct r; [eapply ok_reply; eassumption|eapply fail_reply; eassumption|done].
    + left. rewrite Es in Eb. cbn [fst] in Eb.
      rewrite (connection_panic _ _ _ _ _ _ _ _ _ _ HL Es Eb) in E. split; [congruence|]. exists p. congruence.
    + by apply step_never_diverges in Eb.
  - right. destruct (unknown_ep_step dbg st m sb d inp fin HL Hd Hu) as (b & Hb & Hk).
    destruct (connection dbg st inp fin None) as [[out' en'] st''] eqn:Ec.
    specialize (Hk _ _ _ eq_refl). rewrite E in Hk.
    injection Hk as -> -> ->.
    exists b, out', st. split; [done|]. split; [done|]. exists d. split; [done|]. left. done.
Qed.

(** What one message does to the handlers. *)
Lemma finish_world {H} (st : cstate H) e : cs_world (finish st e).2 = cs_world st.
Proof.
  unfold finish. destruct (cs_current st) as [id|]; [|done].
  destruct (release_device (cs_server st) id); done.
Qed.
Lemma connection_one {H} dbg (st : cstate H) m c fin out en st' : cmd_layout dbg m c ->
  connection dbg st m fin None = (out, en, st') -> cs_world st' = cs_world (serve dbg st c).2.
Proof.
  intros HL E. rewrite <- (app_nil_r m), connection_unfold, (reader_complete _ _ _ [] fin HL) in E.
  destruct (serve dbg st c) as [r st1]. cbn [snd].
  destruct (obind r (response_to_bytes dbg)) as [b|p|]; [|congruence..]. cbn [write_all] in E.
  destruct (connection dbg st1 [] fin None) as [[o e1] st2] eqn:Ec. injection E as _ _ <-.
  rewrite connection_unfold in Ec. destruct (run_rd (read_from_socket dbg) [] fin) as [c' rest|x|p] eqn:Er.
  - apply reader_shrinks in Er. cbn in Er. lia.
  - pose proof (finish_world st1 x) as F. destruct (finish st1 x) as [r2 st3]. cbn [snd] in F. congruence.
  - congruence.
Qed.
Lemma submit_effect {H} dbg (st : cstate H) m sb d fin out en st' :
  all_u8 m = true -> cmd_layout dbg m (CmdSubmit sb) -> imported st d ->
  connection dbg st m fin None = (out, en, st') ->
  cs_world st' = cs_world st \/
  exists e i s t o, addressed d (ep_byte (sb_header sb)) e i /\ setup_of (sb_setup sb) s /\ routed d e i s t /\
    invoked (cs_world st) e (sb_transfer_buffer_length sb) s (sb_data sb) t o (cs_world st').
Proof.
  intros Hm HL Hd E. rewrite (connection_one _ _ _ _ _ _ _ _ HL E). clear E.
  destruct (addressed_dec d (ep_byte (sb_header sb))) as [(e & i & Ha)|Hu].
  - destruct (setup_of_exists _ _ _ HL) as [s Hs]. rewrite (urb_serve dbg st m sb d e i s Hm HL Hd Ha Hs).
    destruct (handle_urb_cases dbg (cs_world st) d e i (sb_transfer_buffer_length sb) s (sb_data sb)) as
      [(_ & _ & _ & _ & ->)|[(_ & _ & _ & _ & ->)|[(t & Hr & [Hu| ->])|(_ & _ & p & ->)]]]; [by left|by left| |by left|by left].
    right. destruct (handle_urb_routed dbg (cs_world st) d e i (sb_transfer_buffer_length sb) s (sb_data sb) t Hr Hu)
      as (o & w' & Hi & ->). exists e, i, s, t, o. auto.
  - left. cbn [serve]. rewrite (imported_current _ _ Hd). cbn [serve_submit].
    by rewrite real_ep_byte, (proj2 (find_ep_none _ _) Hu).
Qed.

(** ** C22 *)
Lemma delivered_step {H} dbg (st : cstate H) m sb d e i s t : delivered dbg st m sb d e i s t ->
  exists w', invoked (cs_world st) e (sb_transfer_buffer_length sb) s (sb_data sb) t
               (handler_answer (cs_world st) e (sb_transfer_buffer_length sb) s (sb_data sb) t) w' /\
  let st1 := mkC (cs_server st) w' (cs_current st) in
  match handler_answer (cs_world st) e (sb_transfer_buffer_length sb) s (sb_data sb) t with
  | HOk data => (dbg = false \/ h_direction (sb_header sb) = 1 \/ len data mod 4294967296 = 0 -> replies dbg st m sb data st1)
      /\ (dbg = true -> h_direction (sb_header sb) <> 1 -> len data mod 4294967296 <> 0 -> aborts dbg st m PDebugAssert st1)
  | HErr _ => replies_error dbg st m sb st1
  | HPanic p => aborts dbg st m p st1
  end.
Proof.
  intros [Hm HL Hd Ha Hs Hr Hu]. cbn [proj1] in *.
  destruct (handle_urb_routed dbg (cs_world st) d e i (sb_transfer_buffer_length sb) s (sb_data sb) t Hr Hu)
    as (o & w' & Hi & Ho).
  exists w'. pose proof (invoked_answer _ _ _ _ _ _ _ _ Hi) as <-. split; [done|]. cbv zeta.
  pose proof (urb_replies dbg st m sb d e i s (urb_of o) w' Hm HL Hd Ha Hs Ho) as R.
  destruct o as [data|x|p]; cbn [urb_of] in R; [|done|done]. split; [done|].
  intros -> Hdir Hne inp fin. eapply connection_panic; [exact HL| |].
  - pose proof (urb_serve true st m sb d e i s Hm HL Hd Ha Hs) as Es. rewrite Ho in Es. exact Es.
  - cbn [urb_of obind]. unfold usbip_ret_submit_success, response_to_bytes, reply_header.
    cbn [rs_header rs_actual_length rs_transfer_buffer h_command h_direction]. unfold debug_assert, DIR_IN, as_u32.
    destruct (N.eqb_spec (h_direction (sb_header sb)) 1); [done|].
    destruct (N.eqb_spec (len data mod 4294967296) 0); done.
Qed.

(** ** C19: what is true of OUT submits *)
Lemma limit_zero l : limit_to 0 l = take 0 l \/ len l mod 65536 = 0.
Proof.
  unfold limit_to, as_u16. destruct (N.ltb_spec 0 (len l mod 65536)); [|right; lia].
  left. unfold vec_resize. cbn. done.
Qed.
Lemma fail_length h b : submit_fail_reply h b -> length b = 48%nat.
Proof. intros [Hl _]. cbn in Hl. exact Hl. Qed.
Lemma ok_length h data b : submit_ok_reply h data b -> length b = (48 + length data)%nat.
Proof. intros [Hl _]. cbn in Hl. lia. Qed.

Lemma out_quiet {H} dbg (st : cstate H) m sb s inp fin out en st' : quiet H ->
  all_u8 m = true -> cmd_layout dbg m (CmdSubmit sb) -> setup_of (sb_setup sb) s ->
  h_direction (sb_header sb) = 0 -> h_ep (sb_header sb) mod 256 < 128 ->
  s_request_type s < 128 -> (s_request_type s = 0 -> s_request s = 9 -> s_length s = 0) ->
  connection dbg st (m ++ inp) fin None = (out, en, st') ->
  (out = [] /\ exists p, en = EndPanic p) \/
  (exists b out' st1, out = b ++ out' /\ length b = 48%nat /\ connection dbg st1 inp fin None = (out', en, st')).
Proof.
  intros [Qi Qd] Hm HL Hs Hdir Hep Hrt Hsc E.
  destruct (submit_head _ _ _ _ _ _ _ _ _ Hm HL E) as [|(b & out' & st1 & -> & Ec & d & Hd & Hcase)]; [by left|].
  right. exists b, out', st1. split; [done|]. split; [|done].
  destruct Hcase as [(_ & Hb & _)|(e & i & s' & r & w' & Ha & Hs' & Eh & _ & Hb)]; [by eapply fail_length|].
  assert (s' = s) as -> by (rewrite <- (setup_of_parse _ _ _ _ Hm HL Hs), <- (setup_of_parse _ _ _ _ Hm HL Hs'); done).
  assert (Hne : ~ in_ep e).
  { unfold in_ep. rewrite (addressed_byte _ _ _ _ Ha). unfold ep_byte. rewrite Hdir, N.eqb_refl. lia. }
  destruct r as [data| |]; [|by eapply fail_length|done].
  rewrite (ok_length _ _ _ Hb).
  assert (data = []) as ->; [|done].
  destruct (urb_cases_ok _ _ _ _ _ _ _ _ _ _ Eh) as [[Hi _]|[(_ & Ht & Hq & ->)|(t & Hr & Hans)]]; [done| |].
  - rewrite (Hsc Ht Hq). reflexivity.
  - destruct t as [f|r]; cbn in Hans.
    + destruct (i_step H _ f e _ s _) eqn:Ei; cbn in Hans; try discriminate. assert (data0 = data) as <- by congruence. eapply Qi; eassumption.
    + destruct (d_step H _ _ s _) eqn:Ei; cbn in Hans; try discriminate. assert (data0 = data) as <- by congruence. eapply Qd; eassumption.
Qed.

(** ** C20: what is true of reply lengths *)
Lemma limit_le wl l : len l < 65536 -> len (limit_to wl l) <= wl.
Proof. intros Hl. rewrite limit_take by done. unfold len. rewrite take_length. lia. Qed.
Lemma get_descriptor_len dbg d s data : descriptors_fit d ->
  get_descriptor dbg d s = UOk data -> len data <= s_length s.
Proof.
  intros [Hc Hst]. unfold get_descriptor.
  destruct (desc_type_of (N.shiftr (s_value s) 8)) as [[]|]; intros E;
    try (injection E as <-; first [apply limit_le; reflexivity | apply N.le_0_l]).
  - injection E as <-. apply limit_le. by rewrite configuration_len.
  - destruct (as_u8 (s_value s) =? 0); [injection E as <-; apply limit_le; reflexivity|].
    destruct (d_string_pool d !! as_u8 (s_value s)) as [str|] eqn:Ep; [|discriminate].
    unfold string_descriptor in E. destruct (string_blength dbg (len (utf16 str))) as [l| |]; try discriminate.
    cbn [obind] in E. injection E as <-. apply limit_le.
    rewrite !len_cons. fold (units_le (utf16 str)). rewrite units_le_len. specialize (Hst _ _ Ep). lia.
Qed.

Lemma reply_bounded_at {H} dbg (st : cstate H) m sb s inp fin out en st' :
  (forall d e i t data, imported st d -> addressed d (ep_byte (sb_header sb)) e i -> routed d e i s t ->
     handler_answer (cs_world st) e (sb_transfer_buffer_length sb) s (sb_data sb) t = HOk data ->
     len data <= sb_transfer_buffer_length sb) ->
  all_u8 m = true -> cmd_layout dbg m (CmdSubmit sb) -> setup_of (sb_setup sb) s ->
  (forall d, imported st d -> descriptors_fit d) ->
  h_direction (sb_header sb) <> 0 -> s_length s <= sb_transfer_buffer_length sb ->
  connection dbg st (m ++ inp) fin None = (out, en, st') ->
  (out = [] /\ exists p, en = EndPanic p) \/
  (exists b out' st1 n, out = b ++ out' /\ u32_at b 24 n /\ n <= sb_transfer_buffer_length sb
    /\ len b <= 48 + sb_transfer_buffer_length sb
    /\ connection dbg st1 inp fin None = (out', en, st')).
Proof.
  intros Q Hm HL Hs Hfit Hdir Hlen E.
  destruct (submit_head _ _ _ _ _ _ _ _ _ Hm HL E) as [|(b & out' & st1 & -> & Ec & d & Hd & Hcase)]; [by left|].
  right. exists b, out', st1.
  assert (Hfail : submit_fail_reply (sb_header sb) b -> exists n, b ++ out' = b ++ out' /\ u32_at b 24 n
    /\ n <= sb_transfer_buffer_length sb /\ len b <= 48 + sb_transfer_buffer_length sb
    /\ connection dbg st1 inp fin None = (out', en, st')).
  { intros Hb. exists 0. split; [done|]. split; [apply Hb|]. split; [lia|]. split; [|done].
    unfold len. rewrite (fail_length _ _ Hb). lia. }
  destruct Hcase as [(_ & Hb & _)|(e & i & s' & r & w' & Ha & Hs' & Eh & _ & Hb)]; [by apply Hfail|].
  assert (s' = s) as -> by (rewrite <- (setup_of_parse _ _ _ _ Hm HL Hs), <- (setup_of_parse _ _ _ _ Hm HL Hs'); done).
  assert (Hin : in_ep e).
  { unfold in_ep. rewrite (addressed_byte _ _ _ _ Ha). pose proof (ep_byte_in' _ Hdir). lia. }
  destruct r as [data| |]; [|by apply Hfail|done].
  assert (Hdata : len data <= sb_transfer_buffer_length sb).
  { destruct (urb_cases_ok _ _ _ _ _ _ _ _ _ _ Eh) as [[_ Hg]|[(? & _)|(t & Hr & Hans)]]; [|done|].
    - pose proof (get_descriptor_len _ _ _ _ (Hfit _ Hd) Hg). lia.
    - by eapply Q. }
  exists (len data mod 4294967296). split; [done|]. split; [apply Hb|]. split; [|split; [|done]].
  - pose proof (N.mod_le (len data) 4294967296 ltac:(done)). lia.
  - pose proof (ok_length _ _ _ Hb). unfold len in *. lia.
Qed.
Lemma reply_bounded {H} dbg (st : cstate H) m sb s inp fin out en st' : honours_length H ->
  all_u8 m = true -> cmd_layout dbg m (CmdSubmit sb) -> setup_of (sb_setup sb) s ->
  (forall d, imported st d -> descriptors_fit d) ->
  h_direction (sb_header sb) <> 0 -> s_length s <= sb_transfer_buffer_length sb ->
  connection dbg st (m ++ inp) fin None = (out, en, st') ->
  (out = [] /\ exists p, en = EndPanic p) \/
  (exists b out' st1 n, out = b ++ out' /\ u32_at b 24 n /\ n <= sb_transfer_buffer_length sb
    /\ len b <= 48 + sb_transfer_buffer_length sb
    /\ connection dbg st1 inp fin None = (out', en, st')).
Proof.
  intros [Qi Qd]. apply reply_bounded_at. intros d e i t data _ _ _ Hans. destruct t as [f|r]; cbn in Hans.
  - destruct (i_step H _ f e _ s _) eqn:Ei; cbn in Hans; try discriminate. assert (data0 = data) as <- by congruence. eapply Qi; eassumption.
  - destruct (d_step H _ _ s _) eqn:Ei; cbn in Hans; try discriminate. assert (data0 = data) as <- by congruence. eapply Qd; eassumption.
Qed.
