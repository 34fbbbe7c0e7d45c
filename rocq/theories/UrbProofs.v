(** * Proofs: which requests abort, verify_descriptor, BCD versions *)
From Verif Require Export SpecUrb TransferProofs.

Lemma shiftr8 v : N.shiftr v 8 = v / 256.
Proof. rewrite N.shiftr_div_pow2. reflexivity. Qed.
Lemma desc_type_string n : desc_type_of n = Some TString <-> n = 3.
Proof.
  split; [|by intros ->]. unfold desc_type_of. destruct n as [|p]; [done|].
  do 5 (try destruct p as [p|p|]; try done).
Qed.

Lemma get_descriptor_panics dbg d s :
  (exists p, get_descriptor dbg d s = UPanic p) <->
  dbg = true /\ s_value s / 256 = 3 /\ s_value s mod 256 <> 0 /\
  exists str, d_string_pool d !! (s_value s mod 256) = Some str /\ 127 <= len (utf16 str) mod 256.
Proof.
  unfold get_descriptor. rewrite shiftr8. unfold as_u8.
  destruct (desc_type_of (s_value s / 256)) as [ty|] eqn:Et.
  2: { split; [intros [p [=]]|]. intros (_ & E & _). rewrite E in Et. discriminate. }
  destruct (decide (s_value s / 256 = 3)) as [E3|E3].
  - rewrite E3 in Et. injection Et as <-.
    destruct (N.eqb_spec (s_value s mod 256) 0) as [E0|E0].
    + split; [intros [p [=]]|]. tauto.
    + destruct (d_string_pool d !! (s_value s mod 256)) as [str|] eqn:Ep.
      * destruct (N.le_gt_cases 127 (len (utf16 str))) as [Hl|Hl].
        -- destruct (string_descriptor_long str Hl) as (Ht & b0 & Hf & _). destruct dbg.
           ++ rewrite Ht. destruct (N.leb_spec 127 (len (utf16 str) mod 256)).
              ** split; [|intros _; by eexists]. intros _. split_and!; auto. exists str. done.
              ** split; [intros [p [=]]|]. intros (_ & _ & _ & str' & [= <-] & ?). lia.
           ++ rewrite Hf. split; [intros [p [=]]|]. by intros (? & _).
        -- rewrite (string_descriptor_ok dbg str) by lia. split; [intros [p [=]]|].
           intros (_ & _ & _ & str' & [= <-] & ?).
           pose proof (N.mod_le (len (utf16 str)) 256 ltac:(done)). lia.
      * split; [intros [p [=]]|]. intros (_ & _ & _ & str' & [=] & _).
  - split; [|tauto]. intros [p E]. destruct ty; try discriminate.
    apply desc_type_string in Et. done.
Qed.

Lemma usable_dec {H} (w : world H) t : usable w t \/ ~ usable w t.
Proof. destruct t as [f|r]; cbn; [destruct (c_poisoned (w_intf w (if_handler f)))|destruct (c_poisoned (w_dev w r))]; auto. Qed.

Lemma urb_aborts_iff {H} dbg (w : world H) d e i tbl s req :
  (exists p w', handle_urb dbg w d e i tbl s req = (UPanic p, w')) <-> aborting dbg w d e i tbl s req.
Proof.
  split.
  - intros (p & w' & E).
    destruct (handle_urb_cases dbg w d e i tbl s req) as
      [(Ha & Hi & Ht & Hr & E')|[(_ & _ & _ & _ & E')|[(t & Hr & Hu)|(Hn & Hl & _)]]].
    + rewrite E in E'. destruct (proj1 (get_descriptor_panics dbg d s)) as (-> & E3 & E0 & str & Hs & Hl).
      { exists p. congruence. }
      by eapply ab_long_string.
    + rewrite E in E'. discriminate.
    + destruct (usable_dec w t) as [Hus|Hus].
      * destruct (handle_urb_routed dbg w d e i tbl s req t Hr Hus) as (o & w1 & Hi & E').
        rewrite E in E'. destruct o as [| |q]; cbn in E'; try discriminate.
        eapply ab_handler_panics; [exact Hr|exact Hus|]. symmetry. by eapply invoked_answer.
      * by eapply ab_poisoned.
    + destruct (ep_attr_cases (ep_attributes e)) as [[Ha _]|[[Ha _]|[Ha _]]]; [| |by apply ab_unknown_kind].
      * assert (Hnl : ~ library_request e s) by tauto.
        destruct (decide (s_request_type s mod 16 = 0)) as [E0|E0].
        { destruct (d_handler d) as [r|] eqn:Ed; [|by apply ab_no_handler].
          exfalso. apply (Hn (TDev r)). by apply rt_device. }
        destruct (decide (s_request_type s mod 16 = 1)) as [E1|E1].
        { destruct (d_interfaces d !! N.to_nat (s_index s mod 256)) as [f|] eqn:Ef.
          - exfalso. apply (Hn (TIntf f)). by apply rt_interface.
          - apply ab_bad_interface; try done. apply lookup_ge_None in Ef. unfold len. lia. }
        apply ab_recipient; try done. lia.
      * destruct i as [f|]; [|by apply ab_no_interface].
        exfalso. apply (Hn (TIntf f)). by apply rt_transfer.
  - intros [Ha|Ha Hi|str Hd Ha Hi Ht Hr E3 E0 Hs Hl|Ha Hl Hr|Ha Hl Hr Hd|Ha Hl Hr Hn|t Hr Hu|t p Hr Hu Hp].
    + destruct (ep_attr_cases (ep_attributes e)) as [[? _]|[[? _]|[_ Ea]]]; [lia|lia|].
      unfold handle_urb. rewrite Ea. eauto.
    + destruct (ep_attr_cases (ep_attributes e)) as [[? _]|[[_ (a & Ea & Hc)]|[? _]]]; [lia| |lia].
      unfold handle_urb. rewrite Ea, Hi. destruct a; eauto; done.
    + destruct (proj2 (get_descriptor_panics dbg d s)) as [p Hp]; [split_and!; eauto|].
      exists p, w. unfold handle_urb. rewrite Ha, Ht, Hr, (proj2 (ep_direction_spec e) Hi). cbn. by rewrite Hp.
    + rewrite control_not_library by assumption. unfold control_dispatch. rewrite land_15.
      destruct (N.eqb_spec (s_request_type s mod 16) 1); [lia|].
      destruct (N.eqb_spec (s_request_type s mod 16) 0); [lia|]. eauto.
    + rewrite control_not_library by assumption. unfold control_dispatch. rewrite land_15, Hr, Hd. cbn. eauto.
    + rewrite control_not_library by assumption. unfold control_dispatch. rewrite land_15, Hr, land_255. cbn.
      rewrite lookup_ge_None_2 by (unfold len in Hn; lia). eauto.
    + destruct Hr as [f Ha ->|f Ha Hl Hr Hf|r Ha Hl Hr Hd]; cbn [usable] in Hu.
      * destruct (ep_attr_cases (ep_attributes e)) as [[? _]|[[_ (a & Ea & Hc)]|[? _]]]; [lia| |lia].
        unfold handle_urb, call_intf. rewrite Ea. destruct (c_poisoned (w_intf w (if_handler f))); [|done].
        destruct a; eauto; done.
      * rewrite control_not_library by assumption. unfold control_dispatch, call_intf.
        rewrite land_15, Hr, N.eqb_refl, land_255, Hf. destruct (c_poisoned (w_intf w (if_handler f))); [eauto|done].
      * rewrite control_not_library by assumption. unfold control_dispatch, call_dev.
        rewrite land_15, Hr. cbn [N.eqb]. rewrite Hd. destruct (c_poisoned (w_dev w r)); [eauto|done].
    + destruct (handle_urb_routed dbg w d e i tbl s req t Hr Hu) as (o & w1 & Hi & E').
      rewrite (invoked_answer _ _ _ _ _ _ _ _ Hi), Hp in E'. cbn in E'. eauto.
Qed.

(** ** verify_descriptor *)
Lemma verify_fuel_more desc off n m r : verify_loop desc off n = r -> r <> Diverge ->
  verify_loop desc off (n + m) = r.
Proof.
  revert off. induction n as [|n IH]; intros off E Hr; [by cbn in E; subst|].
  cbn [verify_loop Nat.add] in *. destruct (off <? len desc); [by apply IH|done].
Qed.

(** A good prefix is walked over. *)
Lemma verify_skip good : self_blocks good -> forall pre rest fuel,
  exists k, (k <= length good)%nat /\
  verify_loop (pre ++ good ++ rest) (len pre) (k + fuel) =
  verify_loop ((pre ++ good) ++ rest) (len (pre ++ good)) fuel.
Proof.
  induction 1 as [|n body tl Hn _ IH]; intros pre rest fuel.
  - exists 0%nat. rewrite app_nil_r. cbn. split; [lia|done].
  - destruct (IH (pre ++ n :: body) rest fuel) as (k & Hk & E). exists (S k).
    split; [cbn; rewrite app_length; lia|]. cbn [Nat.add verify_loop].
    destruct (N.ltb_spec (len pre) (len (pre ++ (n :: body ++ tl) ++ rest))) as [_|Hge].
    2: { unfold len in Hge. rewrite app_length in Hge. cbn in Hge. lia. }
    replace (nth (N.to_nat (len pre)) (pre ++ (n :: body ++ tl) ++ rest) 0) with n.
    2: { unfold len. rewrite Nat2N.id. rewrite app_nth2 by lia. by rewrite Nat.sub_diag. }
    replace (len pre + n) with (len (pre ++ n :: body)) by (unfold len in *; rewrite app_length; cbn; lia).
    replace (pre ++ (n :: body ++ tl) ++ rest) with ((pre ++ n :: body) ++ tl ++ rest)
      by (cbn; rewrite <- !app_assoc; cbn; by rewrite <- ?app_assoc).
    rewrite E. f_equal; [|f_equal]; cbn; rewrite <- !app_assoc; cbn; by rewrite <- ?app_assoc.
Qed.
Lemma verify_skip0 good rest : self_blocks good -> forall fuel, exists k, (k <= length good)%nat /\
  verify_loop (good ++ rest) 0 (k + fuel) = verify_loop (good ++ rest) (len good) fuel.
Proof. intros Hg fuel. exact (verify_skip good Hg [] rest fuel). Qed.

Lemma verify_stuck good body fuel : self_blocks good -> verify_loop (good ++ 0 :: body) 0 fuel = Diverge.
Proof.
  intros Hg. destruct (verify_loop (good ++ 0 :: body) 0 fuel) eqn:E; [| |done].
  all: exfalso; destruct (verify_skip0 good (0 :: body) Hg fuel) as (k & _ & Ek);
    rewrite Nat.add_comm, (verify_fuel_more _ _ _ _ _ E) in Ek by done; symmetry in Ek;
    revert Ek; clear E; induction fuel as [|fuel IH]; cbn [verify_loop]; [done|];
    replace (len good <? len (good ++ 0 :: body)) with true
      by (symmetry; apply N.ltb_lt; unfold len; rewrite app_length; cbn; lia);
    replace (nth (N.to_nat (len good)) (good ++ 0 :: body) 0) with 0
      by (unfold len; rewrite Nat2N.id, app_nth2 by lia; by rewrite Nat.sub_diag);
    rewrite N.add_0_r; exact IH.
Qed.

Lemma self_blocks_app a b : self_blocks a -> self_blocks b -> self_blocks (a ++ b).
Proof.
  induction 1 as [|n body rest Hn _ IH]; intros Hb; [done|]. cbn. rewrite <- app_assoc. constructor; auto.
Qed.
(** Every byte string is good, overruns, or is stuck. *)
Lemma blocks_trichotomy b : self_blocks b \/ overrun b \/ stuck b.
Proof.
  remember (length b) as n eqn:Hn. revert b Hn.
  induction n as [n IH] using lt_wf_ind. intros [|x b] Hn; [left; constructor|].
  destruct (N.eq_dec x 0) as [-> |Hx]; [right; right; exists [], b; split; [done|constructor]|].
  destruct (N.le_gt_cases x (1 + len b)) as [Hle|Hgt].
  - assert (Hb : b = take (N.to_nat (x - 1)) b ++ drop (N.to_nat (x - 1)) b) by (by rewrite take_drop).
    assert (Hlt : (length (drop (N.to_nat (x - 1)) b) < n)%nat) by (rewrite drop_length; cbn in Hn; lia).
    assert (Hx' : x = 1 + len (take (N.to_nat (x - 1)) b)) by (unfold len in *; rewrite take_length; lia).
    assert (Hhead : forall r, self_blocks r -> self_blocks (x :: take (N.to_nat (x - 1)) b ++ r))
      by (intros r Hr; by constructor).
    rewrite Hb. destruct (IH _ Hlt _ eq_refl) as [Hg|[(g & m & bd & E & Hg & Hm)|(g & bd & E & Hg)]].
    + left. by apply Hhead.
    + right; left. exists (x :: take (N.to_nat (x - 1)) b ++ g), m, bd. rewrite E. split_and!; auto.
      cbn. by rewrite <- app_assoc.
    + right; right. exists (x :: take (N.to_nat (x - 1)) b ++ g), bd. rewrite E. split; auto.
      cbn. by rewrite <- app_assoc.
  - right; left. exists [], x, b. split_and!; [done|constructor|done].
Qed.
Lemma verify_good b : self_blocks b -> verify_descriptor b = Val tt.
Proof.
  intros Hg. unfold verify_descriptor.
  destruct (verify_skip0 b [] Hg 1%nat) as (k & Hk & E). rewrite app_nil_r in E.
  cbn [verify_loop] in E. rewrite N.ltb_irrefl in E.
  replace (S (length b)) with (k + 1 + (length b - k))%nat by lia.
  rewrite (verify_fuel_more _ _ _ _ _ E) by done. cbn. by rewrite N.eqb_refl.
Qed.
Lemma verify_overrun b : overrun b -> verify_descriptor b = Panic PAssert.
Proof.
  intros (good & n & body & -> & Hg & Hn). unfold verify_descriptor.
  destruct (verify_skip0 good (n :: body) Hg 2%nat) as (k & Hk & E).
  assert (E' : verify_loop (good ++ n :: body) 0 (k + 2) = Val (len good + n)).
  { rewrite E. cbn [verify_loop].
    replace (len good <? len (good ++ n :: body)) with true
      by (symmetry; apply N.ltb_lt; unfold len; rewrite app_length; cbn; lia).
    replace (nth (N.to_nat (len good)) (good ++ n :: body) 0) with n
      by (unfold len; rewrite Nat2N.id, app_nth2 by lia; by rewrite Nat.sub_diag).
    destruct (N.ltb_spec (len good + n) (len (good ++ n :: body))) as [Hlt|]; [|done].
    unfold len in *. rewrite app_length in Hlt. cbn in Hlt. lia. }
  replace (S (length (good ++ n :: body))) with (k + 2 + (length (good ++ n :: body) - k - 1))%nat
    by (rewrite app_length; cbn; lia).
  rewrite (verify_fuel_more _ _ _ _ _ E') by done. cbn [obind].
  destruct (N.eqb_spec (len good + n) (len (good ++ n :: body))) as [Heq|]; [|done].
  unfold len in *. rewrite app_length in Heq. cbn in Heq. lia.
Qed.
Lemma verify_stuck_diverges b : stuck b -> verify_descriptor b = Diverge /\ forall fuel, verify_loop b 0 fuel = Diverge.
Proof.
  intros (good & body & -> & Hg). split; [|intros; by apply verify_stuck].
  unfold verify_descriptor. by rewrite verify_stuck.
Qed.
Lemma verify_iff b :
  (verify_descriptor b = Val tt <-> self_blocks b) /\
  (verify_descriptor b = Panic PAssert <-> overrun b) /\
  (verify_descriptor b = Diverge <-> stuck b).
Proof.
  destruct (blocks_trichotomy b) as [Hg|[Ho|Hs]].
  - pose proof (verify_good _ Hg) as E. split_and!; split; auto; rewrite E; try discriminate; intros Hx.
    + by rewrite (verify_overrun _ Hx) in E.
    + by rewrite (proj1 (verify_stuck_diverges _ Hx)) in E.
  - pose proof (verify_overrun _ Ho) as E. split_and!; split; auto; rewrite E; try discriminate; intros Hx.
    + by rewrite (verify_good _ Hx) in E.
    + by rewrite (proj1 (verify_stuck_diverges _ Hx)) in E.
  - pose proof (proj1 (verify_stuck_diverges _ Hs)) as E. split_and!; split; auto; rewrite E; try discriminate; intros Hx.
    + by rewrite (verify_good _ Hx) in E.
    + by rewrite (verify_overrun _ Hx) in E.
Qed.

(** ** BCD *)
Lemma bcd_parts v : v_minor (version_of_bcd v) = v / 16 mod 16 /\ v_major (version_of_bcd v) = v / 256 mod 256.
Proof.
  unfold version_of_bcd, as_u8. cbn. rewrite !N.shiftr_div_pow2. change 15 with (N.ones 4). rewrite N.land_ones.
  change (2 ^ 4) with 16. change (2 ^ 8) with 256. split; [|done]. lia.
Qed.
Lemma u16le_fun b o v1 v2 : u16le_at b o v1 -> u16le_at b o v2 -> v1 = v2.
Proof. intros (l1 & h1 & A1 & B1 & _ & _ & ->) (l2 & h2 & A2 & B2 & _ & _ & ->). congruence. Qed.
Lemma bcd_reported v b o : v < 65536 ->
  u8_at b o (v_minor (version_of_bcd v)) -> u8_at b (o + 1) (v_major (version_of_bcd v)) ->
  u16le_at b o (v / 16 mod 16 + 256 * (v / 256)) /\ (u16le_at b o v <-> v mod 256 = 0).
Proof.
  intros Hv H1 H2. destruct (bcd_parts v) as [E1 E2]. unfold u8_at in *. rewrite E1 in H1. rewrite E2 in H2.
  assert (R : u16le_at b o (v / 16 mod 16 + 256 * (v / 256))).
  { exists (v / 16 mod 16), (v / 256 mod 256). split_and!; auto; lia. }
  split; [exact R|]. split.
  - intros Hx. pose proof (u16le_fun _ _ _ _ Hx R). lia.
  - intros Hz. replace v with (v / 16 mod 16 + 256 * (v / 256)) by lia. exact R.
Qed.

(** ** A message has one answer *)
Lemma ok_reply_inj h d1 d2 b : submit_ok_reply h d1 b -> submit_ok_reply h d2 b -> d1 = d2.
Proof.
  intros H1 H2. pose proof (ok_length _ _ _ H1) as L1. pose proof (ok_length _ _ _ H2) as L2.
  destruct H1 as (_ & _ & _ & _ & _ & _ & _ & _ & B1 & _). destruct H2 as (_ & _ & _ & _ & _ & _ & _ & _ & B2 & _).
  cbn [rs_transfer_buffer] in B1, B2. unfold bytes_at in B1, B2. rewrite <- B1, <- B2. f_equal. lia.
Qed.
Lemma replies_inj {H} dbg (st : cstate H) m sb d1 d2 st1 :
  replies dbg st m sb d1 st1 -> replies dbg st m sb d2 st1 -> d1 = d2.
Proof.
  intros H1 H2. destruct (H1 [] SEof) as (b1 & B1 & K1). destruct (H2 [] SEof) as (b2 & B2 & K2).
  destruct (connection dbg st1 [] SEof None) as [[out e] st'] eqn:E.
  specialize (K1 _ _ _ eq_refl). rewrite (K2 _ _ _ eq_refl) in K1. injection K1 as Heq.
  apply app_inv_tail in Heq. subst b2. by eapply ok_reply_inj.
Qed.
Lemma replies_not_error {H} dbg (st : cstate H) m sb d1 st1 :
  replies_error dbg st m sb st1 -> replies dbg st m sb d1 st1 -> False.
Proof.
  intros H1 H2. destruct (H1 [] SEof) as (b1 & B1 & K1). destruct (H2 [] SEof) as (b2 & B2 & K2).
  destruct (connection dbg st1 [] SEof None) as [[out e] st'] eqn:E.
  specialize (K1 _ _ _ eq_refl). rewrite (K2 _ _ _ eq_refl) in K1. injection K1 as Heq.
  apply app_inv_tail in Heq. subst b2.
  destruct B1 as (_ & _ & S1 & _). destruct B2 as (_ & _ & S2 & _). cbn in S1, S2.
  pose proof (u32_at_fun _ _ _ _ S1 S2). discriminate.
Qed.
Lemma replies_not_abort {H} dbg (st : cstate H) m sb d1 p st1 st2 :
  aborts dbg st m p st2 -> replies dbg st m sb d1 st1 -> False.
Proof.
  intros H1 H2. specialize (H1 [] SEof). destruct (H2 [] SEof) as (b2 & B2 & K2).
  destruct (connection dbg st1 [] SEof None) as [[out e] st'] eqn:E.
  rewrite (K2 _ _ _ eq_refl) in H1. injection H1 as Heq _ _. apply ok_length in B2.
  destruct b2; [cbn in B2; lia|discriminate].
Qed.
Lemma error_not_abort {H} dbg (st : cstate H) m sb p st1 st2 :
  aborts dbg st m p st2 -> replies_error dbg st m sb st1 -> False.
Proof.
  intros H1 H2. specialize (H1 [] SEof). destruct (H2 [] SEof) as (b2 & B2 & K2).
  destruct (connection dbg st1 [] SEof None) as [[out e] st'] eqn:E.
  rewrite (K2 _ _ _ eq_refl) in H1. injection H1 as Heq _ _. apply fail_length in B2.
  destruct b2; [cbn in B2; lia|discriminate].
Qed.

(** ** Requests that are answered *)
Lemma control_answered {H} dbg (st : cstate H) m sb d e i s :
  all_u8 m = true -> cmd_layout dbg m (CmdSubmit sb) -> imported st d ->
  addressed d (ep_byte (sb_header sb)) e i -> setup_of (sb_setup sb) s ->
  ~ aborting dbg (cs_world st) d e i (sb_transfer_buffer_length sb) s (sb_data sb) ->
  dbg = false \/ h_direction (sb_header sb) = 1 ->
  exists st1, (exists data, replies dbg st m sb data st1) \/ replies_error dbg st m sb st1.
Proof.
  intros Hm HL Hd Ha Hs Hn Hdir.
  destruct (handle_urb dbg (cs_world st) d e i (sb_transfer_buffer_length sb) s (sb_data sb)) as [r w'] eqn:Eh.
  pose proof (urb_replies dbg st m sb d e i s r w' Hm HL Hd Ha Hs Eh) as R.
  destruct r as [data|x|p].
  - eexists. left. exists data. apply R. tauto.
  - eexists. right. exact R.
  - exfalso. apply Hn, urb_aborts_iff. eauto.
Qed.

(** ** Interface numbers *)
Lemma view_number d total hi : hi ∈ hc_interfaces (config_view d total) ->
  exists f, d_interfaces d !! N.to_nat (hi_number hi) = Some f /\ hi = intf_view (hi_number hi) f.
Proof.
  cbn [hc_interfaces config_view]. intros Hin. apply elem_of_list_lookup in Hin as [k Hk].
  rewrite list_lookup_imap in Hk. destruct (d_interfaces d !! k) as [f|] eqn:Ef; [|done]. cbn in Hk.
  injection Hk as <-. exists f. cbn [hi_number intf_view]. by rewrite Nat2N.id.
Qed.
Lemma routed_interface d e i s f : ep_attributes e = 0 -> s_request_type s mod 16 = 1 ->
  d_interfaces d !! N.to_nat (s_index s mod 256) = Some f ->
  forall t, routed d e i s t <-> t = TIntf f.
Proof.
  intros Ha Hr Hf t. split.
  - intros [g Hx _|g _ _ _ Hg|r _ _ Hx _]; [lia|congruence|lia].
  - intros ->. apply rt_interface; auto. unfold library_request. intros [(_ & E & _)|(_ & E & _)]; rewrite E in Hr; discriminate.
Qed.
