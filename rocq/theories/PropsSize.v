(** * Properties C19 and C20 again: exactly how large replies are *)
From Verif Require Import Examples PropsConn PropsConform SpecSize UrbProofs DescProofs TransferProofs.

Lemma limit_len wl l : len (limit_to wl l) = cut (len l) wl.
Proof.
  unfold limit_to, cut, as_u16. destruct (N.ltb_spec wl (len l mod 65536)); [|done].
  unfold vec_resize, len in *. rewrite app_length, take_length, replicate_length. lia.
Qed.
Lemma string_len dbg str desc : string_descriptor dbg str = Val desc -> len desc = 2 + 2 * len (utf16 str).
Proof.
  unfold string_descriptor. destruct (string_blength dbg (len (utf16 str))) as [l| |]; [|done..]. cbn [obind].
  intros E. apply Val_inj in E. subst desc. rewrite !len_cons.
  assert (X : forall us, len (mjoin ((fun u => [as_u8 u; as_u8 (N.shiftr u 8)]) <$> us)) = 2 * len us).
  { induction us as [|u us IH]; [done|]. unfold fmap in *. cbn [list_fmap].
    match goal with |- context [mjoin (?a :: ?b)] => change (mjoin (a :: b)) with (a ++ mjoin b) end. rewrite len_app, IH, !len_cons. change (len (@nil N)) with 0. lia. }
  rewrite X. lia.
Qed.
Ltac no_such := intros Hin; repeat (apply elem_of_cons in Hin as [Hin|Hin]; [discriminate Hin|]); by apply elem_of_nil in Hin.
Lemma get_descriptor_size dbg d s data : s_request_type s = 128 -> s_request s = 6 -> get_descriptor dbg d s = UOk data ->
  exists n, descriptor_size d s n /\ len data = cut n (s_length s).
Proof.
  intros Ht Hr E. pose (ty := s_value s / 256). pose (ix := s_value s mod 256).
  assert (Hg : get_desc s ty ix) by (unfold get_desc, ty, ix; split_and!; [done|done| |]; lia).
  destruct (desc_type_ix _ _ _ Hg) as [E1 E2]. unfold get_descriptor in E. rewrite E1, E2 in E.
  assert (Z : cut 0 (s_length s) = 0) by (unfold cut; by destruct (s_length s <? 0 mod 65536) eqn:?; [lia|]).
  destruct (desc_type_of ty) as [k|] eqn:Ek.
  - assert (Hk : ty = desc_type_val k).
    { unfold desc_type_of in Ek. repeat (match type of Ek with context [match ?x with _ => _ end] => destruct x end; try discriminate Ek);
        injection Ek as <-; reflexivity. }
    destruct k; cbn in Hk.
    all: try (injection E as <-; rewrite limit_len).
    all: try (exists 0; split; [eapply ds_other; [exact Hg|rewrite Hk; clear; no_such]|]; rewrite Z; first [done|injection E as <-; done]).
    + exists 18. split; [by eapply ds_device; rewrite <- Hk|done].
    + exists (config_size d). rewrite configuration_len. split; [by eapply ds_configuration; rewrite <- Hk|done].
    + destruct (N.eqb_spec ix 0) as [H0|H0].
      * injection E as <-. rewrite limit_len. exists 4. split; [|done]. apply ds_languages. by rewrite <- H0, <- Hk.
      * destruct (d_string_pool d !! ix) as [str|] eqn:Ep; [|done]. destruct (string_descriptor dbg str) as [desc| |] eqn:Es; [|done..].
        injection E as <-. rewrite limit_len, (string_len _ _ _ Es). eexists. split; [|done].
        eapply ds_string; [by rewrite <- Hk|done|done].
    + exists 10. split; [by eapply ds_qualifier; rewrite <- Hk|done].
    + exists 5. split; [by eapply ds_bos; rewrite <- Hk|done].
  - injection E as <-. exists 0. split; [|by rewrite Z]. eapply ds_other; [exact Hg|]. intros Hin.
    repeat (apply elem_of_cons in Hin as [Hin|Hin]; [rewrite Hin in Ek; discriminate Ek|]). by apply elem_of_nil in Hin.
Qed.
Lemma get_desc_unique s ty ix ty' ix' : get_desc s ty ix -> get_desc s ty' ix' -> ty = ty' /\ ix = ix'.
Proof. intros (_ & _ & E1 & H1) (_ & _ & E2 & H2). lia. Qed.
Lemma descriptor_size_unique d s n n' : descriptor_size d s n -> descriptor_size d s n' -> n = n'.
Proof.
  intros H1 H2. destruct H1 as [? G|? G|G|? ? G G0 Gp|? G|? G|? ? G Gt]; destruct H2 as [? K|? K|K|? ? K K0 Kp|? K|? K|? ? K Kt];
    destruct (get_desc_unique _ _ _ _ _ G K) as [Et Ei]; subst; try discriminate Et; try done;
    try (exfalso; apply Gt; clear; repeat (first [left; reflexivity|right])); try (exfalso; apply Kt; clear; repeat (first [left; reflexivity|right])).
  congruence.
Qed.
Lemma routed_not_library d e i s t : routed d e i s t -> ep_attributes e = 0 ->
  ~ (in_ep e /\ s_request_type s = 128 /\ s_request s = 6) /\ ~ (~ in_ep e /\ s_request_type s = 0 /\ s_request s = 9).
Proof.
  intros Hr Ha. destruct Hr as [g ? Hg|? ? Hn|? ? Hn]; [exfalso|..]; unfold library_request in *; lia || tauto.
Qed.
Lemma set_config_urb {H} dbg (w : world H) d e i tbl s req :
  ep_attributes e = 0 -> ~ in_ep e -> s_request_type s = 0 -> s_request s = 9 ->
  handle_urb dbg w d e i tbl s req = (UOk (limit_to (s_length s) [d_configuration_value d]), w).
Proof.
  intros Ha Hi Ht Hr. unfold handle_urb. rewrite Ha, Ht, Hr. cbn [ep_attr_of]. by rewrite (proj2 (ep_direction_out e) Hi).
Qed.
Lemma urb_brings {H} dbg (w : world H) d sb e i s r w' n : addressed d (ep_byte (sb_header sb)) e i -> setup_of (sb_setup sb) s ->
  handle_urb dbg w d e i (sb_transfer_buffer_length sb) s (sb_data sb) = (r, w') -> (forall p, r <> UPanic p) ->
  brings w d sb n <-> exists data, r = UOk data /\ n = len data.
Proof.
  intros Ha Hs E Hp. split.
  - intros [e' i' s' k Ha' Hc Hi Hs' Ht Hr Hk|e' i' s' Ha' Hc Hi Hs' Ht Hr|e' i' s' t data Ha' Hs' Hr Hus Hx];
      destruct (addressed_unique _ _ _ _ _ _ Ha Ha') as [<- <-]; pose proof (setup_unique _ _ _ Hs Hs') as <-.
    + assert (Hg : exists ty ix, get_desc s ty ix) by (destruct Hk; eauto). destruct Hg as (ty & ix & Hg).
      rewrite (get_desc_urb dbg w d e i _ s _ ty ix Hc Hi Hg) in E. injection E as E <-.
      destruct r as [data|x|p]; [|exfalso|by destruct (Hp p)].
      * destruct (get_descriptor_size _ _ _ _ Ht Hr E) as (k' & Hk' & El). exists data. split; [done|].
        by rewrite El, (descriptor_size_unique _ _ _ _ Hk Hk').
      * destruct (proj1 (get_descriptor_err dbg d s Ht Hr)) as (ix' & Hg' & H0 & Hn); [by exists x|].
        destruct Hk as [? G|? G|G|? ? G G0 Gp|? G|? G|? ? G Gt]; destruct (get_desc_unique _ _ _ _ _ G Hg') as [Et Ei];
          subst; try discriminate Et; try done; [congruence|]. apply Gt. clear. right; right; left.
    + rewrite (set_config_urb dbg w d e i _ s _ Hc Hi Ht Hr) in E. injection E as <- <-. eexists. split; [done|]. by rewrite limit_len.
    + destruct (handle_urb_routed dbg w d e i (sb_transfer_buffer_length sb) s (sb_data sb) t Hr Hus) as (o & w1 & Hi & E').
      rewrite (invoked_answer _ _ _ _ _ _ _ _ Hi), Hx in E'. rewrite E' in E. injection E as <- <-. by exists data.
  - intros (data & -> & ->).
    destruct (handle_urb_cases dbg w d e i (sb_transfer_buffer_length sb) s (sb_data sb)) as
      [(Hc & Hi & Ht & Hr & E')|[(Hc & Hi & Ht & Hr & E')|[(t & Hr & Hu)|(Hn & Hl & p & E')]]].
    + rewrite E' in E. injection E as E <-. destruct (get_descriptor_size _ _ _ _ Ht Hr E) as (k & Hk & ->).
      by eapply br_descriptor.
    + rewrite E' in E. injection E as <- <-. rewrite limit_len. by eapply br_configuration.
    + destruct (usable_dec w t) as [Hus|Hus]; [|destruct Hu as [Hu|Hu]; [done|rewrite Hu in E; discriminate]].
      destruct (handle_urb_routed dbg w d e i (sb_transfer_buffer_length sb) s (sb_data sb) t Hr Hus) as (o & w1 & Hi & E').
      rewrite E' in E. destruct o as [| |]; cbn in E; try discriminate. injection E as <- <-.
      eapply br_handler; [exact Ha|exact Hs|exact Hr|exact Hus|]. by rewrite <- (invoked_answer _ _ _ _ _ _ _ _ Hi).
    + rewrite E' in E. discriminate.
Qed.

(** ** C20: the size of every reply

    A submit for an imported device is answered with as many bytes as it brings, be that more than
    the buffer or not, or with none when it fails; or the connection aborts. *)
Theorem C20_reply_size_partial : forall (H : handlers) dbg (st : cstate H) m sb d inp fin out en st',
  all_u8 m = true -> cmd_layout dbg m (CmdSubmit sb) -> imported st d ->
  connection dbg st (m ++ inp) fin None = (out, en, st') ->
  (out = [] /\ exists p, en = EndPanic p) \/
  (exists b out' st1 n, out = b ++ out' /\ connection dbg st1 inp fin None = (out', en, st') /\ answers (CmdSubmit sb) b /\
     len b = 48 + n /\ u32_at b 24 (n mod 4294967296) /\ (dbg = true -> h_direction (sb_header sb) <> 1 -> n mod 4294967296 = 0) /\
     (failing (cs_world st) d sb /\ n = 0 /\ (forall k, ~ brings (cs_world st) d sb k) \/
      ~ failing (cs_world st) d sb /\ (forall k, brings (cs_world st) d sb k <-> k = n)) /\
     (sb_transfer_buffer_length sb < n <-> exists k, brings (cs_world st) d sb k /\ sb_transfer_buffer_length sb < k)).
Proof.
  intros H dbg st m sb d inp fin out en st' Hm HL Hd E.
  assert (F : forall b x, submit_fail_reply (sb_header sb) b -> failing (cs_world st) d sb ->
    (forall k, ~ brings (cs_world st) d sb k) -> connection dbg x inp fin None = (drop (length b) out, en, st') -> take (length b) out = b ->
    exists b out' st1 n, out = b ++ out' /\ connection dbg st1 inp fin None = (out', en, st') /\ answers (CmdSubmit sb) b /\
     len b = 48 + n /\ u32_at b 24 (n mod 4294967296) /\ (dbg = true -> h_direction (sb_header sb) <> 1 -> n mod 4294967296 = 0) /\
     (failing (cs_world st) d sb /\ n = 0 /\ (forall k, ~ brings (cs_world st) d sb k) \/
      ~ failing (cs_world st) d sb /\ (forall k, brings (cs_world st) d sb k <-> k = n)) /\
     (sb_transfer_buffer_length sb < n <-> exists k, brings (cs_world st) d sb k /\ sb_transfer_buffer_length sb < k)).
  { intros b x Hb Hf Hk Hx Ht. exists b, (drop (length b) out), x, 0. split; [rewrite <- Ht at 1; by rewrite take_drop|]. split; [done|].
    split; [by right|]. pose proof Hb as (El & _ & _ & Hn & _). cbn in El, Hn. split; [unfold len; lia|]. split; [done|]. split; [done|].
    split; [by left|]. split; [lia|]. intros (k & Hbk & _). by destruct (Hk k). }
  destruct (addressed_dec d (ep_byte (sb_header sb))) as [(e & i & Ha)|Hu].
  - assert (exists s, setup_of (sb_setup sb) s) as [s Hs] by (by eapply setup_of_exists).
    destruct (handle_urb dbg (cs_world st) d e i (sb_transfer_buffer_length sb) s (sb_data sb)) as [r w'] eqn:Eu.
    pose proof (urb_replies dbg st m sb d e i s r w' Hm HL Hd Ha Hs Eu) as R.
    pose proof (urb_fails dbg (cs_world st) d sb e i s r w' Ha Hs Eu) as HF.
    pose proof (fun n => urb_brings dbg (cs_world st) d sb e i s r w' n Ha Hs Eu) as HB.
    destruct r as [data|x|p].
    + assert (Hn : ~ failing (cs_world st) d sb) by (rewrite HF by done; by intros [x [=]]).
      assert (Hk : forall k, brings (cs_world st) d sb k <-> k = len data).
      { intros k. rewrite HB by done. split; [by intros (? & [= <-] & ->)|intros ->; eauto]. }
      assert (Hdd : (dbg = false \/ h_direction (sb_header sb) = 1 \/ len data mod 4294967296 = 0) \/
                   (dbg = true /\ h_direction (sb_header sb) <> 1 /\ len data mod 4294967296 <> 0)).
      { destruct dbg; [|tauto]. lia. }
      destruct Hdd as [Hdd|(-> & Hd1 & Hd2)].
      * right. destruct (R Hdd inp fin) as (b & Hb & C).
        destruct (connection dbg (mkC (cs_server st) w' (cs_current st)) inp fin None) as [[o en1] s1] eqn:Ec.
        rewrite (C _ _ _ eq_refl) in E. injection E as <- <- <-.
        exists b, o, (mkC (cs_server st) w' (cs_current st)), (len data). split; [done|]. split; [done|]. split; [by left; exists data|].
        pose proof Hb as (El & _ & _ & Hl & _). cbn in El, Hl. split; [unfold len; lia|]. split; [done|].
        split; [intros -> Hnd; by destruct Hdd as [?|[?|?]]|]. split; [by right|].
        split; [intros Ht; exists (len data); by rewrite Hk|]. intros (k & Hbk & Ht). apply Hk in Hbk. by subst k.
      * left. pose proof (urb_serve true st m sb d e i s Hm HL Hd Ha Hs) as Es. rewrite Eu in Es.
        assert (X : connection true st (m ++ inp) fin None = ([], EndPanic PDebugAssert, mkC (cs_server st) w' (cs_current st))).
        2: { rewrite X in E. injection E as <- <- <-. eauto. }
        eapply connection_panic; [exact HL|exact Es|].
        cbn [obind]. unfold usbip_ret_submit_success, response_to_bytes, reply_header.
        cbn [rs_header rs_actual_length rs_transfer_buffer h_command h_direction]. unfold debug_assert, DIR_IN, as_u32.
        destruct (N.eqb_spec (h_direction (sb_header sb)) 1); [done|].
        destruct (N.eqb_spec (len data mod 4294967296) 0); done.
    + right. destruct (R inp fin) as (b & Hb & C).
      destruct (connection dbg (mkC (cs_server st) w' (cs_current st)) inp fin None) as [[o en1] s1] eqn:Ec.
      rewrite (C _ _ _ eq_refl) in E. injection E as <- <- <-. eapply (F b); [done|apply HF; [done|eauto]| | |].
      * intros k. rewrite HB by done. by intros (? & [=] & _).
      * rewrite drop_app. exact Ec.
      * by rewrite take_app.
    + left. rewrite (R inp fin) in E. injection E as <- <- <-. eauto.
  - right. destruct (unknown_ep_step dbg st m sb d inp fin HL Hd Hu) as (b & Hb & C).
    destruct (connection dbg st inp fin None) as [[o e] s1] eqn:Ec. rewrite (C _ _ _ eq_refl) in E. injection E as <- <- <-.
    eapply (F b); [done|by apply fl_endpoint| | |].
    + apply find_ep_none in Hu. intros k Hbr.
      destruct Hbr as [? ? ? ? Ha|? ? ? Ha|? ? ? ? ? Ha]; apply find_ep_some in Ha; congruence.
    + rewrite drop_app. exact Ec.
    + by rewrite take_app.
Qed.
Print Assumptions C20_reply_size_partial.

(** ** C19: exactly which replies to OUT transfers carry a payload

    In a release build the reply is longer than 48 bytes exactly when the submit brings something;
    in a debug build the connection aborts then. *)
Theorem C19_payload_partial : forall (H : handlers) dbg (st : cstate H) m sb d inp fin out en st',
  all_u8 m = true -> cmd_layout dbg m (CmdSubmit sb) -> imported st d -> h_direction (sb_header sb) = 0 ->
  connection dbg st (m ++ inp) fin None = (out, en, st') ->
  (out = [] /\ exists p, en = EndPanic p) \/
  (exists b out' st1, out = b ++ out' /\ connection dbg st1 inp fin None = (out', en, st') /\ answers (CmdSubmit sb) b /\
     (len b = 48 <-> forall k, brings (cs_world st) d sb k -> k = 0) /\
     (dbg = true -> forall k, brings (cs_world st) d sb k -> k mod 4294967296 = 0)).
Proof.
  intros H dbg st m sb d inp fin out en st' Hm HL Hd H0 E.
  destruct (C20_reply_size_partial H dbg st m sb d inp fin out en st' Hm HL Hd E)
    as [Hp|(b & o & st1 & n & Eo & Ec & Hb & Hl & _ & Hdb & Hn & _)]; [by left|right].
  exists b, o, st1. split; [done|]. split; [done|]. split; [done|].
  assert (Hk : (n = 0 \/ brings (cs_world st) d sb n) /\ (forall k, brings (cs_world st) d sb k -> k = n)).
  { destruct Hn as [(_ & -> & Hx)|[_ Hx]]; split; [by left|intros k Hy; by destruct (Hx k)|right; by apply Hx|intros k; apply Hx]. }
  destruct Hk as [Hk1 Hk2]. split.
  - split; [intros H48 k Hk; apply Hk2 in Hk; lia|]. intros Hz. destruct Hk1 as [->|Hk1]; [lia|]. apply Hz in Hk1. lia.
  - intros -> k Hk. apply Hk2 in Hk. subst k. apply Hdb; [done|lia].
Qed.
Print Assumptions C19_payload_partial.

(** The bulk read of [ex_in] brings the two bytes that fit; setting the configuration with wLength
    1 brings one byte, on an OUT transfer. *)
Example C20_size_example : imported ex_state ex_dev /\ brings ex_world ex_dev ex_in 2 /\ brings ex_world ex_dev (ex_setconf 1) 1 /\
  brings ex_world ex_dev (ex_setconf 0) 0 /\ h_direction (sb_header (ex_setconf 1)) = 0.
Proof.
  split; [exact ex_imported|].
  assert (X : forall sb e i s data, find_ep ex_dev (ep_byte (sb_header sb)) = Some (e, i) -> setup_of (sb_setup sb) s ->
    fst (handle_urb true ex_world ex_dev e i (sb_transfer_buffer_length sb) s (sb_data sb)) = UOk data -> brings ex_world ex_dev sb (len data)).
  { intros sb e i s data Hf Hs E. apply find_ep_some in Hf.
    destruct (handle_urb true ex_world ex_dev e i (sb_transfer_buffer_length sb) s (sb_data sb)) as [r w'] eqn:Eu. cbn in E. subst r.
    apply (urb_brings true _ _ _ e i s _ w' (len data) Hf Hs Eu); [done|eauto]. }
  split; [|split; [|split; [|done]]].
  - eapply (X ex_in _ _ (mkSetup 0 0 0 0 0) [65; 66]); [reflexivity|do 8 eexists; split; reflexivity|reflexivity].
  - eapply (X (ex_setconf 1) _ _ (mkSetup 0 9 1 0 1) [1]); [reflexivity|do 8 eexists; split; reflexivity|reflexivity].
  - eapply (X (ex_setconf 0) _ _ (mkSetup 0 9 1 0 0) []); [reflexivity|do 8 eexists; split; reflexivity|reflexivity].
Qed.
