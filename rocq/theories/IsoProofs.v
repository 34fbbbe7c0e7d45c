(** * Isolation between clients *)
From Verif Require Export SpecIso ConcProofs SubmitProofs HandlerProofs.

Lemma addressed_uses d a e f : addressed d a e (Some f) -> uses_intf d (if_handler f).
Proof.
  inversion 1 as [| |fs1 f' fs2 es1 e' es2 _ _ Hf]; subst. exists f. split; [|done]. rewrite Hf.
  apply elem_of_app. right. left.
Qed.

(** Every URB is served without handlers, or by one handler of the device. *)
Lemma handle_urb_shape (H : handlers) dbg d e i tbl s req : (forall f, i = Some f -> uses_intf d (if_handler f)) ->
  (exists r, forall w : world H, handle_urb dbg w d e i tbl s req = (r, w)) \/
  (exists f, uses_intf d (if_handler f) /\
     forall w : world H, handle_urb dbg w d e i tbl s req = call_intf w (if_handler f) f e tbl s req) \/
  (exists r, uses_dev d r /\ forall w : world H, handle_urb dbg w d e i tbl s req = call_dev w r tbl s req).
Proof.
  intros Hi.
  assert (D : (exists r, forall w : world H, control_dispatch w d e tbl s req = (r, w)) \/
    (exists f, uses_intf d (if_handler f) /\
       forall w : world H, control_dispatch w d e tbl s req = call_intf w (if_handler f) f e tbl s req) \/
    (exists r, uses_dev d r /\ forall w : world H, control_dispatch w d e tbl s req = call_dev w r tbl s req)).
  { unfold control_dispatch. destruct (N.land (s_request_type s) 15 =? 1).
    - destruct (d_interfaces d !! N.to_nat (N.land (s_index s) 255)) as [f|] eqn:Ef; [|left; eauto]. right; left. exists f. split; [|done].
      exists f. split; [|done]. by eapply elem_of_list_lookup_2.
    - destruct (N.land (s_request_type s) 15 =? 0); [|left; eauto]. destruct (d_handler d) as [r|] eqn:Eh; [|left; eauto]. right; right. by exists r. }
  unfold handle_urb. destruct (ep_attr_of (ep_attributes e)) as [[]|]; [..|left; eauto].
  - destruct (ep_direction e), (s_request_type s =? 128), (s_request_type s =? 0), (std_request_of (s_request s)) as [[]|];
      try exact D; left; eauto.
  - destruct i as [f|]; [|left; eauto]. right; left. exists f. split; [by apply Hi|done].
  - destruct i as [f|]; [|left; eauto]. right; left. exists f. split; [by apply Hi|done].
  - destruct i as [f|]; [|left; eauto]. right; left. exists f. split; [by apply Hi|done].
Qed.

Lemma serve_submit_local {H} dbg (w : world H) d sb :
  (forall r, ~ uses_intf d r -> w_intf (serve_submit dbg w (Some d) sb).2 r = w_intf w r) /\
  (forall r, ~ uses_dev d r -> w_dev (serve_submit dbg w (Some d) sb).2 r = w_dev w r).
Proof.
  unfold serve_submit. destruct (find_ep d _) as [[e i]|] eqn:Ef; [|done]. apply find_ep_some in Ef.
  destruct (handle_urb_shape H dbg d e i (sb_transfer_buffer_length sb) (setup_parse (sb_setup sb)) (sb_data sb))
    as [[r E]|[(f & Hf & E)|(r & Hr & E)]].
  - intros f ->. by eapply addressed_uses.
  - rewrite E. by destruct r.
  - rewrite E. unfold call_intf. destruct (c_poisoned _); [done|].
    destruct (i_step _ _ _ _ _ _ _); cbn; (split; [|done]); intros r Hr; destruct (N.eqb_spec r (if_handler f)) as [->|]; done.
  - rewrite E. unfold call_dev. destruct (c_poisoned _); [done|].
    destruct (d_step _ _ _ _ _); cbn; (split; [done|]); intros r' Hr'; destruct (N.eqb_spec r' r) as [->|]; done.
Qed.

Lemma serve_submit_same_for {H} dbg (w w' : world H) d sb : same_for d w w' ->
  (serve_submit dbg w (Some d) sb).1 = (serve_submit dbg w' (Some d) sb).1 /\
  same_for d (serve_submit dbg w (Some d) sb).2 (serve_submit dbg w' (Some d) sb).2.
Proof.
  intros [Si Sd]. unfold serve_submit. destruct (find_ep d _) as [[e i]|] eqn:Ef; [|done]. apply find_ep_some in Ef.
  destruct (handle_urb_shape H dbg d e i (sb_transfer_buffer_length sb) (setup_parse (sb_setup sb)) (sb_data sb))
    as [[r E]|[(f & Hf & E)|(r & Hr & E)]].
  - intros f ->. by eapply addressed_uses.
  - rewrite !E. by destruct r.
  - rewrite !E. unfold call_intf. rewrite (Si _ Hf). destruct (c_poisoned _); [done|].
    destruct (i_step _ _ _ _ _ _ _); cbn; (split; [done|]); (split; [|done]); intros r Hr; cbn; destruct (r =? if_handler f); auto.
  - rewrite !E. unfold call_dev. rewrite (Sd _ Hr). destruct (c_poisoned _); [done|].
    destruct (d_step _ _ _ _ _); cbn; (split; [done|]); (split; [done|]); intros r' Hr'; cbn; destruct (r' =? r); auto.
Qed.

Lemma same_for_refl {H} d (w : world H) : same_for d w w.
Proof. done. Qed.
Lemma same_for_trans {H} d (w1 w2 w3 : world H) : same_for d w1 w2 -> same_for d w2 w3 -> same_for d w1 w3.
Proof. intros [A1 A2] [B1 B2]. split; intros r Hr; [rewrite A1, B1|rewrite A2, B2]; done. Qed.

(** Which steps change handlers, seen from the events. *)
Lemma move_world {H} dbg (s s' : sys H) l ev : move dbg s l s' ev ->
  (y_world s' = y_world s /\ forall t sb r, EvServe t (CmdSubmit sb) r ∉ ev) \/
  (exists t sb r, EvServe t (CmdSubmit sb) r ∈ ev /\ forall u, own_submits u ev = if t =? u then [(sb, r)] else []) \/
  (exists r f, l = LApp r f /\ ev = [] /\ y_world s' = set_intf (y_world s) r (mkCell false (f (c_state (w_intf (y_world s) r))))).
Proof.
  intros M. destruct M;
  try (by left; split; [done|]; intros ? ? ?; rewrite ?elem_of_nil, ?elem_of_cons; intuition discriminate);
  try match goal with A : answered _ _ _ _ _ _ _ _ |- _ => destruct A as [b Eb|e' Eb He Hp] end;
  try (by left; split; [done|]; intros ? ? ?; rewrite ?elem_of_cons, ?elem_of_nil; intuition discriminate).
  - right; right. by exists r, f.
  - right; left. eexists t, _, _. split; [left|]. intros u. unfold own_submits. cbn. by destruct (t =? u).
  - right; left. eexists t, _, _. split; [left|]. intros u. unfold own_submits. cbn. by destruct (t =? u).
Qed.

Lemma no_submits t ev : (forall u sb r, EvServe u (CmdSubmit sb) r ∉ ev) -> own_submits t ev = [].
Proof.
  induction ev as [|e ev IH]; intros Hn; [done|].
  assert (IH' : own_submits t ev = []) by (apply IH; intros u sb r Hin; apply (Hn u sb r); by right).
  unfold own_submits in *. cbn. destruct e as [u [] r| | | | |]; try exact IH'.
  destruct (Hn u s r). left.
Qed.
Lemma own_app t e1 e2 : own_submits t (e1 ++ e2) = own_submits t e1 ++ own_submits t e2.
Proof. unfold own_submits. apply omap_app. Qed.
Lemma held_in_ledger {H} ds (s : sys H) evs t d : dev_inv ds s evs -> held evs t = Some d -> d ∈ ledger ds evs.
Proof.
  intros HI Hh. rewrite <- (di_ledger _ _ _ HI). apply elem_of_app. right. apply elem_of_list_fmap.
  exists (d_bus_id d, d). split; [done|]. apply elem_of_map_to_list. by eapply (di_held _ _ _ HI).
Qed.

(** The submit of a step, in terms of what the connection holds. *)
Lemma submit_held {H} dbg ds (s s' : sys H) evs l ev t sb r : dev_inv ds s evs -> move dbg s l s' ev ->
  EvServe t (CmdSubmit sb) r ∈ ev -> serve_submit dbg (y_world s) (held evs t) sb = (r, y_world s').
Proof.
  intros HI M He. destruct (ev_submit _ _ _ _ _ _ _ _ M He) as (cur & _ & Et & Er & _).
  pose proof (di_cur _ _ _ HI _ _ Et eq_refl eq_refl) as Hc. cbn in Hc. subst cur.
  destruct (held evs t) as [d|] eqn:Hh; cbn in Er; [|done]. by rewrite (di_held _ _ _ HI _ _ Hh) in Er.
Qed.

Lemma alone_run {H} dbg ds (w : world H) ls s evs t d : run dbg (init_sys ds w) ls = Some (s, evs) ->
  forall ls' s' evs', run dbg s ls' = Some (s', evs') -> distinct_ids ds (evs ++ evs') -> private d ds (evs ++ evs') ->
  (forall e1 e2, evs' = e1 ++ e2 -> e2 <> [] -> held (evs ++ e1) t = Some d) -> app_leaves d ls' ->
  exists w', alone dbg d (y_world s) (own_submits t evs') w' /\ same_for d w' (y_world s').
Proof.
  intros E0. apply (run_ind dbg s (fun ls' s' evs' => distinct_ids ds (evs ++ evs') -> private d ds (evs ++ evs') ->
    (forall e1 e2, evs' = e1 ++ e2 -> e2 <> [] -> held (evs ++ e1) t = Some d) -> app_leaves d ls' ->
    exists w', alone dbg d (y_world s) (own_submits t evs') w' /\ same_for d w' (y_world s'))).
  - intros _ _ _ _. exists (y_world s). split; [constructor|done].
  - intros ls1 s1 e1 l s2 e2 E1 IH E2 Hd Hp Hh Hu. rewrite app_assoc in Hd, Hp. pose proof (distinct_app _ _ _ Hd) as Hd1.
    pose proof (dev_run dbg ds w (ls ++ ls1) s1 (evs ++ e1) (run_app_intro _ _ _ _ _ _ _ _ E0 E1) Hd1) as HI.
    apply Forall_app in Hu as [Hu1 Hul]. apply Forall_cons in Hul as [Hul _].
    destruct IH as (w' & A & Sm); [done| | |done|].
    { intros a b d' Eab. apply (Hp a (b ++ e2)). by rewrite Eab, app_assoc. }
    { intros a b -> Hb. apply (Hh a (b ++ e2)); [by rewrite app_assoc|]. by destruct b. }
    rewrite own_app. pose proof (step_move _ _ _ _ _ E2) as M.
    destruct (move_world _ _ _ _ _ M) as [[Ew Hn]|[(u & sb & r & He & Ho)|(r & f & -> & -> & Ew)]].
    + rewrite (no_submits t e2 Hn), app_nil_r. exists w'. by rewrite Ew.
    + pose proof (submit_held _ _ _ _ _ _ _ _ _ _ HI M He) as Es.
      assert (Ht : held (evs ++ e1) t = Some d). { apply (Hh e1 e2); [done|]. intros ->. by apply elem_of_nil in He. }
      rewrite Ho. destruct (N.eqb_spec u t) as [->|Hn].
      * rewrite Ht in Es. destruct (serve_submit_same_for dbg w' (y_world s1) d sb Sm) as [S1 S2].
        rewrite Es in S1, S2. cbn in S1, S2.
        exists (serve_submit dbg w' (Some d) sb).2. split; [|done]. eapply alone_snoc; [exact A|].
        rewrite <- S1. apply surjective_pairing.
      * rewrite app_nil_r. exists w'. split; [done|]. eapply same_for_trans; [exact Sm|].
        destruct (held (evs ++ e1) u) as [d'|] eqn:Hu'.
        -- assert (Hid : d_bus_id d' <> d_bus_id d). { intros Hid. apply Hn. by eapply (di_excl _ _ _ HI). }
           destruct (Hp (evs ++ e1) e2 d' eq_refl (held_in_ledger _ _ _ _ _ HI Hu') Hid) as [P1 P2].
           pose proof (serve_submit_local dbg (y_world s1) d' sb) as [L1 L2]. rewrite Es in L1, L2. cbn in L1, L2.
           split; intros r' Hr'; symmetry; [apply L1, P1, Hr'|apply L2, P2, Hr'].
        -- cbn in Es. injection Es as _ <-. done.
    + cbn. rewrite app_nil_r. exists w'. split; [done|]. eapply same_for_trans; [exact Sm|]. rewrite Ew. split; [|done].
      intros r' Hr'. cbn. destruct (N.eqb_spec r' r) as [->|]; [by destruct Hul|done].
Qed.

Lemma uses_intf_dec d r : uses_intf d r \/ ~ uses_intf d r.
Proof.
  destruct (decide (r ∈ if_handler <$> d_interfaces d)) as [Hin|Hn].
  - left. apply elem_of_list_fmap in Hin as (f & -> & Hf). by exists f.
  - right. intros (f & Hf & <-). apply Hn. by apply elem_of_list_fmap_1.
Qed.
Lemma uses_dev_dec d r : uses_dev d r \/ ~ uses_dev d r.
Proof. unfold uses_dev. destruct (decide (d_handler d = Some r)); auto. Qed.
