(** * Proofs about the bundled handlers *)
From Verif Require Export SpecHandlers UrbProofs Sys.

Lemma is_ep0_mod e : is_ep0 e = (ep_address e mod 128 =? 0).
Proof. unfold is_ep0. change 127 with (N.ones 7). by rewrite N.land_ones. Qed.

(** ** Keyboard *)
(** What remains to be shown to the host. *)
Definition kb_todo (k : keyboard) : list key_action :=
  (match k_state k with KbIdle => [] | KbKeyDown => [Release] end) ++ script (k_pending k).

Lemma script_app a b : script (a ++ b) = script a ++ script b.
Proof.
  induction a as [|r a IH]; [done|]. change (Press r :: Release :: script (a ++ b) = Press r :: Release :: script a ++ script b).
  by rewrite IH.
Qed.

Lemma kb_poll k f e tbl s req : polls e ->
  exists k1 b, kb_handle_urb k f e tbl s req = CallOk k1 b /\
    match kb_todo k with
    | [] => b = [] /\ kb_todo k1 = []
    | a :: rest => b <> [] /\ shows b a /\ kb_todo k1 = rest
    end.
Proof.
  intros [He Hin]. unfold kb_handle_urb. rewrite is_ep0_mod.
  destruct (N.eqb_spec (ep_address e mod 128) 0); [done|]. rewrite (proj2 (ep_direction_spec e)) by exact Hin.
  destruct k as [rd [|r pend] []]; cbn; do 2 eexists; (split; [reflexivity|]); cbn; split_and!; try done.
  all: repeat constructor.
Qed.
Lemma kb_other k f e tbl s req k1 b : ~ polls e -> kb_handle_urb k f e tbl s req = CallOk k1 b -> k1 = k.
Proof.
  intros Hp. unfold kb_handle_urb. rewrite is_ep0_mod.
  destruct (N.eqb_spec (ep_address e mod 128) 0).
  - repeat case_match; congruence.
  - destruct (ep_direction e) eqn:Ed; [|congruence]. apply ep_direction_spec in Ed. destruct Hp. by split.
Qed.
Lemma kb_exec_todo k ops outs k' : kb_exec k ops outs k' ->
  exists done, kb_todo k ++ script (queued ops) = done ++ kb_todo k' /\ Forall2 shows (non_empty outs) done.
Proof.
  induction 1 as [k|k r ops outs k' _ (dn & E & F)|k f e tbl s req k1 b ops outs k' Hp E0 _ (dn & E & F)
    |k f e tbl s req k1 b ops outs k' Hp E0 _ (dn & E & F)].
  - exists []. split; [by rewrite app_nil_r|constructor].
  - exists dn. split; [|done]. rewrite <- E. unfold kb_todo, kb_push. cbn [k_state k_pending].
    rewrite script_app, <- !app_assoc. done.
  - destruct (kb_poll k f e tbl s req Hp) as (k2 & b2 & E2 & Hm). rewrite E0 in E2. injection E2 as <- <-.
    cbn [queued omap list_omap]. destruct (kb_todo k) as [|a rest].
    + destruct Hm as [-> Hk]. exists dn. split; [by rewrite <- E, Hk|]. exact F.
    + destruct Hm as (Hb & Hs & Hk). exists (a :: dn). split; [rewrite <- Hk; cbn; by rewrite <- E|].
      unfold non_empty. rewrite filter_cons_True by done. by constructor.
  - apply kb_other in E0 as ->; [|done]. by exists dn.
Qed.

Lemma kb_panics_iff k f e tbl s req :
  (exists k1 p, kb_handle_urb k f e tbl s req = CallPanic k1 p) <->
  ep_address e mod 128 = 0 /\
  ~ (s_request_type s = 129 /\ s_request s = 6 /\ s_value s / 256 = 34) /\
  ~ (s_request_type s = 33 /\ s_request s = 10).
Proof.
  unfold kb_handle_urb. rewrite is_ep0_mod, shiftr8.
  destruct (N.eqb_spec (ep_address e mod 128) 0) as [E0|E0].
  2: { split; [|lia]. intros (k1 & p & E). repeat case_match; discriminate. }
  destruct (N.eqb_spec (s_request_type s) 129) as [E1|E1], (N.eqb_spec (s_request s) 6) as [E2|E2]; cbn [andb].
  - destruct (hid_desc_type_of (s_value s / 256)) as [[]|] eqn:Et.
    1,3,4: split; [intros _; split_and!; [done| |lia]; intros (_ & _ & E3); rewrite E3 in Et; discriminate|by eauto].
    split; [intros (? & ? & [=])|]. intros (_ & Hn & _). destruct Hn. split_and!; try done.
    destruct (s_value s / 256) as [|v]; [done|]. cbn in Et. by repeat (destruct v as [v|v|]; try done).
  - destruct (N.eqb_spec (s_request_type s) 33) as [E3|E3], (N.eqb_spec (s_request s) 10) as [E4|E4]; cbn [andb]; try lia.
    all: split; [intros _; split_and!; lia|by eauto].
  - destruct (N.eqb_spec (s_request_type s) 33) as [E3|E3], (N.eqb_spec (s_request s) 10) as [E4|E4]; cbn [andb]; try lia.
    all: split; [intros _; split_and!; lia|by eauto].
  - destruct (N.eqb_spec (s_request_type s) 33) as [E3|E3], (N.eqb_spec (s_request s) 10) as [E4|E4]; cbn [andb].
    1: split; [intros (? & ? & [=])|tauto].
    all: split; [intros _; split_and!; lia|by eauto].
Qed.

(** ** Key codes *)
Definition ascii_ok (a : N) : bool :=
  match from_ascii a with
  | Val r => bool_decide (r_modifier r = 0 /\ drop 1 (r_keys r) = [0; 0; 0; 0; 0] /\
      (filter (fun x => x.1 = a) key_usage).*2 = take 1 (r_keys r) /\ length (r_keys r) = 6%nat)
  | Panic p => bool_decide (filter (fun x => x.1 = a) key_usage = [])
  | Diverge => false
  end.
Lemma ascii_all : forallb ascii_ok (map N.of_nat (seq 0 256)) = true.
Proof. vm_compute. reflexivity. Qed.
Lemma ascii_ok_all a : a < 256 -> ascii_ok a = true.
Proof.
  intros Ha. pose proof ascii_all as Hall. rewrite forallb_forall in Hall. apply Hall.
  apply in_map_iff. exists (N.to_nat a). split; [apply N2Nat.id|]. apply in_seq. lia.
Qed.

(** ** Serial port *)
Lemma cdc_poll c f e tbl s req : bulk_in e -> cdc_handle_urb c f e tbl s req = CallOk (mkCdc []) (c_tx_buffer c).
Proof.
  intros [Ha Hin]. unfold cdc_handle_urb. rewrite Ha. cbn [ep_attr_val N.eqb].
  rewrite (proj2 (ep_direction_spec e)) by exact Hin. done.
Qed.
Lemma cdc_data_endpoint e : e ∈ cdc_endpoints /\ ep_address e = 0x82 -> bulk_in e.
Proof.
  intros [Hin Ha]. unfold cdc_endpoints in Hin.
  repeat (apply elem_of_cons in Hin as [-> |Hin]); [discriminate| |discriminate|by apply elem_of_nil in Hin].
  split; [done|]. unfold in_ep. cbn. lia.
Qed.
Lemma cdc_other c f e tbl s req : bulk_out_or_interrupt e -> cdc_handle_urb c f e tbl s req = CallOk c [].
Proof.
  intros [[Ha Hin]|Ha]; unfold cdc_handle_urb; rewrite Ha.
  - destruct (ep_direction e) eqn:Ed; [|done]. apply ep_direction_spec in Ed. done.
  - cbn. by destruct (ep_direction e).
Qed.
Lemma cdc_exec_fifo c ops outs others c' : cdc_exec c ops outs others c' ->
  c_tx_buffer c ++ cdc_queued ops = mjoin outs ++ c_tx_buffer c' /\ Forall (fun b => b = []) others.
Proof.
  induction 1 as [c|c bs ops outs others c' _ [E F]|c f e tbl s req c1 b ops outs others c' Hp E0 _ [E F]
    |c f e tbl s req c1 b ops outs others c' Hp E0 _ [E F]].
  - split; [by rewrite app_nil_r|constructor].
  - split; [|done]. rewrite <- E. cbn. by rewrite <- app_assoc.
  - rewrite cdc_poll in E0 by done. injection E0 as <- <-. split; [|done].
    rewrite join_cons, <- app_assoc, <- E. done.
  - rewrite cdc_other in E0 by done. injection E0 as <- <-. split; [|by constructor]. exact E.
Qed.
Lemma cdc_hands_out_iff f e tbl s req :
  (forall c c1 b, cdc_handle_urb c f e tbl s req = CallOk c1 b -> b = [] /\ c1 = c) <->
  (~ in_ep e \/ ep_attributes e = 3).
Proof.
  unfold cdc_handle_urb. change (ep_attr_val AInterrupt) with 3.
  destruct (N.eqb_spec (ep_attributes e) 3) as [E3|E3]; destruct (ep_direction e) eqn:Ed.
  1,2: split; [by right|]; intros _ c c1 b [= <- <-]; done.
  - apply ep_direction_spec in Ed. split.
    + intros Hn. destruct (Hn (mkCdc [0]) _ _ eq_refl). discriminate.
    + intros [?|?]; done.
  - split; [|intros _ c c1 b [= <- <-]; done]. intros _. left. intros Hin. apply ep_direction_spec in Hin. congruence.
Qed.

(** ** Poisoned handlers *)
Lemma call_intf_flags {H} (w : world H) r f e tbl s req : never_panics H ->
  forall h, c_poisoned (w_intf (call_intf w r f e tbl s req).2 h) = c_poisoned (w_intf w h).
Proof.
  intros [Hn _] h. unfold call_intf. destruct (c_poisoned (w_intf w r)) eqn:Ep; [done|].
  destruct (i_step H _ f e tbl s req) eqn:Es; cbn; try (destruct (N.eqb_spec h r) as [-> |]; [by rewrite Ep|done]).
  exfalso. by eapply Hn.
Qed.
Lemma call_dev_flags {H} (w : world H) r tbl s req : never_panics H ->
  forall h, c_poisoned (w_dev (call_dev w r tbl s req).2 h) = c_poisoned (w_dev w h).
Proof.
  intros [_ Hn] h. unfold call_dev. destruct (c_poisoned (w_dev w r)) eqn:Ep; [done|].
  destruct (d_step H _ tbl s req) eqn:Es; cbn; try (destruct (N.eqb_spec h r) as [-> |]; [by rewrite Ep|done]).
  exfalso. by eapply Hn.
Qed.
Definition same_flags {H} (w w' : world H) : Prop :=
  (forall h, c_poisoned (w_intf w' h) = c_poisoned (w_intf w h)) /\
  (forall h, c_poisoned (w_dev w' h) = c_poisoned (w_dev w h)).
Lemma same_flags_refl {H} (w : world H) : same_flags w w.
Proof. done. Qed.
Lemma same_flags_trans {H} (w1 w2 w3 : world H) : same_flags w1 w2 -> same_flags w2 w3 -> same_flags w1 w3.
Proof. intros [A B] [C D]. split; intros h; [by rewrite C, A|by rewrite D, B]. Qed.
Lemma call_intf_same {H} (w : world H) r f e tbl s req : never_panics H -> same_flags w (call_intf w r f e tbl s req).2.
Proof.
  intros Hn. split; [by apply call_intf_flags|]. intros h. unfold call_intf.
  destruct (c_poisoned (w_intf w r)); [done|]. by destruct (i_step _ _ _ _ _ _ _).
Qed.
Lemma call_dev_same {H} (w : world H) r tbl s req : never_panics H -> same_flags w (call_dev w r tbl s req).2.
Proof.
  intros Hn. split; [|by apply call_dev_flags]. intros h. unfold call_dev.
  destruct (c_poisoned (w_dev w r)); [done|]. by destruct (d_step _ _ _ _ _).
Qed.
Lemma handle_urb_same {H} dbg (w : world H) d e i tbl s req : never_panics H ->
  same_flags w (handle_urb dbg w d e i tbl s req).2.
Proof.
  intros Hn. unfold handle_urb, control_dispatch.
  repeat case_match; cbn; try apply same_flags_refl; try (by apply call_intf_same); by apply call_dev_same.
Qed.
Lemma serve_submit_same {H} dbg (w : world H) cur sb : never_panics H ->
  same_flags w (serve_submit dbg w cur sb).2.
Proof.
  intros Hn. unfold serve_submit. destruct cur as [d|]; [|apply same_flags_refl].
  destruct (find_ep d _) as [[e i]|]; [|apply same_flags_refl].
  pose proof (handle_urb_same dbg w d e i (sb_transfer_buffer_length sb) (setup_parse (sb_setup sb)) (sb_data sb) Hn) as Hs.
  destruct (handle_urb _ _ _ _ _ _ _ _) as [r w']. by destruct r.
Qed.
Lemma respond_world {H} dbg (s : sys H) t cur c r : y_world (respond dbg s t cur c r).1 = y_world s.
Proof. unfold respond. by destruct (obind r (response_to_bytes dbg)). Qed.
Lemma some_fst {A B} (p : A * B) a b : Some p = Some (a, b) -> p.1 = a.
Proof. by intros [= ->]. Qed.
(** Only submits and the application change handlers. *)
Lemma step_world {H} dbg (s : sys H) l s1 ev : step dbg s l = Some (s1, ev) ->
  y_world s1 = y_world s \/
  (exists t cur sb, y_world s1 = (serve_submit dbg (y_world s) (current_device (y_server s) cur) sb).2 /\ l = LRun t) \/
  (exists r f, c_poisoned (w_intf (y_world s) r) = false /\
     y_world s1 = set_intf (y_world s) r (mkCell false (f (c_state (w_intf (y_world s) r))))).
Proof.
  intros E. destruct l; cbn [step] in E.
  - repeat case_match; try discriminate. injection E as <- <-. by left.
  - repeat case_match; try discriminate. injection E as <- <-. by left.
  - repeat case_match; try discriminate; injection E as <- <-; by left.
  - repeat case_match; try discriminate. injection E as <- <-. by left.
  - repeat case_match; try discriminate. injection E as <- <-. by left.
  - repeat case_match; try discriminate. injection E as <- <-. by left.
  - repeat case_match; try discriminate. injection E as <- <-. by left.
  - repeat case_match; try discriminate. injection E as <- <-. by left.
  - destruct (c_poisoned (w_intf (y_world s) r)) eqn:Ep; [discriminate|]. injection E as <- <-. right; right. by exists r, f.
  - destruct (lk_grant _); [|discriminate]. injection E as <- <-. by left.
  - destruct (lk_grant _); [|discriminate]. injection E as <- <-. by left.
  - destruct (y_tasks s !! t) as [[pc cur]|]; [|discriminate]. destruct pc; cbn in E; try discriminate.
    + destruct (lk_holds _ _ _); [|discriminate]. destruct c; try (injection E as <- <-; by left).
      * destruct (serve_submit _ _ _ _) as [r w'] eqn:Es. right; left. exists t, cur, s0. rewrite Es. split; [|done].
        apply some_fst in E. rewrite <- E. by rewrite respond_world.
      * apply some_fst in E. left. rewrite <- E. apply respond_world.
    + destruct (lk_holds _ _ _); [|discriminate]. left. apply some_fst in E. rewrite <- E. apply respond_world.
    + injection E as <- <-. by left.
    + destruct (lk_holds _ _ _); [|discriminate]. injection E as <- <-. by left.
    + destruct (lk_holds _ _ _); [|discriminate]. destruct (import_device _ _). left. apply some_fst in E. rewrite <- E. by rewrite respond_world.
    + destruct (lk_holds _ _ _); [|discriminate]. injection E as <- <-. by left.
    + destruct (lk_holds _ _ _); [|discriminate]. destruct cur; [|discriminate].
      destruct (release_device _ _); try discriminate; injection E as <- <-; by left.
    + destruct (lk_holds _ _ _); [|discriminate]. injection E as <- <-. by left.
    + destruct (lk_holds _ _ _); [|discriminate]. destruct (remove_available _ _); injection E as <- <-; by left.
    + destruct (lk_holds _ _ _); [|discriminate]. injection E as <- <-. by left.
Qed.
Lemma step_flags {H} dbg (s : sys H) l s1 ev : never_panics H -> step dbg s l = Some (s1, ev) ->
  same_flags (y_world s) (y_world s1).
Proof.
  intros Hn E. destruct (step_world _ _ _ _ _ E) as [-> |[(t & cur & sb & -> & _)|(r & f & Hp & ->)]].
  - apply same_flags_refl.
  - by apply serve_submit_same.
  - split; [|done]. intros h. cbn. destruct (N.eqb_spec h r) as [-> |]; [by rewrite Hp|done].
Qed.
Lemma run_flags {H} dbg (s : sys H) ls s1 ev : never_panics H -> run dbg s ls = Some (s1, ev) ->
  same_flags (y_world s) (y_world s1).
Proof.
  intros Hn. revert s ev. induction ls as [|l ls IH]; intros s ev E; cbn in E; [injection E as <- <-; apply same_flags_refl|].
  destruct (step dbg s l) as [[s2 e2]|] eqn:E1; [|done]. destruct (run dbg s2 ls) as [[s3 e3]|] eqn:E2; [|done].
  injection E as <- <-. eapply same_flags_trans; [by eapply step_flags|by eapply IH].
Qed.

(** Poison stays. *)
Definition poison_kept {H} (w w' : world H) : Prop :=
  (forall h, c_poisoned (w_intf w h) = true -> c_poisoned (w_intf w' h) = true) /\
  (forall h, c_poisoned (w_dev w h) = true -> c_poisoned (w_dev w' h) = true).
Lemma call_intf_kept {H} (w : world H) r f e tbl s req : poison_kept w (call_intf w r f e tbl s req).2.
Proof.
  unfold call_intf. destruct (c_poisoned (w_intf w r)) eqn:Ep; [done|].
  destruct (i_step H _ f e tbl s req); split; intros h Hh; cbn; try done; destruct (N.eqb_spec h r) as [-> |]; congruence.
Qed.
Lemma call_dev_kept {H} (w : world H) r tbl s req : poison_kept w (call_dev w r tbl s req).2.
Proof.
  unfold call_dev. destruct (c_poisoned (w_dev w r)) eqn:Ep; [done|].
  destruct (d_step H _ tbl s req); split; intros h Hh; cbn; try done; destruct (N.eqb_spec h r) as [-> |]; congruence.
Qed.
Lemma serve_submit_kept {H} dbg (w : world H) cur sb : poison_kept w (serve_submit dbg w cur sb).2.
Proof.
  unfold serve_submit. destruct cur as [d|]; [|done].
  destruct (find_ep d _) as [[e i]|]; [|done].
  assert (Hs : poison_kept w (handle_urb dbg w d e i (sb_transfer_buffer_length sb) (setup_parse (sb_setup sb)) (sb_data sb)).2).
  { unfold handle_urb, control_dispatch.
    repeat case_match; cbn; try done; try apply call_intf_kept; apply call_dev_kept. }
  destruct (handle_urb _ _ _ _ _ _ _ _) as [r w']. by destruct r.
Qed.
Lemma run_poison {H} dbg (s : sys H) ls s1 ev : run dbg s ls = Some (s1, ev) -> poison_kept (y_world s) (y_world s1).
Proof.
  revert s ev. induction ls as [|l ls IH]; intros s ev E; cbn in E; [injection E as <- <-; done|].
  destruct (step dbg s l) as [[s2 e2]|] eqn:E1; [|done]. destruct (run dbg s2 ls) as [[s3 e3]|] eqn:E2; [|done].
  injection E as <- <-. destruct (IH _ _ E2) as [A B].
  assert (K : poison_kept (y_world s) (y_world s2)).
  { destruct (step_world _ _ _ _ _ E1) as [-> |[(t & cur & sb & -> & _)|(r & f & Hp & ->)]];
      [done|apply serve_submit_kept|]. split; [|done]. intros h Hh. cbn. destruct (N.eqb_spec h r) as [-> |]; congruence. }
  destruct K as [A0 B0]. split; auto.
Qed.

Lemma kb_exec_app k ops outs k' f e tbl s req k1 b : kb_exec k ops outs k' -> polls e ->
  kb_handle_urb k' f e tbl s req = CallOk k1 b -> kb_exec k (ops ++ [KCall f e tbl s req]) (outs ++ [b]) k1.
Proof.
  intros HE Hp E. induction HE.
  - cbn. eapply kx_poll; [done|exact E|constructor].
  - cbn. apply kx_queue. auto.
  - cbn. eapply kx_poll; eauto.
  - cbn. eapply kx_other; eauto.
Qed.
Lemma cdc_exec_app c ops outs others c' f e tbl s req c1 b : cdc_exec c ops outs others c' -> bulk_in e ->
  cdc_handle_urb c' f e tbl s req = CallOk c1 b -> cdc_exec c (ops ++ [CCall f e tbl s req]) (outs ++ [b]) others c1.
Proof.
  intros HE Hp E. induction HE.
  - cbn. eapply cx_poll; [done|exact E|constructor].
  - cbn. apply cx_queue. auto.
  - cbn. eapply cx_poll; eauto.
  - cbn. eapply cx_other; eauto.
Qed.

(** A poisoned handler aborts every connection that is routed to it. *)
Lemma poisoned_aborts {H} dbg (st : cstate H) m sb d e i s t :
  all_u8 m = true -> cmd_layout dbg m (CmdSubmit sb) -> imported st d ->
  addressed d (ep_byte (sb_header sb)) e i -> setup_of (sb_setup sb) s ->
  routed d e i s t -> ~ usable (cs_world st) t -> exists p st1, aborts dbg st m p st1.
Proof.
  intros Hm HL Hd Ha Hs Hr Hu.
  assert (Hab : aborting dbg (cs_world st) d e i (sb_transfer_buffer_length sb) s (sb_data sb)) by (by eapply ab_poisoned).
  apply urb_aborts_iff in Hab as (p & w' & E). exists p. eexists.
  exact (urb_replies dbg st m sb d e i s _ _ Hm HL Hd Ha Hs E).
Qed.
