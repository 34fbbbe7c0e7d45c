(** * Every execution is a sequence of atomic operations *)
From Verif Require Export SpecLin LiveProofs.

Lemma execution_run {H} dbg (s : sys H) tr s' : execution dbg s tr s' ->
  run dbg s tr.*1 = Some (s', mjoin tr.*2).
Proof.
  induction 1 as [s|s1 l ev s2 tr s3 E _ IH]; [done|]. cbn. by rewrite E, IH.
Qed.
Lemma run_execution {H} dbg (s : sys H) ls s' evs : run dbg s ls = Some (s', evs) ->
  exists tr, execution dbg s tr s' /\ tr.*1 = ls /\ mjoin tr.*2 = evs.
Proof.
  revert s evs. induction ls as [|l ls IH]; intros s evs E; cbn in E.
  - injection E as <- <-. exists []. split; [constructor|done].
  - destruct (step dbg s l) as [[s1 e1]|] eqn:E1; [|done].
    destruct (run dbg s1 ls) as [[s2 e2]|] eqn:E2; [|done]. injection E as <- <-.
    destruct (IH _ _ E2) as (tr & Ht & <- & <-). exists ((l, e1) :: tr). split; [by econstructor|done].
Qed.

Lemma does_all_app {H} dbg (q1 q2 q3 : seqst H) a b : does_all dbg q1 a q2 -> does_all dbg q2 b q3 ->
  does_all dbg q1 (a ++ b) q3.
Proof. induction 1; [done|]. cbn. intros. econstructor; eauto. Qed.

(** How the concurrent state represents the sequential one. *)
Record represents {H} (s : sys H) (q : seqst H) : Prop := {
  rp_server : q_server q = y_server s;
  rp_world : q_world q = y_world s;
  rp_cur : forall t k, y_tasks s !! t = Some k -> finished (t_pc k) = false -> importing (t_pc k) = false ->
    q_cur q t = t_cur k;
  rp_new : forall t, y_tasks s !! t = None -> q_cur q t = None }.

Lemma rp_upd {H} (s s' : sys H) (q q' : seqst H) t k : represents s q ->
  y_tasks s' = <[t := k]> (y_tasks s) -> q_server q' = y_server s' -> q_world q' = y_world s' ->
  (forall u, u <> t -> q_cur q' u = q_cur q u) ->
  (finished (t_pc k) = false -> importing (t_pc k) = false -> q_cur q' t = t_cur k) ->
  represents s' q'.
Proof.
  intros [I1 I2 I3 I4] Et Es Ew Ec Ek. split; try done.
  - intros u k'. rewrite Et. destruct (decide (u = t)) as [->|Nu].
    + rewrite lookup_insert. by intros [= <-].
    + rewrite lookup_insert_ne by congruence. rewrite Ec by done. apply I3.
  - intros u. rewrite Et. destruct (decide (u = t)) as [->|Nu].
    + by rewrite lookup_insert.
    + rewrite lookup_insert_ne by congruence. rewrite Ec by done. apply I4.
Qed.
Lemma upd_other f t x u : u <> t -> upd f t x u = f u.
Proof. unfold upd. destruct (N.eqb_spec u t); [done|done]. Qed.
Lemma upd_same f t x : upd f t x t = x.
Proof. unfold upd. by rewrite N.eqb_refl. Qed.

Lemma lin_answered {H} dbg (s s0 s' : sys H) (q q1 : seqst H) t cur c r ev : represents s q ->
  does dbg q (OEvent (EvServe t c r)) q1 -> y_tasks s0 = y_tasks s ->
  q_server q1 = y_server s0 -> q_world q1 = y_world s0 ->
  (forall u, u <> t -> q_cur q1 u = q_cur q u) -> q_cur q1 t = cur ->
  answered dbg s0 t cur c r s' ev ->
  exists q', does_all dbg q (OEvent <$> ev) q' /\ represents s' q'.
Proof.
  intros HR D Et Es Ew Ec Ek A. destruct A as [b E|e E He _].
  - exists q1. split; [econstructor; [done|constructor]|].
    eapply (rp_upd s _ q q1); [done|cbn; by rewrite Et|done..].
  - eexists. split; [econstructor; [done|]; econstructor; [apply do_end|constructor]|].
    eapply (rp_upd s _ q); [done|cbn; by rewrite Et|done|done| |done].
    intros u Nu. cbn. rewrite upd_other by done. by apply Ec.
Qed.

Lemma lin_step {H} dbg (s : sys H) l s' ev (q : seqst H) : move dbg s l s' ev -> rem_ok s ->
  represents s q -> exists q', does_all dbg q (ops_of_step (l, ev)) q' /\ represents s' q'.
Proof.
  intros M HM HR. pose proof HR as [I1 I2 I3 I4].
  destruct M; cbn [ops_of_step fst snd app].
  - exists q. split; [constructor|]. eapply (rp_upd s); try done. intros _ _. cbn. by apply I4.
  - exists q. split; [constructor|]. eapply (rp_upd s); try done. intros _ _. by apply (I3 _ _ H0).
  - eexists. split; [econstructor; [apply do_end|constructor]|].
    eapply (rp_upd s _ q); try done. intros u Nu. cbn. by apply upd_other.
  - exists q. split; [constructor|]. eapply (rp_upd s); try done. intros _ _. by apply (I3 _ _ H0).
  - eexists. split; [econstructor; [apply do_end|constructor]|].
    eapply (rp_upd s _ q); try done. intros u Nu. cbn. by apply upd_other.
  - eexists. split; [econstructor; [apply do_sent|constructor]|].
    eapply (rp_upd s _ q); try done. intros _ _. by apply (I3 _ _ H0).
  - eexists. split; [econstructor; [apply do_end|constructor]|].
    eapply (rp_upd s _ q); try done. intros u Nu. cbn. by apply upd_other.
  - exists q. split; [constructor|]. eapply (rp_upd s); try done. intros _ _. cbn. by apply I4.
  - exists q. split; [constructor|]. eapply (rp_upd s); try done. intros _ _. cbn. by apply I4.
  - eexists. split; [econstructor; [apply do_app; by rewrite I2|constructor]|].
    split; cbn; try done. by rewrite I2.
  - exists q. split; [constructor|]. done.
  - exists q. split; [constructor|]. done.
  - exists q. split; [constructor|]. eapply (rp_upd s); try done. intros _ _. by apply (I3 _ _ H0).
  - exists q. split; [constructor|]. by eapply (rp_upd s).
  - exists q. split; [constructor|]. by eapply (rp_upd s).
  - (* submit *)
    eapply (lin_answered dbg s (set_world s w') s' q); [done| |done|..|eassumption].
    + eapply (do_serve dbg q t (CmdSubmit sb) r). cbn [serve cs_server cs_world cs_current].
      rewrite I1, I2, (I3 _ _ H0 eq_refl eq_refl). cbn [t_cur]. rewrite H2. reflexivity.
    + done.
    + done.
    + intros u Nu. cbn. by apply upd_other.
    + cbn. by apply upd_same.
  - (* unlink *)
    eapply (lin_answered dbg s s s' q); [done| |done|..|eassumption].
    + by eapply (do_serve dbg q t (CmdUnlink h n)).
    + done.
    + done.
    + intros u Nu. cbn. by apply upd_other.
    + cbn. rewrite upd_same. by apply (I3 _ _ H0).
  - (* list *)
    eapply (lin_answered dbg s s s' q); [done| |done|..|eassumption].
    + eapply (do_serve dbg q t (OpReqDevlist n)). cbn [serve cs_server]. by rewrite I1.
    + done.
    + done.
    + intros u Nu. cbn. by apply upd_other.
    + cbn. rewrite upd_same. by apply (I3 _ _ H0).
  - exists q. split; [constructor|]. by eapply (rp_upd s).
  - (* import *)
    eapply (lin_answered dbg s (set_server s sv') s' q); [done| |done|..|eassumption].
    + eapply (do_serve dbg q t (OpReqImport n busid)). cbn [serve cs_server cs_world]. rewrite I1, H2. reflexivity.
    + done.
    + done.
    + intros u Nu. cbn. by apply upd_other.
    + cbn. by rewrite upd_same.
  - exists q. split; [constructor|]. eapply (rp_upd s); try done. intros _ _. by apply (I3 _ _ H0).
  - (* release *)
    pose proof (I3 _ _ H0 eq_refl eq_refl) as Hc. cbn in Hc.
    eexists. split; [econstructor; [apply do_release; [exact Hc|by rewrite I1]|]; econstructor; [apply do_end|constructor]|].
    eapply (rp_upd s _ q); try done. intros u Nu. cbn. by rewrite !upd_other.
  - eexists. split; [econstructor; [apply do_end|constructor]|].
    eapply (rp_upd s _ q); try done. intros u Nu. cbn. by apply upd_other.
  - eexists. split; [econstructor; [apply do_add|constructor]|].
    eapply (rp_upd s _ q); try done; [cbn; by rewrite I1|]. intros _ _. by apply (I3 _ _ H0).
  - eexists. split; [econstructor; [apply (do_remove _ _ _ _ (IOk tt) sv'); unfold remove_device; by rewrite I1, H2|constructor]|].
    eapply (rp_upd s _ q); try done. intros _ _. by apply (I3 _ _ H0).
  - exists q. split; [constructor|]. eapply (rp_upd s); try done. intros _ _. by apply (I3 _ _ H0).
  - eexists. split; [econstructor; [eapply (do_remove _ _ _ _ _ (y_server s)); unfold remove_device; by rewrite I1, (HM _ _ _ H0)|constructor]|].
    eapply (rp_upd s _ q); try done. intros _ _. by apply (I3 _ _ H0).
Qed.

Lemma lin_execution {H} dbg (s : sys H) tr s' (q : seqst H) : execution dbg s tr s' -> locks_ok s -> rem_ok s ->
  represents s q -> exists q', does_all dbg q (ops_of tr) q' /\ represents s' q'.
Proof.
  intros E. revert q. induction E as [s|s1 l ev s2 tr s3 E _ IH]; intros q HL HM HR.
  - exists q. split; [constructor|done].
  - pose proof (step_move _ _ _ _ _ E) as M. destruct (lin_step _ _ _ _ _ _ M HM HR) as (q1 & D1 & R1).
    destruct (IH q1 (locks_move _ _ _ _ _ M HL) (rem_move _ _ _ _ _ M HL HM) R1) as (q2 & D2 & R2).
    exists q2. split; [|done]. by eapply does_all_app.
Qed.

(** ** The history of one task *)
Lemma legal_app dbg t a i1 b i2 c : legal dbg t a i1 b -> legal dbg t b i2 c -> legal dbg t a (i1 ++ i2) c.
Proof. induction 1; [done|]. cbn. intros. econstructor; eauto. Qed.

(** The stage a suspended task is at. *)
Definition at_stage (dbg : bool) (p : option pc) (a : stage) : Prop :=
  match p with
  | None => a = SNew
  | Some PRead => a = SIdle
  | Some (PUsedR c) => a = SBusy c
  | Some (PDevAvailR n) => a = SBusy (OpReqDevlist n)
  | Some (PImpStart n f) | Some (PImpUsedW n f) | Some (PImpAvailW n f) => a = SBusy (OpReqImport n f)
  | Some (PWrite b) => exists x, a = SReply (Val x) /\ response_to_bytes dbg x = Val b
  | Some (PRelUsedW e) | Some (PRelAvailW e) => a = SClosing e
  | Some (PEnd _) | Some PAdded | Some (PRemoved _) => a = SDone
  | Some (PAddAvailW d) => a = SAdding d
  | Some (PRemAvailW id) | Some (PRemUsedR id) => a = SRemoving id
  end.
Lemma items_other {H} t (l : label H) ev : actor l <> Some t -> Forall (fun e => actor l = Some (ev_tid e)) ev ->
  item_of t l ++ (ev ≫= ev_of t) = [].
Proof.
  intros Ha He.
  assert (item_of t l = []) as ->.
  { destruct l; cbn in *; try done; (destruct (N.eqb_spec t0 t); [congruence|done]). }
  cbn. induction He as [|e ev He _ IH]; [done|]. cbn. rewrite IH, app_nil_r.
  unfold ev_of. destruct e; cbn in He; (destruct (N.eqb_spec t0 t); [congruence|done]).
Qed.

Lemma stage_answered {H} dbg (s s' : sys H) t cur c r ev : answered dbg s t cur c r s' ev ->
  exists b, legal dbg t (SBusy c) (ev ≫= ev_of t) b /\ at_stage dbg (pc_of s' t) b.
Proof.
  intros [b E|e E He _]; unfold pc_of; cbn; rewrite ?lookup_insert; unfold ev_of; cbn; rewrite ?N.eqb_refl; cbn.
  - destruct r as [x| |]; try done. exists (SReply (Val x)). split; [|by exists x].
    econstructor; [constructor|constructor].
  - exists SDone. split; [|done]. econstructor; [constructor|]. econstructor; [|constructor].
    apply ss_crash; [|done]. intros x b -> Hb. by apply (E b).
Qed.
Lemma stage_move {H} dbg (s s' : sys H) l ev t a : move dbg s l s' ev -> at_stage dbg (pc_of s t) a ->
  exists b, legal dbg t a (item_of t l ++ (ev ≫= ev_of t)) b /\ at_stage dbg (pc_of s' t) b.
Proof.
  intros M Ha. destruct (decide (actor l = Some t)) as [Hl|Hl].
  2:{ exists a. rewrite (items_other _ _ _ Hl (move_events _ _ _ _ _ M)). split; [constructor|].
      unfold pc_of in *. by rewrite (move_bystander _ _ _ _ _ _ M Hl). }
  destruct M; cbn in Hl; try discriminate; injection Hl as ->; unfold pc_of in Ha;
    match goal with E : y_tasks s !! _ = _ |- _ => rewrite E in Ha end; cbn in Ha;
    try (destruct Ha as (x & -> & Hx)); try subst a;
    try (match goal with A : answered _ _ _ _ _ _ _ _ |- _ => apply stage_answered in A; cbn [item_of app]; exact A end);
    unfold pc_of; cbn; rewrite ?lookup_insert; unfold ev_of; cbn; rewrite ?N.eqb_refl; cbn;
    try (eexists; split; [|reflexivity]; first
      [constructor
      |econstructor; [by constructor|constructor]
      |econstructor; [by constructor|]; econstructor; [by constructor|constructor]
      |econstructor; [by econstructor|]; econstructor; [by constructor|constructor]]).
  - unfold release_device in *. destruct (sv_used (y_server s) !! id); [done|].
    match goal with E : Panic _ = Panic _ |- _ => injection E as <- end.
    eexists. split; [|reflexivity]. econstructor; [apply ss_close_panic|constructor].
Qed.
Lemma stage_execution {H} dbg (s s' : sys H) tr t a : execution dbg s tr s' -> at_stage dbg (pc_of s t) a ->
  exists b, legal dbg t a (items t tr) b /\ at_stage dbg (pc_of s' t) b.
Proof.
  intros E. revert a. induction E as [s|s1 l ev s2 tr s3 E _ IH]; intros a Ha.
  - exists a. split; [constructor|done].
  - destruct (stage_move _ _ _ _ _ t a (step_move _ _ _ _ _ E) Ha) as (b & L1 & Hb).
    destruct (IH b Hb) as (c & L2 & Hc). exists c. split; [|done]. by eapply legal_app.
Qed.
