(** * Handler calls occupy worker threads (C90) *)
From Verif Require Import Examples SysFacts ConcProofs PropsSys PropsAccept FairProofs SpecWorkers.

(** ** Runs *)
Lemma trun_app {H} dbg W (x : tsys H) ls1 ls2 : trun dbg W x (ls1 ++ ls2) =
  match trun dbg W x ls1 with
  | Some (x1, e1) => match trun dbg W x1 ls2 with Some (x2, e2) => Some (x2, e1 ++ e2) | None => None end
  | None => None
  end.
Proof.
  revert x. induction ls1 as [|l ls1 IH]; intros x; cbn [trun app]; [by destruct (trun dbg W x ls2) as [[? ?]|]|].
  destruct (tstep dbg W x l) as [[x1 e1]|]; [|done]. rewrite IH.
  destruct (trun dbg W x1 ls1) as [[x2 e2]|]; [|done]. destruct (trun dbg W x2 ls2) as [[x3 e3]|]; [|done].
  by rewrite app_assoc.
Qed.
Lemma trun_app_intro {H} dbg W (x x1 x2 : tsys H) l1 l2 e1 e2 :
  trun dbg W x l1 = Some (x1, e1) -> trun dbg W x1 l2 = Some (x2, e2) -> trun dbg W x (l1 ++ l2) = Some (x2, e1 ++ e2).
Proof. intros E1 E2. by rewrite trun_app, E1, E2. Qed.

(** ** All threads busy *)
Definition api_label {H} (a : asys H) (l : alabel H) : Prop := on_worker a l = false.
Lemma app_step {H} dbg (a a' : asys H) l ev : astep dbg a l = Some (a', ev) -> on_worker a l = false ->
  Forall of_application ev /\
  (forall t k, y_tasks (a_sys a) !! t = Some k -> api_pc (t_pc k) = false -> y_tasks (a_sys a') !! t = Some k) /\
  (forall t k, y_tasks (a_sys a) !! t = None -> y_tasks (a_sys a') !! t = Some k -> api_pc (t_pc k) = true).
Proof.
  intros E Hw. pose proof (astep_below _ _ _ _ _ E) as Eb.
  destruct l as [| |t| | |l]; try discriminate Hw.
  { cbn in Eb. injection Eb as <- <-. split; [constructor|]. split; [done|]. intros t k E1 E2. by rewrite E1 in E2. }
  cbn [below1 run] in Eb. destruct (step dbg (a_sys a) l) as [[s' e']|] eqn:Es; [|done]. injection Eb as -> <-.
  rewrite app_nil_r. clear E. apply step_move in Es as M. clear Es. remember (a_sys a') as s' eqn:Ea'. clear Ea' a'.
  assert (U : forall t k, y_tasks s' = <[t := k]> (y_tasks (a_sys a)) -> api_pc (t_pc k) = true ->
    (forall k0, y_tasks (a_sys a) !! t = Some k0 -> api_pc (t_pc k0) = true) -> Forall of_application e' ->
    Forall of_application e' /\
    (forall t k, y_tasks (a_sys a) !! t = Some k -> api_pc (t_pc k) = false -> y_tasks s' !! t = Some k) /\
    (forall t k, y_tasks (a_sys a) !! t = None -> y_tasks s' !! t = Some k -> api_pc (t_pc k) = true)).
  { intros t k Et Hk H0 He. split; [done|]. rewrite Et. split.
    - intros u k' Eu Hp. rewrite lookup_insert_ne; [done|]. intros ->. by rewrite (H0 _ Eu) in Hp.
    - intros u k' Eu. destruct (decide (t = u)) as [->|Ne]; [rewrite lookup_insert; by intros [= <-]|].
      rewrite lookup_insert_ne by done. by rewrite Eu. }
  destruct M; cbn in Hw; try discriminate Hw;
    try (match goal with Ht : y_tasks _ !! _ = Some _ |- _ => rewrite Ht in Hw; try discriminate Hw end);
    try (eapply U; [reflexivity|done|intros k0 Hk0; by simplify_eq|repeat constructor]).
  all: split; [by apply Forall_nil|]; split; [done|]; intros u k' E1 E2; discriminate (eq_trans (eq_sym E1) E2).
Qed.

(** When every thread is inside a handler call, nothing happens to any connection until one of
    the calls returns: nobody is accepted, served, or even disconnected. *)
Lemma all_busy_run {H} dbg W (x x' : tsys H) ls evs : W <= len (x_busy x) ->
  trun dbg W x ls = Some (x', evs) -> no_call_returns ls ->
  Forall of_application evs /\ x_busy x' = x_busy x /\ (forall t, TStep (AAccept t) ∉ ls) /\
  (forall t k, y_tasks (a_sys (x_asys x)) !! t = Some k -> api_pc (t_pc k) = false -> y_tasks (a_sys (x_asys x')) !! t = Some k).
Proof.
  revert x evs. induction ls as [|l ls IH]; intros x evs Hb E Hn; cbn [trun] in E.
  { injection E as <- <-. split; [constructor|]. split; [done|]. split; [|done]. intros t. apply not_elem_of_nil. }
  destruct (tstep dbg W x l) as [[x1 e1]|] eqn:E1; [|done]. destruct (trun dbg W x1 ls) as [[x2 e2]|] eqn:E2; [|done].
  injection E as -> <-.
  assert (Hf : a_worker_is_free W x = false) by (unfold a_worker_is_free; lia).
  destruct l as [l|t|t].
  - cbn [tstep] in E1. rewrite Hf, orb_false_r in E1.
    destruct (negb (on_worker (x_asys x) l) && _) eqn:Eg; [|done]. apply andb_true_iff in Eg as [Ew _].
    apply negb_true_iff in Ew. destruct (astep dbg (x_asys x) l) as [[a ev]|] eqn:Ea; [|done]. injection E1 as <- <-.
    destruct (app_step _ _ _ _ _ Ea Ew) as (A1 & A2 & _).
    destruct (IH (mkTsys a (x_busy x)) e2 Hb E2) as (B1 & B2 & B3 & B4); [intros t Ht; apply (Hn t); by right|].
    split; [by apply Forall_app|]. split; [done|]. split.
    + intros t. apply not_elem_of_cons. split; [|by apply B3]. intros [= <-]. discriminate Ew.
    + intros t k Et Hk. apply B4; [|done]. by apply A2.
  - cbn [tstep] in E1. by rewrite Hf, andb_false_r in E1.
  - destruct (Hn t). left.
Qed.

Theorem C90_all_threads_busy : forall (H : handlers) dbg W (x x' : tsys H) ls evs,
  len (x_busy x) = W -> trun dbg W x ls = Some (x', evs) -> no_call_returns ls ->
  Forall of_application evs /\ (forall t, TStep (AAccept t) ∉ ls) /\
  (forall t p cur, y_tasks (a_sys (x_asys x)) !! t = Some (mkTask p cur) -> api_pc p = false ->
     y_tasks (a_sys (x_asys x')) !! t = Some (mkTask p cur)).
Proof.
  intros H dbg W x x' ls evs Hb E Hn. destruct (all_busy_run dbg W x x' ls evs ltac:(lia) E Hn) as (A & _ & B & C).
  split; [done|]. split; [done|]. intros t p cur Et Hp. by apply C.
Qed.
Print Assumptions C90_all_threads_busy.

(** ** Any server can be brought there *)
Lemma arun_cons {H} dbg (a a1 a2 : asys H) l ls e1 e2 : astep dbg a l = Some (a1, e1) -> arun dbg a1 ls = Some (a2, e2) ->
  arun dbg a (l :: ls) = Some (a2, e1 ++ e2).
Proof. intros E1 E2. cbn [arun]. by rewrite E1, E2. Qed.
Lemma arun_app_intro {H} dbg (a a1 a2 : asys H) l1 l2 e1 e2 :
  arun dbg a l1 = Some (a1, e1) -> arun dbg a1 l2 = Some (a2, e2) -> arun dbg a (l1 ++ l2) = Some (a2, e1 ++ e2).
Proof.
  revert a e1. induction l1 as [|l l1 IH]; intros a e1 E1 E2; cbn [arun app] in *; [injection E1 as -> <-; exact E2|].
  destruct (astep dbg a l) as [[b f]|]; [|done]. destruct (arun dbg b l1) as [[c g]|] eqn:E; [|done]. injection E1 as -> <-.
  rewrite (IH b g E E2). by rewrite app_assoc.
Qed.
(** As long as a thread is free, threads make no difference. *)
Lemma free_run {H} dbg W (a a' : asys H) busy ls evs : len busy < W -> Forall (fun l => ~ a_step_of busy l) ls ->
  arun dbg a ls = Some (a', evs) -> trun dbg W (mkTsys a busy) (TStep <$> ls) = Some (mkTsys a' busy, evs).
Proof.
  intros Hb. revert a evs. induction ls as [|l ls IH]; intros a evs Hf E; cbn [arun] in E; [by injection E as -> <-|].
  apply Forall_cons in Hf as [Hl Hf].
  destruct (astep dbg a l) as [[b f]|] eqn:E1; [|done]. destruct (arun dbg b ls) as [[c g]|] eqn:E2; [|done]. injection E as -> <-.
  cbn [fmap list_fmap trun tstep x_asys x_busy]. unfold a_worker_is_free. cbn [x_busy].
  replace (len busy <? W) with true by lia. rewrite orb_true_r. cbn [andb].
  replace (match l with ASys (LRun t) => negb (is_busy (mkTsys a busy) t) | _ => true end) with true.
  { rewrite E1. by rewrite (IH b g Hf E2). }
  destruct l as [| | | | |[]]; try done. unfold is_busy. cbn [x_busy]. by rewrite bool_decide_false.
Qed.

Section Reach.
  Context {H : handlers} (dbg : bool) (W : N).
  Definition alone (s : sys H) : Prop := y_used s = lk_free /\ y_avail s = lk_free.
  Definition import_script (t : tid) (d : device) : list (alabel H) :=
    AAccept t :: (ASys <$> [LRecv t (OpReqImport 0 (field_of (d_bus_id d))); LGrantUsed; LRun t; LRun t; LGrantUsed; LRun t;
      LGrantAvail; LRun t; LSent t]).
  Lemma holds_one t m (q : list (tid * mode)) : lk_holds t m (mkLock [(t, m)] q) = true.
  Proof. unfold lk_holds. apply bool_decide_eq_true. left. Qed.
  Lemma release_one t m q : lk_release t (mkLock [(t, m)] q) = mkLock [] q.
  Proof. unfold lk_release. cbn. by rewrite N.eqb_refl. Qed.
  Lemma import_head (d : device) (rest : list device) (used : gmap rstring device) : requestable (d_bus_id d) ->
    import_device (mkServer (d :: rest) used) (field_of (d_bus_id d)) = (mkServer rest (<[d_bus_id d := d]> used), Some d).
  Proof.
    intros [_ H0]. apply import_iff. exists [], rest. split; [|done]. split; [done|].
    split; [by apply field_of_names|constructor].
  Qed.
  Local Ltac cb := repeat (progress (unfold drop_guards, want_used, want_avail, set_task, set_used, set_avail, set_server)); cbn -[lk_holds lk_release import_device respond insert lookup response_to_bytes].
  Lemma import_one (w : world H) (used : gmap rstring device) (tasks : gmap tid task) (d : device) (rest : list device) t : can_be_imported d -> tasks !! t = None ->
    exists evs, arun dbg (mkAsys LsAccepting (mkSys (mkServer (d :: rest) used) w lk_free lk_free tasks)) (import_script t d) =
      Some (mkAsys LsAccepting (mkSys (mkServer rest (<[d_bus_id d := d]> used)) w lk_free lk_free
              (<[t := mkTask PRead (Some (d_bus_id d))]> tasks)), evs).
  Proof.
    intros [Hq Hp] Ht.
    assert (Hb : exists b, response_to_bytes dbg (op_rep_import_success d) = Val b).
    { cbn. unfold device_to_bytes. destruct Hq as [Hl _].
      replace (len (utf8 (d_path d)) <=? 256) with true by lia. replace (len (utf8 (d_bus_id d)) <=? 32) with true by lia.
      unfold debug_assert. rewrite !andb_false_r. by eexists. }
    destruct Hb as [b Hb]. unfold import_script. cbn [fmap list_fmap]. eexists.
    eapply arun_cons. { cb. rewrite Ht. cb. reflexivity. }
    eapply arun_cons. { cb. rewrite lookup_insert. cb. cb. rewrite insert_insert. reflexivity. }
    eapply arun_cons. { cb. cb. reflexivity. }
    eapply arun_cons. { cb. rewrite lookup_insert. cb. rewrite holds_one. cb. cb. rewrite release_one, insert_insert. reflexivity. }
    eapply arun_cons. { cb. rewrite lookup_insert. cb. cb. rewrite insert_insert. reflexivity. }
    eapply arun_cons. { cb. cb. reflexivity. }
    eapply arun_cons. { cb. rewrite lookup_insert. cb. rewrite holds_one. cb. cb. rewrite insert_insert. reflexivity. }
    eapply arun_cons. { cb. cb. reflexivity. }
    eapply arun_cons. { cb. rewrite lookup_insert. cb. rewrite holds_one, import_head by done. unfold respond. cb. cb. rewrite Hb. cb. cb.
      rewrite insert_insert. reflexivity. }
    eapply arun_cons. { cb. rewrite lookup_insert. cb. cb. rewrite insert_insert, !release_one. reflexivity. }
    reflexivity.
  Qed.

  Lemma import_all (w : world H) (ds rest : list device) (ts : list tid) : length ts = length ds ->
    forall (used : gmap rstring device) (tasks : gmap tid task), Forall can_be_imported ds -> NoDup (d_bus_id <$> ds) -> NoDup ts ->
    Forall (fun t => tasks !! t = None) ts ->
    exists ls used' tasks' evs,
      arun dbg (mkAsys LsAccepting (mkSys (mkServer (ds ++ rest) used) w lk_free lk_free tasks)) ls =
        Some (mkAsys LsAccepting (mkSys (mkServer rest used') w lk_free lk_free tasks'), evs) /\
      Forall2 (fun t d => tasks' !! t = Some (mkTask PRead (Some (d_bus_id d))) /\ used' !! d_bus_id d = Some d) ts ds /\
      (forall t, t ∉ ts -> tasks' !! t = tasks !! t) /\ (forall i, i ∉ d_bus_id <$> ds -> used' !! i = used !! i).
  Proof.
    intros Hl. apply Forall2_same_length in Hl as Hf. clear Hl.
    assert (Hz : Forall2 (fun _ _ => True) ts ds) by (eapply Forall2_impl; [exact Hf|done]). clear Hf.
    induction Hz as [|t d ts ds _ Hz IH]; intros used tasks Hc Hn Ht Hf.
    { exists [], used, tasks, []. split; [reflexivity|]. split; [constructor|]. by split. }
    apply Forall_cons in Hc as [Hd Hc]. apply NoDup_cons in Hn as [Hn1 Hn]. apply NoDup_cons in Ht as [Ht1 Ht].
    apply Forall_cons in Hf as [Hf1 Hf].
    destruct (import_one w used tasks d (ds ++ rest) t Hd Hf1) as [e1 E1].
    destruct (IH (<[d_bus_id d := d]> used) (<[t := mkTask PRead (Some (d_bus_id d))]> tasks) Hc Hn Ht)
      as (ls & used' & tasks' & e2 & E2 & F & G1 & G2).
    { apply Forall_forall. intros u Hu. rewrite lookup_insert_ne; [|by intros ->]. rewrite Forall_forall in Hf. by apply Hf. }
    exists (import_script t d ++ ls), used', tasks', (e1 ++ e2). split; [by apply (arun_app_intro dbg _ _ _ _ _ _ _ E1 E2)|].
    split; [|split].
    - constructor; [|exact F]. split; [rewrite G1 by done; apply lookup_insert|].
      rewrite G2 by done. apply lookup_insert.
    - intros u Hu. apply not_elem_of_cons in Hu as [Hu1 Hu2]. rewrite G1 by done. by rewrite lookup_insert_ne.
    - intros j Hj. cbn in Hj. apply not_elem_of_cons in Hj as [Hj1 Hj2]. rewrite G2 by done. by rewrite lookup_insert_ne.
  Qed.

  Lemma enter_all (sv : server) (w : world H) sb (cur : tid -> option rstring) ts : NoDup ts ->
    forall hs (tasks : gmap tid task) busy, forallb (fun h => is_read h.2) hs = true ->
    Forall (fun t => tasks !! t = Some (mkTask PRead (cur t)) /\ t ∉ busy) ts -> (len busy + len ts <= W) ->
    exists ls tasks' evs,
      trun dbg W (mkTsys (mkAsys LsAccepting (mkSys sv w (mkLock hs []) lk_free tasks)) busy) ls =
        Some (mkTsys (mkAsys LsAccepting (mkSys sv w (mkLock (reverse ((fun t => (t, MRead)) <$> ts) ++ hs) []) lk_free tasks'))
                (reverse ts ++ busy), evs) /\
      Forall (fun t => tasks' !! t = Some (mkTask (PUsedR (CmdSubmit sb)) (cur t))) ts /\
      (forall t, t ∉ ts -> tasks' !! t = tasks !! t).
  Proof.
    induction ts as [|t ts IH]; intros Hn hs tasks busy Hr Hf Hb.
    { exists [], tasks, []. split; [reflexivity|]. split; [constructor|done]. }
    apply NoDup_cons in Hn as [Hn1 Hn]. apply Forall_cons in Hf as [[Ht Hnb] Hf]. unfold len in Hb. cbn [length] in Hb.
    destruct (IH Hn ((t, MRead) :: hs) (<[t := mkTask (PUsedR (CmdSubmit sb)) (cur t)]> tasks) (t :: busy))
      as (ls & tasks' & evs & E & F & G).
    { done. }
    { eapply Forall_impl; [|intros u Hu; exact Hu]. apply Forall_forall. intros u Hu. rewrite Forall_forall in Hf.
      destruct (Hf u Hu) as [Hx Hy]. split; [rewrite lookup_insert_ne; [done|by intros ->]|].
      apply not_elem_of_cons. split; [by intros ->|done]. }
    { unfold len. cbn [length]. lia. }
    exists ([TStep (ASys (LRecv t (CmdSubmit sb))); TStep (ASys LGrantUsed); TEnter t] ++ ls), tasks', evs.
    rewrite fmap_cons, !reverse_cons, <- !app_assoc. split; [|split].
    - refine (trun_app_intro dbg W _ _ _ _ _ [] evs _ E).
      assert (Hw : forall b : list tid, length b = length busy -> (len b <? W) = true) by (intros b; unfold len; lia).
      cbn [trun tstep on_worker]. unfold a_worker_is_free at 1. cbn [x_busy negb orb andb]. rewrite Hw by done.
      cbn -[insert lookup a_worker_is_free is_busy at_call lk_holds]. rewrite Ht.
      cbn -[insert lookup a_worker_is_free is_busy at_call lk_holds compatible]. unfold lk_grant. cbn [lk_queue lk_holders app].
      replace (compatible MRead hs) with true by (symmetry; exact Hr).
      cbn -[insert lookup a_worker_is_free is_busy at_call lk_holds compatible].
      unfold at_call. cbn -[insert lookup a_worker_is_free is_busy lk_holds]. rewrite lookup_insert.
      unfold lk_holds, is_busy, a_worker_is_free. cbn [x_busy lk_holders].
      rewrite bool_decide_true by left. rewrite bool_decide_false by done. rewrite Hw by done. reflexivity.
    - constructor; [|exact F]. rewrite G by done. apply lookup_insert.
    - intros u Hu. apply not_elem_of_cons in Hu as [Hu1 Hu2]. rewrite G by done. by rewrite lookup_insert_ne.
  Qed.
End Reach.

(** On any runtime with [W] threads, a server with at least [W] devices comes to a standstill when
    [W] clients each import a device and send an URB whose handler takes long (with libusb: polls
    an endpoint that has nothing to say, up to a second): no client is accepted, served or
    released until one of the calls returns. *)
Theorem C90_blocking_handlers_refuted : forall (H : handlers) dbg W ds (w : world H) sb,
  1 <= W -> W <= len ds -> Forall can_be_imported ds -> NoDup (d_bus_id <$> ds) ->
  exists ls x evs, trun dbg W (init_tsys ds w) ls = Some (x, evs) /\
    len (x_busy x) = W /\ NoDup (x_busy x) /\
    (forall t, t ∈ x_busy x -> exists d, d ∈ ds /\ in_handler (a_sys (x_asys x)) t sb d) /\
    forall ls' x' evs', trun dbg W x ls' = Some (x', evs') -> no_call_returns ls' ->
      Forall of_application evs' /\ (forall t, TStep (AAccept t) ∉ ls').
Proof.
  intros H dbg W ds w sb H1 HW Hc Hn.
  set (n := N.to_nat W). set (ts := N.of_nat <$> seq 0 n).
  assert (Hlt : length ts = n) by (unfold ts; by rewrite fmap_length, seq_length).
  assert (Hnt : NoDup ts) by (apply NoDup_fmap_2; [apply _|apply NoDup_seq]).
  assert (Hld : length (take n ds) = n) by (rewrite take_length; unfold len, n in *; lia).
  rewrite <- (take_drop n ds) in Hc, Hn. apply Forall_app in Hc as [Hc _]. rewrite fmap_app in Hn.
  apply NoDup_app in Hn as (Hn & _ & _).
  destruct (import_all dbg w (take n ds) (drop n ds) ts ltac:(lia) ∅ ∅ Hc Hn Hnt) as (l1 & used & tasks & e1 & E1 & F1 & _).
  { apply Forall_forall. intros t _. apply lookup_empty. }
  rewrite take_drop in E1. change (mkServer ds ∅) with (new_simulated ds) in E1.
  assert (Hex : forall t, t ∈ ts -> exists d, d ∈ ds /\ tasks !! t = Some (mkTask PRead (Some (d_bus_id d))) /\ used !! d_bus_id d = Some d).
  { intros t Ht. apply elem_of_list_lookup in Ht as [i Hi]. destruct (Forall2_lookup_l _ _ _ _ _ F1 Hi) as (d & Hd & Hx & Hy).
    exists d. split; [|done]. apply elem_of_list_lookup_2 in Hd. rewrite <- (take_drop n ds). apply elem_of_app. by left. }
  set (cur := fun t => match tasks !! t with Some k => t_cur k | None => None end).
  destruct (enter_all dbg W (mkServer (drop n ds) used) w sb cur ts Hnt [] tasks []) as (l2 & tasks' & e2 & E2 & F2 & _).
  { done. }
  { apply Forall_forall. intros t Ht. destruct (Hex t Ht) as (d & _ & Hx & _). unfold cur. rewrite Hx.
    split; [done|]. apply not_elem_of_nil. }
  { unfold len, n in *. rewrite Hlt. cbn [length]. lia. }
  match type of E2 with _ = Some (?y, _) => set (x := y) in * end.
  assert (Eb : trun dbg W (init_tsys ds w) (TStep ABindOk :: (TStep <$> l1) ++ l2) = Some (x, [] ++ e1 ++ e2)).
  { change (TStep ABindOk :: (TStep <$> l1) ++ l2) with ([TStep ABindOk] ++ (TStep <$> l1) ++ l2).
    eapply trun_app_intro; [|eapply trun_app_intro; [|exact E2]].
    - cbn. unfold a_worker_is_free. replace (len (x_busy (init_tsys ds w)) <? W) with true; [reflexivity|].
      unfold len. cbn. lia.
    - apply free_run; [unfold len; cbn; lia| |exact E1].
      apply Forall_forall. intros [| | | | |[]] _; cbn; try apply not_elem_of_nil; by intros []. }
  assert (Hxb : x_busy x = reverse ts) by (unfold x; cbn [x_busy]; apply app_nil_r).
  assert (Hlb : len (x_busy x) = W) by (rewrite Hxb; unfold len; rewrite reverse_length, Hlt; unfold n; lia).
  eexists _, x, _. split; [exact Eb|]. split; [done|]. split; [rewrite Hxb; by rewrite reverse_Permutation|]. split.
  - intros t Ht. rewrite Hxb, elem_of_reverse in Ht. destruct (Hex t Ht) as (d & Hd & Hx & Hy). exists d. split; [done|].
    exists (d_bus_id d). split; [|split].
    + rewrite Forall_forall in F2. unfold x. cbn [x_asys a_sys y_tasks]. rewrite (F2 t Ht). unfold cur. by rewrite Hx.
    + exact Hy.
    + unfold x. cbn [x_asys a_sys y_used lk_holders]. rewrite app_nil_r. apply elem_of_reverse.
      apply elem_of_list_fmap. by exists t.
  - intros ls' x' evs' E' Hr. destruct (C90_all_threads_busy H dbg W x x' ls' evs' Hlb E' Hr) as (A & B & _). by split.
Qed.
Print Assumptions C90_blocking_handlers_refuted.

(** As long as one thread is free, every other task and the listener can do whatever they could do
    without any call going on (then C80 says what that is). *)
Theorem C90_free_thread_partial : forall (H : handlers) dbg W (x : tsys H) ls a' evs,
  len (x_busy x) < W -> arun dbg (x_asys x) ls = Some (a', evs) -> Forall (fun l => ~ a_step_of (x_busy x) l) ls ->
  trun dbg W x (TStep <$> ls) = Some (mkTsys a' (x_busy x), evs).
Proof. intros H dbg W [a busy] ls a' evs Hb E Hf. by apply free_run. Qed.
Print Assumptions C90_free_thread_partial.

(** Threads add no behaviour: what happens on [W] threads happens in Accept.v, same events, same
    state; and, as soon as there is a thread at all, the other way round. *)
Lemma tstep_project {H} dbg W (x x' : tsys H) l ev : tstep dbg W x l = Some (x', ev) ->
  arun dbg (x_asys x) (without_threads l) = Some (x_asys x', ev).
Proof.
  destruct l as [l|t|t]; cbn [tstep without_threads]; intros E.
  - destruct (_ && _); [|done]. cbn [arun]. destruct (astep dbg (x_asys x) l) as [[a e]|]; [|done]. injection E as <- <-.
    by rewrite app_nil_r.
  - destruct (_ && _); [|done]. by injection E as <- <-.
  - destruct (is_busy x t); [|done]. cbn [arun]. destruct (astep dbg (x_asys x) (ASys (LRun t))) as [[a e]|]; [|done].
    injection E as <- <-. by rewrite app_nil_r.
Qed.
Theorem C90_threads_add_nothing : forall (H : handlers) dbg W ds (w : world H),
  (forall ls x evs, trun dbg W (init_tsys ds w) ls = Some (x, evs) ->
     arun dbg (init_asys ds w) (ls ≫= without_threads) = Some (x_asys x, evs)) /\
  (forall ls a evs, 1 <= W -> arun dbg (init_asys ds w) ls = Some (a, evs) ->
     trun dbg W (init_tsys ds w) (TStep <$> ls) = Some (mkTsys a [], evs)).
Proof.
  intros H dbg W ds w. split.
  - intros ls. change (init_asys ds w) with (x_asys (init_tsys ds w)). generalize (init_tsys ds w).
    induction ls as [|l ls IH]; intros x0 x evs E; cbn [trun] in E; [by injection E as <- <-|].
    destruct (tstep dbg W x0 l) as [[x1 e1]|] eqn:E1; [|done]. destruct (trun dbg W x1 ls) as [[x2 e2]|] eqn:E2; [|done].
    injection E as <- <-. change ((l :: ls) ≫= without_threads) with (without_threads l ++ (ls ≫= without_threads)).
    eapply arun_app_intro; [by eapply tstep_project|by apply IH].
  - intros ls a evs HW E. apply free_run; [unfold len; cbn; lia| |exact E].
    apply Forall_forall. intros [| | | | |[]] _; cbn; try apply not_elem_of_nil; by intros [].
Qed.
Print Assumptions C90_threads_add_nothing.

(** ** The calls going on *)
Definition calling {H} (s : sys H) (t : tid) : Prop :=
  exists sb cur, y_tasks s !! t = Some (mkTask (PUsedR (CmdSubmit sb)) cur) /\ (t, MRead) ∈ lk_holders (y_used s).
Lemma calling_run {H} dbg (s s' : sys H) ls ev u : run dbg s ls = Some (s', ev) -> Forall (fun l => l <> LRun u) ls ->
  calling s u -> calling s' u.
Proof.
  revert s ev. induction ls as [|l ls IH]; intros s ev E Hl Hc; cbn [run] in E; [by injection E as <- <-|].
  apply Forall_cons in Hl as [Hl Hls].
  destruct (step dbg s l) as [[s1 e1]|] eqn:E1; [|done]. destruct (run dbg s1 ls) as [[s2 e2]|] eqn:E2; [|done].
  injection E as <- <-. apply step_move in E1 as M. apply (IH s1 e2 E2 Hls). destruct Hc as (sb & cur & Et & Hh).
  assert (Ha : actor l <> Some u).
  { intros Ha. destruct M; cbn in Ha; try discriminate Ha; injection Ha as Ha; subst; try congruence. }
  exists sb, cur. split; [by rewrite (move_bystander _ _ _ _ _ _ M Ha)|].
  exact (lchange_holder _ _ _ _ _ (move_lock _ _ _ _ _ Used M) Ha Hh).
Qed.
Lemma returned_call u t (b : list tid) : u ∈ List.filter (fun v => negb (v =? t)) b <-> u ∈ b /\ u <> t.
Proof.
  rewrite !elem_of_list_In, filter_In. rewrite negb_true_iff, N.eqb_neq. done.
Qed.
Lemma filter_shorter (f : tid -> bool) b : (length (List.filter f b) <= length b)%nat.
Proof. induction b as [|x b IH]; cbn; [lia|]. destruct (f x); cbn; lia. Qed.
Lemma filter_NoDup (f : tid -> bool) b : NoDup b -> NoDup (List.filter f b).
Proof. rewrite !NoDup_ListNoDup. apply List.NoDup_filter. Qed.
Lemma in_progress_snoc {H} (ls : list (tlabel H)) l t : call_in_progress (ls ++ [l]) t <->
  l = TEnter t \/ (call_in_progress ls t /\ l <> TReturn t).
Proof.
  split.
  - intros (a & b & E & Hn). destruct (decide (b = [])) as [->|Hb].
    { apply app_inj_tail in E as [-> ->]. by left. }
    destruct (exists_last Hb) as (b' & x & ->). 
    rewrite app_comm_cons, app_assoc in E. apply app_inj_tail in E as [-> ->].
    apply not_elem_of_app in Hn as [Hn Hx]. right. split; [by exists a, b'|]. intros ->. apply Hx. left.
  - intros [->|[(a & b & -> & Hn) Hl]]; [exists ls, []; split; [done|apply not_elem_of_nil]|].
    exists a, (b ++ [l]). split; [by rewrite <- app_assoc|]. apply not_elem_of_app. split; [done|].
    intros Hx. apply elem_of_list_singleton in Hx. by destruct Hl.
Qed.
Lemma tstep_calls {H} dbg W (x x' : tsys H) l ev : tstep dbg W x l = Some (x', ev) ->
  (forall t, t ∈ x_busy x' <-> l = TEnter t \/ (t ∈ x_busy x /\ l <> TReturn t)) /\
  (NoDup (x_busy x) -> NoDup (x_busy x')) /\ (len (x_busy x) <= W -> len (x_busy x') <= W) /\
  ((forall t, t ∈ x_busy x -> calling (a_sys (x_asys x)) t) -> forall t, t ∈ x_busy x' -> calling (a_sys (x_asys x')) t).
Proof.
  destruct l as [l|u|u]; cbn [tstep]; intros E.
  - destruct (_ && _) eqn:G in E; [|done]. destruct (astep dbg (x_asys x) l) as [[a e]|] eqn:Ea; [|done]. injection E as <- <-.
    cbn [x_busy x_asys]. split; [intros t; split; [intros Ht; right; split; [done|discriminate]|by intros [?|[? _]]]|].
    split; [done|]. split; [done|]. intros Hc t Ht. apply astep_below in Ea.
    eapply calling_run; [exact Ea| |by apply Hc]. apply andb_true_iff in G as [_ G].
    destruct l as [| | | | |[]]; cbn [below1]; try apply Forall_nil_2; apply Forall_cons; (split; [|apply Forall_nil_2]);
      try discriminate. intros [= ->]. apply negb_true_iff in G. unfold is_busy in G. apply bool_decide_eq_false in G. done.
  - destruct (_ && _) eqn:G in E; [|done]. injection E as <- <-. apply andb_true_iff in G as [G Gf]. apply andb_true_iff in G as [Gc Gb].
    apply negb_true_iff in Gb. unfold is_busy in Gb. apply bool_decide_eq_false in Gb. unfold a_worker_is_free in Gf. apply N.ltb_lt in Gf.
    cbn [x_busy x_asys]. split; [|split; [|split]].
    + intros t. rewrite elem_of_cons. split; [intros [->|Ht]; [by left|right; by split]|intros [[= <-]|[Ht _]]; [by left|by right]].
    + intros Hn. by constructor.
    + intros _. unfold len in *. cbn [length]. lia.
    + intros Hc t Ht. apply elem_of_cons in Ht as [->|Ht]; [|by apply Hc]. unfold at_call in Gc.
      destruct (y_tasks (a_sys (x_asys x)) !! u) as [[[] cur]|] eqn:Et; try discriminate Gc.
      match type of Et with _ = Some (mkTask (PUsedR ?c) _) => destruct c; try discriminate Gc end.
      eexists _, cur. split; [exact Et|]. unfold lk_holds in Gc. by apply bool_decide_eq_true in Gc.
  - destruct (is_busy x u) eqn:G; [|done]. destruct (astep dbg (x_asys x) (ASys (LRun u))) as [[a e]|] eqn:Ea; [|done]. injection E as <- <-.
    cbn [x_busy x_asys]. split; [|split; [|split]].
    + intros t. rewrite returned_call. split.
      * intros [Ht Hu]. right. split; [done|]. intros [= ->]. done.
      * intros [?|[Ht Hu]]; [discriminate|]. split; [done|]. intros ->. done.
    + apply filter_NoDup.
    + pose proof (filter_shorter (fun v => negb (v =? u)) (x_busy x)). unfold len in *. lia.
    + intros Hc t Ht. apply returned_call in Ht as [Ht Hu]. apply astep_below in Ea. eapply calling_run; [exact Ea| |by apply Hc].
      cbn [below1]. apply Forall_cons. split; [congruence|apply Forall_nil_2].
Qed.
Lemma trun_snoc {H} dbg W (x0 x : tsys H) ls l evs : trun dbg W x0 (ls ++ [l]) = Some (x, evs) ->
  exists x1 e1 e2, trun dbg W x0 ls = Some (x1, e1) /\ tstep dbg W x1 l = Some (x, e2) /\ evs = e1 ++ e2.
Proof.
  rewrite trun_app. destruct (trun dbg W x0 ls) as [[x1 e1]|] eqn:E1; [|done]. cbn [trun].
  destruct (tstep dbg W x1 l) as [[x2 e2]|] eqn:E2; [|done]. intros [= <- <-]. exists x1, e1, e2. split; [done|].
  split; [done|]. by rewrite app_nil_r.
Qed.
(** The tasks on busy threads are those whose calls have been entered and have not returned, each
    once; never more than there are threads; and each is serving a CMD_SUBMIT, with the table of
    imported devices read-locked. *)
Theorem C90_calls_in_progress : forall (H : handlers) dbg W ds (w : world H) ls x evs,
  trun dbg W (init_tsys ds w) ls = Some (x, evs) ->
  (forall t, t ∈ x_busy x <-> call_in_progress ls t) /\ NoDup (x_busy x) /\ len (x_busy x) <= W /\
  forall t, t ∈ x_busy x -> exists sb cur,
    y_tasks (a_sys (x_asys x)) !! t = Some (mkTask (PUsedR (CmdSubmit sb)) cur) /\
    (t, MRead) ∈ lk_holders (y_used (a_sys (x_asys x))).
Proof.
  intros H dbg W ds w ls. induction ls as [|l ls IH] using rev_ind; intros x evs E.
  - cbn in E. injection E as <- <-. cbn [x_busy init_tsys]. split; [|split; [apply NoDup_nil_2|split; [apply N.le_0_l|]]].
    + intros t. split; [intros Ht; by apply not_elem_of_nil in Ht|]. intros (a & b & Ea & _). by destruct a.
    + intros t Ht. by apply not_elem_of_nil in Ht.
  - apply trun_snoc in E as (x1 & e1 & e2 & E1 & E2 & _). destruct (IH _ _ E1) as (A & B & C & D).
    destruct (tstep_calls _ _ _ _ _ _ E2) as (A' & B' & C' & D'). split; [|split; [by apply B'|split; [by apply C'|by apply D']]].
    intros t. rewrite A', in_progress_snoc, A. done.
Qed.
Print Assumptions C90_calls_in_progress.

(** A call in progress can return at any time, and its return is the reply to the CMD_SUBMIT being
    ready (or the end of the connection). *)
Theorem C90_call_returns : forall (H : handlers) dbg W ds (w : world H) ls x evs t,
  trun dbg W (init_tsys ds w) ls = Some (x, evs) -> call_in_progress ls t ->
  exists x' ev sb r, tstep dbg W x (TReturn t) = Some (x', ev) /\ EvServe t (CmdSubmit sb) r ∈ ev.
Proof.
  intros H dbg W ds w ls x evs t E Hp. destruct (C90_calls_in_progress _ _ _ _ _ _ _ _ E) as (A & _ & _ & D).
  apply A in Hp. destruct (D t Hp) as (sb & cur & Et & Hh). cbn [tstep].
  assert (Eb : is_busy x t = true) by (by apply bool_decide_eq_true). rewrite Eb. cbn [astep].
  assert (Hs : exists s' ev r, step dbg (a_sys (x_asys x)) (LRun t) = Some (s', ev) /\ EvServe t (CmdSubmit sb) r ∈ ev).
  { cbn [step]. rewrite Et.
    assert (Hl : lk_holds t MRead (y_used (a_sys (x_asys x))) = true) by (by apply bool_decide_eq_true).
    cbn [run_task t_pc t_cur]. rewrite Hl.
    destruct (serve_submit dbg (y_world (a_sys (x_asys x))) _ sb) as [r w'].
    unfold respond. destruct (obind r (response_to_bytes dbg)); by eexists _, _, _; split; [reflexivity|left]. }
  destruct Hs as (s' & ev & r & -> & Hin). destruct (a_listener (x_asys x)); by eexists _, _, _, _.
Qed.
Print Assumptions C90_call_returns.

(** The application's own steps need no thread of the runtime: what it can do, it can do however
    many calls are in progress. *)
Theorem C90_application : forall (H : handlers) dbg W ds (w : world H) ls x evs l a ev,
  trun dbg W (init_tsys ds w) ls = Some (x, evs) -> by_application (a_sys (x_asys x)) l ->
  astep dbg (x_asys x) l = Some (a, ev) -> tstep dbg W x (TStep l) = Some (mkTsys a (x_busy x), ev).
Proof.
  intros H dbg W ds w ls x evs l a ev E Hl Ea. destruct (C90_calls_in_progress _ _ _ _ _ _ _ _ E) as (_ & _ & _ & D).
  cbn [tstep]. rewrite Ea. destruct l as [| | | | |[]]; try done. 
  destruct Hl as (p & cur & Et & Hp). cbn [on_worker]. rewrite Et.
  assert (Hb : is_busy x t = false).
  { apply bool_decide_eq_false. intros Hb. destruct (D t Hb) as (sb & cur' & Et' & _). rewrite Et in Et'. injection Et' as -> _.
    by destruct Hp as [[? ?]|[[? ?]|[? ?]]]. }
  rewrite Hb. by destruct Hp as [[? ->]|[[? ->]|[? ->]]].
Qed.
Print Assumptions C90_application.

(** Two devices, two threads. *)
Example C90_example : can_be_imported ex_dev /\ can_be_imported dev_b /\ NoDup (d_bus_id <$> [ex_dev; dev_b]) /\ 2 <= len [ex_dev; dev_b].
Proof.
  assert (N0 : forall l, forallb (fun x => negb (x =? 0)) l = true -> 0 ∉ l).
  { intros l Hl Hi. apply elem_of_list_In in Hi. by pose proof (proj1 (forallb_forall _ _) Hl _ Hi). }
  split; [|split; [|split]].
  - split; [split; [vm_compute; discriminate|apply N0; vm_compute; reflexivity]|vm_compute; discriminate].
  - split; [split; [vm_compute; discriminate|apply N0; vm_compute; reflexivity]|vm_compute; discriminate].
  - apply NoDup_cons. split; [|apply NoDup_singleton]. intros Hi. apply elem_of_list_singleton in Hi. by vm_compute in Hi.
  - vm_compute. discriminate.
Qed.
(** With two threads and one long call, the other client is served; with one thread it is not. *)
Definition one_long_call : list (tlabel ex_h) :=
  (TStep <$> [ABindOk; AAccept 1; AAccept 2] ++ (ASys <$> do_import 1 id_a ++ [LSent 1] ++ do_import 2 id_b ++ [LSent 2] ++
     [LRecv 1 (CmdSubmit ex_in); LGrantUsed])) ++ [TEnter 1].
Definition t_after {H} (x : option (tsys H * list event)) (P : tsys H -> list event -> Prop) : Prop :=
  match x with Some (s, evs) => P s evs | None => False end.
Example C90_long_call : 
  t_after (trun true 2 (init_tsys [ex_dev; dev_b] ex_world) (one_long_call ++ (TStep <$> (ASys <$> do_submit 2 ex_in))))
    (fun _ evs => EvServe 2 (CmdSubmit ex_in) (Val ex_in_reply) ∈ evs) /\
  t_after (trun true 1 (init_tsys [ex_dev; dev_b] ex_world) one_long_call)
    (fun x _ => x_busy x = [1] /\ tstep true 1 x (TStep (ASys (LRecv 2 (CmdSubmit ex_in)))) = None /\
                tstep true 1 x (TStep (AAccept 3)) = None).
Proof. split; vm_compute; [in_list|auto]. Qed.
(** With the only thread inside a call, the application still adds a device; then the call returns. *)
Example C90_application_example :
  t_after (trun true 1 (init_tsys [ex_dev] ex_world)
     ((TStep <$> [ABindOk; AAccept 1] ++ (ASys <$> do_import 1 id_a ++ [LSent 1; LRecv 1 (CmdSubmit ex_in); LGrantUsed])) ++
      [TEnter 1] ++ (TStep <$> (ASys <$> [LAdd 5 dev_b; LGrantAvail; LRun 5])) ++ [TReturn 1]))
    (fun x evs => x_busy x = [] /\ EvAdd 5 dev_b ∈ evs /\ EvServe 1 (CmdSubmit ex_in) (Val ex_in_reply) ∈ evs).
Proof. vm_compute. split; [reflexivity|]. split; in_list. Qed.
