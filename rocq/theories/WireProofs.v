(** * What has been sent are the results of the commands served *)
From Verif Require Export SpecServed NetProofs.

Lemma served_app t a b : served t (a ++ b) = served t a ++ served t b.
Proof. apply omap_app. Qed.
Lemma served_other t ev : Forall (fun e => ev_tid e <> t) ev -> served t ev = [].
Proof.
  induction 1 as [|e ev He _ IH]; [done|]. unfold served in *. cbn [omap list_omap]. rewrite IH.
  destruct e as [u c r|u|u|u|u|u]; try done. cbn in He. by destruct (N.eqb_spec u t).
Qed.
Lemma served_one t c r ev : (forall u c' r', EvServe u c' r' ∉ ev) -> served t (EvServe t c r :: ev) = [(c, r)].
Proof.
  intros Hn. unfold served. cbn [omap list_omap]. rewrite N.eqb_refl. f_equal.
  induction ev as [|e ev IH]; [done|]. cbn [omap list_omap].
  assert (He : forall u c' r', e <> EvServe u c' r') by (intros u c' r' ->; apply (Hn u c' r'); left).
  destruct e as [u c' r'|u|u|u|u|u]; try (exfalso; by eapply He); apply IH; intros u' c' r' Hx; apply (Hn u' c' r'); by right.
Qed.
Lemma served_none t ev : (forall u c' r', EvServe u c' r' ∉ ev) -> served t ev = [].
Proof.
  induction ev as [|e ev IH]; intros Hn; [done|]. unfold served in *. cbn [omap list_omap].
  assert (He : forall u c' r', e <> EvServe u c' r') by (intros u c' r' ->; apply (Hn u c' r'); left).
  destruct e as [u c' r'|u|u|u|u|u]; try (exfalso; by eapply He); apply IH; intros u' c' r' Hx; apply (Hn u' c' r'); by right.
Qed.

(** Where the connection is; [l]: what it has been served. *)
Definition wbusy (dbg : bool) (k : sock) (l : list (command * outcome response)) (inp mid : bytes) (c : command) : Prop :=
  messages dbg inp l.*1 [] /\ cmd_layout dbg mid c /\ k_pos k = 0 /\
  exists bs, Forall2 (carries dbg) l bs /\ k_sent k = mjoin bs.
Definition wphase (dbg : bool) (k : sock) (l : list (command * outcome response)) (inp mid : bytes) (p : pc) : Prop :=
  match p with
  | PRead => messages dbg inp l.*1 [] /\ resumes dbg mid k /\ k_pos k = 0 /\
      exists bs, Forall2 (carries dbg) l bs /\ k_sent k = mjoin bs
  | PUsedR c => wbusy dbg k l inp mid c
  | PDevAvailR n => wbusy dbg k l inp mid (OpReqDevlist n)
  | PImpStart n f | PImpUsedW n f | PImpAvailW n f => wbusy dbg k l inp mid (OpReqImport n f)
  | PWrite b => exists l' cr bs, l = l' ++ [cr] /\ messages dbg inp l'.*1 [] /\ cmd_layout dbg mid cr.1 /\
      carries dbg cr b /\ Forall2 (carries dbg) l' bs /\
      k_sent k = mjoin bs ++ take (N.to_nat (k_pos k)) b /\ k_pos k <= len b
  | PRelUsedW _ | PRelAvailW _ | PEnd _ =>
      (exists m r, mid = m ++ r /\ messages dbg (inp ++ m) l.*1 []) /\ carried dbg l (k_sent k)
  | PAddAvailW _ | PAdded | PRemAvailW _ | PRemUsedR _ | PRemoved _ => False
  end.
Definition wtalk (dbg : bool) (k : sock) (l : list (command * outcome response)) (p : pc) : Prop :=
  is_conn_pc p = true /\
  (all_u8 (k_got k) = true ->
   exists inp mid, k_got k = inp ++ mid ++ mjoin (k_in k) /\ wphase dbg k l inp mid p).
Definition wtalks {H} (dbg : bool) (n : net H) (evs : list event) : Prop :=
  (forall t, y_tasks (n_sys n) !! t = None -> served t evs = []) /\
  forall t k, n_socks n !! t = Some k -> exists p cur,
    y_tasks (n_sys n) !! t = Some (mkTask p cur) /\ wtalk dbg k (served t evs) p.

Lemma carried_all dbg l bs : Forall2 (carries dbg) l bs -> carried dbg l (mjoin bs).
Proof. intros F. exists bs, []. rewrite app_nil_r. split; [done|]. left. done. Qed.
Lemma carried_part dbg l cr bs b n : Forall2 (carries dbg) l bs -> carries dbg cr b ->
  carried dbg (l ++ [cr]) (mjoin bs ++ take n b).
Proof.
  intros F C. exists bs, (take n b). split; [done|]. right. exists l, cr. split_and!; auto. right. exists b. split; [done|].
  exists (drop n b). by rewrite take_drop.
Qed.
Lemma carried_none dbg l cr bs : Forall2 (carries dbg) l bs -> carried dbg (l ++ [cr]) (mjoin bs).
Proof. intros F. exists bs, []. rewrite app_nil_r. split; [done|]. right. exists l, cr. auto. Qed.

Lemma wtalk_end dbg k l p p' : wtalk dbg k l p -> p = PRead \/ (exists b, p = PWrite b) ->
  match p' with PRelUsedW _ | PRelAvailW _ | PEnd _ => True | _ => False end -> wtalk dbg k l p'.
Proof.
  intros [_ T] Hp Hp'. split; [by destruct p'|]. intros Hu. destruct (T Hu) as (inp & mid & E & P).
  exists inp, mid. split; [done|].
  assert ((exists m r, mid = m ++ r /\ messages dbg (inp ++ m) l.*1 []) /\ carried dbg l (k_sent k)) as X.
  { destruct Hp as [-> |[b -> ]].
    - destruct P as (M & _ & _ & bs & F & S). split; [exists [], mid; by rewrite app_nil_r|]. rewrite S. by apply carried_all.
    - destruct P as (l' & cr & bs & -> & M & L & C & F & S & _). split.
      + exists mid, []. rewrite app_nil_r, fmap_app. split; [done|]. by apply messages_snoc.
      + rewrite S. by apply carried_part. }
  destruct p'; done.
Qed.

Lemma wtalk_answered {H} dbg k l p (s s' : sys H) t cur c r ev (st : cstate H) : wtalk dbg k l p ->
  (forall inp mid, wphase dbg k l inp mid p -> wbusy dbg k l inp mid c) ->
  (serve dbg st c).1 = r -> answered dbg s t cur c r s' ev ->
  exists p' cur', y_tasks s' !! t = Some (mkTask p' cur') /\ wtalk dbg k (l ++ served t ev) p'.
Proof.
  intros [_ T] Hb <- [b E|e E He _].
  - exists (PWrite b), cur. cbn [y_tasks set_task]. rewrite lookup_insert. split; [done|].
    rewrite served_one by (intros; apply not_elem_of_nil).
    split; [done|]. intros Hu. destruct (T Hu) as (inp & mid & Eg & P). exists inp, mid. split; [done|].
    apply Hb in P as (M & L & Hp & bs & F & S). exists l, (c, (serve dbg st c).1), bs. split_and!; auto.
    + split; cbn [fst snd].
      * eapply serve_answers; [by eapply layout_u32|exact E].
      * apply obind_val in E as (x & E1 & E2). eauto.
    + rewrite Hp. cbn. by rewrite app_nil_r.
    + rewrite Hp. lia.
  - exists (PEnd e), cur. cbn [y_tasks set_task]. rewrite lookup_insert. split; [done|].
    rewrite served_one by (intros u c' r' [X|X]%elem_of_cons; [done|by apply elem_of_nil in X]).
    split; [done|]. intros Hu. destruct (T Hu) as (inp & mid & Eg & P). exists inp, mid. split; [done|].
    apply Hb in P as (M & L & Hp & bs & F & S). split.
    + exists mid, []. rewrite app_nil_r, fmap_app. split; [done|]. by apply messages_snoc.
    + rewrite S. by apply carried_none.
Qed.

(** The steps without sockets. *)
Lemma wtalk_move {H} dbg (s s' : sys H) l ev t k p cur sv : move dbg s l s' ev -> socket_label l = false ->
  y_tasks s !! t = Some (mkTask p cur) -> wtalk dbg k sv p ->
  exists p' cur', y_tasks s' !! t = Some (mkTask p' cur') /\ wtalk dbg k (sv ++ served t ev) p'.
Proof.
  intros Mv Hl Ht T. destruct (decide (actor l = Some t)) as [Ha|Ha].
  2:{ exists p, cur. rewrite (move_bystander _ _ _ _ _ _ Mv Ha). split; [done|].
      rewrite served_other; [by rewrite app_nil_r|]. pose proof (move_events _ _ _ _ _ Mv) as F.
      eapply Forall_impl; [exact F|]. cbn. congruence. }
  assert (X : forall ev, served t ev = [] -> sv ++ served t ev = sv) by (intros e ->; apply app_nil_r).
  destruct Mv; cbn in Hl, Ha; try discriminate; injection Ha as ->;
    match goal with E : y_tasks s !! t = _ |- _ => rewrite E in Ht; (injection Ht as <- <- || discriminate) end.
  - eexists _, _. cbn. rewrite lookup_insert. split; [reflexivity|]. rewrite app_nil_r. exact T.
  - eexists _, _. cbn. rewrite lookup_insert. split; [reflexivity|]. rewrite app_nil_r. exact T.
  - eexists _, _. cbn. rewrite lookup_insert. split; [reflexivity|]. rewrite app_nil_r. exact T.
  - eapply (wtalk_answered _ _ _ _ _ _ _ _ _ _ _ (mkC (y_server s) (y_world s) cur0)); [exact T|by intros| |eassumption].
    cbn. by match goal with X : serve_submit _ _ _ _ = _ |- _ => rewrite X end.
  - eapply (wtalk_answered _ _ _ _ _ _ _ _ _ _ _ (mkC (y_server s) (y_world s) cur0)); [exact T|by intros|done|eassumption].
  - eapply (wtalk_answered _ _ _ _ _ _ _ _ _ _ _ (mkC (y_server s) (y_world s) cur0)); [exact T|by intros|done|eassumption].
  - eexists _, _. cbn. rewrite lookup_insert. split; [reflexivity|]. rewrite app_nil_r. exact T.
  - eapply (wtalk_answered _ _ _ _ _ _ _ _ _ _ _ (mkC (y_server s) (y_world s) cur0)); [exact T|by intros| |eassumption].
    cbn. by match goal with X : import_device _ _ = _ |- _ => rewrite X end.
  - eexists _, _. cbn. rewrite lookup_insert. split; [reflexivity|]. rewrite app_nil_r. exact T.
  - eexists _, _. cbn. rewrite lookup_insert. split; [reflexivity|]. rewrite app_nil_r. exact T.
  - eexists _, _. cbn. rewrite lookup_insert. split; [reflexivity|]. rewrite app_nil_r. exact T.
  - by destruct T.
  - by destruct T.
  - by destruct T.
  - by destruct T.
Qed.

Lemma wtalk_fresh dbg : wtalk dbg (fresh_sock dbg) [] PRead.
Proof.
  split; [done|]. intros _. exists [], []. split; [done|]. split; [constructor|].
  split; [apply fresh_resumes|]. split; [done|]. exists []. split; [constructor|done].
Qed.
Lemma wtalk_arrive dbg i r b p g s c l q : wtalk dbg (mkSock i None r b p g s) l q ->
  wtalk dbg (mkSock (i ++ [c]) None r b p (g ++ c) s) l q.
Proof.
  intros [Hq T]. split; [done|]. cbn [k_got]. intros Hu. apply all_u8_app in Hu as [Hu _].
  destruct (T Hu) as (inp & mid & E & P). cbn [k_got k_in] in E. exists inp, mid. split.
  - cbn [k_got k_in]. rewrite E, join_app. cbn. by rewrite app_nil_r, !app_assoc.
  - destruct q; cbn in P |- *; auto.
Qed.
Lemma wtalk_close dbg i e e' r b p g s l q : wtalk dbg (mkSock i e r b p g s) l q -> wtalk dbg (mkSock i e' r b p g s) l q.
Proof. intros [Hq T]. split; [done|]. exact T. Qed.
Lemma wtalk_poll dbg k k' l : poll k = Some k' -> wtalk dbg k l PRead -> wtalk dbg k' l PRead.
Proof.
  intros E [_ T]. split; [done|]. intros Hu.
  assert (Hg : k_got k' = k_got k).
  { unfold poll in E. destruct (k_rd k); try discriminate; [|by injection E as <-].
    destruct (_ <=? _); [by injection E as <-|]. destruct (k_in k); [discriminate|by injection E as <-]. }
  rewrite Hg in *. destruct (T Hu) as (inp & mid & Eg & M & R & Hp & bs & F & S).
  destruct (poll_resumes _ _ _ _ E R) as (x & Ex & R' & _ & Ep & _ & Es).
  exists inp, (mid ++ x). split.
  - rewrite Eg, Ex. by rewrite !app_assoc.
  - split_and!; auto; [congruence|]. exists bs. split; [done|congruence].
Qed.
Lemma wtalk_recv dbg k l c : k_rd k = RRet c -> wtalk dbg k l PRead -> wtalk dbg k l (PUsedR c).
Proof.
  intros E [_ T]. split; [done|]. intros Hu. destruct (T Hu) as (inp & mid & Eg & M & [R1 R2] & Hp & S).
  exists inp, mid. split; [done|]. rewrite E in R1, R2. split_and!; auto.
  rewrite Eg in Hu. apply all_u8_app in Hu as [_ Hu]. apply all_u8_app in Hu as [Hu _].
  specialize (R1 [] SEof). rewrite R2 in R1. cbn [app run_rd] in R1. rewrite app_nil_r in R1.
  destruct (reader_sound _ _ _ _ _ Hu R1) as (m & Em & L). rewrite app_nil_r in Em. by subst.
Qed.
Lemma wtalk_write dbg i f r b p g s out m l : wtalk dbg (mkSock i f r b p g s) l (PWrite out) -> p + m <= len out ->
  wtalk dbg (mkSock i f r b (p + m) g (s ++ take (N.to_nat m) (drop (N.to_nat p) out))) l (PWrite out).
Proof.
  intros [_ T] Hm. split; [done|]. intros Hu. destruct (T Hu) as (inp & mid & Eg & l' & cr & bs & El & M & L & C & F & S & Hp).
  exists inp, mid. split; [done|]. exists l', cr, bs. split_and!; auto. cbn [k_sent k_pos] in *.
  rewrite S, <- app_assoc. f_equal. rewrite N2Nat.inj_add. apply take_take_drop.
Qed.
Lemma wtalk_flushed dbg i f r b p g s out l : wtalk dbg (mkSock i f r b p g s) l (PWrite out) -> p = len out ->
  wtalk dbg (mkSock i f (read_from_socket dbg) [] 0 g s) l PRead.
Proof.
  intros [_ T] ->. split; [done|]. intros Hu. destruct (T Hu) as (inp & mid & Eg & l' & cr & bs & -> & M & L & C & F & S & Hp).
  exists (inp ++ mid), []. cbn [k_got k_in k_sent k_pos] in *. split; [by rewrite Eg, <- app_assoc|].
  split; [rewrite fmap_app; by apply messages_snoc|]. split; [apply fresh_resumes|]. split; [done|].
  - exists (bs ++ [out]). split.
    + apply Forall2_app; [done|]. by constructor.
    + cbn [k_sent]. rewrite S, join_app. cbn. rewrite app_nil_r. f_equal. apply take_ge. unfold len. lia.
Qed.

Lemma tasks_stay {H} dbg (s s' : sys H) l ev t : move dbg s l s' ev -> y_tasks s' !! t = None -> y_tasks s !! t = None.
Proof.
  intros M Hn. destruct (decide (actor l = Some t)) as [Ha|Ha].
  - destruct (y_tasks s !! t) as [k|] eqn:E; [|done]. exfalso. destruct (move_tasks _ _ _ _ _ M) as [?|(u & k' & Eu)].
    + congruence.
    + rewrite Eu in Hn. apply lookup_insert_None in Hn as [Hn _]. congruence.
  - by rewrite (move_bystander _ _ _ _ _ _ M Ha) in Hn.
Qed.

Lemma events_of_tasks {H} dbg (s s' : sys H) l ev : move dbg s l s' ev ->
  Forall (fun e => y_tasks s' !! ev_tid e <> None) ev.
Proof.
  intros M. destruct M; repeat constructor; cbn [ev_tid y_tasks set_task]; try (by rewrite lookup_insert);
    match goal with A : answered _ _ _ _ _ _ _ _ |- _ => destruct A; repeat constructor; cbn [ev_tid y_tasks set_task]; by rewrite lookup_insert end.
Qed.
Lemma none_served {H} dbg (s s' : sys H) l ev evs : move dbg s l s' ev ->
  (forall t, y_tasks s !! t = None -> served t evs = []) ->
  forall t, y_tasks s' !! t = None -> served t (evs ++ ev) = [].
Proof.
  intros M T0 u Hn. rewrite served_app, (T0 u) by (by eapply tasks_stay). cbn [app]. apply served_other.
  eapply Forall_impl; [exact (events_of_tasks _ _ _ _ _ M)|]. cbn. congruence.
Qed.

Lemma wtalks_other {H} dbg (n n' : net H) evs l ev t : move dbg (n_sys n) l (n_sys n') ev -> actor l = Some t ->
  (forall u, u <> t -> n_socks n' !! u = n_socks n !! u) -> wtalks dbg n evs ->
  (forall k, n_socks n' !! t = Some k -> exists p cur, y_tasks (n_sys n') !! t = Some (mkTask p cur) /\ wtalk dbg k (served t (evs ++ ev)) p) ->
  wtalks dbg n' (evs ++ ev).
Proof.
  intros M Ha Hu [T0 T] Ht. pose proof (move_events _ _ _ _ _ M) as F. split.
  - by eapply none_served.
  - intros u k Hk. destruct (decide (u = t)) as [->|Hn]; [by apply Ht|].
    rewrite Hu in Hk by done. destruct (T u k Hk) as (p & cur & E & Tk). exists p, cur.
    rewrite (move_bystander _ _ _ _ _ _ M) by congruence. split; [done|]. rewrite served_app, (served_other u ev), app_nil_r; [done|].
    eapply Forall_impl; [exact F|]. cbn. congruence.
Qed.

Lemma wtalks_step {H} dbg (n n' : net H) evs l ev : nstep dbg n l = Some (n', ev) -> wtalks dbg n evs -> wtalks dbg n' (evs ++ ev).
Proof.
  intros E T. destruct l as [l|t c|t f|t|t m|t|t e]; cbn [nstep] in E.
  - destruct (socket_label l) eqn:Hl; [discriminate|].
    assert (X : sys_step dbg n l = Some (n', ev) -> wtalks dbg n' (evs ++ ev)).
    { intros E1. apply sys_step_move in E1 as (M & Es & _). destruct T as [T0 T]. split; [by eapply none_served|].
      intros t k Hk. rewrite Es in Hk. rewrite served_app.
      destruct (T t k Hk) as (p & cur & Et & Tk). by eapply wtalk_move. }
    destruct l; try (by apply X).
    apply sys_step_move in E as (M & Es & _). destruct T as [T0 T]. cbn [n_sys set_sock] in M. split; [by eapply none_served|].
    intros u k Hk. rewrite Es in Hk. cbn in Hk.
    destruct (decide (u = t)) as [->|Hn].
    + rewrite lookup_insert in Hk. injection Hk as <-. rewrite served_app. inversion M; subst.
      exists PRead, None. rewrite (T0 t) by done. cbn [served omap list_omap app].
      cbn. rewrite lookup_insert. split; [done|]. apply wtalk_fresh.
    + rewrite lookup_insert_ne in Hk by done. destruct (T u k Hk) as (p & cur & Et & Tk). exists p, cur.
      split; [|]. { rewrite (move_bystander _ _ _ _ _ _ M); [done|]. cbn. congruence. }
      rewrite served_app, (served_other u ev), app_nil_r; [done|].
      eapply Forall_impl; [exact (move_events _ _ _ _ _ M)|]. cbn. congruence.
  - destruct (n_socks n !! t) as [[i [?|] r b p g s]|] eqn:Ek; try discriminate. destruct c as [|x c]; [discriminate|].
    injection E as <- <-. rewrite app_nil_r. destruct T as [T0 T]. split; [exact T0|].
    intros u k Hk. cbn in *. destruct (decide (u = t)) as [->|Hn].
    + rewrite lookup_insert in Hk. injection Hk as <-. destruct (T t _ Ek) as (q & cur & Et & Tk).
      exists q, cur. split; [done|]. by apply wtalk_arrive.
    + rewrite lookup_insert_ne in Hk by done. by apply T.
  - destruct (n_socks n !! t) as [[i [?|] r b p g s]|] eqn:Ek; try discriminate.
    injection E as <- <-. rewrite app_nil_r. destruct T as [T0 T]. split; [exact T0|].
    intros u k Hk. cbn in *. destruct (decide (u = t)) as [->|Hn].
    + rewrite lookup_insert in Hk. injection Hk as <-. destruct (T t _ Ek) as (q & cur & Et & Tk).
      exists q, cur. split; [done|]. by eapply wtalk_close.
    + rewrite lookup_insert_ne in Hk by done. by apply T.
  - destruct (n_socks n !! t) as [k|] eqn:Ek; [|discriminate].
    destruct (y_tasks (n_sys n) !! t) as [[[] cur]|] eqn:Et; try discriminate.
    destruct (proj2 T t k Ek) as (p & cur' & Et' & Tk). rewrite Et in Et'. injection Et' as <- <-.
    destruct (polled t k) as [l|] eqn:Ep.
    + apply sys_step_move in E as (M & Es & _).
      assert (Ha : actor l = Some t).
      { unfold polled in Ep. destruct (k_rd k); try discriminate; try (by injection Ep as <-).
        destruct (_ <=? _); [discriminate|]. destruct (k_in k), (k_end k); try discriminate. by injection Ep as <-. }
      eapply wtalks_other; [exact M|exact Ha|by rewrite Es|exact T|]. rewrite Es. intros k' Hk'. rewrite Ek in Hk'.
      injection Hk' as <-.
      assert (Hc : (exists c, l = LRecv t c /\ k_rd k = RRet c) \/ (exists e, l = LReadErr t e) \/ l = LReadPanic t).
      { unfold polled in Ep. destruct (k_rd k); try discriminate; try (injection Ep as <-; eauto).
        destruct (_ <=? _); [discriminate|]. destruct (k_in k), (k_end k); try discriminate. injection Ep as <-. eauto. }
      rewrite served_app.
      destruct Hc as [(c & -> & Er)|[(e & ->)| -> ]]; inversion M; subst; cbn [y_tasks set_task]; rewrite lookup_insert;
        cbn [served omap list_omap]; rewrite app_nil_r.
      * eexists _, _. split; [reflexivity|]. by apply wtalk_recv.
      * eexists _, _. split; [reflexivity|]. eapply wtalk_end; [exact Tk|by left|done].
      * eexists _, _. split; [reflexivity|]. eapply wtalk_end; [exact Tk|by left|done].
      * eexists _, _. split; [reflexivity|]. eapply wtalk_end; [exact Tk|by left|done].
    + destruct (poll k) as [k'|] eqn:Epk; [|discriminate]. injection E as <- <-. rewrite app_nil_r.
      destruct T as [T0 T]. split; [exact T0|]. intros u x Hx. cbn in *.
      destruct (decide (u = t)) as [->|Hn].
      * rewrite lookup_insert in Hx. injection Hx as <-. exists PRead, cur. split; [done|]. by eapply wtalk_poll.
      * rewrite lookup_insert_ne in Hx by done. by apply T.
  - destruct (n_socks n !! t) as [[i f r b p g s]|] eqn:Ek; [|discriminate].
    destruct (y_tasks (n_sys n) !! t) as [[[] cur]|] eqn:Et; try discriminate.
    destruct T as [T0 T]. destruct (T t _ Ek) as (q & cur' & Et' & Tk). rewrite Et in Et'. injection Et' as <- <-.
    destruct (N.leb_spec 1 m); [|discriminate]. destruct (N.leb_spec (p + m) (len b0)); [|discriminate].
    injection E as <- <-. rewrite app_nil_r. split; [exact T0|].
    intros u x Hx. cbn in *. destruct (decide (u = t)) as [->|Hn].
    + rewrite lookup_insert in Hx. injection Hx as <-. eexists _, _. split; [exact Et|]. by apply wtalk_write.
    + rewrite lookup_insert_ne in Hx by done. by apply T.
  - destruct (n_socks n !! t) as [[i f r b p g s]|] eqn:Ek; [|discriminate].
    destruct (y_tasks (n_sys n) !! t) as [[[] cur]|] eqn:Et; try discriminate.
    destruct (proj2 T t _ Ek) as (q & cur' & Et' & Tk). rewrite Et in Et'. injection Et' as <- <-.
    destruct (N.eqb_spec p (len b0)) as [Hp|]; [|discriminate]. apply sys_step_move in E as (M & Es & _).
    eapply (wtalks_other _ n n' _ (LSent t) ev t); [exact M|done| |exact T|].
    + intros u Hu. rewrite Es. cbn. by rewrite lookup_insert_ne.
    + rewrite Es. cbn [n_socks set_sock]. rewrite lookup_insert. intros k [= <-]. rewrite served_app. inversion M; subst.
      cbn [y_tasks set_task]. rewrite lookup_insert. cbn [served omap list_omap]. rewrite app_nil_r.
      eexists _, _. split; [reflexivity|]. by eapply wtalk_flushed.
  - destruct (n_socks n !! t) as [k|] eqn:Ek; [|discriminate]. apply sys_step_move in E as (M & Es & _).
    eapply (wtalks_other _ n n' _ (LSendErr t e) ev t); [exact M|done|by rewrite Es|exact T|]. rewrite Es, Ek.
    intros k' [= <-]. destruct (proj2 T t k Ek) as (p & cur & Et & Tk). rewrite served_app. inversion M; subst.
    cbn [y_tasks set_task]. rewrite lookup_insert. cbn [served omap list_omap]. rewrite app_nil_r.
    match goal with X : y_tasks (n_sys n) !! t = Some (mkTask (PWrite _) _) |- _ => rewrite X in Et; injection Et as <- <- end.
    eexists _, _. split; [reflexivity|]. eapply wtalk_end; [exact Tk|by right; eexists|done].
Qed.

Lemma wtalks_run {H} dbg ls : forall (n n' : net H) evs ev, nrun dbg n ls = Some (n', ev) -> wtalks dbg n evs -> wtalks dbg n' (evs ++ ev).
Proof.
  induction ls as [|l ls IH]; intros n n' evs ev E T; cbn [nrun] in E.
  - injection E as <- <-. by rewrite app_nil_r.
  - destruct (nstep dbg n l) as [[n1 e1]|] eqn:E1; [|discriminate].
    destruct (nrun dbg n1 ls) as [[n2 e2]|] eqn:E2; [|discriminate]. injection E as <- <-.
    rewrite app_assoc. eapply IH; [exact E2|]. by eapply wtalks_step.
Qed.
Lemma wtalks_init {H} dbg ds (w : world H) : wtalks dbg (init_net ds w) [].
Proof. split; [done|]. intros t k Hk. cbn in Hk. by rewrite lookup_empty in Hk. Qed.

Lemma wtalk_wire dbg k l p : wtalk dbg k l p -> all_u8 (k_got k) = true ->
  (exists rest, messages dbg (k_got k) l.*1 rest) /\ carried dbg l (k_sent k).
Proof.
  intros [Hc T] Hu. destruct (T Hu) as (inp & mid & E & P).
  assert (Xm : messages dbg inp l.*1 [] -> exists rest, messages dbg (k_got k) l.*1 rest).
  { intros M. rewrite E. eexists. by apply messages_rest. }
  assert (Xb : forall c, wbusy dbg k l inp mid c -> (exists rest, messages dbg (k_got k) l.*1 rest) /\ carried dbg l (k_sent k)).
  { intros c (M & _ & _ & bs & F & S). split; [by apply Xm|]. rewrite S. by apply carried_all. }
  assert (Xe : (exists m r, mid = m ++ r /\ messages dbg (inp ++ m) l.*1 []) /\ carried dbg l (k_sent k) ->
    (exists rest, messages dbg (k_got k) l.*1 rest) /\ carried dbg l (k_sent k)).
  { intros [(m & r & -> & M) C]. split; [|done]. rewrite E, <- !app_assoc, app_assoc. eexists. by apply messages_rest. }
  destruct p; cbn [wphase is_conn_pc] in *; try discriminate; try (by eapply Xb); try (by apply Xe).
  - destruct P as (M & _ & _ & bs & F & S). split; [by apply Xm|]. rewrite S. by apply carried_all.
  - destruct P as (l' & cr & bs & -> & M & L & C & F & S & _). split.
    + rewrite E, app_assoc. eexists. apply messages_rest. rewrite fmap_app. by apply messages_snoc.
    + rewrite S. by apply carried_part.
Qed.

(** A connection that waits for its next message. *)
Lemma wreading {H} dbg (n : net H) evs t k cur : wtalks dbg n evs -> n_socks n !! t = Some k -> all_u8 (k_got k) = true ->
  y_tasks (n_sys n) !! t = Some (mkTask PRead cur) ->
  exists rest bs, messages dbg (k_got k) (served t evs).*1 rest /\ Forall2 (carries dbg) (served t evs) bs /\ k_sent k = mjoin bs.
Proof.
  intros T Hk Hu Ht. destruct (proj2 T _ _ Hk) as (p & cur' & Ht' & [_ Tk]). rewrite Ht in Ht'. injection Ht' as <- <-.
  destruct (Tk Hu) as (inp & mid & Eg & M & _ & _ & bs & F & S).
  exists (mid ++ mjoin (k_in k)), bs. split; [|done]. rewrite Eg. by apply messages_rest.
Qed.
Lemma wstuck {H} dbg (n : net H) evs t k cur : wtalks dbg n evs -> n_socks n !! t = Some k -> all_u8 (k_got k) = true ->
  y_tasks (n_sys n) !! t = Some (mkTask PRead cur) -> nstep dbg n (NPoll t) = None ->
  k_end k = None /\ exists rest bs, messages dbg (k_got k) (served t evs).*1 rest /\ Forall2 (carries dbg) (served t evs) bs /\
    k_sent k = mjoin bs /\ (forall m rest' c, rest = m ++ rest' -> ~ cmd_layout dbg m c).
Proof.
  intros T Hk Hu Ht E. destruct (proj2 T _ _ Hk) as (p & cur' & Ht' & [_ Tk]). rewrite Ht in Ht'. injection Ht' as <- <-.
  destruct (Tk Hu) as (inp & mid & Eg & M & (R & R2) & _ & bs & F & S).
  cbn [nstep] in E. rewrite Hk, Ht in E. unfold polled, poll in E.
  destruct (k_rd k) as [c|e|q|m f|m p] eqn:Ek; try discriminate.
  - unfold sys_step in E. cbn [step] in E. by rewrite Ht in E.
  - unfold sys_step in E. cbn [step] in E. rewrite Ht in E. by destruct cur.
  - unfold sys_step in E. cbn [step] in E. rewrite Ht in E.
    specialize (R [] SEof). rewrite app_nil_r in R. apply run_panics in R as [-> _]. discriminate.
  - destruct (N.leb_spec m (len (k_buf k))) as [Hl|Hl]; [discriminate|].
    destruct (k_in k) as [|ch cs] eqn:Ei; [|discriminate]. destruct (k_end k) as [fe|] eqn:Ee.
    { unfold sys_step in E. cbn [step] in E. rewrite Ht in E. by destruct cur. }
    cbn [mjoin list_join] in Eg. rewrite app_nil_r in Eg. split; [done|].
    exists mid, bs. split; [rewrite Eg; by apply messages_rest|]. split; [done|]. split; [done|].
    intros m' rest' c -> L. specialize (R [] SEof). rewrite app_nil_r in R.
    rewrite (reader_complete _ _ _ _ _ L) in R. cbn [run_rd] in R. rewrite app_nil_r in R.
    destruct (N.ltb_spec (len (k_buf k)) m); [discriminate|lia].
Qed.
