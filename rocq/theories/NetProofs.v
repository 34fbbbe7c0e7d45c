(** * The byte-level server: reading, transcripts, relation to the command level *)
From Verif Require Export SpecNet ConnProofs ConcProofs TransferProofs.

(** ** The suspended reader *)

(** The reader of [k] is what [read_from_socket] becomes after consuming [mid]. *)
Definition resumes (dbg : bool) (mid : bytes) (k : sock) : Prop :=
  (forall rest fin, run_rd (read_from_socket dbg) (mid ++ rest) fin = run_rd (k_rd k) (k_buf k ++ rest) fin)
  /\ match k_rd k with RRead n _ => len (k_buf k) <= n | _ => k_buf k = [] end.

Lemma len_app {A} (a b : list A) : len (a ++ b) = len a + len b.
Proof. unfold len. rewrite app_length. lia. Qed.

Lemma poll_resumes dbg mid k k' : poll k = Some k' -> resumes dbg mid k ->
  exists x, mjoin (k_in k) = x ++ mjoin (k_in k') /\ resumes dbg (mid ++ x) k'
    /\ k_end k' = k_end k /\ k_pos k' = k_pos k /\ k_got k' = k_got k /\ k_sent k' = k_sent k.
Proof.
  unfold poll, resumes. intros E [R1 R2]. destruct (k_rd k) as [| | |n f|n p] eqn:Ek; try discriminate.
  - destruct (N.leb_spec n (len (k_buf k))) as [Hn|Hn].
    + injection E as <-. exists []. cbn [app k_in k_rd k_buf k_end k_pos k_got k_sent]. rewrite app_nil_r. split_and!; auto.
      * intros rest fin. rewrite R1. cbn [run_rd]. rewrite len_app.
        destruct (N.ltb_spec (len (k_buf k) + len rest) n); [lia|].
        assert (Hl : N.to_nat n = length (k_buf k)) by (unfold len in *; lia).
        by rewrite Hl, take_app, drop_app.
      * destruct (f (k_buf k)); try done. unfold len. cbn. lia.
    + destruct (k_in k) as [|c cs] eqn:Ei; [discriminate|]. injection E as <-. cbn [k_in k_rd k_buf k_end k_pos k_got k_sent].
      exists (take (N.to_nat (n - len (k_buf k))) c). cbn [mjoin list_join]. split_and!; auto.
      * destruct (Nat.leb_spec (length c) (N.to_nat (n - len (k_buf k)))) as [Hc|Hc].
        { by rewrite take_ge by done. }
        { cbn [mjoin list_join]. rewrite app_assoc, take_drop. done. }
      * intros rest fin. rewrite <- !app_assoc. apply R1.
      * rewrite len_app. unfold len at 2. rewrite take_length. lia.
  - injection E as <-. exists []. cbn [app k_in k_rd k_buf k_end k_pos k_got k_sent]. rewrite app_nil_r. split_and!; auto.
    rewrite R2. destruct p; try done. unfold len. cbn. lia.
Qed.

Lemma fresh_resumes dbg i f p g s : resumes dbg [] (mkSock i f (read_from_socket dbg) [] p g s).
Proof. split; [done|]. cbn. unfold len. cbn. lia. Qed.

(** ** What a connection has said and heard *)
Lemma messages_snoc strict inp cs m c : messages strict inp cs [] -> cmd_layout strict m c ->
  messages strict (inp ++ m) (cs ++ [c]) [].
Proof.
  remember [] as r eqn:Er. intros M Hm. revert Er. induction M as [r|m' c' inp cs r Hm' _ IH]; intros ->.
  - cbn. rewrite <- (app_nil_r m). constructor; [done|constructor].
  - cbn. rewrite <- app_assoc. constructor; [done|]. by apply IH.
Qed.
Lemma messages_rest strict inp cs rest : messages strict inp cs [] -> messages strict (inp ++ rest) cs rest.
Proof.
  remember [] as r eqn:Er. intros M. revert Er. induction M as [r|m' c' inp cs r Hm' _ IH]; intros ->.
  - constructor.
  - rewrite <- app_assoc. constructor; [done|]. by apply IH.
Qed.

Definition partly (dbg : bool) (part unread : bytes) : Prop :=
  part = [] \/ exists m c r more, unread = m ++ r /\ cmd_layout dbg m c /\ answers c (part ++ more).

(** Where the connection is in its dialogue.  [l]: commands answered so far, with the
    replies; [mid]: consumed bytes of the current message. *)
Definition phase (dbg : bool) (k : sock) (l : list (command * bytes)) (mid : bytes) (p : pc) : Prop :=
  let busy c := cmd_layout dbg mid c /\ k_sent k = mjoin l.*2 /\ k_pos k = 0 in
  match p with
  | PRead => resumes dbg mid k /\ k_sent k = mjoin l.*2 /\ k_pos k = 0
  | PUsedR c => busy c
  | PDevAvailR n => busy (OpReqDevlist n)
  | PImpStart n f | PImpUsedW n f | PImpAvailW n f => busy (OpReqImport n f)
  | PWrite b => exists c, cmd_layout dbg mid c /\ answers c b /\
      k_sent k = mjoin l.*2 ++ take (N.to_nat (k_pos k)) b /\ k_pos k <= len b
  | PRelUsedW _ | PRelAvailW _ | PEnd _ =>
      exists part, k_sent k = mjoin l.*2 ++ part /\ partly dbg part (mid ++ mjoin (k_in k))
  | PAddAvailW _ | PAdded | PRemAvailW _ | PRemUsedR _ | PRemoved _ => False
  end.
Definition is_conn_pc (p : pc) : bool :=
  match p with PAddAvailW _ | PAdded | PRemAvailW _ | PRemUsedR _ | PRemoved _ => false | _ => true end.
Definition talk (dbg : bool) (k : sock) (p : pc) : Prop :=
  is_conn_pc p = true /\
  (all_u8 (k_got k) = true ->
  exists l inp mid, k_got k = inp ++ mid ++ mjoin (k_in k) /\ messages dbg inp l.*1 [] /\
    Forall (fun cb => answers cb.1 cb.2) l /\ phase dbg k l mid p).

Definition talks {H} (dbg : bool) (n : net H) : Prop :=
  forall t k, n_socks n !! t = Some k -> exists p cur,
    y_tasks (n_sys n) !! t = Some (mkTask p cur) /\ talk dbg k p.

Lemma talk_end dbg k p p' : talk dbg k p -> p = PRead \/ (exists b, p = PWrite b) ->
  match p' with PRelUsedW _ | PRelAvailW _ | PEnd _ => True | _ => False end -> talk dbg k p'.
Proof.
  intros [_ T] Hp Hp'. split; [by destruct p'|]. intros Hu. destruct (T Hu) as (l & inp & mid & E & M & A & P).
  exists l, inp, mid. split_and!; auto.
  assert (exists part, k_sent k = mjoin l.*2 ++ part /\ partly dbg part (mid ++ mjoin (k_in k))) as X.
  { destruct Hp as [-> |[b -> ]].
    - destruct P as (_ & S & _). exists []. rewrite app_nil_r. split; [done|by left].
    - destruct P as (c & L & An & S & _). eexists. split; [exact S|]. right.
      exists mid, c, (mjoin (k_in k)), (drop (N.to_nat (k_pos k)) b). rewrite take_drop. done. }
  destruct p'; done.
Qed.

Lemma talk_busy_end dbg k p c e : talk dbg k p -> (forall l mid, phase dbg k l mid p ->
    cmd_layout dbg mid c /\ k_sent k = mjoin l.*2 /\ k_pos k = 0) -> talk dbg k (PEnd e).
Proof.
  intros [_ T] Hb. split; [done|]. intros Hu. destruct (T Hu) as (l & inp & mid & E & M & A & P).
  exists l, inp, mid. split_and!; auto. apply Hb in P as (_ & S & _). exists []. rewrite app_nil_r. split; [done|by left].
Qed.
Lemma talk_busy_write {H} dbg k p c b (st : cstate H) : talk dbg k p -> (forall l mid, phase dbg k l mid p ->
    cmd_layout dbg mid c /\ k_sent k = mjoin l.*2 /\ k_pos k = 0) ->
  obind (serve dbg st c).1 (response_to_bytes dbg) = Val b -> talk dbg k (PWrite b).
Proof.
  intros [_ T] Hb E. split; [done|]. intros Hu. destruct (T Hu) as (l & inp & mid & Eg & M & A & P).
  exists l, inp, mid. split_and!; auto. apply Hb in P as (L & S & Hp). exists c. split_and!; auto.
  - eapply serve_answers; [by eapply layout_u32|exact E].
  - rewrite Hp. cbn. by rewrite app_nil_r.
  - rewrite Hp. lia.
Qed.

Lemma talk_answered {H} dbg k p (s s' : sys H) t cur c r ev (st : cstate H) : talk dbg k p ->
  (forall l mid, phase dbg k l mid p -> cmd_layout dbg mid c /\ k_sent k = mjoin l.*2 /\ k_pos k = 0) ->
  (serve dbg st c).1 = r -> answered dbg s t cur c r s' ev ->
  exists p' cur', y_tasks s' !! t = Some (mkTask p' cur') /\ talk dbg k p'.
Proof.
  intros T Hb <- [b E|e E He _].
  - exists (PWrite b), cur. cbn. rewrite lookup_insert. split; [done|]. by eapply talk_busy_write.
  - exists (PEnd e), cur. cbn. rewrite lookup_insert. split; [done|]. by eapply talk_busy_end.
Qed.

(** The steps without sockets. *)
Lemma talk_move {H} dbg (s s' : sys H) l ev t k p cur : move dbg s l s' ev -> socket_label l = false ->
  y_tasks s !! t = Some (mkTask p cur) -> talk dbg k p ->
  exists p' cur', y_tasks s' !! t = Some (mkTask p' cur') /\ talk dbg k p'.
Proof.
  intros Mv Hl Ht T. destruct (decide (actor l = Some t)) as [Ha|Ha].
  2:{ exists p, cur. by rewrite (move_bystander _ _ _ _ _ _ Mv Ha). }
  destruct Mv; cbn in Hl, Ha; try discriminate; injection Ha as ->;
    match goal with E : y_tasks s !! t = _ |- _ => rewrite E in Ht; (injection Ht as <- <- || discriminate) end.
  - eexists _, _. cbn. rewrite lookup_insert. split; [reflexivity|]. exact T.
  - eexists _, _. cbn. rewrite lookup_insert. split; [reflexivity|]. exact T.
  - eexists _, _. cbn. rewrite lookup_insert. split; [reflexivity|]. exact T.
  - eapply (talk_answered _ _ _ _ _ _ _ _ _ _ (mkC (y_server s) (y_world s) cur0)); [exact T|by intros| |eassumption].
    cbn. by match goal with X : serve_submit _ _ _ _ = _ |- _ => rewrite X end.
  - eapply (talk_answered _ _ _ _ _ _ _ _ _ _ (mkC (y_server s) (y_world s) cur0)); [exact T|by intros|done|eassumption].
  - eapply (talk_answered _ _ _ _ _ _ _ _ _ _ (mkC (y_server s) (y_world s) cur0)); [exact T|by intros|done|eassumption].
  - eexists _, _. cbn. rewrite lookup_insert. split; [reflexivity|]. exact T.
  - eapply (talk_answered _ _ _ _ _ _ _ _ _ _ (mkC (y_server s) (y_world s) cur0)); [exact T|by intros| |eassumption].
    cbn. by match goal with X : import_device _ _ = _ |- _ => rewrite X end.
  - eexists _, _. cbn. rewrite lookup_insert. split; [reflexivity|]. exact T.
  - eexists _, _. cbn. rewrite lookup_insert. split; [reflexivity|]. exact T.
  - eexists _, _. cbn. rewrite lookup_insert. split; [reflexivity|]. exact T.
  - by destruct T.
  - by destruct T.
  - by destruct T.
  - by destruct T.
Qed.

Lemma talk_fresh dbg : talk dbg (fresh_sock dbg) PRead.
Proof.
  split; [done|]. intros _. exists [], [], []. split; [done|]. split; [constructor|].
  split; [constructor|]. split; [apply fresh_resumes|done].
Qed.
Lemma talk_arrive dbg i r b p g s c q : talk dbg (mkSock i None r b p g s) q ->
  talk dbg (mkSock (i ++ [c]) None r b p (g ++ c) s) q.
Proof.
  intros [Hq T]. split; [done|]. cbn [k_got]. intros Hu. apply all_u8_app in Hu as [Hu _].
  destruct (T Hu) as (l & inp & mid & E & M & A & P). cbn [k_got k_in] in E. exists l, inp, mid. split_and!; auto.
  - cbn [k_got k_in]. rewrite E, join_app. cbn. by rewrite app_nil_r, !app_assoc.
  - assert (X : (exists part, s = mjoin l.*2 ++ part /\ partly dbg part (mid ++ mjoin i)) ->
      exists part, s = mjoin l.*2 ++ part /\ partly dbg part (mid ++ mjoin (i ++ [c]))).
    { intros (part & S & W). exists part. split; [done|]. destruct W as [->|(m & c' & r' & more & Em & L & An)]; [by left|].
      right. exists m, c', (r' ++ c), more. split_and!; auto. rewrite join_app. cbn. rewrite app_nil_r, (app_assoc mid), Em.
      by rewrite <- app_assoc. }
    destruct q; cbn in P |- *; auto; try exact (X P).
Qed.
Lemma talk_close dbg i e e' r b p g s q : talk dbg (mkSock i e r b p g s) q -> talk dbg (mkSock i e' r b p g s) q.
Proof. intros [Hq T]. split; [done|]. exact T. Qed.

Lemma talk_poll dbg k k' : poll k = Some k' -> talk dbg k PRead -> talk dbg k' PRead.
Proof.
  intros E [_ T]. split; [done|]. intros Hu.
  assert (Hg : k_got k' = k_got k).
  { unfold poll in E. destruct (k_rd k); try discriminate; [|by injection E as <-].
    destruct (_ <=? _); [by injection E as <-|]. destruct (k_in k); [discriminate|by injection E as <-]. }
  rewrite Hg in *. destruct (T Hu) as (l & inp & mid & Eg & M & A & R & S & Hp).
  destruct (poll_resumes _ _ _ _ E R) as (x & Ex & R' & _ & Ep & _ & Es).
  exists l, inp, (mid ++ x). split_and!; auto.
  - rewrite Eg, Ex. by rewrite !app_assoc.
  - split_and!; auto; congruence.
Qed.
Lemma talk_recv dbg k c : k_rd k = RRet c -> talk dbg k PRead -> talk dbg k (PUsedR c).
Proof.
  intros E [_ T]. split; [done|]. intros Hu. destruct (T Hu) as (l & inp & mid & Eg & M & A & [R1 R2] & S & Hp).
  exists l, inp, mid. split_and!; auto. rewrite E in R1, R2. split_and!; auto.
  rewrite Eg in Hu. apply all_u8_app in Hu as [_ Hu]. apply all_u8_app in Hu as [Hu _].
  specialize (R1 [] SEof). rewrite R2 in R1. cbn [app run_rd] in R1. rewrite app_nil_r in R1.
  destruct (reader_sound _ _ _ _ _ Hu R1) as (m & Em & L). rewrite app_nil_r in Em. by subst.
Qed.
Lemma talk_write dbg i f r b p g s out m : talk dbg (mkSock i f r b p g s) (PWrite out) -> p + m <= len out ->
  talk dbg (mkSock i f r b (p + m) g (s ++ take (N.to_nat m) (drop (N.to_nat p) out))) (PWrite out).
Proof.
  intros [_ T] Hm. split; [done|]. intros Hu. destruct (T Hu) as (l & inp & mid & Eg & M & A & c & L & An & S & Hp).
  exists l, inp, mid. split_and!; auto. exists c. split_and!; auto. cbn [k_sent k_pos] in *.
  rewrite S, <- app_assoc. f_equal. rewrite N2Nat.inj_add. apply take_take_drop.
Qed.
Lemma talk_flushed dbg i f r b p g s out : talk dbg (mkSock i f r b p g s) (PWrite out) -> p = len out ->
  talk dbg (mkSock i f (read_from_socket dbg) [] 0 g s) PRead.
Proof.
  intros [_ T] ->. split; [done|]. intros Hu. destruct (T Hu) as (l & inp & mid & Eg & M & A & c & L & An & S & Hp).
  exists (l ++ [(c, out)]), (inp ++ mid), []. cbn [k_got k_in k_sent k_pos] in *. split_and!.
  - by rewrite Eg, <- app_assoc.
  - rewrite fmap_app. by apply messages_snoc.
  - apply Forall_app. split; [done|]. by constructor.
  - split; [apply fresh_resumes|]. split; [|done].
    cbn [k_sent]. rewrite S, fmap_app, join_app. cbn. rewrite app_nil_r. f_equal. apply take_ge. unfold len. lia.
Qed.

Lemma sys_step_move {H} dbg (n n' : net H) l ev : sys_step dbg n l = Some (n', ev) ->
  move dbg (n_sys n) l (n_sys n') ev /\ n_socks n' = n_socks n /\ step dbg (n_sys n) l = Some (n_sys n', ev).
Proof.
  unfold sys_step. destruct (step _ _ _) as [[s e]|] eqn:E; [|discriminate]. intros [= <- <-].
  split_and!; [by apply step_move|done|done].
Qed.

Lemma talks_other {H} dbg (n n' : net H) l ev t : move dbg (n_sys n) l (n_sys n') ev -> actor l = Some t ->
  (forall u, u <> t -> n_socks n' !! u = n_socks n !! u) -> talks dbg n ->
  (forall k, n_socks n' !! t = Some k -> exists p cur, y_tasks (n_sys n') !! t = Some (mkTask p cur) /\ talk dbg k p) ->
  talks dbg n'.
Proof.
  intros M Ha Hu T Ht u k Hk. destruct (decide (u = t)) as [->|Hn]; [by apply Ht|].
  rewrite Hu in Hk by done. destruct (T u k Hk) as (p & cur & E & Tk). exists p, cur. split; [|done].
  rewrite (move_bystander _ _ _ _ _ _ M); [done|congruence].
Qed.

Lemma talks_step {H} dbg (n n' : net H) l ev : nstep dbg n l = Some (n', ev) -> talks dbg n -> talks dbg n'.
Proof.
  intros E T. destruct l as [l|t c|t f|t|t m|t|t e]; cbn [nstep] in E.
  - destruct (socket_label l) eqn:Hl; [discriminate|].
    assert (X : forall n1, sys_step dbg n1 l = Some (n', ev) -> talks dbg n1 -> talks dbg n').
    { intros n1 E1 T1 t k Hk. apply sys_step_move in E1 as (M & Es & _). rewrite Es in Hk.
      destruct (T1 t k Hk) as (p & cur & Et & Tk). by eapply talk_move. }
    destruct l; try (by apply (X n)).
    intros u k Hk. apply sys_step_move in E as (M & Es & _). rewrite Es in Hk. cbn in Hk.
    destruct (decide (u = t)) as [->|Hn].
    + rewrite lookup_insert in Hk. injection Hk as <-. inversion M; subst. exists PRead, None.
      cbn. rewrite lookup_insert. split; [done|]. apply talk_fresh.
    + rewrite lookup_insert_ne in Hk by done. destruct (T u k Hk) as (p & cur & Et & Tk). exists p, cur.
      split; [|done]. rewrite (move_bystander _ _ _ _ _ _ M); [done|]. cbn. congruence.
  - destruct (n_socks n !! t) as [[i [?|] r b p g s]|] eqn:Ek; try discriminate. destruct c as [|x c]; [discriminate|].
    injection E as <- <-. intros u k Hk. cbn in *. destruct (decide (u = t)) as [->|Hn].
    + rewrite lookup_insert in Hk. injection Hk as <-. destruct (T t _ Ek) as (q & cur & Et & Tk).
      exists q, cur. split; [done|]. by apply talk_arrive.
    + rewrite lookup_insert_ne in Hk by done. by apply T.
  - destruct (n_socks n !! t) as [[i [?|] r b p g s]|] eqn:Ek; try discriminate.
    injection E as <- <-. intros u k Hk. cbn in *. destruct (decide (u = t)) as [->|Hn].
    + rewrite lookup_insert in Hk. injection Hk as <-. destruct (T t _ Ek) as (q & cur & Et & Tk).
      exists q, cur. split; [done|]. by eapply talk_close.
    + rewrite lookup_insert_ne in Hk by done. by apply T.
  - destruct (n_socks n !! t) as [k|] eqn:Ek; [|discriminate].
    destruct (y_tasks (n_sys n) !! t) as [[[] cur]|] eqn:Et; try discriminate.
    destruct (T t k Ek) as (p & cur' & Et' & Tk). rewrite Et in Et'. injection Et' as <- <-.
    destruct (polled t k) as [l|] eqn:Ep.
    + apply sys_step_move in E as (M & Es & _).
      assert (Ha : actor l = Some t).
      { unfold polled in Ep. destruct (k_rd k); try discriminate; try (by injection Ep as <-).
        destruct (_ <=? _); [discriminate|]. destruct (k_in k), (k_end k); try discriminate. by injection Ep as <-. }
      eapply talks_other; [exact M|exact Ha|by rewrite Es|exact T|]. rewrite Es. intros k' Hk'. rewrite Ek in Hk'.
      injection Hk' as <-.
      assert (Hc : (exists c, l = LRecv t c /\ k_rd k = RRet c) \/ (exists e, l = LReadErr t e) \/ l = LReadPanic t).
      { unfold polled in Ep. destruct (k_rd k); try discriminate; try (injection Ep as <-; eauto).
        destruct (_ <=? _); [discriminate|]. destruct (k_in k), (k_end k); try discriminate. injection Ep as <-. eauto. }
      destruct Hc as [(c & -> & Er)|[(e & ->)| -> ]]; inversion M; subst; cbn; rewrite lookup_insert.
      * eexists _, _. split; [reflexivity|]. by apply talk_recv.
      * eexists _, _. split; [reflexivity|]. eapply talk_end; [exact Tk|by left|done].
      * eexists _, _. split; [reflexivity|]. eapply talk_end; [exact Tk|by left|done].
      * eexists _, _. split; [reflexivity|]. eapply talk_end; [exact Tk|by left|done].
    + destruct (poll k) as [k'|] eqn:Epk; [|discriminate]. injection E as <- <-. intros u x Hx. cbn in *.
      destruct (decide (u = t)) as [->|Hn].
      * rewrite lookup_insert in Hx. injection Hx as <-. exists PRead, cur. split; [done|]. by eapply talk_poll.
      * rewrite lookup_insert_ne in Hx by done. by apply T.
  - destruct (n_socks n !! t) as [[i f r b p g s]|] eqn:Ek; [|discriminate].
    destruct (y_tasks (n_sys n) !! t) as [[[] cur]|] eqn:Et; try discriminate.
    destruct (T t _ Ek) as (q & cur' & Et' & Tk). rewrite Et in Et'. injection Et' as <- <-.
    destruct (N.leb_spec 1 m); [|discriminate]. destruct (N.leb_spec (p + m) (len b0)); [|discriminate].
    injection E as <- <-. intros u x Hx. cbn in *. destruct (decide (u = t)) as [->|Hn].
    + rewrite lookup_insert in Hx. injection Hx as <-. eexists _, _. split; [exact Et|]. by apply talk_write.
    + rewrite lookup_insert_ne in Hx by done. by apply T.
  - destruct (n_socks n !! t) as [[i f r b p g s]|] eqn:Ek; [|discriminate].
    destruct (y_tasks (n_sys n) !! t) as [[[] cur]|] eqn:Et; try discriminate.
    destruct (T t _ Ek) as (q & cur' & Et' & Tk). rewrite Et in Et'. injection Et' as <- <-.
    destruct (N.eqb_spec p (len b0)) as [Hp|]; [|discriminate]. apply sys_step_move in E as (M & Es & _).
    eapply (talks_other _ n n' (LSent t) ev t); [exact M|done| |exact T|].
    + intros u Hu. rewrite Es. cbn. by rewrite lookup_insert_ne.
    + rewrite Es. cbn. rewrite lookup_insert. intros k [= <-]. inversion M; subst. cbn. rewrite lookup_insert.
      eexists _, _. split; [reflexivity|]. by eapply talk_flushed.
  - destruct (n_socks n !! t) as [k|] eqn:Ek; [|discriminate]. apply sys_step_move in E as (M & Es & _).
    eapply (talks_other _ n n' (LSendErr t e) ev t); [exact M|done|by rewrite Es|exact T|]. rewrite Es, Ek.
    intros k' [= <-]. destruct (T t k Ek) as (p & cur & Et & Tk). inversion M; subst. cbn. rewrite lookup_insert.
    match goal with X : y_tasks (n_sys n) !! t = Some (mkTask (PWrite _) _) |- _ => rewrite X in Et; injection Et as <- <- end.
    eexists _, _. split; [reflexivity|]. eapply talk_end; [exact Tk|by right; eexists|done].
Qed.

Lemma talks_run {H} dbg ls (n n' : net H) ev : nrun dbg n ls = Some (n', ev) -> talks dbg n -> talks dbg n'.
Proof.
  revert n ev. induction ls as [|l ls IH]; intros n ev E T; cbn [nrun] in E.
  - by injection E as <- <-.
  - destruct (nstep dbg n l) as [[n1 e1]|] eqn:E1; [|discriminate].
    destruct (nrun dbg n1 ls) as [[n2 e2]|] eqn:E2; [|discriminate]. injection E as <- <-.
    eapply IH; [exact E2|]. by eapply talks_step.
Qed.
Lemma talks_init {H} dbg ds (w : world H) : talks dbg (init_net ds w).
Proof. intros t k Hk. cbn in Hk. by rewrite lookup_empty in Hk. Qed.

(** ** The reader makes progress on whatever has arrived *)
Definition poll_step (k k' : sock) : Prop := poll k = Some k'.
Definition reader_ok (k : sock) : Prop :=
  match k_rd k with RRead n _ => len (k_buf k) <= n | _ => k_buf k = [] end.

(** [k'] has come as far as it can, and the outcome is [r] if the stream ends with [fin] now. *)
Definition settled (fin : stream_end) (r : rres command bytes) (k' : sock) : Prop :=
  match r with
  | ROk c rest => k_rd k' = RRet c /\ mjoin (k_in k') = rest
  | RErr e => k_rd k' = RFail e \/
      (k_in k' = [] /\ (exists n f, k_rd k' = RRead n f /\ len (k_buf k') < n) /\ e = end_error fin)
  | RPan p => k_rd k' = RPanic p
  end.
Definition same_sock (k k' : sock) : Prop :=
  k_end k' = k_end k /\ k_pos k' = k_pos k /\ k_got k' = k_got k /\ k_sent k' = k_sent k.

Lemma polls_finish (p : rd command) : forall k r fin, k_rd k = p -> reader_ok k ->
  run_rd p (k_buf k ++ mjoin (k_in k)) fin = r ->
  exists k', rtc poll_step k k' /\ settled fin r k' /\ same_sock k k'.
Proof.
  induction p as [a|e|q|n f IH|n p IH]; intros k r fin Ek Ok R.
  - cbn [run_rd] in R. subst r. exists k. unfold reader_ok in Ok. rewrite Ek in Ok. rewrite Ok. split; [constructor|done].
  - cbn [run_rd] in R. subst r. exists k. split; [constructor|]. split; [by left|done].
  - cbn [run_rd] in R. subst r. exists k. split; [constructor|done].
  - remember (length (k_in k)) as m eqn:Em. revert k Ek Ok R Em.
    induction (lt_wf m) as [m _ IHm]. intros k Ek Ok R ->.
    unfold reader_ok in Ok. rewrite Ek in Ok.
    assert (Full : forall k1, k_rd k1 = RRead n f -> len (k_buf k1) = n ->
        run_rd (f (k_buf k1)) (mjoin (k_in k1)) fin = r ->
        exists k', rtc poll_step k1 k' /\ settled fin r k' /\ same_sock k1 k').
    { intros k1 E1 L1 R1.
      destruct (IH (k_buf k1) (mkSock (k_in k1) (k_end k1) (f (k_buf k1)) [] (k_pos k1) (k_got k1) (k_sent k1))
                  r fin) as (k' & P & X); [done| |done|].
      - unfold reader_ok. cbn. destruct (f (k_buf k1)); try done. unfold len. cbn. lia.
      - exists k'. split; [|exact X]. eapply rtc_l; [|exact P]. unfold poll_step, poll. rewrite E1.
        destruct (N.leb_spec n (len (k_buf k1))); [done|lia]. }
    destruct (decide (len (k_buf k) = n)) as [Hl|Hl].
    + apply Full; [done|done|]. cbn [run_rd] in R. rewrite len_app in R.
      destruct (N.ltb_spec (len (k_buf k) + len (mjoin (k_in k))) n); [lia|].
      assert (Hl' : N.to_nat n = length (k_buf k)) by (unfold len in *; lia).
      by rewrite Hl', take_app, drop_app in R.
    + destruct (k_in k) as [|ch cs] eqn:Ei.
      { exists k. split; [constructor|]. split; [|done]. cbn [run_rd mjoin list_join] in R. rewrite app_nil_r in R.
        destruct (N.ltb_spec (len (k_buf k)) n); [|lia]. subst r. right. split; [done|]. split; [|done]. by exists n, f. }
      set (need := N.to_nat (n - len (k_buf k))) in *.
      set (k1 := mkSock (if (length ch <=? need)%nat then cs else drop need ch :: cs) (k_end k) (k_rd k)
                   (k_buf k ++ take need ch) (k_pos k) (k_got k) (k_sent k)).
      assert (P1 : poll_step k k1).
      { unfold poll_step, poll. rewrite Ek, Ei. destruct (N.leb_spec n (len (k_buf k))); [lia|]. unfold k1. by rewrite Ek. }
      assert (J1 : k_buf k1 ++ mjoin (k_in k1) = k_buf k ++ mjoin (ch :: cs)).
      { unfold k1. cbn [k_buf k_in]. rewrite <- app_assoc. f_equal. cbn [mjoin list_join].
        destruct (Nat.leb_spec (length ch) need); [by rewrite take_ge|]. cbn [mjoin list_join].
        by rewrite app_assoc, take_drop. }
      assert (L1 : len (k_buf k1) = len (k_buf k) + N.of_nat (length ch `min` need)).
      { unfold k1. cbn [k_buf]. rewrite len_app. unfold len. rewrite take_length. f_equal. f_equal. lia. }
      assert (O1 : reader_ok k1). { unfold reader_ok. unfold k1 at 1. cbn [k_rd]. rewrite Ek, L1. lia. }
      rewrite <- J1 in R.
      assert (Fin : forall k', rtc poll_step k1 k' /\ settled fin r k' /\ same_sock k1 k' ->
        exists k', rtc poll_step k k' /\ settled fin r k' /\ same_sock k k').
      { intros k' (P & X). exists k'. split; [by eapply rtc_l|exact X]. }
      destruct (Nat.leb_spec (length ch) need) as [Hc|Hc].
      * destruct (IHm (length (k_in k1))) with (k := k1) as (k' & X).
        -- unfold k1. cbn [k_in]. destruct (Nat.leb_spec (length ch) need); [cbn; lia|lia].
        -- done.
        -- exact O1.
        -- exact R.
        -- done.
        -- by eapply Fin.
      * destruct (Full k1) as (k' & X).
        -- done.
        -- rewrite L1. lia.
        -- cbn [run_rd] in R. rewrite len_app in R.
           destruct (N.ltb_spec (len (k_buf k1) + len (mjoin (k_in k1))) n); [lia|].
           assert (Hl' : N.to_nat n = length (k_buf k1)) by (unfold len in *; lia).
           by rewrite Hl', take_app, drop_app in R.
        -- by eapply Fin.
  - cbn [run_rd] in R.
    destruct (IH (mkSock (k_in k) (k_end k) p (k_buf k) (k_pos k) (k_got k) (k_sent k)) r fin) as (k' & P & X).
    + done.
    + unfold reader_ok in *. cbn. rewrite Ek in Ok. destruct p; try done. rewrite Ok. unfold len. cbn. lia.
    + done.
    + exists k'. split; [|exact X]. eapply rtc_l; [|exact P]. unfold poll_step, poll. by rewrite Ek.
Qed.

Lemma nrun_app {H} dbg (n : net H) l1 l2 n1 e1 n2 e2 : nrun dbg n l1 = Some (n1, e1) -> nrun dbg n1 l2 = Some (n2, e2) ->
  nrun dbg n (l1 ++ l2) = Some (n2, e1 ++ e2).
Proof.
  revert n e1. induction l1 as [|l l1 IH]; intros n e1 E1 E2; cbn [nrun app] in *.
  - by injection E1 as -> <-.
  - destruct (nstep dbg n l) as [[n' e']|]; [|discriminate]. destruct (nrun dbg n' l1) as [[n'' e'']|] eqn:E; [|discriminate].
    injection E1 as -> <-. rewrite (IH _ _ E E2). by rewrite app_assoc.
Qed.
Lemma nrun_cons {H} dbg (n : net H) l ls n1 e1 n2 e2 : nstep dbg n l = Some (n1, e1) -> nrun dbg n1 ls = Some (n2, e2) ->
  nrun dbg n (l :: ls) = Some (n2, e1 ++ e2).
Proof. intros E1 E2. cbn [nrun]. by rewrite E1, E2. Qed.
Lemma nrun_one {H} dbg (n : net H) l r : nstep dbg n l = Some r -> nrun dbg n [l] = Some r.
Proof. intros E. destruct r as [n' e]. cbn [nrun]. rewrite E. by rewrite app_nil_r. Qed.

Lemma poll_polled {H} t k k' : poll k = Some k' -> @polled H t k = None.
Proof.
  unfold poll, polled. destruct (k_rd k); try done. destruct (_ <=? _); [done|]. by destruct (k_in k).
Qed.
Lemma set_sock_id {H} (n : net H) t k : n_socks n !! t = Some k -> set_sock n t k = n.
Proof. destruct n as [s m]. cbn. intros E. unfold set_sock. cbn. by rewrite insert_id. Qed.
Lemma set_set {H} (n : net H) t k k' : set_sock (set_sock n t k) t k' = set_sock n t k'.
Proof. unfold set_sock. cbn. by rewrite insert_insert. Qed.

Lemma npolls {H} dbg (n : net H) t cur k k' : rtc poll_step k k' -> y_tasks (n_sys n) !! t = Some (mkTask PRead cur) ->
  n_socks n !! t = Some k -> exists j, nrun dbg n (replicate j (NPoll t)) = Some (set_sock n t k', []).
Proof.
  intros P Ht. revert n Ht. induction P as [k|k k1 k2 P1 _ IH]; intros n Ht Hk.
  - exists 0%nat. cbn. by rewrite set_sock_id.
  - destruct (IH (set_sock n t k1)) as (j & E).
    + done.
    + cbn. by rewrite lookup_insert.
    + exists (S j). rewrite set_set in E. apply (nrun_cons _ _ _ _ (set_sock n t k1) []); [|exact E].
      cbn [nstep]. rewrite Hk, Ht. unfold poll_step in P1. by rewrite (poll_polled _ _ _ P1), P1.
Qed.

Lemma poll_chunks k k' : poll k = Some k' -> Forall (fun c => c <> []) (k_in k) -> Forall (fun c => c <> []) (k_in k').
Proof.
  unfold poll. destruct (k_rd k); try discriminate; [|by intros [= <-]].
  destruct (_ <=? _); [by intros [= <-]|]. destruct (k_in k) as [|c cs]; [discriminate|]. intros [= <-]. cbn.
  intros F. apply Forall_cons in F as [Hc F]. destruct (Nat.leb_spec (length c) (N.to_nat (n - len (k_buf k)))); [done|].
  constructor; [|done]. intros E. apply (f_equal length) in E. rewrite drop_length in E. cbn in E. lia.
Qed.
Lemma polls_chunks k k' : rtc poll_step k k' -> Forall (fun c => c <> []) (k_in k) -> Forall (fun c => c <> []) (k_in k').
Proof. induction 1 as [|k k1 k2 P _ IH]; [done|]. intros F. apply IH. by eapply poll_chunks. Qed.
Lemma join_nil (l : list bytes) : Forall (fun c => c <> []) l -> mjoin l = [] -> l = [].
Proof. intros F E. destruct l as [|c l]; [done|]. apply Forall_cons in F as [Hc _]. cbn in E. by destruct c. Qed.

(** ** Every byte-level step is a step of Sys.v, or invisible there *)
Lemma nstep_sys {H} dbg (n n' : net H) l ev : nstep dbg n l = Some (n', ev) ->
  (n_sys n' = n_sys n /\ ev = []) \/ exists l', step dbg (n_sys n) l' = Some (n_sys n', ev).
Proof.
  assert (X : forall n1 l', n_sys n1 = n_sys n -> sys_step dbg n1 l' = Some (n', ev) ->
    exists l', step dbg (n_sys n) l' = Some (n_sys n', ev)).
  { intros n1 l' E1 E. apply sys_step_move in E as (_ & _ & E). exists l'. congruence. }
  destruct l as [l|t c|t f|t|t m|t|t e]; cbn [nstep]; intros E.
  - right. destruct (socket_label l); [discriminate|]. destruct l; by eapply X; [|exact E].
  - left. destruct (n_socks n !! t) as [[? [] ? ? ? ? ?]|]; try discriminate. destruct c; [discriminate|]. by injection E as <- <-.
  - left. destruct (n_socks n !! t) as [[? [] ? ? ? ? ?]|]; try discriminate. by injection E as <- <-.
  - destruct (n_socks n !! t) as [k|]; [|discriminate].
    destruct (y_tasks (n_sys n) !! t) as [[[] cur]|]; try discriminate.
    destruct (polled t k); [right; by eapply X; [|exact E]|]. destruct (poll k); [|discriminate]. left. by injection E as <- <-.
  - left. destruct (n_socks n !! t) as [[? ? ? ? ? ? ?]|]; try discriminate.
    destruct (y_tasks (n_sys n) !! t) as [[[] cur]|]; try discriminate. destruct (_ && _); [|discriminate]. by injection E as <- <-.
  - right. destruct (n_socks n !! t) as [[? ? ? ? ? ? ?]|]; try discriminate.
    destruct (y_tasks (n_sys n) !! t) as [[[] cur]|]; try discriminate. destruct (_ =? _); [|discriminate]. by eapply X; [|exact E].
  - right. destruct (n_socks n !! t); [|discriminate]. by eapply X; [|exact E].
Qed.
Lemma nrun_sys {H} dbg ls (n n' : net H) ev : nrun dbg n ls = Some (n', ev) ->
  exists ls', run dbg (n_sys n) ls' = Some (n_sys n', ev).
Proof.
  revert n ev. induction ls as [|l ls IH]; intros n ev E; cbn [nrun] in E.
  - injection E as <- <-. by exists [].
  - destruct (nstep dbg n l) as [[n1 e1]|] eqn:E1; [|discriminate].
    destruct (nrun dbg n1 ls) as [[n2 e2]|] eqn:E2; [|discriminate]. injection E as <- <-.
    destruct (IH _ _ E2) as (ls2 & R2). apply nstep_sys in E1 as [[Es ->]|(l' & E1)].
    + exists ls2. rewrite <- Es. exact R2.
    + exists (l' :: ls2). cbn [run]. by rewrite E1, R2.
Qed.

(** ** What the reader can report *)
Lemma Forall_u8 (l : bytes) : all_u8 l = true <-> Forall (fun x => x < 256) l.
Proof. apply all_u8_spec. Qed.
Lemma bytes_at_u8 b o l : Forall (fun x => x < 256) b -> bytes_at b o l -> Forall (fun x => x < 256) l.
Proof. intros F E. red in E. rewrite <- E. by apply Forall_take, Forall_drop. Qed.
Lemma u16_at_lt b o v : u16_at b o v -> v < 65536.
Proof. intros (x & y & _ & _ & ? & ? & ->). lia. Qed.
Lemma layout_wf dbg m c : all_u8 m = true -> cmd_layout dbg m c -> wf_command dbg c.
Proof.
  intros Hu%Forall_u8 L. destruct L; cbn [wf_command].
  - split; [by eapply u32_at_lt|done].
  - split; [by eapply u32_at_lt|]. split; [done|]. split; [done|]. by eapply bytes_at_u8.
  - match goal with X : header_at _ _ |- _ => destruct X as (?%u32_at_lt & ?%u32_at_lt & ?%u32_at_lt & ?%u32_at_lt) end.
    split; [by split_and!|].
    split; [by eapply u32_at_lt|]. split; [by eapply u32_at_lt|]. split; [by eapply u32_at_lt|].
    split; [by eapply u32_at_lt|]. split; [by eapply u32_at_lt|]. split; [split; [done|by eapply bytes_at_u8]|].
    split; [by eapply bytes_at_u8|]. split; [by eapply bytes_at_u8|]. done.
  - match goal with X : header_at _ _ |- _ => destruct X as (?%u32_at_lt & ?%u32_at_lt & ?%u32_at_lt & ?%u32_at_lt) end.
    split; [by split_and!|by eapply u32_at_lt].
Qed.

Definition got_bytes {H} (n : net H) : Prop := forall t k, n_socks n !! t = Some k -> all_u8 (k_got k) = true.

Lemma polled_readable {H} dbg t k l : talk dbg k PRead -> all_u8 (k_got k) = true -> @polled H t k = Some l -> readable dbg l.
Proof.
  intros [_ T] Hu. destruct (T Hu) as (cs & inp & mid & Eg & _ & _ & (R & R2) & _).
  assert (Hm : all_u8 mid = true). { rewrite Eg, !all_u8_app in Hu. tauto. }
  unfold polled. destruct (k_rd k) as [a|e|q|n f|n p] eqn:Ek.
  - intros [= <-]. specialize (R [] SEof). rewrite app_nil_r, R2 in R.
    apply reader_sound in R as (m & -> & L); [|done]. rewrite app_nil_r in Hm. by eapply layout_wf.
  - intros [= <-]. specialize (R [] SEof). rewrite app_nil_r in R.
    apply reader_errors in R as [-> |[(v & -> & ?%u16_at_lt & ?)|(v & c & -> & _ & _ & ?%u16_at_lt & ?)]]; done.
  - by intros [= <-].
  - destruct (_ <=? _); [done|]. destruct (k_in k); [|done]. destruct (k_end k) as [f0|]; [|done]. intros [= <-].
    by destruct f0.
  - done.
Qed.

Lemma nstep_readable {H} dbg (n n' : net H) l ev : nstep dbg n l = Some (n', ev) -> talks dbg n -> got_bytes n -> byte_label l ->
  got_bytes n' /\ ((n_sys n' = n_sys n /\ ev = []) \/ exists l', readable dbg l' /\ step dbg (n_sys n) l' = Some (n_sys n', ev)).
Proof.
  intros E T G B.
  assert (S : forall t k, all_u8 (k_got k) = true -> got_bytes (set_sock n t k)).
  { intros t k Hk u ku. cbn. destruct (decide (u = t)) as [->|Hn].
    - rewrite lookup_insert. by intros [= <-].
    - rewrite lookup_insert_ne by done. apply G. }
  assert (X : forall n1 l', n_sys n1 = n_sys n -> got_bytes n1 -> readable dbg l' -> sys_step dbg n1 l' = Some (n', ev) ->
    got_bytes n' /\ ((n_sys n' = n_sys n /\ ev = []) \/ exists l', readable dbg l' /\ step dbg (n_sys n) l' = Some (n_sys n', ev))).
  { intros n1 l' E1 G1 Rd Es. apply sys_step_move in Es as (_ & Ek & Es). split.
    - intros t k. rewrite Ek. apply G1.
    - right. exists l'. split; [done|congruence]. }
  destruct l as [l|t c|t f|t|t m|t|t e]; cbn [nstep] in E.
  - destruct (socket_label l) eqn:Hl; [discriminate|].
    destruct l; cbn in Hl; try discriminate; try (by eapply X; [| | |exact E]).
    eapply X; [| | |exact E]; [done| |done]. by apply S.
  - destruct (n_socks n !! t) as [[? [] ? ? ? ? ?]|] eqn:Ek; try discriminate. destruct c; [discriminate|]. injection E as <- <-.
    split; [|by left]. apply S. cbn. rewrite all_u8_app. split; [by apply (G _ _ Ek)|].
    by apply Forall_u8.
  - destruct (n_socks n !! t) as [[? [] ? ? ? ? ?]|] eqn:Ek; try discriminate. injection E as <- <-.
    split; [|by left]. apply S. by apply (G _ _ Ek).
  - destruct (n_socks n !! t) as [k|] eqn:Ek; [|discriminate].
    destruct (T _ _ Ek) as (p & cur' & Ht & Tk). rewrite Ht in E. destruct p; try discriminate.
    destruct (polled t k) eqn:Ep.
    + eapply X; [| | |exact E]; [done|done|]. eapply polled_readable; [done| |exact Ep]. by apply (G _ _ Ek).
    + destruct (poll k) as [k'|] eqn:Epo; [|discriminate]. injection E as <- <-. split; [|by left]. apply S.
      revert Epo. unfold poll. destruct (k_rd k); try discriminate.
      * destruct (_ <=? _); [intros [= <-]|destruct (k_in k); [discriminate|intros [= <-]]]; by apply (G _ _ Ek).
      * intros [= <-]. by apply (G _ _ Ek).
  - destruct (n_socks n !! t) as [[? ? ? ? ? ? ?]|] eqn:Ek; try discriminate.
    destruct (y_tasks (n_sys n) !! t) as [[[] cur]|]; try discriminate. destruct (_ && _); [|discriminate]. injection E as <- <-.
    split; [|by left]. apply S. by apply (G _ _ Ek).
  - destruct (n_socks n !! t) as [[? ? ? ? ? ? ?]|] eqn:Ek; try discriminate.
    destruct (y_tasks (n_sys n) !! t) as [[[] cur]|]; try discriminate. destruct (_ =? _); [|discriminate].
    eapply X; [| | |exact E]; [done| |done]. apply S. by apply (G _ _ Ek).
  - destruct (n_socks n !! t); [|discriminate]. by eapply X; [| | |exact E].
Qed.
Lemma nrun_readable {H} dbg ls (n n' : net H) ev : nrun dbg n ls = Some (n', ev) -> talks dbg n -> got_bytes n ->
  Forall byte_label ls ->
  got_bytes n' /\ exists ls', Forall (readable dbg) ls' /\ run dbg (n_sys n) ls' = Some (n_sys n', ev).
Proof.
  revert n ev. induction ls as [|l ls IH]; intros n ev E T G B; cbn [nrun] in E.
  - injection E as <- <-. split; [done|]. by exists [].
  - destruct (nstep dbg n l) as [[n1 e1]|] eqn:E1; [|discriminate].
    destruct (nrun dbg n1 ls) as [[n2 e2]|] eqn:E2; [|discriminate]. injection E as <- <-.
    apply Forall_cons in B as [B1 B]. pose proof (talks_step _ _ _ _ _ E1 T) as T1.
    destruct (nstep_readable _ _ _ _ _ E1 T G B1) as (G1 & S1).
    destruct (IH _ _ E2 T1 G1 B) as (G2 & ls2 & F2 & R2). split; [done|].
    destruct S1 as [[Es ->]|(l' & Rl & Es)].
    + exists ls2. rewrite <- Es. done.
    + exists (l' :: ls2). split; [by constructor|]. cbn [run]. by rewrite Es, R2.
Qed.

(** ** Every command-level behaviour is realised by bytes *)
Definition calm (dbg : bool) (k : sock) (p : pc) : Prop :=
  match p with
  | PRead => k_in k = [] /\ k_end k = None /\ k_pos k = 0 /\ k_rd k = read_from_socket dbg /\ k_buf k = []
  | PUsedR _ | PDevAvailR _ | PImpStart _ _ | PImpUsedW _ _ | PImpAvailW _ _ | PWrite _ => k_in k = [] /\ k_end k = None /\ k_pos k = 0
  | _ => True
  end.
Definition calms {H} (dbg : bool) (n : net H) : Prop :=
  forall t p cur, y_tasks (n_sys n) !! t = Some (mkTask p cur) -> is_conn_pc p = true ->
    exists k, n_socks n !! t = Some k /\ calm dbg k p.

Lemma calm_move {H} dbg (s s' : sys H) l ev t p' cur' : move dbg s l s' ev -> actor l = Some t -> socket_label l = false ->
  y_tasks s' !! t = Some (mkTask p' cur') -> is_conn_pc p' = true ->
  l = LConnect t /\ p' = PRead \/
  exists p cur, y_tasks s !! t = Some (mkTask p cur) /\ is_conn_pc p = true /\ forall k, calm dbg k p -> calm dbg k p'.
Proof.
  intros Mv Ha Hl. destruct Mv; cbn in Hl, Ha; try discriminate; injection Ha as ->; cbn; rewrite ?lookup_insert;
  try match goal with X : answered _ _ _ _ _ _ _ _ |- _ => destruct X; cbn; rewrite ?lookup_insert end;
    intros [= <- <-] Hc; try discriminate; try (by left; split).
  all: right; eexists _, _; split; [eassumption|]; split; [done|]; intros k; cbn; try done; tauto.
Qed.

Lemma calms_sys {H} dbg (n n' : net H) l ev : step dbg (n_sys n) l = Some (n_sys n', ev) -> socket_label l = false ->
  (forall t, l <> LConnect t) -> n_socks n' = n_socks n -> calms dbg n -> calms dbg n'.
Proof.
  intros E Hl Hc Ek C t p cur Ht Hp. apply step_move in E. destruct (decide (actor l = Some t)) as [Ha|Ha].
  - destruct (calm_move _ _ _ _ _ _ _ _ E Ha Hl Ht Hp) as [[-> _]|(q & cur' & Hq & Hq' & X)]; [by destruct (Hc t)|].
    destruct (C _ _ _ Hq Hq') as (k & Hk & Ck). exists k. rewrite Ek. auto.
  - rewrite (move_bystander _ _ _ _ _ _ E Ha) in Ht. rewrite Ek. by eapply C.
Qed.

(** One connection changes, with its socket; the others stay. *)
Lemma calms_at {H} dbg (n : net H) (s' : sys H) (t : tid) k p cur : calms dbg n ->
  (forall u, u <> t -> y_tasks s' !! u = y_tasks (n_sys n) !! u) ->
  y_tasks s' !! t = Some (mkTask p cur) -> calm dbg k p -> calms dbg (mkNet s' (<[t := k]> (n_socks n))).
Proof.
  intros C Hu Ht Ck u q cur' Hq Hc. cbn in *. destruct (decide (u = t)) as [->|Hn].
  - rewrite Ht in Hq. injection Hq as <- <-. exists k. by rewrite lookup_insert.
  - rewrite lookup_insert_ne by done. rewrite Hu in Hq by done. by eapply C.
Qed.

(** Delivering [b] to an idle connection makes its reader settle. *)
Lemma deliver {H} dbg (n : net H) t k cur b fin : n_socks n !! t = Some k ->
  y_tasks (n_sys n) !! t = Some (mkTask PRead cur) -> calm dbg k PRead -> b <> [] -> Forall (fun x => x < 256) b ->
  exists ls k', Forall byte_label ls /\ nrun dbg n ls = Some (set_sock n t k', []) /\
    settled fin (run_rd (read_from_socket dbg) b fin) k' /\ Forall (fun c => c <> []) (k_in k') /\
    k_end k' = None /\ k_pos k' = 0.
Proof.
  intros Hk Ht (Ci & Ce & Cp & Cr & Cb) Hb Fb. destruct k as [i e r bu po g s]. cbn in Ci, Ce, Cp, Cr, Cb. subst.
  set (k1 := mkSock [b] None (read_from_socket dbg) [] 0 (g ++ b) s).
  destruct (polls_finish (read_from_socket dbg) k1 (run_rd (read_from_socket dbg) b fin) fin) as (k' & P & Se & Sa).
  - done.
  - unfold reader_ok. cbn. unfold len. cbn. lia.
  - unfold k1. cbn [k_buf k_in mjoin list_join app]. by rewrite app_nil_r.
  - destruct (npolls dbg (set_sock n t k1) t cur k1 k' P) as (j & R).
    + done.
    + cbn. by rewrite lookup_insert.
    + exists (NArrive t b :: replicate j (NPoll t)), k'. destruct Sa as (S1 & S2 & _). split_and!.
      * constructor; [done|]. by apply Forall_replicate.
      * rewrite set_set in R. apply (nrun_cons _ _ _ _ (set_sock n t k1) []); [|exact R]. cbn [nstep]. rewrite Hk. by destruct b.
      * done.
      * eapply polls_chunks; [exact P|]. by repeat constructor.
      * done.
      * done.
Qed.

Lemma be16_at v rest : v < 65536 -> u16_at (be16 v ++ rest) 0 v.
Proof. intros. unfold u16_at, be16. eexists _, _. cbn. repeat split; lia. Qed.

Lemma finish_poll {H} dbg (n : net H) t k' cur ls l s' ev : nrun dbg n ls = Some (set_sock n t k', []) ->
  y_tasks (n_sys n) !! t = Some (mkTask PRead cur) -> polled t k' = Some l -> step dbg (n_sys n) l = Some (s', ev) ->
  nrun dbg n (ls ++ [NPoll t]) = Some (mkNet s' (<[t := k']> (n_socks n)), ev).
Proof.
  intros R Ht Hp Hs. change ev with ([] ++ ev). eapply nrun_app; [exact R|]. apply nrun_one. cbn [nstep].
  unfold set_sock at 1. cbn [n_socks]. rewrite lookup_insert. cbn [n_sys set_sock]. rewrite Ht, Hp. unfold sys_step. cbn [n_sys set_sock].
  by rewrite Hs.
Qed.

Lemma realise_step {H} dbg (n : net H) l s' ev : step dbg (n_sys n) l = Some (s', ev) -> readable dbg l -> calms dbg n ->
  exists ls n', Forall byte_label ls /\ nrun dbg n ls = Some (n', ev) /\ n_sys n' = s' /\ calms dbg n'.
Proof.
  intros E Rd C. pose proof (step_move _ _ _ _ _ E) as Mv.
  assert (Hu : forall t u, actor l = Some t -> u <> t -> y_tasks s' !! u = y_tasks (n_sys n) !! u).
  { intros t u Ha Hn. eapply move_bystander; [exact Mv|congruence]. }
  destruct (socket_label l) eqn:Hl.
  2:{ assert ((exists t, l = LConnect t) \/ ~ exists t, l = LConnect t) as [Hc|Hc] by (destruct l; try (by right; intros [? [=]]); by left; eexists).
      - destruct Hc as [t ->]. exists [NSys (LConnect t)], (mkNet s' (<[t := fresh_sock dbg]> (n_socks n))).
        split; [by repeat constructor|]. split.
        { apply nrun_one. cbn [nstep socket_label]. unfold sys_step. cbn [n_sys set_sock n_socks]. by rewrite E. }
        split; [done|]. inversion Mv; subst.
        eapply calms_at; [done|by intros; eapply Hu|cbn; by rewrite lookup_insert|]. done.
      - exists [NSys l], (mkNet s' (n_socks n)). split; [by repeat constructor|].
        assert (X : nstep dbg n (NSys l) = Some (mkNet s' (n_socks n), ev)).
        { cbn [nstep]. rewrite Hl. assert (Y : sys_step dbg n l = Some (mkNet s' (n_socks n), ev)) by (unfold sys_step; by rewrite E).
          destruct l; try done. destruct Hc. eauto. }
        split; [by apply nrun_one|]. split; [done|]. eapply calms_sys; [exact E|done| |done|done]. intros t ->. eauto. }
  destruct l as [|t c|t e|t|t|t e|? ?|? ?|? ?| | |?]; try discriminate Hl; cbn [actor] in Hu.
  - (* a command *)
    assert (exists cur, y_tasks (n_sys n) !! t = Some (mkTask PRead cur) /\ y_tasks s' !! t = Some (mkTask (PUsedR c) cur)) as (cur & Ht & Ht').
    { inversion Mv; subst. eexists. split; [eassumption|]. cbn. by rewrite lookup_insert. }
    destruct (C _ _ _ Ht eq_refl) as (k & Hk & Ck).
    destruct (encode_total dbg c Rd) as [b Hb]. pose proof (encode_u8 _ _ _ Rd Hb) as Ub%Forall_u8.
    pose proof (encode_layout _ _ _ Rd Hb) as Lb.
    destruct (deliver dbg n t k cur b SEof Hk Ht Ck) as (ls & k' & Fl & R & Se & Ch & Ke & Kp).
    { intros ->. destruct Lb as [? ? X|? ? ? X|? ? ? ? ? ? ? ? ? ? X|? ? ? X]; discriminate X. } { done. }
    pose proof (roundtrip dbg c b [] SEof Rd Hb) as Rt. rewrite app_nil_r in Rt. rewrite Rt in Se. destruct Se as [Sr Si].
    apply join_nil in Si; [|done].
    exists (ls ++ [NPoll t]), (mkNet s' (<[t := k']> (n_socks n))). split; [by apply Forall_app; repeat constructor|].
    split; [eapply finish_poll; [exact R|exact Ht| |exact E]; unfold polled; by rewrite Sr|]. split; [done|].
    eapply calms_at; [done|by intros; eapply Hu|exact Ht'|]. done.
  - (* a failed read *)
    assert (exists cur p' cur', y_tasks (n_sys n) !! t = Some (mkTask PRead cur) /\ y_tasks s' !! t = Some (mkTask p' cur')
      /\ (forall k, calm dbg k p')) as (cur & p' & cur' & Ht & Ht' & Hp').
    { inversion Mv; subst; eexists _, _, _; (split; [eassumption|]); cbn; by rewrite lookup_insert. }
    destruct (C _ _ _ Ht eq_refl) as (k & Hk & Ck).
    assert (End : forall f, e = end_error f -> exists ls n', Forall byte_label ls /\ nrun dbg n ls = Some (n', ev) /\ n_sys n' = s' /\ calms dbg n').
    { intros f ->. destruct k as [i en r bu po g s]. destruct Ck as (Ci & Ce & Cp & Cr & Cb). cbn in Ci, Ce, Cp, Cr, Cb. subst.
      set (k' := mkSock [] (Some f) (read_from_socket dbg) [] 0 g s).
      exists ([NClose t f] ++ [NPoll t]), (mkNet s' (<[t := k']> (n_socks n))). split; [by repeat constructor|].
      split; [eapply finish_poll; [|exact Ht| |exact E]|].
      - apply nrun_one. cbn [nstep]. by rewrite Hk.
      - done.
      - split; [done|]. eapply calms_at; [done|by intros; eapply Hu|exact Ht'|apply Hp']. }
    assert (Bad : forall b, b <> [] -> Forall (fun x => x < 256) b -> (forall fin, run_rd (read_from_socket dbg) b fin = RErr e) ->
      (forall f, e <> end_error f) ->
      exists ls n', Forall byte_label ls /\ nrun dbg n ls = Some (n', ev) /\ n_sys n' = s' /\ calms dbg n').
    { intros b Hb Ub Hr Hne.
      destruct (deliver dbg n t k cur b SEof Hk Ht Ck Hb Ub) as (ls & k' & Fl & R & Se & Ch & Ke & Kp).
      rewrite Hr in Se. destruct Se as [Sr|(_ & _ & Sr)]; [|by destruct (Hne SEof)].
      exists (ls ++ [NPoll t]), (mkNet s' (<[t := k']> (n_socks n))). split; [by apply Forall_app; repeat constructor|].
      split; [eapply finish_poll; [exact R|exact Ht| |exact E]; unfold polled; by rewrite Sr|]. split; [done|].
      eapply calms_at; [done|by intros; eapply Hu|exact Ht'|apply Hp']. }
    destruct e as [|v|v| | | |code|]; cbn [readable] in Rd; try done.
    + by apply (End SEof).
    + destruct Rd as [Hv Hn]. apply (Bad (be16 v)).
      * done.
      * apply Forall_u8, be16_u8.
      * intros fin. apply reject_version; [|done]. rewrite <- (app_nil_r (be16 v)). by apply be16_at.
      * by intros [].
    + destruct Rd as [Hv Hn]. apply (Bad (be16 0 ++ be16 v)).
      * done.
      * apply Forall_app. split; apply Forall_u8, be16_u8.
      * intros fin. apply (reject_command _ _ _ 0).
        -- by apply be16_at.
        -- by left.
        -- unfold u16_at, be16. eexists _, _. cbn. repeat split; lia.
        -- done.
      * by intros [].
    + by apply (End (SErr code)).
  - (* a failed debug assertion *)
    assert (exists cur p' cur', y_tasks (n_sys n) !! t = Some (mkTask PRead cur) /\ y_tasks s' !! t = Some (mkTask p' cur')
      /\ (forall k, calm dbg k p') /\ dbg = true) as (cur & p' & cur' & Ht & Ht' & Hp' & ->).
    { inversion Mv; subst. eexists _, _, _; (split; [eassumption|]). cbn. by rewrite lookup_insert. }
    destruct (C _ _ _ Ht eq_refl) as (k & Hk & Ck).
    destruct (deliver true n t k cur [1; 17; 128; 5; 0; 0; 0; 1] SEof Hk Ht Ck) as (ls & k' & Fl & R & Se & Ch & Ke & Kp).
    { done. } { repeat (constructor; [lia|]). constructor. }
    assert (Rt : run_rd (read_from_socket true) [1; 17; 128; 5; 0; 0; 0; 1] SEof = RPan PDebugAssert) by (vm_compute; reflexivity).
    rewrite Rt in Se. cbn in Se.
    exists (ls ++ [NPoll t]), (mkNet s' (<[t := k']> (n_socks n))). split; [by apply Forall_app; repeat constructor|].
    split; [eapply finish_poll; [exact R|exact Ht| |exact E]; unfold polled; by rewrite Se|]. split; [done|].
    eapply calms_at; [done|by intros; eapply Hu|exact Ht'|apply Hp'].
  - (* a reply is out *)
    assert (exists cur b, y_tasks (n_sys n) !! t = Some (mkTask (PWrite b) cur) /\ y_tasks s' !! t = Some (mkTask PRead cur)) as (cur & b & Ht & Ht').
    { inversion Mv; subst. eexists _, _. split; [eassumption|]. cbn. by rewrite lookup_insert. }
    destruct (C _ _ _ Ht eq_refl) as (k & Hk & Ck).
    destruct k as [i en r bu po g s]. destruct Ck as (Ci & Ce & Cp). cbn in Ci, Ce, Cp. subst.
    assert (exists ls s1, Forall byte_label ls /\ nrun dbg n ls = Some (set_sock n t (mkSock [] None r bu (len b) g s1), [])) as (ls & s1 & Fl & R).
    { destruct (decide (b = [])) as [->|Hb].
      - exists [], s. split; [constructor|]. cbn. by rewrite set_sock_id.
      - exists [NWrite t (len b)]. eexists. split; [by repeat constructor|]. apply nrun_one. cbn [nstep]. rewrite Hk, Ht.
        destruct (N.leb_spec 1 (len b)) as [_|Hb'].
        + destruct (N.leb_spec (0 + len b) (len b)); [|lia]. rewrite N.add_0_l. cbn. reflexivity.
        + destruct b; [done|]. unfold len in Hb'. cbn in Hb'. lia. }
    set (k' := mkSock [] None (read_from_socket dbg) [] 0 g s1).
    exists (ls ++ [NFlushed t]), (mkNet s' (<[t := k']> (n_socks n))).
    split; [by apply Forall_app; repeat constructor|]. split.
    { change ev with ([] ++ ev). eapply nrun_app; [exact R|]. apply nrun_one. cbn [nstep].
      unfold set_sock at 1. cbn [n_socks]. rewrite lookup_insert. cbn [n_sys set_sock]. rewrite Ht, N.eqb_refl.
      unfold sys_step. cbn [n_sys set_sock n_socks]. rewrite E. by rewrite insert_insert. }
    split; [done|]. eapply calms_at; [done|by intros; eapply Hu|exact Ht'|]. done.
  - (* a failed write *)
    assert (exists cur b p' cur', y_tasks (n_sys n) !! t = Some (mkTask (PWrite b) cur) /\ y_tasks s' !! t = Some (mkTask p' cur')
      /\ (forall k, calm dbg k p')) as (cur & b & p' & cur' & Ht & Ht' & Hp').
    { inversion Mv; subst. eexists _, _, _, _. split; [eassumption|]. cbn. by rewrite lookup_insert. }
    destruct (C _ _ _ Ht eq_refl) as (k & Hk & Ck).
    exists [NWriteErr t e], (mkNet s' (n_socks n)). split; [by repeat constructor|]. split.
    { apply nrun_one. cbn [nstep]. rewrite Hk. unfold sys_step. by rewrite E. }
    split; [done|]. rewrite <- (insert_id (n_socks n) t k Hk). eapply calms_at; [done|by intros; eapply Hu|exact Ht'|apply Hp'].
Qed.

Lemma realise {H} dbg ls : forall (n : net H) s' ev, run dbg (n_sys n) ls = Some (s', ev) -> Forall (readable dbg) ls -> calms dbg n ->
  exists ls' n', Forall byte_label ls' /\ nrun dbg n ls' = Some (n', ev) /\ n_sys n' = s'.
Proof.
  induction ls as [|l ls IH]; intros n s' ev E F C; cbn [run] in E.
  - injection E as <- <-. by exists [], n.
  - apply Forall_cons in F as [F1 F]. destruct (step dbg (n_sys n) l) as [[s1 e1]|] eqn:E1; [|discriminate].
    destruct (run dbg s1 ls) as [[s2 e2]|] eqn:E2; [|discriminate]. injection E as <- <-.
    destruct (realise_step _ _ _ _ _ E1 F1 C) as (ls1 & n1 & B1 & R1 & <- & C1).
    destruct (IH _ _ _ E2 F C1) as (ls2 & n2 & B2 & R2 & <-).
    exists (ls1 ++ ls2), n2. split; [by apply Forall_app|]. split; [by eapply nrun_app|done].
Qed.

(** ** The dialogue of every connection *)
Lemma talk_dialogue dbg k p : talk dbg k p -> all_u8 (k_got k) = true ->
  exists l rest part, dialogue dbg (k_got k) (k_sent k) l rest part.
Proof.
  intros [Hc T] Hu. destruct (T Hu) as (l & inp & mid & Eg & M & A & P).
  exists l, (mid ++ mjoin (k_in k)).
  assert (M' : messages dbg (k_got k) l.*1 (mid ++ mjoin (k_in k))) by (rewrite Eg; by apply messages_rest).
  assert (Nil : k_sent k = mjoin l.*2 -> exists part, dialogue dbg (k_got k) (k_sent k) l (mid ++ mjoin (k_in k)) part).
  { intros ->. exists []. split; [done|]. split; [done|]. split; [by rewrite app_nil_r|by left]. }
  destruct p; cbn in P, Hc; try discriminate; try (apply Nil; tauto).
  - destruct P as (c & L & An & S & _). eexists. split; [done|]. split; [done|]. split; [exact S|]. right.
    exists mid, c, (mjoin (k_in k)), (drop (N.to_nat (k_pos k)) b). rewrite take_drop. done.
  - destruct P as (part & S & P). exists part. by split_and!.
  - destruct P as (part & S & P). exists part. by split_and!.
  - destruct P as (part & S & P). exists part. by split_and!.
Qed.

Lemma stuck_reader {H} dbg (n : net H) t k cur : talks dbg n -> n_socks n !! t = Some k -> all_u8 (k_got k) = true ->
  y_tasks (n_sys n) !! t = Some (mkTask PRead cur) -> nstep dbg n (NPoll t) = None ->
  exists l rest, dialogue dbg (k_got k) (k_sent k) l rest [] /\ k_end k = None /\
    (forall m rest' c, rest = m ++ rest' -> ~ cmd_layout dbg m c).
Proof.
  intros T Hk Hu Ht E. destruct (T _ _ Hk) as (p & cur' & Ht' & [_ Tk]). rewrite Ht in Ht'. injection Ht' as <- <-.
  destruct (Tk Hu) as (l & inp & mid & Eg & M & A & (R & R2) & S & Hp).
  cbn [nstep] in E. rewrite Hk, Ht in E. unfold polled, poll in E.
  destruct (k_rd k) as [c|e|q|m f|m p] eqn:Ek; try discriminate.
  - unfold sys_step in E. cbn [step] in E. by rewrite Ht in E.
  - unfold sys_step in E. cbn [step] in E. rewrite Ht in E. by destruct cur.
  - unfold sys_step in E. cbn [step] in E. rewrite Ht in E.
    specialize (R [] SEof). rewrite app_nil_r in R. apply run_panics in R as [-> _]. discriminate.
  - destruct (N.leb_spec m (len (k_buf k))) as [Hl|Hl]; [discriminate|].
    destruct (k_in k) as [|ch cs] eqn:Ei; [|discriminate]. destruct (k_end k) as [fe|] eqn:Ee.
    { unfold sys_step in E. cbn [step] in E. rewrite Ht in E. by destruct cur. }
    cbn [mjoin list_join] in Eg. rewrite app_nil_r in Eg.
    exists l, mid. split; [|split; [done|]].
    + split; [rewrite Eg; by apply messages_rest|]. split; [done|]. split; [by rewrite app_nil_r|by left].
    + intros m' rest' c -> L. specialize (R [] SEof). rewrite app_nil_r in R.
      rewrite (reader_complete _ _ _ _ _ L) in R. cbn [run_rd] in R. rewrite app_nil_r in R.
      destruct (N.ltb_spec (len (k_buf k)) m); [discriminate|lia].
Qed.

Lemma served_reader {H} dbg (n : net H) t k cur : talks dbg n -> n_socks n !! t = Some k -> all_u8 (k_got k) = true ->
  y_tasks (n_sys n) !! t = Some (mkTask PRead cur) ->
  exists l rest, dialogue dbg (k_got k) (k_sent k) l rest [] /\
    (forall m rest' c, rest = m ++ rest' -> cmd_layout dbg m c ->
      exists j n', nrun dbg n (replicate j (NPoll t)) = Some (n', []) /\ y_tasks (n_sys n') !! t = Some (mkTask (PUsedR c) cur)).
Proof.
  intros T Hk Hu Ht. destruct (T _ _ Hk) as (p & cur' & Ht' & [_ Tk]). rewrite Ht in Ht'. injection Ht' as <- <-.
  destruct (Tk Hu) as (l & inp & mid & Eg & M & A & (R & R2) & S & Hp).
  exists l, (mid ++ mjoin (k_in k)). split.
  - split; [rewrite Eg; by apply messages_rest|]. split; [done|]. split; [by rewrite app_nil_r|by left].
  - intros m rest' c Er L.
    destruct (polls_finish _ k (ROk c rest') SEof eq_refl R2) as (k' & P & (Sr & _) & _).
    { rewrite <- R, Er. by apply reader_complete. }
    destruct (npolls dbg n t cur k k' P Ht Hk) as (j & Rj).
    destruct (step dbg (n_sys n) (LRecv t c)) as [[s' ev]|] eqn:Es.
    2:{ cbn [step] in Es. by rewrite Ht in Es. }
    assert (ev = [] /\ y_tasks s' !! t = Some (mkTask (PUsedR c) cur)) as [-> Ht'].
    { cbn [step] in Es. rewrite Ht in Es. injection Es as <- <-. cbn. by rewrite lookup_insert. }
    exists (j + 1)%nat, (mkNet s' (<[t := k']> (n_socks n))). rewrite replicate_add. split; [|done].
    eapply finish_poll; [exact Rj|exact Ht| |exact Es]. unfold polled. by rewrite Sr.
Qed.
