(** * Everything a Linux client asks for is given back in the end (C93) *)
From Verif Require Import Examples Cdc PropsSys PropsConn PropsNet NetProofs LiveProofs NetLive LinuxProofs PropsLinux.

(** A session is an execution of the server. *)
Lemma session_run {H} dbg t ds (w : world H) n evs c said cmds heard :
  linux_session dbg t ds w n evs c said cmds heard -> exists ls, nrun dbg (init_net ds w) ls = Some (n, evs).
Proof.
  induction 1 as [|n evs c said cmds heard l n' ev S (ls & IH) E Hg| | |]; auto; [by exists []|].
  exists (ls ++ [l]). eapply nrun_app; [exact IH|]. by apply nrun_one.
Qed.

(** Internal steps bring no bytes. *)
Lemma internal_got {H} dbg (n n' : net H) l ev : n_internal l = true -> nstep dbg n l = Some (n', ev) ->
  forall t, k_got <$> n_socks n' !! t = k_got <$> n_socks n !! t.
Proof.
  intros I E t.
  assert (Y : forall u k1 k2, n_socks n !! u = Some k1 -> n_socks n' = <[u := k2]> (n_socks n) -> k_got k2 = k_got k1 ->
    k_got <$> n_socks n' !! t = k_got <$> n_socks n !! t).
  { intros u k1 k2 Hu -> Hp. destruct (decide (u = t)) as [->|Hn].
    - rewrite lookup_insert, Hu. cbn. by rewrite Hp.
    - by rewrite lookup_insert_ne by done. }
  destruct l as [l|u c|u f|u|u m|u|u e]; try discriminate I; cbn [nstep] in E.
  - destruct (socket_label l); [discriminate|]. destruct l; try discriminate I; apply sys_step_move in E as (_ & -> & _); done.
  - destruct (n_socks n !! u) as [k1|] eqn:Ek; [|discriminate].
    destruct (y_tasks (n_sys n) !! u) as [[[] cur]|]; try discriminate.
    destruct (polled u k1); [by apply sys_step_move in E as (_ & -> & _)|].
    destruct (poll k1) as [k2|] eqn:Ep; [|discriminate]. injection E as <- <-. eapply Y; [exact Ek|reflexivity|].
    unfold poll in Ep. destruct (k_rd k1); try discriminate; [|by injection Ep as <-].
    destruct (_ <=? _); [by injection Ep as <-|]. destruct (k_in k1); [discriminate|by injection Ep as <-].
  - destruct (n_socks n !! u) as [[i f r b p g s]|] eqn:Ek; [|discriminate].
    destruct (y_tasks (n_sys n) !! u) as [[[] cur]|]; try discriminate. destruct (_ && _); [|discriminate].
    injection E as <- <-. eapply Y; [exact Ek|reflexivity|done].
  - destruct (n_socks n !! u) as [[i f r b p g s]|] eqn:Ek; [|discriminate].
    destruct (y_tasks (n_sys n) !! u) as [[[] cur]|]; try discriminate. destruct (_ =? _); [|discriminate].
    apply sys_step_move in E as (_ & Es & _). eapply Y; [exact Ek|exact Es|done].
Qed.

(** The session goes on while the server works. *)
Lemma session_internal {H} dbg t ds (w : world H) c said cmds heard ls : forall n evs n' ev,
  linux_session dbg t ds w n evs c said cmds heard -> Forall (fun l => n_internal l = true) ls ->
  nrun dbg n ls = Some (n', ev) ->
  linux_session dbg t ds w n' (evs ++ ev) c said cmds heard /\ forall u, k_got <$> n_socks n' !! u = k_got <$> n_socks n !! u.
Proof.
  induction ls as [|l ls IH]; intros n evs n' ev S I E; cbn [nrun] in E.
  - injection E as <- <-. by rewrite app_nil_r.
  - destruct (nstep dbg n l) as [[n1 e1]|] eqn:E1; [|discriminate].
    destruct (nrun dbg n1 ls) as [[n2 e2]|] eqn:E2; [|discriminate]. injection E as <- <-.
    apply Forall_cons in I as [Il I]. pose proof (internal_got _ _ _ _ _ Il E1) as G.
    destruct (IH n1 (evs ++ e1) n2 e2) as [S2 G2]; [|exact I|exact E2|].
    + eapply ls_server; [exact S|exact E1|]. intros k Hk. specialize (G t). rewrite Hk in G.
      destruct (n_socks n !! t) as [k0|] eqn:Ek; [|discriminate]. cbn in G. injection G as ->.
      destruct (session_facts _ _ _ _ _ _ _ _ _ _ S) as (_ & _ & _ & _ & N1). by apply N1.
    + rewrite app_assoc. split; [exact S2|]. intros u. by rewrite G2.
Qed.

(** Where connections are when the server is at rest: ended, or reading. *)
Lemma rest_position {H} dbg ds (w : world H) ls n evs : nrun dbg (init_net ds w) ls = Some (n, evs) -> got_bytes n -> at_rest dbg n ->
  (forall u id cur, y_tasks (n_sys n) !! u <> Some (mkTask (PRemUsedR id) cur)) ->
  forall t k, n_socks n !! t = Some k ->
    exists p cur, y_tasks (n_sys n) !! t = Some (mkTask p cur) /\ ((exists r, p = PEnd r) \/ p = PRead).
Proof.
  intros E G R Hr t k Hk.
  pose proof (talks_run _ _ _ _ _ E (talks_init dbg ds w)) as T.
  assert (C : covered n).
  { eapply covered_run; [exact E|]. intros u q c Hu. cbn in Hu. by rewrite lookup_empty in Hu. }
  destruct (nrun_sys _ _ _ _ _ E) as (ls' & E').
  assert (S : stuck dbg (n_sys n)).
  { intros l Hl. specialize (R (NSys l) Hl). destruct l; try discriminate Hl; cbn [nstep socket_label] in R;
      unfold sys_step in R; by destruct (step dbg (n_sys n) _) as [[? ?]|]. }
  assert (W : forall u, ~ writing (n_sys n) u).
  { intros u (b & c & Hu). destruct (C u _ _ Hu eq_refl) as [k' Hk'].
    destruct (T u k' Hk') as (q & c' & Hu' & _ & Tk). rewrite Hu in Hu'. injection Hu' as <- <-.
    destruct (Tk (G u k' Hk')) as (l & inp & mid & _ & _ & _ & (x & _ & _ & _ & Hp)).
    destruct k' as [ki kf kr kb kp kg ks]. cbn [k_pos] in Hp.
    pose proof (R (NWrite u 1) eq_refl) as R1. pose proof (R (NFlushed u) eq_refl) as R2. cbn [nstep] in R1, R2.
    rewrite Hk', Hu in R1, R2. destruct (N.eqb_spec kp (len b)) as [Ep|Ep].
    - unfold sys_step in R2. cbn [step n_sys set_sock] in R2. by rewrite Hu in R2.
    - destruct (N.leb_spec 1 1); [|lia]. destruct (N.leb_spec (kp + 1) (len b)); [done|lia]. }
  destruct (T t k Hk) as (p & cur & Ht & Tk & _). exists p, cur. split; [exact Ht|].
  destruct (C35_completes _ _ _ _ _ _ _ [] _ [] E' eq_refl S Hr W t p cur Ht) as [->|[X|[->|[r ->]]]]; auto.
  - done.
  - done.
Qed.

Lemma badly_or_not dbg t evs bs : Forall2 (carries dbg) (served t evs) bs -> answered_badly dbg t evs \/ ~ answered_badly dbg t evs.
Proof.
  intros F. destruct (good_or_bad dbg t evs (served t evs) bs F) as [?|G]; [done|by left|]. right.
  intros (sb & r & b & Hin & C & T). apply elem_of_list_lookup in Hin as (i & Hi).
  destruct (Forall2_lookup_l _ _ _ _ _ F Hi) as (b' & Hb & C'). rewrite (carries_fun _ _ _ _ C C') in T.
  rewrite Forall_lookup in G. destruct (G i (CmdSubmit sb, b')) as [_ G'].
  - apply lookup_zip_with_Some. exists (CmdSubmit sb), b'. split; [done|]. split; [|done]. by rewrite list_lookup_fmap, Hi.
  - by apply T, G'.
Qed.

(** When the server has nothing left to do, however it got there (C84: it gets there whatever
    it does first), and the client has read what was sent to it: the connection has ended, or
    everything the client asked for has been given back. *)
Theorem C93_given_back_in_the_end : forall H dbg t ds (w : world H) n evs c said cmds heard k ls n' ev,
  linux_session dbg t ds w n evs c said cmds heard ->
  n_socks n !! t = Some k -> k_got k = said ->                                        (* all has arrived *)
  (forall u k, n_socks n !! u = Some k -> all_u8 (k_got k) = true) ->
  nrun dbg n ls = Some (n', ev) -> Forall (fun l => n_internal l = true) ls -> at_rest dbg n' ->
  (forall u id cur, y_tasks (n_sys n') !! u <> Some (mkTask (PRemUsedR id) cur)) ->
  exists k' rest, n_socks n' !! t = Some k' /\ k_sent k' = heard ++ rest /\
    let c' := l_hear c rest in
    linux_session dbg t ds w n' (evs ++ ev) c' said cmds (heard ++ rest) /\
    (answered_badly dbg t (evs ++ ev) \/
     (exists r cur, y_tasks (n_sys n') !! t = Some (mkTask (PEnd r) cur)) \/
     l_unread c' = [] /\ exists past, cmds = past.*1 /\ heard ++ rest = mjoin past.*2 /\
       Forall2 (carries dbg) (served t (evs ++ ev)) past.*2 /\
       match past with
       | [] => l_st c' = Attaching /\ l_notes c' = []
       | (_, b) :: urbs => (length b = 8%nat /\ l_st c' = Refused /\ l_notes c' = [] /\ urbs = []) \/
           (length b = 320%nat /\ l_st c' = Attached (mkVhci [] []) /\ Forall2 told urbs (l_notes c'))
       end).
Proof.
  intros H dbg t ds w n evs c said cmds heard k ls n' ev S Hk Hg Hb E I R Hr.
  destruct (session_internal _ _ _ _ _ _ _ _ _ _ _ _ _ S I E) as [S' G].
  pose proof (G t) as Gt. rewrite Hk in Gt. destruct (n_socks n' !! t) as [k'|] eqn:Hk'; [|discriminate].
  cbn in Gt. injection Gt as Gt. rewrite Hg in Gt.
  destruct (session_facts _ _ _ _ _ _ _ _ _ _ S') as (_ & _ & _ & _ & N1).
  destruct (proj2 (N1 k' Hk')) as [rest Er]. exists k', rest. split; [done|]. split; [exact Er|]. intros c'.
  assert (S2 : linux_session dbg t ds w n' (evs ++ ev) c' said cmds (heard ++ rest)).
  { eapply ls_hear; [exact S'|exact Hk'|]. by rewrite Er. }
  split; [exact S2|]. destruct (session_run _ _ _ _ _ _ _ _ _ _ S') as (ls0 & E0).
  assert (GB : got_bytes n').
  { intros u ku Hu. specialize (G u). rewrite Hu in G. destruct (n_socks n !! u) as [k0|] eqn:Eu; [|discriminate].
    cbn in G. injection G as ->. by eapply Hb. }
  destruct (rest_position _ _ _ _ _ _ E0 GB R Hr t k' Hk') as (p & cur & Ht & [[r ->]| ->]); [right; left; eauto|].
  assert (Hp : nstep dbg n' (NPoll t) = None) by (by apply R).
  destruct (session_facts _ _ _ _ _ _ _ _ _ _ S2) as (W & _).
  destruct (wstuck dbg n' (evs ++ ev) t k' cur W Hk') as (_ & _ & bs & _ & F & _); [by eapply GB|exact Ht|exact Hp|].
  destruct (badly_or_not dbg t (evs ++ ev) bs F) as [B|B]; [by left|]. right. right.
  by eapply (C93_all_given_back H dbg t ds w n' (evs ++ ev)); eauto.
Qed.
Print Assumptions C93_given_back_in_the_end.

(** The session of PropsLinux.v from where the last URB has arrived: 33 steps of the server later it
    is at rest, with all three messages given back. *)
Definition rest_from : list (act ex_h) :=
  ex_acts ++ [AServer (NWrite 2 28); AServer (NFlushed 2); AServer (NArrive 2 (drop 30 (wire urb_out)))].
Definition rest_steps : list (nlabel ex_h) :=
  polls 2 29 ++ [NSys LGrantUsed; NSys (LRun 2); NWrite 2 48; NFlushed 2].
Example C93_rest_example : Forall act_ok rest_from /\ Forall (fun l => n_internal l = true) rest_steps /\
  forall dbg, exists p n' ev,
  acts dbg 2 (play0 [ex_dev; dev_b] ex_world) rest_from = Some p /\
  (k_got <$> n_socks (p_net p) !! 2) = Some (p_said p) /\
  (forall u k, n_socks (p_net p) !! u = Some k -> all_u8 (k_got k) = true) /\
  nrun dbg (p_net p) rest_steps = Some (n', ev) /\ at_rest dbg n' /\
  (forall u id cur, y_tasks (n_sys n') !! u <> Some (mkTask (PRemUsedR id) cur)) /\
  (t_pc <$> y_tasks (n_sys n') !! 2) = Some PRead /\
  client_view p = (Attached (mkVhci [mkLurb 3 true 3 false] [(2, 1)]), [0; 0; 0; 4; 0; 0; 0; 2; 0; 1; 0; 2; 0; 0; 0], [GivenBack 1 0 [65; 66]]).
Proof.
  split; [|split; [by repeat constructor|]].
  - unfold rest_from. rewrite Forall_app. split; [exact (proj1 C93_example)|by repeat constructor].
  - intros dbg.
    destruct (after_acts_run (acts dbg 2 (play0 [ex_dev; dev_b] ex_world) rest_from) (fun p =>
      (k_got <$> n_socks (p_net p) !! 2) = Some (p_said p) /\
      forallb (fun kv => all_u8 (k_got kv.2)) (map_to_list (n_socks (p_net p))) = true /\
      client_view p = (Attached (mkVhci [mkLurb 3 true 3 false] [(2, 1)]), [0; 0; 0; 4; 0; 0; 0; 2; 0; 1; 0; 2; 0; 0; 0], [GivenBack 1 0 [65; 66]]) /\
      nafter (nrun dbg (p_net p) rest_steps) (fun n' _ => rest_b dbg n' = true /\
        forallb (fun kv => match t_pc kv.2 with PRemUsedR _ => false | _ => true end) (map_to_list (y_tasks (n_sys n'))) = true /\
        (t_pc <$> y_tasks (n_sys n') !! 2) = Some PRead))) as (p & E & Hg & Hb & Hv & Y);
      [destruct dbg; vm_compute; repeat split; reflexivity|].
    apply nafter_run in Y as (n' & ev & E' & R & P & Hp). exists p, n', ev.
    split; [exact E|]. split; [exact Hg|]. split; [|split; [exact E'|split; [by apply rest_b_ok|split; [|split; [exact Hp|exact Hv]]]]].
    + clear E E'. intros u k Hu%elem_of_map_to_list. rewrite forallb_forall in Hb. by specialize (Hb _ (proj1 (elem_of_list_In _ _) Hu)).
    + clear E E'. intros u id cur Hu%elem_of_map_to_list. rewrite forallb_forall in P. by specialize (P _ (proj1 (elem_of_list_In _ _) Hu)).
Qed.
