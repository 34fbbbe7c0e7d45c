(** * The accept loop (C82) *)
From Verif Require Import Examples Accept SysFacts ConcProofs PropsSys.

(** ** Facts about runs *)
Lemma arun_app {H} dbg (a : asys H) ls1 ls2 a2 evs : arun dbg a (ls1 ++ ls2) = Some (a2, evs) ->
  exists a1 e1 e2, arun dbg a ls1 = Some (a1, e1) /\ arun dbg a1 ls2 = Some (a2, e2) /\ evs = e1 ++ e2.
Proof.
  revert a evs. induction ls1 as [|l ls1 IH]; intros a evs E; cbn in *; [by exists a, [], evs|].
  destruct (astep dbg a l) as [[a1 e1]|]; [|done]. destruct (arun dbg a1 (ls1 ++ ls2)) as [[a3 e3]|] eqn:E3; [|done].
  injection E as -> <-. apply IH in E3 as (b & f1 & f2 & -> & E2 & ->). exists b, (e1 ++ f1), f2.
  by rewrite app_assoc.
Qed.
(** The labels of the server below. *)
Definition below1 {H} (l : alabel H) : list (label H) :=
  match l with AAccept t => [LConnect t] | ASys l' => [l'] | _ => [] end.
Lemma astep_below {H} dbg (a : asys H) l a' ev : astep dbg a l = Some (a', ev) ->
  run dbg (a_sys a) (below1 l) = Some (a_sys a', ev).
Proof.
  unfold astep. destruct l as [| | t| | |l], (a_listener a) eqn:El; try done;
    try (intros [= <- <-]; cbn; by rewrite ?El).
  { destruct (step dbg (a_sys a) (LConnect t)) as [[s e]|] eqn:E; [|done]. intros [= <- <-].
    cbn [below1 run]. rewrite E. by rewrite app_nil_r. }
  all: destruct l; try done;
    match goal with |- context [step ?b ?x ?l'] => destruct (step b x l') as [[s ev']|] eqn:E end;
    try done; intros [= <- <-]; cbn [below1 run]; rewrite E; by rewrite app_nil_r.
Qed.
Lemma arun_below {H} dbg (a : asys H) ls a' evs : arun dbg a ls = Some (a', evs) ->
  run dbg (a_sys a) (ls ≫= below1) = Some (a_sys a', evs).
Proof.
  revert a evs. induction ls as [|l ls IH]; intros a evs E; cbn in E; [by injection E as <- <-|].
  destruct (astep dbg a l) as [[a1 e1]|] eqn:E1; [|done]. destruct (arun dbg a1 ls) as [[a2 e2]|] eqn:E2; [|done].
  injection E as <- <-. change ((l :: ls) ≫= below1) with (below1 l ++ (ls ≫= below1)).
  eapply run_app_intro; [by apply astep_below|by apply IH].
Qed.
Lemma astep_listener {H} dbg (a : asys H) l a' ev : astep dbg a l = Some (a', ev) ->
  match l with
  | ABindOk => a_listener a = LsUnbound /\ a_listener a' = LsAccepting
  | ABindErr _ => a_listener a = LsUnbound /\ a_listener a' = LsPanicked
  | AAccept _ | AAcceptErr _ => a_listener a = LsAccepting /\ a_listener a' = LsAccepting
  | ADropServer => a_listener a' = LsDropped
  | ASys _ => a_listener a' = a_listener a
  end.
Proof.
  unfold astep. destruct l as [| | t| | |l], (a_listener a) eqn:El; try done;
    try (intros [= <- <-]; cbn; rewrite ?El; done).
  { destruct (step dbg (a_sys a) (LConnect t)) as [[s e]|] eqn:E; [|done]. by intros [= <- <-]. }
  all: destruct l; try done;
    match goal with |- context [step ?b ?x ?l'] => destruct (step b x l') as [[s ev']|] eqn:E end;
    try done; by intros [= <- <-].
Qed.
Lemma accepting_stays {H} dbg (a : asys H) ls a' evs : arun dbg a ls = Some (a', evs) -> a_listener a = LsAccepting ->
  ADropServer ∉ ls -> a_listener a' = LsAccepting.
Proof.
  revert a evs. induction ls as [|l ls IH]; intros a evs E Hl Hd; cbn in E; [by injection E as <- <-|].
  destruct (astep dbg a l) as [[a1 e1]|] eqn:E1; [|done]. destruct (arun dbg a1 ls) as [[a2 e2]|] eqn:E2; [|done].
  injection E as <- <-. apply not_elem_of_cons in Hd as [Hd1 Hd2]. eapply IH; [exact E2| |done].
  pose proof (astep_listener _ _ _ _ _ E1) as L. destruct l; destruct_and?; congruence.
Qed.
(** A closed listener accepts nothing more. *)
Definition closed (x : listener) : Prop := x = LsPanicked \/ x = LsDropped.
Lemma closed_stays {H} dbg (a : asys H) ls a' evs t : arun dbg a ls = Some (a', evs) -> closed (a_listener a) ->
  AAccept t ∉ ls /\ closed (a_listener a').
Proof.
  revert a evs. induction ls as [|l ls IH]; intros a evs E Hl; cbn in E; [injection E as <- <-; split; [by intros ?%elem_of_nil|done]|].
  destruct (astep dbg a l) as [[a1 e1]|] eqn:E1; [|done]. destruct (arun dbg a1 ls) as [[a2 e2]|] eqn:E2; [|done].
  injection E as <- <-. pose proof (astep_listener _ _ _ _ _ E1) as L.
  assert (Hc : (forall u, l <> AAccept u) /\ closed (a_listener a1)).
  { unfold closed in *. destruct l; destruct_and?; destruct Hl; try congruence; (split; [done|]); try (by right);
      rewrite L; auto. }
  destruct Hc as [Hn Hc]. destruct (IH _ _ E2 Hc) as [I1 I2]. split; [|done].
  apply not_elem_of_cons. split; [|done]. intros Hx. by apply (Hn t).
Qed.

(** Tasks that serve a connection have been connected. *)
Definition api_pc (p : pc) : bool :=
  match p with PAddAvailW _ | PRemAvailW _ | PRemUsedR _ | PAdded | PRemoved _ => true | _ => false end.
Lemma connected_run {H} dbg (s0 : sys H) : y_tasks s0 = ∅ -> forall ls s evs, run dbg s0 ls = Some (s, evs) ->
  (forall t k, y_tasks s !! t = Some k -> api_pc (t_pc k) = true \/ LConnect t ∈ ls) /\
  (forall t c r, EvServe t c r ∈ evs -> LConnect t ∈ ls).
Proof.
  intros H0. apply (run_ind dbg s0 (fun ls s evs =>
    (forall t k, y_tasks s !! t = Some k -> api_pc (t_pc k) = true \/ LConnect t ∈ ls) /\
    (forall t c r, EvServe t c r ∈ evs -> LConnect t ∈ ls))).
  - split; [intros t k; by rewrite H0, lookup_empty|]. by intros t c r ?%elem_of_nil.
  - intros ls s evs l s' ev Hr [I1 I2] Hs. apply step_move in Hs.
    assert (W : forall x, x ∈ ls -> x ∈ ls ++ [l]) by (intros x Hx; apply elem_of_app; by left).
    assert (U : forall t k', y_tasks s' = <[t := k']> (y_tasks s) ->
      (api_pc (t_pc k') = true \/ l = LConnect t \/ exists k, y_tasks s !! t = Some k /\ api_pc (t_pc k) = false) ->
      (forall u c r, EvServe u c r ∈ ev -> u = t /\ exists k, y_tasks s !! t = Some k /\ api_pc (t_pc k) = false) ->
      (forall u k, y_tasks s' !! u = Some k -> api_pc (t_pc k) = true \/ LConnect u ∈ ls ++ [l]) /\
      (forall u c r, EvServe u c r ∈ evs ++ ev -> LConnect u ∈ ls ++ [l])).
    { intros t k' Et Hk Hv.
      assert (C : forall k, y_tasks s !! t = Some k /\ api_pc (t_pc k) = false -> LConnect t ∈ ls ++ [l]).
      { intros k [E Ha]. apply W. destruct (I1 _ _ E) as [Hx|Hx]; [congruence|done]. }
      split.
      - intros u k. rewrite Et. destruct (decide (u = t)) as [-> |Ne].
        + rewrite lookup_insert. intros [= <-]. destruct Hk as [Hk|[-> |[k Hk]]]; [by left| |right; by eapply C].
          right. apply elem_of_app. right. left.
        + rewrite lookup_insert_ne by congruence. intros E. destruct (I1 _ _ E) as [Hx|Hx]; [by left|right; by apply W].
      - intros u c r [Hin|Hin]%elem_of_app; [by eapply W, I2|]. destruct (Hv _ _ _ Hin) as [-> [k Hx]]. by eapply C. }
    destruct Hs;
      try (match goal with HA : answered _ _ _ _ _ _ _ _ |- _ =>
        destruct HA; (eapply U; [reflexivity|right; right; eauto|]); intros u c0 r0 Hin; ev_in Hin;
        injection Hin as -> _ _; eauto end);
      try (eapply U; [reflexivity|first [by left|right; left; reflexivity|right; right; eauto]|intros u c0 r0 Hin; by ev_in Hin]).
    all: rewrite app_nil_r; (split; [intros u k E; destruct (I1 _ _ E) as [Hx|Hx]; auto|intros; eapply W, I2; eassumption]).
Qed.

(** ** C82 *)
(** Once bound, and until the application drops it, the server can accept the next client in
    every state that any run of connections, failures and calls can lead to.  The new connection
    starts without a device, and nothing else changes. *)
Theorem C82_keeps_accepting : forall H dbg ds (w : world H) ls a evs,
  arun dbg (init_asys ds w) (ABindOk :: ls) = Some (a, evs) -> ADropServer ∉ ls ->
  (exists t, y_tasks (a_sys a) !! t = None) /\
  (forall t, y_tasks (a_sys a) !! t = None ->
   exists a', astep dbg a (AAccept t) = Some (a', []) /\ a_listener a' = a_listener a /\
     y_tasks (a_sys a') !! t = Some (mkTask PRead None) /\
     (forall u, u <> t -> y_tasks (a_sys a') !! u = y_tasks (a_sys a) !! u) /\
     y_server (a_sys a') = y_server (a_sys a) /\ y_world (a_sys a') = y_world (a_sys a) /\
     y_used (a_sys a') = y_used (a_sys a) /\ y_avail (a_sys a') = y_avail (a_sys a)) /\
  (forall c, astep dbg a (AAcceptErr c) = Some (a, [])).
Proof.
  intros H dbg ds w ls a evs E Hd. cbn in E.
  destruct (arun dbg (mkAsys LsAccepting (init_sys ds w)) ls) as [[a2 e2]|] eqn:E2; [|done]. injection E as <- <-.
  pose proof (accepting_stays _ _ _ _ _ E2 eq_refl Hd) as Hl. split_and!.
  - exists (fresh (dom (y_tasks (a_sys a2)))). apply not_elem_of_dom, is_fresh.
  - intros t Ht. unfold astep. rewrite Hl. cbn [step]. rewrite Ht. eexists. split; [reflexivity|]. cbn.
    split_and!; try done; [apply lookup_insert|]. intros u Ne. by rewrite lookup_insert_ne.
  - intros c. unfold astep. by rewrite Hl.
Qed.
Print Assumptions C82_keeps_accepting.

(** Only clients that were accepted are served.  In particular nobody is served by a server that
    could not bind, and nobody new after it was dropped. *)
Theorem C82_only_accepted : forall H dbg ds (w : world H) ls a evs t c r,
  arun dbg (init_asys ds w) ls = Some (a, evs) -> EvServe t c r ∈ evs ->
  AAccept t ∈ ls /\
  (forall ls1 ls2, ls = ls1 ++ ADropServer :: ls2 -> AAccept t ∈ ls1) /\
  (forall k, ABindErr k ∉ ls).
Proof.
  intros H dbg ds w ls a evs t c r E Hin.
  assert (Ha : AAccept t ∈ ls).
  { pose proof (arun_below _ _ _ _ _ E) as Eb.
    pose proof (proj2 (connected_run dbg (init_sys ds w) eq_refl _ _ _ Eb) _ _ _ Hin) as Hc.
    apply elem_of_list_bind in Hc as (l & Hl & Hls). destruct l as [| |u| | |l]; cbn in Hl; try (by apply elem_of_nil in Hl).
    - apply elem_of_list_singleton in Hl. by injection Hl as <-.
    - apply elem_of_list_singleton in Hl as <-. exfalso.
      apply elem_of_list_split in Hls as (l1 & l2 & ->).
      apply arun_app in E as (a1 & e1 & e2 & _ & E & _). cbn [arun] in E. unfold astep in E.
      by destruct (a_listener a1). }
  split; [done|]. split.
  - intros ls1 ls2 ->. apply elem_of_app in Ha as [Ha|Ha]; [done|exfalso].
    apply arun_app in E as (a1 & e1 & e2 & _ & E & _). cbn [arun] in E.
    destruct (astep dbg a1 ADropServer) as [[a3 e3]|] eqn:E3; [|done].
    destruct (arun dbg a3 ls2) as [[a4 e4]|] eqn:E4; [|done].
    apply elem_of_cons in Ha as [Ha|Ha]; [done|].
    eapply (closed_stays _ _ _ _ _ t E4); [|done]. right. exact (astep_listener _ _ _ _ _ E3).
  - intros k Hk. apply elem_of_list_split in Hk as (ls1 & ls2 & ->).
    apply arun_app in E as (a1 & e1 & e2 & E1 & E & _). cbn [arun] in E.
    destruct (astep dbg a1 (ABindErr k)) as [[a3 e3]|] eqn:E3; [|done].
    destruct (arun dbg a3 ls2) as [[a4 e4]|] eqn:E4; [|done].
    destruct (astep_listener _ _ _ _ _ E3) as [L1 L2].
    apply elem_of_app in Ha as [Ha|Ha].
    + (* accepted before the bind failed: impossible *)
      apply elem_of_list_split in Ha as (k1 & k2 & ->).
      apply arun_app in E1 as (b1 & f1 & f2 & _ & E1 & _). cbn [arun] in E1.
      destruct (astep dbg b1 (AAccept t)) as [[b2 g2]|] eqn:E5; [|done].
      destruct (arun dbg b2 k2) as [[b3 g3]|] eqn:E6; [|done]. injection E1 as -> _.
      destruct (astep_listener _ _ _ _ _ E5) as [_ L3]. clear - L1 L3 E6.
      assert (X : forall ls (x : asys H) y e, arun dbg x ls = Some (y, e) -> a_listener x <> LsUnbound -> a_listener y <> LsUnbound).
      { induction ls as [|l ls IH]; intros x y e E Hx; cbn in E; [by injection E as <- <-|].
        destruct (astep dbg x l) as [[x1 e1]|] eqn:E1; [|done]. destruct (arun dbg x1 ls) as [[x2 e2]|] eqn:E2; [|done].
        injection E as <- <-. eapply IH; [exact E2|]. pose proof (astep_listener _ _ _ _ _ E1) as L.
        destruct l; destruct_and?; congruence. }
      eapply X; [exact E6| |exact L1]. congruence.
    + apply elem_of_cons in Ha as [Ha|Ha]; [done|]. eapply (closed_stays _ _ _ _ _ t E4); [by left|done].
Qed.
Print Assumptions C82_only_accepted.

(** What the listener does, a failed accept and dropping it included, is invisible to the
    connections: a run of the server with its listener is a run without, and the connections can
    take the same steps whatever the listener's state. *)
Theorem C82_listener_invisible : forall H dbg (a : asys H) l s' ev,
  (forall t, l <> LConnect t) ->
  (step dbg (a_sys a) l = Some (s', ev) <-> astep dbg a (ASys l) = Some (mkAsys (a_listener a) s', ev)) /\
  (forall x a', astep dbg a x = Some (a', ev) -> (forall t, x <> AAccept t) -> (forall l', x <> ASys l') ->
     a_sys a' = a_sys a /\ ev = []).
Proof.
  intros H dbg a l s' ev Hl. split.
  - unfold astep. destruct l; try (by destruct (Hl t)); cbn [a_sys];
      destruct (a_listener a); (match goal with |- context [step ?b ?x ?l'] => destruct (step b x l') as [[s1 e1]|] eqn:E end);
      (split; intros Ex; [by injection Ex as <- <-|by injection Ex as -> ->]) || (split; intros Ex; discriminate Ex).
  - intros x a' E H1 H2. unfold astep in E. destruct x as [| |t| | |l'], (a_listener a); try done;
      try (by injection E as <- <-); try (by destruct (H1 t)); by destruct (H2 l').
Qed.
Print Assumptions C82_listener_invisible.

(** A client is accepted, its connection fails while the import reply is written, an accept
    fails, and the next client gets the list of what is left; then the application drops the
    server, and that client is still served. *)
Definition fail_and_next : list (alabel ex_h) :=
  [ABindOk; AAccept 1; AAcceptErr 24] ++ (ASys <$> do_import 1 id_a ++ [LSendErr 1 (EIo 32)])
  ++ [AAccept 2] ++ (ASys <$> do_list 2 ++ [LSent 2]) ++ [ADropServer] ++ (ASys <$> do_import 2 id_b).
Definition a_after {H} (x : option (asys H * list event)) (P : asys H -> list event -> Prop) : Prop :=
  match x with Some (s, evs) => P s evs | None => False end.
Example C82_example : a_after (arun true (init_asys [ex_dev; dev_b] ex_world) fail_and_next) (fun a evs =>
  a_listener a = LsDropped /\ held evs 2 = Some dev_b /\
  EvEnd 1 (EndErr (EIo 32)) ∈ evs /\ EvServe 2 (OpReqDevlist 0) (Val (OpRepDevlist 0 1 [dev_b])) ∈ evs).
Proof. vm_compute. split_and!; try reflexivity; in_list. Qed.
Example C82_bind_fails : a_after (arun true (init_asys [ex_dev] ex_world) [ABindErr 98; ASys (LAdd 7 dev_b)])
  (fun a evs => a_listener a = LsPanicked /\ astep true a (AAccept 1) = None /\ evs = []).
Proof. vm_compute. auto. Qed.
