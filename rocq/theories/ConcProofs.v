(** * Continuations: who can change what *)
From Verif Require Export SysFacts TextProofs SpecHost.

(** The task a label belongs to. *)
Definition actor {H} (l : label H) : option tid :=
  match l with
  | LConnect t | LRecv t _ | LReadErr t _ | LReadPanic t | LSent t | LSendErr t _
  | LAdd t _ | LRemove t _ | LRun t => Some t
  | LApp _ _ | LGrantUsed | LGrantAvail => None
  end.
Definition ev_tid (e : event) : tid :=
  match e with
  | EvServe t _ _ | EvRelease t _ | EvAdd t _ | EvRemove t _ _ | EvSent t _ | EvEnd t _ => t
  end.

Lemma move_events {H} dbg (s s' : sys H) l ev : move dbg s l s' ev -> Forall (fun e => actor l = Some (ev_tid e)) ev.
Proof.
  intros M. destruct M; repeat constructor;
    match goal with A : answered _ _ _ _ _ _ _ _ |- _ => destruct A; repeat constructor end.
Qed.
Lemma move_bystander {H} dbg (s s' : sys H) l ev t : move dbg s l s' ev -> actor l <> Some t ->
  y_tasks s' !! t = y_tasks s !! t.
Proof.
  intros M Ha. destruct M; cbn in Ha; try done;
    try (cbn; apply lookup_insert_ne; congruence);
    match goal with A : answered _ _ _ _ _ _ _ _ |- _ =>
      destruct A; cbn; apply lookup_insert_ne; congruence end.
Qed.
Lemma held_bystander e1 e2 t : Forall (fun e => ev_tid e <> t) e2 -> held (e1 ++ e2) t = held e1 t.
Proof.
  rewrite held_app. generalize (held e1). induction e2 as [|e e2 IH]; intros h He; [done|].
  apply Forall_cons in He as [He Hr]. cbn [foldl]. rewrite IH by done.
  destruct e as [u c r|u id|u d|u id r|u b|u r]; cbn in *; try done.
  - destruct c; try done. destruct r as [[]| |]; try done. destruct (N.eqb_spec t u); congruence.
  - destruct (N.eqb_spec t u); congruence.
  - destruct (N.eqb_spec t u); congruence.
Qed.
Lemma held_step {H} dbg (s s' : sys H) l ev evs t : move dbg s l s' ev -> actor l <> Some t ->
  held (evs ++ ev) t = held evs t.
Proof.
  intros M Ha. apply held_bystander. eapply Forall_impl; [by eapply move_events|].
  cbn. intros e He. congruence.
Qed.

(** ** Reading fails: the device is given back *)

Lemma eof_move {H} dbg (s s' : sys H) t e cur ev : move dbg s (LReadErr t e) s' ev ->
  y_tasks s !! t = Some (mkTask PRead cur) -> forall id, cur = Some id ->
  y_tasks s' !! t = Some (mkTask (PRelUsedW e) (Some id)) /\ ev = [].
Proof.
  intros M E id ->. inversion M; subst.
  - congruence.
  - split; [|done]. cbn. rewrite lookup_insert. congruence.
Qed.
Lemma rel_move1 {H} dbg (s s' : sys H) l t e cur ev : move dbg s l s' ev -> actor l = Some t ->
  y_tasks s !! t = Some (mkTask (PRelUsedW e) cur) ->
  y_tasks s' !! t = Some (mkTask (PRelAvailW e) cur) /\ ev = [] /\ l = LRun t.
Proof.
  intros M Ha E. destruct M; cbn in Ha; try discriminate; injection Ha as ->; try congruence;
    rewrite E in *; simplify_eq.
  split; [|done]. cbn. by rewrite lookup_insert.
Qed.
Lemma rel_move2 {H} dbg (s s' : sys H) l t e id ev : move dbg s l s' ev -> actor l = Some t ->
  y_tasks s !! t = Some (mkTask (PRelAvailW e) (Some id)) ->
  l = LRun t /\
  ((release_device (y_server s) id = Val (y_server s') /\ ev = [EvRelease t id; EvEnd t (read_end e)] /\
    y_tasks s' !! t = Some (mkTask (PEnd (read_end e)) (Some id))) \/
   (exists p, release_device (y_server s) id = Panic p)).
Proof.
  intros M Ha E. destruct M; cbn in Ha; try discriminate; injection Ha as ->; try congruence;
    rewrite E in *; simplify_eq.
  - split; [done|]. left. split; [done|]. split; [done|]. cbn. by rewrite lookup_insert.
  - split; [done|]. right. by eexists.
Qed.

Definition waiting_release {H} (s : sys H) (t : tid) (e : io_error) (id : rstring) : Prop :=
  y_tasks s !! t = Some (mkTask (PRelUsedW e) (Some id)) \/
  y_tasks s !! t = Some (mkTask (PRelAvailW e) (Some id)).

Lemma release_run {H} dbg ds (w : world H) ls s evs t e d ls' s' evs' :
  run dbg (init_sys ds w) ls = Some (s, evs) -> waiting_release s t e (d_bus_id d) ->
  held evs t = Some d ->
  run dbg s ls' = Some (s', evs') -> distinct_ids ds (evs ++ evs') ->
  (waiting_release s' t e (d_bus_id d) /\ held (evs ++ evs') t = Some d /\ (forall r, EvEnd t r ∉ evs')) \/
  exists ls1 ls2 s1 s2 ev1 ev2,
    ls' = ls1 ++ LRun t :: ls2 /\ run dbg s ls1 = Some (s1, ev1) /\
    step dbg s1 (LRun t) = Some (s2, [EvRelease t (d_bus_id d); EvEnd t (read_end e)]) /\
    run dbg s2 ls2 = Some (s', ev2) /\
    evs' = ev1 ++ [EvRelease t (d_bus_id d); EvEnd t (read_end e)] ++ ev2 /\
    sv_used (y_server s1) !! d_bus_id d = Some d /\
    sv_available (y_server s2) = sv_available (y_server s1) ++ [d] /\
    sv_used (y_server s2) = delete (d_bus_id d) (sv_used (y_server s1)) /\
    (forall r, EvEnd t r ∉ ev1).
Proof.
  intros E0 Hw Hh E' Hd. revert ls' s' evs' E' Hd.
  match goal with |- forall ls1 s1 e1, _ -> @?Q ls1 s1 e1 => apply (run_ind dbg s Q) end.
  - intros _. left. rewrite app_nil_r. split; [done|]. split; [done|]. intros r. apply not_elem_of_nil.
  - intros ls1 s1 e1 l s2 e2 E1 IH E2 Hd. rewrite app_assoc in Hd. pose proof (distinct_app _ _ _ Hd) as Hd1.
    destruct (IH Hd1) as [(Hw1 & Hh1 & He1)|Hrel].
    + pose proof (step_move _ _ _ _ _ E2) as M. destruct (decide (actor l = Some t)) as [Ha|Ha].
      * destruct Hw1 as [Hw1|Hw1].
        -- destruct (rel_move1 _ _ _ _ _ _ _ _ M Ha Hw1) as (Hw2 & -> & ->).
           left. rewrite app_nil_r. split; [by right|]. done.
        -- pose proof (dev_run dbg ds w (ls ++ ls1) s1 (evs ++ e1) (run_app_intro _ _ _ _ _ _ _ _ E0 E1) Hd1) as HI.
           pose proof (di_held _ _ _ HI _ _ Hh1) as Hu.
           destruct (rel_move2 _ _ _ _ _ _ _ _ M Ha Hw1) as (-> & [(Hr & -> & Ht)|[p Hp]]).
           ++ right. unfold release_device in Hr. rewrite Hu in Hr. injection Hr as Hr.
              exists ls1, [], s1, s2, e1, []. rewrite app_nil_r. rewrite <- Hr. done.
           ++ unfold release_device in Hp. by rewrite Hu in Hp.
      * left. split.
        -- unfold waiting_release in *. by rewrite (move_bystander _ _ _ _ _ _ M Ha).
        -- split; [rewrite app_assoc; by rewrite (held_step _ _ _ _ _ _ _ M Ha)|].
           intros r. rewrite elem_of_app. intros [Hr|Hr]; [by apply (He1 r)|].
           pose proof (move_events _ _ _ _ _ M) as Hev. rewrite Forall_forall in Hev.
           apply Hev in Hr. cbn in Hr. congruence.
    + right. destruct Hrel as (la & lb & sa & sb & ea & eb & -> & R1 & R2 & R3 & -> & R4).
      exists la, (lb ++ [l]), sa, sb, ea, (eb ++ e2). rewrite <- !app_assoc. split; [done|].
      split; [done|]. split; [done|]. split; [by eapply run_step|]. done.
Qed.

(** ** Which device an import request names *)
Lemma until_nul_spec f u : until_nul f = u <-> 0 ∉ u /\ (f = u \/ exists junk, f = u ++ 0 :: junk).
Proof.
  revert u. induction f as [|x f IH]; intros u; cbn.
  - split.
    + intros <-. split; [apply not_elem_of_nil|by left].
    + intros [_ [<-|[junk E]]]; [done|]. by destruct u.
  - destruct (N.eqb_spec x 0) as [->|Hx].
    + split.
      * intros <-. split; [apply not_elem_of_nil|]. right. by exists f.
      * intros [Hn [<-|[junk E]]]; [destruct Hn; left|]. destruct u as [|y u]; [done|].
        injection E as <- _. destruct Hn. left.
    + split.
      * intros <-. destruct (proj1 (IH (until_nul f)) eq_refl) as [Hn Hc]. split.
        -- rewrite not_elem_of_cons. done.
        -- destruct Hc as [Hc|[junk Hc]]; [left; by rewrite <- Hc|right]. exists junk. cbn. by rewrite <- Hc.
      * intros [Hn Hc]. destruct u as [|y u].
        -- destruct Hc as [Hc|[junk Hc]]; [done|]. injection Hc as Hc. done.
        -- rewrite not_elem_of_cons in Hn. destruct Hn as [_ Hn].
           assert (y = x /\ until_nul f = u) as [-> ->]; [|done]. rewrite (IH u).
           destruct Hc as [[= -> ->]|[junk [= -> ->]]]; [|by eauto 6]. split; [done|]. by split; [|left].
Qed.
Lemma field_names_spec f id : field_names f id <-> until_nul f = utf8 id.
Proof. by rewrite until_nul_spec. Qed.

Definition field_of (id : rstring) : list N := utf8 id ++ replicate (32 - length (utf8 id)) 0.
Lemma field_of_names id : 0 ∉ utf8 id -> field_names (field_of id) id.
Proof.
  intros Hn. split; [done|]. unfold field_of. destruct (32 - length (utf8 id))%nat as [|n]; cbn.
  - left. by rewrite app_nil_r.
  - right. by eexists.
Qed.
Lemma field_of_length id : len (utf8 id) <= 32 -> length (field_of id) = 32%nat.
Proof. intros Hl. unfold field_of. rewrite app_length, replicate_length. unfold len in Hl. lia. Qed.

Lemma import_iff sv f sv' d : import_device sv f = (sv', Some d) <->
  exists l1 l2, first_such (fun d => field_names f (d_bus_id d)) (sv_available sv) d l1 l2 /\
    sv' = mkServer (l1 ++ l2) (<[d_bus_id d := d]> (sv_used sv)).
Proof.
  split.
  - intros E. apply import_some in E as (l1 & l2 & (Ea & Hd & Hf) & ->). exists l1, l2. split; [|done].
    split; [done|]. split; [by apply field_names_spec|].
    eapply Forall_impl; [exact Hf|]. intros x Hx Hn. by apply Hx, field_names_spec.
  - intros (l1 & l2 & (Ea & Hd & Hf) & ->). unfold import_device. rewrite Ea.
    rewrite (take_first_intro _ l1 d l2); [done| |].
    + apply bool_decide_eq_true. by apply field_names_spec.
    + eapply Forall_impl; [exact Hf|]. cbn. intros x Hx. apply bool_decide_eq_false. by rewrite <- field_names_spec.
Qed.
Lemma import_none_iff sv f sv' : import_device sv f = (sv', None) <->
  Forall (fun d => ~ field_names f (d_bus_id d)) (sv_available sv) /\ sv' = sv.
Proof.
  split.
  - intros E. apply import_none in E as [-> Hf]. split; [|done].
    eapply Forall_impl; [exact Hf|]. intros x Hx Hn. by apply Hx, field_names_spec.
  - intros [Hf ->]. unfold import_device.
    destruct (take_first _ _) as [[d r]|] eqn:E; [|done].
    apply take_first_some in E as (l1 & l2 & Ea & _ & Hp & _). apply bool_decide_eq_true in Hp.
    rewrite Ea in Hf. apply Forall_app in Hf as [_ Hf]. apply Forall_cons in Hf as [Hf _].
    by apply field_names_spec in Hp.
Qed.

Definition valid_ids (ds : list device) : Prop := Forall (fun d => is_rstring (d_bus_id d) = true) ds.

Lemma importable sv d : d ∈ sv_available sv -> NoDup (d_bus_id <$> sv_available sv) ->
  valid_ids (sv_available sv) -> requestable (d_bus_id d) ->
  exists sv', import_device sv (field_of (d_bus_id d)) = (sv', Some d).
Proof.
  intros Hd Hn Hv [Hl H0]. apply elem_of_list_split in Hd as (l1 & l2 & Ea).
  exists (mkServer (l1 ++ l2) (<[d_bus_id d := d]> (sv_used sv))). apply import_iff.
  exists l1, l2. split; [|done]. split; [done|]. split; [by apply field_of_names|].
  apply Forall_forall. intros x Hx Hf. apply field_names_spec in Hf.
  pose proof (proj1 (field_names_spec _ _) (field_of_names _ H0)) as Hf2. rewrite Hf in Hf2.
  unfold valid_ids in Hv. rewrite Forall_forall in Hv. apply utf8_inj in Hf2.
  - rewrite Ea, fmap_app in Hn. apply NoDup_app in Hn as (_ & Hn & _).
    apply (Hn (d_bus_id x)); [by apply elem_of_list_fmap_1|]. rewrite Hf2. cbn. left.
  - apply Hv. rewrite Ea. apply elem_of_app. by left.
  - apply Hv. rewrite Ea. apply elem_of_app. right. left.
Qed.

(** ** A device nobody holds stays lost *)
Lemma leak_move {H} dbg ds (s : sys H) evs l s' ev id d : move dbg s l s' ev -> dev_inv ds s evs ->
  NoDup (d_bus_id <$> ledger ds evs) ->
  sv_used (y_server s) !! id = Some d ->
  (forall t d', held evs t = Some d' -> d_bus_id d' <> id) ->
  sv_used (y_server s') !! id = Some d /\
  (forall t n f d', EvServe t (OpReqImport n f) (Val (OpRepImport 0 (Some d'))) ∈ ev -> d_bus_id d' <> id) /\
  (forall t r, EvRemove t id r ∈ ev -> r = IErr (EDeviceInUse id)) /\
  (forall t d', held (evs ++ ev) t = Some d' -> d_bus_id d' <> id).
Proof.
  intros M HI Hn Hu Hnh.
  assert (Hnd : NoDup (d_bus_id <$> all_devices (y_server s))) by (by rewrite (fmap_perm d_bus_id _ _ (di_ledger _ _ _ HI))).
  assert (Himp : forall f sv' x, import_device (y_server s) f = (sv', x) ->
    sv_used sv' !! id = Some d /\ forall d', x = Some d' -> d_bus_id d' <> id).
  { intros f sv' [x|] E.
    - apply import_some in E as (l1 & l2 & (Ea & _) & ->).
      assert (Hx : d_bus_id x <> id).
      { intros <-. rewrite (avail_not_used _ x Hnd (di_filed _ _ _ HI)) in Hu; [done|]. rewrite Ea. apply elem_of_app. right. left. }
      split; [cbn; by rewrite lookup_insert_ne|]. by intros d' [= <-].
    - apply import_none in E as [-> _]. split; [done|]. done. }
  assert (Hrel : forall sv' t e x, y_tasks s !! t = Some (mkTask (PRelAvailW e) (Some x)) ->
    release_device (y_server s) x = Val sv' -> sv_used sv' !! id = Some d).
  { intros sv' t e x Et E. unfold release_device in E.
    destruct (sv_used (y_server s) !! x) eqn:Ex; [|done]. injection E as <-. cbn.
    rewrite lookup_delete_ne; [done|]. pose proof (di_cur _ _ _ HI _ _ Et eq_refl eq_refl) as Hc. cbn in Hc.
    destruct (held evs t) as [y|] eqn:Hy; [|done]. injection Hc as ->. by apply (Hnh t). }
  assert (Hs : sv_used (y_server s') !! id = Some d).
  { destruct M; try done;
      try match goal with A : answered _ _ _ _ _ _ _ _ |- _ => apply answered_server in A as (-> & _ & _) end; try done.
    - cbn. by apply (Himp _ _ _ H2).
    - cbn. by eapply Hrel.
    - cbn. apply remove_available_some in H2 as (x & l1 & l2 & _ & ->). done. }
  split; [exact Hs|]. split.
  { intros t n f d' E. destruct (ev_import _ _ _ _ _ _ _ _ _ M E) as (cur & x & _ & _ & _ & Ei & Er & _).
    apply (Himp _ _ _ Ei). destruct x; injection Er as ?; congruence. }
  split.
  { intros t r E. destruct (ev_remove _ _ _ _ _ _ _ _ M E) as (_ & _ & _ & _ & [(_ & Hr & _)|(_ & _ & ->)]).
    - apply remove_available_some in Hr as (x & l1 & l2 & (Ea & Hx & _) & _).
      rewrite <- Hx, (avail_not_used _ x Hnd (di_filed _ _ _ HI)) in Hu; [done|]. rewrite Ea. apply elem_of_app. right. left.
    - f_equal. unfold remove_missing. destruct (existsb _ _) eqn:Ee; [done|].
      rewrite <- not_true_iff_false in Ee. destruct Ee. apply existsb_exists. exists (id, d).
      split; [by apply elem_of_list_In, elem_of_map_to_list|]. unfold str_eqb. apply bool_decide_eq_true.
      by apply (di_filed _ _ _ HI). }
  intros t d' Hh. destruct (decide (actor l = Some t)) as [Ha|Ha].
  - assert (Hc : held evs t = Some d' \/ exists n f, EvServe t (OpReqImport n f) (Val (OpRepImport 0 (Some d'))) ∈ ev).
    { destruct M; rewrite ?app_nil_r in Hh; try (by left); try discriminate Ha; cbn in Ha; try (injection Ha as ->);
        rewrite ?held_app in Hh; cbn in Hh; rewrite ?N.eqb_refl in Hh; try done; try (by left);
        match goal with A : answered _ _ _ _ _ _ _ _ |- _ => destruct A; cbn in Hh; rewrite ?N.eqb_refl in Hh; try done; try (by left) end.
      destruct r; cbn in Hh; rewrite ?N.eqb_refl in Hh; [|done]. injection Hh as ->. right. exists n, busid.
      cbn. left. }
    destruct Hc as [Hc|(n & f & Hc)]; [by apply (Hnh t)|].
    destruct (ev_import _ _ _ _ _ _ _ _ _ M Hc) as (cur & x & _ & _ & _ & Ei & Er & _).
    apply (Himp _ _ _ Ei). destruct x; injection Er as ?; congruence.
  - rewrite (held_step _ _ _ _ _ _ _ M Ha) in Hh. by apply (Hnh t).
Qed.
Lemma leak_run {H} dbg ds (w : world H) ls s evs ls' s' evs' id d :
  run dbg (init_sys ds w) ls = Some (s, evs) -> run dbg s ls' = Some (s', evs') ->
  distinct_ids ds (evs ++ evs') -> sv_used (y_server s) !! id = Some d ->
  (forall t d', held evs t = Some d' -> d_bus_id d' <> id) ->
  sv_used (y_server s') !! id = Some d /\
  (forall t n f d', EvServe t (OpReqImport n f) (Val (OpRepImport 0 (Some d'))) ∈ evs' -> d_bus_id d' <> id) /\
  (forall t r, EvRemove t id r ∈ evs' -> r = IErr (EDeviceInUse id)) /\
  (forall t d', held (evs ++ evs') t = Some d' -> d_bus_id d' <> id).
Proof.
  intros E0 E' Hd Hu Hnh. revert ls' s' evs' E' Hd.
  match goal with |- forall ls1 s1 e1, _ -> @?Q ls1 s1 e1 => apply (run_ind dbg s Q) end.
  - intros _. rewrite app_nil_r. split; [done|]. split; [intros t n f d' E; by apply elem_of_nil in E|].
    split; [intros t r E; by apply elem_of_nil in E|done].
  - intros ls1 s1 e1 l s2 e2 E1 IH E2 Hd. rewrite app_assoc in Hd. pose proof (distinct_app _ _ _ Hd) as Hd1.
    destruct (IH Hd1) as (I1 & I2 & I3 & I4).
    pose proof (dev_run dbg ds w (ls ++ ls1) s1 (evs ++ e1) (run_app_intro _ _ _ _ _ _ _ _ E0 E1) Hd1) as HI.
    destruct (leak_move _ _ _ _ _ _ _ _ _ (step_move _ _ _ _ _ E2) HI (distinct_last _ _ Hd1) I1 I4) as (J1 & J2 & J3 & J4).
    split; [done|]. split; [|split].
    + intros t n f d'. rewrite elem_of_app. intros [?|?]; eauto.
    + intros t r. rewrite elem_of_app. intros [?|?]; eauto.
    + by rewrite app_assoc.
Qed.
