(** * The fine-grained server and the coarser model have the same executions *)
From Verif Require Export SpecFine LockProofs LiveProofs.

(** The await a task has most recently passed, as seen by the coarser model. *)
Definition cpc (p : fpc) : pc :=
  match p with
  | FAt p => p
  | FLook c _ => PUsedR c
  | FList st _ => PDevAvailR st
  | FImpRemoved st b _ | FImpInserted st b _ => PImpAvailW st b
  | FRelRemoved e _ => PRelAvailW e
  | FDrop _ p => p
  end.
Definition ctask (k : ftask) : task := mkTask (cpc (ft_pc k)) (ft_cur k).
(** A guard that the coarser model has dropped already. *)
Definition dropping (n : lockname) (k : option ftask) : bool :=
  match k with
  | Some (mkFT (FDrop ls _) _) => existsb (fun x => match n, x with Used, Used | Available, Available => true | _, _ => false end) ls
  | _ => false
  end.
Definition keep (T : gmap tid ftask) (n : lockname) (h : tid * mode) : bool := negb (dropping n (T !! h.1)).
Definition lkrel (T : gmap tid ftask) (n : lockname) (lf lc : rwlock) : Prop :=
  lk_queue lc = lk_queue lf /\ lk_holders lc = List.filter (keep T n) (lk_holders lf).

(** Between the two halves of an import or a release. *)
Definition moving (p : fpc) : bool :=
  match p with FImpRemoved _ _ _ | FImpInserted _ _ _ | FRelRemoved _ _ => true | _ => false end.
Definition names (b : bytes) (d : device) : bool := bool_decide (until_nul b = utf8 (d_bus_id d)).
(** [svf]: the collections as they are; [sv]: as the coarser model has them. *)
Definition mid_ok (svf sv : server) (lu la : rwlock) (t : tid) (k : ftask) : Prop :=
  match ft_pc k with
  | FAt _ => True
  | FLook _ dev => dev = current_device sv (ft_cur k) /\ (t, MRead) ∈ lk_holders lu
  | FList _ ds => ds = sv_available sv /\ (t, MRead) ∈ lk_holders la
  | FImpRemoved _ b d => (t, MWrite) ∈ lk_holders la /\
      exists rest, take_first (names b) (sv_available sv) = Some (d, rest) /\ svf = mkServer rest (sv_used sv)
  | FImpInserted _ b id => (t, MWrite) ∈ lk_holders la /\
      exists d rest, take_first (names b) (sv_available sv) = Some (d, rest) /\ id = d_bus_id d /\
        svf = mkServer rest (<[id := d]> (sv_used sv))
  | FRelRemoved _ d => (t, MWrite) ∈ lk_holders la /\
      exists id, ft_cur k = Some id /\ sv_used sv !! id = Some d /\ svf = mkServer (sv_available sv) (delete id (sv_used sv))
  | FDrop _ p => used_fp (Some p) = FNone /\ avail_fp (Some p) = FNone
  end.

Record sim {H} (f : fsys H) (s : sys H) : Prop := mkSim {
  s_world : y_world s = f_world f;
  s_tasks : y_tasks s = ctask <$> f_tasks f;
  s_used : lkrel (f_tasks f) Used (f_used f) (y_used s);
  s_avail : lkrel (f_tasks f) Available (f_avail f) (y_avail s);
  s_mid : forall t k, f_tasks f !! t = Some k -> mid_ok (f_server f) (y_server s) (y_used s) (y_avail s) t k;
  s_sv : (forall t k, f_tasks f !! t = Some k -> moving (ft_pc k) = false) -> f_server f = y_server s }.

(** ** Locks *)
Lemma lfilter_ext {A} (p q : A -> bool) l : (forall x, x ∈ l -> p x = q x) -> List.filter p l = List.filter q l.
Proof.
  induction l as [|x l IH]; intros E; [done|]. cbn. rewrite E by (by left). rewrite IH; [done|].
  intros y Hy. apply E. by right.
Qed.
Lemma lfilter_filter {A} (p q : A -> bool) l : List.filter p (List.filter q l) = List.filter (fun x => q x && p x) l.
Proof. induction l as [|x l IH]; [done|]. cbn. destruct (q x); cbn; [destruct (p x)|]; by rewrite IH. Qed.
Lemma keep_insert T n t k h : keep (<[t := k]> T) n h = if h.1 =? t then negb (dropping n (Some k)) else keep T n h.
Proof.
  unfold keep. destruct (N.eqb_spec h.1 t) as [->|Ne]; [by rewrite lookup_insert|].
  by rewrite lookup_insert_ne by congruence.
Qed.

Lemma lr_same T n lf lc t k : lkrel T n lf lc -> dropping n (Some k) = dropping n (T !! t) ->
  lkrel (<[t := k]> T) n lf lc.
Proof.
  intros [Hq Hh] E. split; [done|]. rewrite Hh. apply lfilter_ext. intros h _. rewrite keep_insert.
  destruct (N.eqb_spec h.1 t) as [Eh|]; [|done]. unfold keep. by rewrite Eh, E.
Qed.
Lemma lr_request T n lf lc t k m : lkrel T n lf lc -> dropping n (Some k) = dropping n (T !! t) ->
  lkrel (<[t := k]> T) n (lk_request t m lf) (lk_request t m lc).
Proof.
  intros HR E. destruct (lr_same _ _ _ _ _ _ HR E) as [Hq Hh]. split; cbn; [by rewrite Hq|done].
Qed.
Lemma lr_release T n lf lc t k : lkrel T n lf lc -> dropping n (Some k) = dropping n (T !! t) ->
  lkrel (<[t := k]> T) n (lk_release t lf) (lk_release t lc).
Proof.
  intros HR E. destruct (lr_same _ _ _ _ _ _ HR E) as [Hq Hh]. split; cbn; [done|].
  rewrite Hh, !lfilter_filter. apply lfilter_ext. intros h _. apply andb_comm.
Qed.
Lemma lr_enter T n lf lc t k : lkrel T n lf lc -> dropping n (Some k) = true ->
  lkrel (<[t := k]> T) n lf (lk_release t lc).
Proof.
  intros [Hq Hh] E. split; cbn; [done|]. rewrite Hh, lfilter_filter. apply lfilter_ext. intros h _.
  rewrite keep_insert, E. destruct (h.1 =? t); cbn; [apply andb_false_r|apply andb_true_r].
Qed.
Lemma lr_drop T n lf lc t k : lkrel T n lf lc -> dropping n (T !! t) = true ->
  lkrel (<[t := k]> T) n (lk_release t lf) lc.
Proof.
  intros [Hq Hh] E. split; cbn; [done|]. rewrite Hh, lfilter_filter. apply lfilter_ext. intros h _.
  rewrite keep_insert. destruct (N.eqb_spec h.1 t) as [Eh|]; [|done]. unfold keep. by rewrite Eh, E.
Qed.
Lemma lr_holds T n lf lc t m : lkrel T n lf lc -> dropping n (T !! t) = false -> (t, m) ∈ lk_holders lf ->
  (t, m) ∈ lk_holders lc.
Proof.
  intros [_ Hh] E Hin. rewrite Hh, elem_of_list_In, filter_In, <- elem_of_list_In. split; [done|].
  unfold keep. cbn. by rewrite E.
Qed.
Lemma lr_grant T n lf lc lf' : lkrel T n lf lc -> lk_grant lf = Some lf' ->
  (forall t, t ∈ (lk_queue lf).*1 -> dropping n (T !! t) = false) ->
  exists lc', lk_grant lc = Some lc' /\ lkrel T n lf' lc'.
Proof.
  intros [Hq Hh] E Hd. unfold lk_grant in *. rewrite Hq. destruct (lk_queue lf) as [|[t m] q]; [done|].
  destruct (compatible m (lk_holders lf)) eqn:Ec; [|done]. injection E as <-.
  assert (compatible m (lk_holders lc) = true) as ->.
  { rewrite Hh. destruct m; cbn in *.
    - rewrite forallb_forall in *. intros x Hx. apply filter_In in Hx as [Hx _]. by apply Ec.
    - by destruct (lk_holders lf). }
  eexists. split; [reflexivity|]. split; cbn; [done|].
  assert (keep T n (t, m) = true) as ->; [|by rewrite Hh].
  unfold keep. cbn. rewrite Hd; [done|]. by left.
Qed.

(** ** The other tasks *)
Definition more (lu lu' la la' : rwlock) (u : tid) : Prop :=
  (forall m, (u, m) ∈ lk_holders lu -> (u, m) ∈ lk_holders lu') /\ (forall m, (u, m) ∈ lk_holders la -> (u, m) ∈ lk_holders la').
Lemma mid_more svf sv lu lu' la la' u k : more lu lu' la la' u -> mid_ok svf sv lu la u k -> mid_ok svf sv lu' la' u k.
Proof.
  intros [M1 M2]. unfold mid_ok. destruct (ft_pc k); try done.
  - intros [? ?]. auto.
  - intros [? ?]. auto.
  - intros (? & ?). auto.
  - intros (? & ?). auto.
  - intros (? & ?). auto.
Qed.
Lemma alone l t u m : lock_ok l -> (t, MWrite) ∈ lk_holders l -> (u, m) ∈ lk_holders l -> u = t /\ m = MWrite.
Proof. intros [_ Hw] Ht Hu. rewrite (Hw _ Ht) in Hu. apply elem_of_list_singleton in Hu. by injection Hu. Qed.
Lemma mid_writer svf svf' sv sv' lu lu' la la' t u k : lock_ok lu -> lock_ok la -> u <> t ->
  (t, MWrite) ∈ lk_holders la -> sv_used sv' = sv_used sv \/ (t, MWrite) ∈ lk_holders lu ->
  more lu lu' la la' u -> mid_ok svf sv lu la u k -> mid_ok svf' sv' lu' la' u k.
Proof.
  intros Lu La Nu Ha Hs HM M. apply (mid_more _ _ lu lu' la la'); [done|]. unfold mid_ok in *.
  destruct (ft_pc k); try done.
  - destruct M as [-> Mu]. split; [|done]. unfold current_device. destruct (ft_cur k) as [id|]; [|done].
    destruct Hs as [-> |Hs]; [done|]. by destruct (alone _ _ _ _ Lu Hs Mu).
  - destruct M as [_ Mu]. by destruct (alone _ _ _ _ La Ha Mu).
  - destruct M as [Mu _]. by destruct (alone _ _ _ _ La Ha Mu).
  - destruct M as [Mu _]. by destruct (alone _ _ _ _ La Ha Mu).
  - destruct M as [Mu _]. by destruct (alone _ _ _ _ La Ha Mu).
Qed.
Lemma more_refl lu la u : more lu lu la la u.
Proof. by split. Qed.
Lemma more_release lu la t u : u <> t -> more lu (lk_release t lu) la (lk_release t la) u.
Proof. intros Nu. split; intros m Hm; cbn; by rewrite filter_out. Qed.

Section Sim.
  Context {H : handlers} (dbg : bool).
  Implicit Types (f : fsys H) (s : sys H).

  Lemma sim_lookup f s t p cur : sim f s -> f_tasks f !! t = Some (mkFT p cur) ->
    y_tasks s !! t = Some (mkTask (cpc p) cur).
  Proof. intros S E. by rewrite (s_tasks _ _ S), lookup_fmap, E. Qed.
  Lemma sim_absent f s t : sim f s -> f_tasks f !! t = None -> y_tasks s !! t = None.
  Proof. intros S E. by rewrite (s_tasks _ _ S), lookup_fmap, E. Qed.

  (** Whoever holds a lock and is not moving a device knows that nobody is. *)
  Lemma nobody_moving f s t k n m : sim f s -> locks_ok s -> f_tasks f !! t = Some k -> moving (ft_pc k) = false ->
    (t, m) ∈ lk_holders (lock_of s n) -> forall u k', f_tasks f !! u = Some k' -> moving (ft_pc k') = false.
  Proof.
    intros S (Lu & La & Hf) Et Ek Hh u k' Eu. destruct (moving (ft_pc k')) eqn:Em; [|done].
    destruct (decide (u = t)) as [->|Nu]; [congruence|].
    pose proof (s_mid _ _ S _ _ Eu) as M. destruct k' as [p cur]. pose proof (sim_lookup _ _ _ _ _ S Eu) as Ec.
    assert (Hu : (u, MWrite) ∈ lk_holders (lock_of s n)).
    { destruct (Hf u) as [Fu _]. unfold pc_of in Fu. rewrite Ec in Fu. unfold mid_ok in M. cbn in *.
      destruct p; try discriminate Em; cbn in Fu; destruct n; cbn; (exact Fu || apply M). }
    destruct n; cbn in *; [destruct (alone _ _ _ _ Lu Hu Hh)|destruct (alone _ _ _ _ La Hu Hh)]; congruence.
  Qed.
  Lemma same_server f s t k n m : sim f s -> locks_ok s -> f_tasks f !! t = Some k -> moving (ft_pc k) = false ->
    (t, m) ∈ lk_holders (lock_of s n) -> f_server f = y_server s.
  Proof. intros S HL Et Ek Hh. apply (s_sv _ _ S). by eapply nobody_moving. Qed.

  (** Task [t] moves on; nobody's data changes. *)
  Lemma sim_upd f f' s s' t k : sim f s -> f_tasks f' = <[t := k]> (f_tasks f) ->
    y_tasks s' = <[t := ctask k]> (y_tasks s) ->
    y_world s' = f_world f' ->
    lkrel (<[t := k]> (f_tasks f)) Used (f_used f') (y_used s') ->
    lkrel (<[t := k]> (f_tasks f)) Available (f_avail f') (y_avail s') ->
    mid_ok (f_server f') (y_server s') (y_used s') (y_avail s') t k ->
    (forall u k', u <> t -> f_tasks f !! u = Some k' ->
       mid_ok (f_server f) (y_server s) (y_used s) (y_avail s) u k' ->
       mid_ok (f_server f') (y_server s') (y_used s') (y_avail s') u k') ->
    (moving (ft_pc k) = false -> (forall u k', u <> t -> f_tasks f !! u = Some k' -> moving (ft_pc k') = false) ->
       f_server f' = y_server s') ->
    sim f' s'.
  Proof.
    intros S Ef Es Ew Lu La Mt Mo Hs. split.
    - done.
    - by rewrite Ef, Es, (s_tasks _ _ S), fmap_insert.
    - by rewrite Ef.
    - by rewrite Ef.
    - rewrite Ef. intros u k' E. apply lookup_insert_Some in E as [[<- <-]|[Nu E]]; [done|].
      apply Mo; [done|done|]. by apply (s_mid _ _ S).
    - rewrite Ef. intros Hm. apply Hs.
      + apply (Hm t). apply lookup_insert.
      + intros u k' Nu E. apply (Hm u). by rewrite lookup_insert_ne.
  Qed.
  Lemma sim_keep f f' s s' t k : sim f s -> f_tasks f' = <[t := k]> (f_tasks f) ->
    y_tasks s' = <[t := ctask k]> (y_tasks s) ->
    y_world s' = f_world f' -> f_server f' = f_server f -> y_server s' = y_server s ->
    moving (default (FAt PRead) (ft_pc <$> f_tasks f !! t)) = false ->
    lkrel (<[t := k]> (f_tasks f)) Used (f_used f') (y_used s') ->
    lkrel (<[t := k]> (f_tasks f)) Available (f_avail f') (y_avail s') ->
    mid_ok (f_server f') (y_server s') (y_used s') (y_avail s') t k ->
    (forall u, u <> t -> more (y_used s) (y_used s') (y_avail s) (y_avail s') u) ->
    sim f' s'.
  Proof.
    intros S Ef Es Ew Esf Ess Hm Lu La Mt Hmo. apply (sim_upd f f' s s' t k S); try done.
    - intros u k' Nu Eu. rewrite Esf, Ess. apply mid_more. by apply Hmo.
    - intros _ Ho. rewrite Esf, Ess. apply (s_sv _ _ S). intros u k' Eu. destruct (decide (u = t)) as [->|Nu]; [|by eapply Ho].
      by rewrite Eu in Hm.
  Qed.

  (** What happened to the collections between [f, s] and [f0, s0] is invisible to the others. *)
  Definition hidden f f0 s s0 (t : tid) : Prop :=
    forall u k' lu la, u <> t -> f_tasks f !! u = Some k' -> more (y_used s) lu (y_avail s) la u ->
      mid_ok (f_server f) (y_server s) (y_used s) (y_avail s) u k' -> mid_ok (f_server f0) (y_server s0) lu la u k'.
  Lemma hidden_same f f0 s s0 t : f_server f0 = f_server f -> y_server s0 = y_server s -> hidden f f0 s s0 t.
  Proof. intros Ef Es u k' lu la Nu Eu Hm. rewrite Ef, Es. by apply mid_more. Qed.
  Lemma hidden_writer f f0 s s0 t : locks_ok s -> (t, MWrite) ∈ lk_holders (y_avail s) ->
    sv_used (y_server s0) = sv_used (y_server s) \/ (t, MWrite) ∈ lk_holders (y_used s) -> hidden f f0 s s0 t.
  Proof.
    intros (Lu & La & _) Ha Hs u k' lu la Nu Eu Hm. by apply (mid_writer _ _ _ _ (y_used s) _ (y_avail s) _ t).
  Qed.

  (** [f0], [s0]: the states after the data has been changed. *)
  Definition data_only f f0 s s0 : Prop :=
    f_used f0 = f_used f /\ f_avail f0 = f_avail f /\ f_tasks f0 = f_tasks f /\
    y_used s0 = y_used s /\ y_avail s0 = y_avail s /\ y_tasks s0 = y_tasks s /\ y_world s0 = f_world f0.
  Lemma sim_data f f0 s s0 t k p : sim f s -> data_only f f0 s s0 -> hidden f f0 s s0 t ->
    f_tasks f !! t = Some k -> (forall n, dropping n (Some k) = false) -> (forall n, dropping n (Some p) = false) ->
    mid_ok (f_server f0) (y_server s0) (y_used s) (y_avail s) t p ->
    (moving (ft_pc p) = false -> (forall u k', u <> t -> f_tasks f !! u = Some k' -> moving (ft_pc k') = false) ->
       f_server f0 = y_server s0) ->
    cpc (ft_pc p) = cpc (ft_pc k) -> ft_cur p = ft_cur k ->
    sim (fset_task f0 t (ft_pc p) (ft_cur p)) s0.
  Proof.
    intros S (E1 & E2 & E3 & E4 & E5 & E6 & E7) Hh Et Dk Dp Mt Hs Ec Ecur. destruct k as [pk ck], p as [pp cp]. cbn in Ec, Ecur.
    assert (Es : y_tasks s0 = <[t := ctask (mkFT pp cp)]> (y_tasks s)).
    { rewrite E6. symmetry. apply insert_id. unfold ctask. cbn. rewrite Ec, Ecur. by apply sim_lookup with f. }
    apply (sim_upd f _ s s0 t (mkFT pp cp) S); cbn; rewrite ?E1, ?E2, ?E3, ?E4, ?E5; try done.
    - apply lr_same; [apply S|]. by rewrite Et, Dk, Dp.
    - apply lr_same; [apply S|]. by rewrite Et, Dk, Dp.
    - intros u k' Nu Eu M. apply Hh; [done|done|apply more_refl|done].
  Qed.
  Lemma sim_at f f0 s s0 t k p cur : sim f s -> data_only f f0 s s0 -> hidden f f0 s s0 t ->
    f_tasks f !! t = Some k -> (forall n, dropping n (Some k) = false) ->
    ((forall u k', u <> t -> f_tasks f !! u = Some k' -> moving (ft_pc k') = false) -> f_server f0 = y_server s0) ->
    sim (fset_task f0 t (FAt p) cur) (set_task s0 t (mkTask p cur)).
  Proof.
    intros S (E1 & E2 & E3 & E4 & E5 & E6 & E7) Hh Et Dk Hs.
    apply (sim_upd f _ s _ t (mkFT (FAt p) cur) S); cbn; rewrite ?E1, ?E2, ?E3, ?E4, ?E5, ?E6; try done.
    - apply lr_same; [apply S|]. by rewrite Et, Dk.
    - apply lr_same; [apply S|]. by rewrite Et, Dk.
    - intros u k' Nu Eu M. apply Hh; [done|done|apply more_refl|done].
  Qed.
  Lemma sim_drop f f0 s s0 t ls p cur : sim f s -> data_only f f0 s s0 -> hidden f f0 s s0 t ->
    ((forall u k', u <> t -> f_tasks f !! u = Some k' -> moving (ft_pc k') = false) -> f_server f0 = y_server s0) ->
    used_fp (Some p) = FNone -> avail_fp (Some p) = FNone ->
    (forall n, dropping n (Some (mkFT (FDrop ls p) cur)) = true) ->
    sim (fset_task f0 t (FDrop ls p) cur) (set_task (drop_guards s0 t) t (mkTask p cur)).
  Proof.
    intros S (E1 & E2 & E3 & E4 & E5 & E6 & E7) Hh Hs Pu Pa Hd.
    apply (sim_upd f _ s _ t (mkFT (FDrop ls p) cur) S); cbn [fset_task f_tasks f_used f_avail f_server f_world
      set_task drop_guards set_used set_avail y_tasks y_used y_avail y_server y_world]; rewrite ?E1, ?E2, ?E3, ?E4, ?E5, ?E6; try done.
    - apply lr_enter; [apply S|apply Hd].
    - apply lr_enter; [apply S|apply Hd].
    - intros u k' Nu Eu M. apply Hh; [done|done|by apply more_release|done].
  Qed.
  Lemma sim_fdrop f f0 s s0 t p cur : sim f s -> data_only f f0 s s0 -> hidden f f0 s s0 t ->
    ((forall u k', u <> t -> f_tasks f !! u = Some k' -> moving (ft_pc k') = false) -> f_server f0 = y_server s0) ->
    used_fp (Some p) = FNone -> avail_fp (Some p) = FNone ->
    sim (fdrop f0 t p cur) (set_task (drop_guards s0 t) t (mkTask p cur)).
  Proof. intros. apply sim_drop with f s; try done. by intros []. Qed.
  Lemma sim_respond f f0 s s0 t k cur c r f' ev : Some (frespond dbg f0 t cur c r) = Some (f', ev) -> sim f s -> data_only f f0 s s0 -> hidden f f0 s s0 t ->
    f_tasks f !! t = Some k -> (forall n, dropping n (Some k) = false) ->
    ((forall u k', u <> t -> f_tasks f !! u = Some k' -> moving (ft_pc k') = false) -> f_server f0 = y_server s0) ->
    exists s', Some (respond dbg s0 t cur c r) = Some (s', ev) /\ sim f' s'.
  Proof.
    intros E S HD Hh Et Dk Hs. unfold frespond, respond in *.
    destruct (obind r (response_to_bytes dbg)); injection E as <- <-; (eexists; split; [done|]).
    - by eapply sim_at.
    - by apply sim_fdrop with f s.
    - by apply sim_fdrop with f s.
  Qed.

  Ltac lk := cbn; first [apply lr_same|apply lr_request|apply lr_release]; [by apply s_used || by apply s_avail|].
  Lemma more_request lu la t m u : more lu (lk_request t m lu) la la u /\ more lu lu la (lk_request t m la) u.
  Proof. by split. Qed.

  (** A task without data of its own moves on, asking for a lock at most. *)
  Lemma sim_env f s t p cur : sim f s ->
    (forall k, f_tasks f !! t = Some k -> exists q, ft_pc k = FAt q) ->
    sim (fset_task f t (FAt p) cur) (set_task s t (mkTask p cur)) /\
    (forall m, sim (fset_task (fwant f Used t m) t (FAt p) cur) (set_task (want_used s t m) t (mkTask p cur))) /\
    (forall m, sim (fset_task (fwant f Available t m) t (FAt p) cur) (set_task (want_avail s t m) t (mkTask p cur))).
  Proof.
    intros S Hk.
    assert (Hm : moving (default (FAt PRead) (ft_pc <$> f_tasks f !! t)) = false).
    { destruct (f_tasks f !! t) as [k|]; [|done]. destruct (Hk k eq_refl) as [q Eq]. cbn. by rewrite Eq. }
    assert (Hd : forall n, dropping n (Some (mkFT (FAt p) cur)) = dropping n (f_tasks f !! t)).
    { intros n. destruct (f_tasks f !! t) as [[pk ck]|]; [|done]. destruct (Hk _ eq_refl) as [q Eq]. cbn in Eq. by subst pk. }
    split_and!; intros; (eapply (sim_keep f _ s _ t (mkFT (FAt p) cur) S); [done|done|apply S|done|done|done|..]); cbn;
      try (by apply lr_same; [apply S|]); try (by apply lr_request; [apply S|]); done.
  Qed.
  (** The same for a task in the middle of something. *)
  Lemma sim_want f s t k p cur : sim f s -> f_tasks f !! t = Some k -> moving (ft_pc k) = false ->
    (forall n, dropping n (Some k) = false) ->
    (forall m, sim (fset_task (fwant f Used t m) t (FAt p) cur) (set_task (want_used s t m) t (mkTask p cur))) /\
    (forall m, sim (fset_task (fwant f Available t m) t (FAt p) cur) (set_task (want_avail s t m) t (mkTask p cur))).
  Proof.
    intros S Et Em Hd.
    split; intros; (eapply (sim_keep f _ s _ t (mkFT (FAt p) cur) S); [done|done|apply S|done|done|by rewrite Et|..]); cbn;
      try (apply lr_same; [apply S|by rewrite Et, Hd]); try (apply lr_request; [apply S|by rewrite Et, Hd]); done.
  Qed.

  Lemma take_import sv b : import_device sv b =
    match take_first (names b) (sv_available sv) with
    | Some (d, rest) => (mkServer rest (<[d_bus_id d := d]> (sv_used sv)), Some d)
    | None => (sv, None)
    end.
  Proof. done. Qed.

  Lemma queued_not_dropping f s t n : sim f s -> locks_ok s -> t ∈ (lk_queue (flock f n)).*1 -> dropping n (f_tasks f !! t) = false.
  Proof.
    intros S (Lu & La & Hf) Hq. destruct (f_tasks f !! t) as [[p cur]|] eqn:Et; [|done]. destruct p as [| | | | | |ls p]; try done.
    exfalso. destruct (s_mid _ _ S _ _ Et) as [Pu Pa]. destruct (Hf t) as [Fu Fa]. unfold pc_of in Fu, Fa.
    rewrite (sim_lookup _ _ _ _ _ S Et) in Fu, Fa. cbn [cpc fmap option_fmap option_map t_pc] in Fu, Fa. rewrite Pu in Fu. rewrite Pa in Fa. cbn in Fu, Fa.
    destruct n; [apply Fu|apply Fa]; unfold claims; rewrite fmap_app; apply elem_of_app; right.
    - by rewrite (proj1 (s_used _ _ S)).
    - by rewrite (proj1 (s_avail _ _ S)).
  Qed.

  Lemma sim_run f s t p cur f' ev : sim f s -> locks_ok s -> f_tasks f !! t = Some (mkFT p cur) ->
    frun_task dbg f t (mkFT p cur) = Some (f', ev) ->
    (exists s', step dbg s (LRun t) = Some (s', ev) /\ sim f' s') \/ (is_internal (@LRun H t) = true /\ ev = [] /\ sim f' s).
  Proof.
    intros S HL Et E. pose proof HL as (Lu & La & Hf). pose proof (sim_lookup _ _ _ _ _ S Et) as Ec.
    pose proof (s_mid _ _ S _ _ Et) as M. destruct (fp_of _ _ _ _ HL Ec) as [Fu Fa].
    assert (D0 : data_only f f s s) by (split_and!; try done; apply S).
    assert (HS : forall sv, data_only f (fset_server f sv) s s) by (intros; split_and!; try done; apply S).
    assert (HS' : forall sv sv', data_only f (fset_server f sv) s (set_server s sv')) by (intros; split_and!; try done; apply S).
    cbn [step]. rewrite Ec. unfold run_task. cbn [t_pc t_cur].
    destruct p as [q|c dev|st ds|st b d|st b id|e d|ls q]; cbn [cpc] in *.
    - destruct q as [|c|n|n b|n b|n b|b|e|e|r|d| |id|id|r]; cbn [frun_task ft_pc ft_cur] in E; try discriminate;
        try match type of E with context [lk_holds t ?m (?g f)] => destruct (lk_holds t m (g f)) eqn:Hh; [|discriminate]; apply lk_holds_in in Hh end;
        try match goal with
            | X : _ ∈ lk_holders (f_used f) |- _ => pose proof (lr_holds _ _ _ _ _ _ (s_used _ _ S) ltac:(by rewrite Et) X) as Hc
            | X : _ ∈ lk_holders (f_avail f) |- _ => pose proof (lr_holds _ _ _ _ _ _ (s_avail _ _ S) ltac:(by rewrite Et) X) as Hc
            end.
      + injection E as <- <-. right. split_and!; try done.
        apply (sim_data f f s s t _ (mkFT (FLook c (current_device (f_server f) cur)) cur) S D0 (hidden_same _ _ _ _ _ eq_refl eq_refl) Et); try done.
        * cbn. split; [|done]. by rewrite (same_server f s t _ Used MRead S HL Et eq_refl Hc).
        * intros _ _. by apply (same_server f s t _ Used MRead S HL Et).
      + injection E as <- <-. right. split_and!; try done.
        apply (sim_data f f s s t _ (mkFT (FList n (sv_available (f_server f))) cur) S D0 (hidden_same _ _ _ _ _ eq_refl eq_refl) Et); try done.
        * cbn. split; [|done]. by rewrite (same_server f s t _ Available MRead S HL Et eq_refl Hc).
        * intros _ _. by apply (same_server f s t _ Available MRead S HL Et).
      + injection E as <- <-. left. eexists. split; [done|]. apply sim_env; [done|]. rewrite Et. intros ? [= <-]. by eexists.
      + injection E as <- <-. left. apply lk_holds_in in Hc as ->. eexists. split; [done|]. apply sim_env; [done|]. rewrite Et. intros ? [= <-]. by eexists.
      + pose proof (same_server f s t _ Available MWrite S HL Et eq_refl Hc) as Es. apply lk_holds_in in Hc as Hl. rewrite Hl, take_import. rewrite Es in E.
        change (fun d => bool_decide (until_nul b = utf8 (d_bus_id d))) with (names b) in E.
        destruct (take_first (names b) (sv_available (y_server s))) as [[d rest]|] eqn:Ef.
        * injection E as <- <-. right. split_and!; try done.
          apply (sim_data f (fset_server f (mkServer rest (sv_used (y_server s)))) s s t (mkFT (FAt (PImpAvailW n b)) cur) (mkFT (FImpRemoved n b d) cur) S (HS _)); try done.
          -- apply hidden_writer; [done|done|by left].
          -- cbn. split; [done|]. by exists rest.
        * left. eapply (sim_respond f f s (set_server s (y_server s))); try done. by apply hidden_same.
      + injection E as <- <-. left. apply lk_holds_in in Hc as ->. eexists. split; [done|]. apply sim_env; [done|]. rewrite Et. intros ? [= <-]. by eexists.
      + pose proof (same_server f s t _ Available MWrite S HL Et eq_refl Hc) as Es. apply lk_holds_in in Hc as Hl. rewrite Hl.
        destruct cur as [id|]; [|done]. unfold release_device. rewrite Es in E. destruct (sv_used (y_server s) !! id) as [d|] eqn:Eu; injection E as <- <-.
        * right. split_and!; try done.
          apply (sim_data f (fset_server f (mkServer (sv_available (y_server s)) (delete id (sv_used (y_server s))))) s s t (mkFT (FAt (PRelAvailW e)) (Some id)) (mkFT (FRelRemoved e d) (Some id)) S (HS _)); try done.
          -- apply hidden_writer; [done|done|by left].
          -- cbn. split; [done|]. by exists id.
        * left. eexists. split; [done|]. apply sim_fdrop with f s; try done. by apply hidden_same.
      + pose proof (same_server f s t _ Available MWrite S HL Et eq_refl Hc) as Es. apply lk_holds_in in Hc as Hl. rewrite Hl.
        injection E as <- <-. left. eexists. split; [done|]. rewrite Es. apply sim_fdrop with f s; try done.
        apply hidden_writer; [done|done|by left].
      + pose proof (same_server f s t _ Available MWrite S HL Et eq_refl Hc) as Es. apply lk_holds_in in Hc as Hl. rewrite Hl.
        rewrite Es in E. destruct (remove_available (y_server s) id) as [sv'|] eqn:Er; injection E as <- <-; left; (eexists; split; [done|]).
        * apply sim_fdrop with f s; try done. apply hidden_writer; [done|done|]. left. cbn.
          unfold remove_available in Er. destruct (take_first _ _) as [[]|]; [|done]. by injection Er as <-.
        * apply sim_env; [done|]. rewrite Et. intros ? [= <-]. by eexists.
      + pose proof (same_server f s t _ Used MRead S HL Et eq_refl Hc) as Es. apply lk_holds_in in Hc as Hl. rewrite Hl.
        injection E as <- <-. left. rewrite Es. eexists. split; [done|]. apply sim_drop with f s; try done; [by apply hidden_same|by intros []].
    - destruct M as [Md Mh]. pose proof (same_server f s t _ Used MRead S HL Et eq_refl Mh) as Es. apply lk_holds_in in Mh as Hl. rewrite Hl. left.
      destruct c; cbn [frun_task ft_pc ft_cur] in E.
      + injection E as <- <-. eexists. split; [done|]. by eapply sim_want.
      + injection E as <- <-. eexists. split; [done|].
        eapply (sim_keep f _ s _ t (mkFT (FAt (PImpStart _ _)) None) S); [done|done|apply S|done|done|by rewrite Et|..]; cbn.
        * apply lr_release; [apply S|by rewrite Et].
        * apply lr_same; [apply S|by rewrite Et].
        * done.
        * intros u Nu. split; [|done]. intros m Hm. cbn. by rewrite filter_out.
      + cbn in Md. rewrite (s_world _ _ S). rewrite <- Md. destruct (serve_submit dbg (f_world f) dev _) as [r w'] eqn:Er.
        eapply (sim_respond f (fset_world f w') s (set_world s w')); [exact E|done|by split_and!|by apply hidden_same|done|done|done].
      + eapply (sim_respond f f s s); [exact E|done|done|by apply hidden_same|done|done|done].
    - destruct M as [Md Mh]. pose proof (same_server f s t _ Available MRead S HL Et eq_refl Mh) as Es. apply lk_holds_in in Mh as Hl. rewrite Hl. left.
      cbn [frun_task ft_pc ft_cur] in E. rewrite <- Md. eapply (sim_respond f f s s); [exact E|done|done|by apply hidden_same|done|done|done].
    - destruct M as (Mh & rest & Mt & Msv). cbn [frun_task ft_pc ft_cur] in E. injection E as <- <-. right. split_and!; try done.
      apply (sim_data f (fset_server f (mkServer (sv_available (f_server f)) (<[d_bus_id d:=d]> (sv_used (f_server f))))) s s t
        (mkFT (FImpRemoved st b d) cur) (mkFT (FImpInserted st b (d_bus_id d)) cur) S (HS _)); try done.
      + apply hidden_writer; [done|done|by left].
      + cbn. split; [done|]. exists d, rest. by rewrite Msv.
    - destruct M as (Mh & d & rest & Mt & -> & Msv). cbn [frun_task ft_pc ft_cur] in E. rewrite Msv in E. cbn [sv_used] in E.
      rewrite lookup_insert in E. left. apply lk_holds_in in Mh as Hl. rewrite Hl, take_import, Mt. cbn [import_response fmap option_fmap option_map].
      eapply (sim_respond f f s (set_server s _)); [exact E|done| | |done|done|done].
      + split_and!; try done. apply S.
      + apply hidden_writer; [done|done|by right].
    - destruct M as (Mh & id & Mc & Mu & Msv). cbn in Mc. subst cur. cbn [frun_task ft_pc ft_cur] in E. injection E as <- <-.
      left. apply lk_holds_in in Mh as Hl. rewrite Hl. unfold release_device. rewrite Mu. eexists. split; [done|].
      rewrite Msv. apply sim_fdrop with f s; try done. apply hidden_writer; [done|done|by right].
    - destruct M as [Mu Ma]. right. split; [done|]. cbn [frun_task ft_pc ft_cur] in E. destruct ls as [|n ls]; injection E as <- <-; (split; [done|]).
      + apply (sim_data f f s s t (mkFT (FDrop [] q) cur) (mkFT (FAt q) cur) S D0 (hidden_same _ _ _ _ _ eq_refl eq_refl) Et); try done.
        intros _ Ho. apply (s_sv _ _ S). intros u k' Eu. destruct (decide (u = t)) as [->|Nu]; [|by eapply Ho]. rewrite Et in Eu. by injection Eu as <-.
      + eapply (sim_upd f _ s s t (mkFT (FDrop ls q) cur) S).
        * by destruct n.
        * symmetry. by apply insert_id.
        * destruct n; apply S.
        * destruct n; cbn; [apply lr_drop|apply lr_same]; try apply S; by rewrite Et.
        * destruct n; cbn; [apply lr_same|apply lr_drop]; try apply S; by rewrite Et.
        * done.
        * intros u k' _ _. by destruct n.
        * intros _ Ho. assert (f_server f = y_server s); [|by destruct n]. apply (s_sv _ _ S). intros u k' Eu.
          destruct (decide (u = t)) as [->|Nu]; [|by eapply Ho]. rewrite Et in Eu. by injection Eu as <-.
  Qed.

  Lemma sim_step f s l f' ev : sim f s -> locks_ok s -> fstep dbg f l = Some (f', ev) ->
    (exists s', step dbg s l = Some (s', ev) /\ sim f' s') \/ (is_internal l = true /\ ev = [] /\ sim f' s).
  Proof.
    intros S HL E. pose proof HL as (Lu & La & Hf). destruct l as [t|t c|t e|t|t|t e|t d|t id|r g| | |t]; cbn [fstep] in E.
    - destruct (f_tasks f !! t) eqn:Et; [done|]. injection E as <- <-. left. cbn. rewrite (sim_absent _ _ _ S Et).
      eexists. split; [done|]. apply sim_env; [done|]. by rewrite Et.
    - destruct (f_tasks f !! t) as [[[[]| | | | | |] cur]|] eqn:Et; try discriminate. injection E as <- <-. left.
      cbn. rewrite (sim_lookup _ _ _ _ _ S Et). eexists. split; [done|]. apply sim_env; [done|]. rewrite Et. intros ? [= <-]. by eexists.
    - destruct (f_tasks f !! t) as [[[[]| | | | | |] [id|]]|] eqn:Et; try discriminate; injection E as <- <-; left;
        cbn; rewrite (sim_lookup _ _ _ _ _ S Et); (eexists; split; [done|]); (apply sim_env; [done|]); rewrite Et; intros ? [= <-]; by eexists.
    - destruct (f_tasks f !! t) as [[[[]| | | | | |] cur]|] eqn:Et; try discriminate. destruct dbg eqn:Ed; [|done]. injection E as <- <-. left.
      cbn. rewrite (sim_lookup _ _ _ _ _ S Et). eexists. split; [done|]. apply sim_env; [done|]. rewrite Et. intros ? [= <-]. by eexists.
    - destruct (f_tasks f !! t) as [[[[]| | | | | |] cur]|] eqn:Et; try discriminate. injection E as <- <-. left.
      cbn. rewrite (sim_lookup _ _ _ _ _ S Et). eexists. split; [done|]. apply sim_fdrop with f s; try done.
      + split_and!; try done. apply S.
      + by apply hidden_same.
      + intros Ho. apply (s_sv _ _ S). intros u k' Eu. destruct (decide (u = t)) as [->|Nu]; [|by eapply Ho]. rewrite Et in Eu. by injection Eu as <-.
    - destruct (f_tasks f !! t) as [[[[]| | | | | |] cur]|] eqn:Et; try discriminate. injection E as <- <-. left.
      cbn. rewrite (sim_lookup _ _ _ _ _ S Et). eexists. split; [done|]. apply sim_fdrop with f s; try done.
      + split_and!; try done. apply S.
      + by apply hidden_same.
      + intros Ho. apply (s_sv _ _ S). intros u k' Eu. destruct (decide (u = t)) as [->|Nu]; [|by eapply Ho]. rewrite Et in Eu. by injection Eu as <-.
    - destruct (f_tasks f !! t) eqn:Et; [done|]. injection E as <- <-. left. cbn. rewrite (sim_absent _ _ _ S Et).
      eexists. split; [done|]. apply sim_env; [done|]. by rewrite Et.
    - destruct (f_tasks f !! t) eqn:Et; [done|]. injection E as <- <-. left. cbn. rewrite (sim_absent _ _ _ S Et).
      eexists. split; [done|]. apply sim_env; [done|]. by rewrite Et.
    - left. cbn. rewrite (s_world _ _ S). destruct (c_poisoned _); [done|]. injection E as <- <-.
      eexists. split; [done|]. destruct S. by split.
    - left. cbn. destruct (lk_grant (f_used f)) as [lf'|] eqn:Eg; [|done]. injection E as <- <-.
      destruct (lr_grant _ _ _ _ _ (s_used _ _ S) Eg) as (lc' & Ec & Hr); [intros; by eapply queued_not_dropping with (n := Used)|].
      rewrite Ec. eexists. split; [done|]. split; cbn; try apply S; [done|].
      intros t k Et. eapply mid_more; [|by apply S]. split; [|done]. intros m Hm. by apply (proj2 (grant_ok _ _ Ec Lu) t (FHas m)).
    - left. cbn. destruct (lk_grant (f_avail f)) as [lf'|] eqn:Eg; [|done]. injection E as <- <-.
      destruct (lr_grant _ _ _ _ _ (s_avail _ _ S) Eg) as (lc' & Ec & Hr); [intros; by eapply queued_not_dropping with (n := Available)|].
      rewrite Ec. eexists. split; [done|]. split; cbn; try apply S; [done|].
      intros t k Et. eapply mid_more; [|by apply S]. split; [done|]. intros m Hm. by apply (proj2 (grant_ok _ _ Ec La) t (FHas m)).
    - destruct (f_tasks f !! t) as [[p cur]|] eqn:Et; [|done]. by eapply sim_run.
  Qed.

  Lemma sim_run_all f s ls f' evs : sim f s -> locks_ok s -> frun dbg f ls = Some (f', evs) ->
    exists ls' s', run dbg s ls' = Some (s', evs) /\ outside ls' = outside ls /\ sim f' s' /\ locks_ok s'.
  Proof.
    revert f s f' evs. induction ls as [|l ls IH]; intros f s f' evs S HL E; cbn in E.
    - injection E as <- <-. by exists [], s.
    - destruct (fstep dbg f l) as [[f1 e1]|] eqn:E1; [|done]. destruct (frun dbg f1 ls) as [[f2 e2]|] eqn:E2; [|done]. injection E as <- <-.
      destruct (sim_step _ _ _ _ _ S HL E1) as [(s1 & Es & S1)|(Hi & -> & S1)].
      + destruct (IH f1 s1 _ _ S1 (locks_step _ _ _ _ _ Es HL) E2) as (ls' & s' & R & O & S' & L').
        exists (l :: ls'), s'. cbn. rewrite Es, R. unfold outside in *. cbn. by rewrite O.
      + destruct (IH f1 s _ _ S1 HL E2) as (ls' & s' & R & O & S' & L').
        exists ls', s'. cbn. unfold outside in *. cbn. by rewrite Hi.
  Qed.
End Sim.

Lemma sim_init {H} ds (w : world H) : sim (init_fsys ds w) (init_sys ds w).
Proof.
  split; cbn; try done.
  - by rewrite fmap_empty.
Qed.
(** At instants where every task is at an await the two states are the same. *)
Lemma sim_settled {H} (f : fsys H) (s : sys H) : sim f s -> settled f -> f = as_fine s.
Proof.
  intros S Hs.
  assert (Hd : forall n t, dropping n (f_tasks f !! t) = false).
  { intros n t. destruct (f_tasks f !! t) as [[p cur]|] eqn:Et; [|done]. destruct (Hs _ _ Et) as [q Eq]. cbn in Eq. by subst p. }
  assert (Hl : forall n lf lc, lkrel (f_tasks f) n lf lc -> lf = lc).
  { intros n [hs q] [hs' q'] [Hq Hh]. cbn in *. subst. f_equal. symmetry. induction hs as [|h hs IH]; [done|]. cbn.
    unfold keep at 1. rewrite Hd. cbn. by rewrite IH. }
  destruct f as [sv w lu la T]. unfold as_fine. rewrite (s_world _ _ S), (s_tasks _ _ S). cbn.
  rewrite <- (Hl _ _ _ (s_used _ _ S)), <- (Hl _ _ _ (s_avail _ _ S)). f_equal.
  - cbn. apply (s_sv _ _ S). cbn. intros t k Et. destruct (Hs _ _ Et) as [q ->]. done.
  - rewrite <- map_fmap_compose. rewrite <- (map_fmap_id T) at 1. apply map_fmap_ext. intros t k Et. destruct (Hs _ _ Et) as [q Eq]. destruct k as [p cur].
    cbn in *. by subst p.
Qed.

(** ** The other direction: every execution of the coarser model is one of the fine-grained one *)
Lemma frun_app {H} dbg (f f1 f2 : fsys H) ls1 ls2 e1 e2 : frun dbg f ls1 = Some (f1, e1) -> frun dbg f1 ls2 = Some (f2, e2) ->
  frun dbg f (ls1 ++ ls2) = Some (f2, e1 ++ e2).
Proof.
  revert f e1. induction ls1 as [|l ls1 IH]; intros f e1 E1 E2; cbn in *.
  - by injection E1 as <- <-.
  - destruct (fstep dbg f l) as [[g eg]|]; [|done]. destruct (frun dbg g ls1) as [[g' eg']|] eqn:Eg; [|done].
    injection E1 as <- <-. rewrite (IH _ _ Eg E2). by rewrite app_assoc.
Qed.

Lemma frun_cons {H} dbg (f f1 f2 : fsys H) l ls e1 e2 : fstep dbg f l = Some (f1, e1) -> frun dbg f1 ls = Some (f2, e2) ->
  frun dbg f (l :: ls) = Some (f2, e1 ++ e2).
Proof. intros E1 E2. cbn. by rewrite E1, E2. Qed.
Lemma some_pair2 {A B} (x : A * B) a b : Some x = Some (a, b) -> a = x.1 /\ b = x.2.
Proof. by intros [= ->]. Qed.
Section Embed.
  Context {H : handlers} (dbg : bool).
  Implicit Types s : sys H.

  Lemma as_fine_lookup s t : f_tasks (as_fine s) !! t = (fun k => mkFT (FAt (t_pc k)) (t_cur k)) <$> y_tasks s !! t.
  Proof. cbn. by rewrite lookup_fmap. Qed.
  Lemma as_fine_set s t p cur : as_fine (set_task s t (mkTask p cur)) = fset_task (as_fine s) t (FAt p) cur.
  Proof. unfold as_fine, fset_task. cbn. by rewrite fmap_insert. Qed.

  Lemma drops s t ls p cur : ls = [Available; Used] \/ ls = [Used; Available] ->
    frun dbg (fset_task (as_fine s) t (FDrop ls p) cur) [LRun t; LRun t; LRun t] =
    Some (as_fine (set_task (drop_guards s t) t (mkTask p cur)), []).
  Proof.
    rewrite as_fine_set. intros [-> | ->]; cbn; rewrite lookup_insert; cbn; rewrite insert_insert, lookup_insert; cbn;
      rewrite insert_insert, lookup_insert; cbn; unfold fset_task; cbn; rewrite ?insert_insert; reflexivity.
  Qed.
  Lemma fdrops s t p cur : frun dbg (fdrop (as_fine s) t p cur) [LRun t; LRun t; LRun t] =
    Some (as_fine (set_task (drop_guards s t) t (mkTask p cur)), []).
  Proof. apply drops. by left. Qed.

  (** A response is computed and serialised; [f0] is [as_fine s] except that [t] is elsewhere. *)
  Lemma responds s t q qc cur c r :
    exists ls, Forall (fun l => is_internal l = true) ls /\ let x := frespond dbg (fset_task (as_fine s) t q qc) t cur c r in
    frun dbg x.1 ls = Some (as_fine (respond dbg s t cur c r).1, []) /\ x.2 = (respond dbg s t cur c r).2.
  Proof.
    unfold frespond, respond. destruct (obind r (response_to_bytes dbg)); cbn [fst snd].
    - exists []. split; [done|]. cbn. split; [|done]. rewrite as_fine_set. unfold fset_task. cbn. by rewrite insert_insert.
    - exists [LRun t; LRun t; LRun t]. split; [by repeat constructor|]. split; [|done]. rewrite <- fdrops. unfold fdrop, fset_task. cbn [f_tasks f_server f_world f_used f_avail]. by rewrite insert_insert.
    - exists [LRun t; LRun t; LRun t]. split; [by repeat constructor|]. split; [|done]. rewrite <- fdrops. unfold fdrop, fset_task. cbn [f_tasks f_server f_world f_used f_avail]. by rewrite insert_insert.
  Qed.
  (** The fine-grained steps that make up one step of the coarser model. *)
  Definition expands s (l : label H) s' (ev : list event) : Prop :=
    exists ls, Forall (fun l => is_internal l = true) ls /\ frun dbg (as_fine s) (l :: ls) = Some (as_fine s', ev).

  Lemma expand_here s l s' ev : fstep dbg (as_fine s) l = Some (as_fine s', ev) -> expands s l s' ev.
  Proof. intros E. exists []. split; [done|]. cbn. rewrite E. by rewrite app_nil_r. Qed.
  Lemma expand_drop s s0 t l p cur ev : fstep dbg (as_fine s) l = Some (fdrop (as_fine s0) t p cur, ev) ->
    expands s l (set_task (drop_guards s0 t) t (mkTask p cur)) ev.
  Proof.
    intros E. exists [LRun t; LRun t; LRun t]. split; [by repeat constructor|].
    rewrite <- (app_nil_r ev). by eapply frun_cons, fdrops.
  Qed.
  (** One step to an intermediate point, then the response. *)
  Lemma expand_respond s s0 t q qc c cur r g l : 
    fstep dbg (as_fine s) l = Some (g, []) -> fstep dbg g (LRun t) = Some (frespond dbg (fset_task (as_fine s0) t q qc) t cur c r) ->
    expands s l (respond dbg s0 t cur c r).1 (respond dbg s0 t cur c r).2.
  Proof.
    intros E1 E2. destruct (responds s0 t q qc cur c r) as (ls & Hi & Er & Ee).
    exists (LRun t :: ls). split; [by constructor|]. eapply (frun_cons _ _ _ _ _ _ [] _ E1).
    destruct (frespond dbg (fset_task (as_fine s0) t q qc) t cur c r) as [g' e']. cbn in Er, Ee. subst e'.
    pose proof (frun_cons _ _ _ _ (LRun t) ls _ _ E2 Er) as E3. rewrite app_nil_r in E3. exact E3.
  Qed.

  Lemma expand_step s l s' ev : step dbg s l = Some (s', ev) -> expands s l s' ev.
  Proof.
    intros E. destruct l as [t|t c|t e|t|t|t e|t d|t id|r g| | |t].
    - cbn in E. destruct (y_tasks s !! t) eqn:Et; [done|]. injection E as <- <-. apply expand_here. cbn [fstep]. rewrite as_fine_lookup, Et. cbn [fmap option_fmap option_map]. by rewrite as_fine_set.
    - cbn in E. destruct (y_tasks s !! t) as [[[] cur]|] eqn:Et; try discriminate. injection E as <- <-. apply expand_here. cbn [fstep]. rewrite as_fine_lookup, Et. cbn [fmap option_fmap option_map t_pc t_cur]. by rewrite as_fine_set.
    - cbn in E. destruct (y_tasks s !! t) as [[[] [id|]]|] eqn:Et; try discriminate; injection E as <- <-; apply expand_here; cbn [fstep]; rewrite as_fine_lookup, Et; cbn [fmap option_fmap option_map t_pc t_cur]; by rewrite as_fine_set.
    - cbn in E. destruct (y_tasks s !! t) as [[[] cur]|] eqn:Et; try discriminate. destruct dbg eqn:Ed; [|done]. injection E as <- <-. apply expand_here. cbn [fstep]. rewrite as_fine_lookup, Et. cbn [fmap option_fmap option_map t_pc t_cur]. rewrite Ed. by rewrite as_fine_set.
    - cbn in E. destruct (y_tasks s !! t) as [[[] cur]|] eqn:Et; try discriminate. injection E as <- <-. apply expand_drop. cbn [fstep]. by rewrite as_fine_lookup, Et.
    - cbn in E. destruct (y_tasks s !! t) as [[[] cur]|] eqn:Et; try discriminate. injection E as <- <-. apply expand_drop. cbn [fstep]. by rewrite as_fine_lookup, Et.
    - cbn in E. destruct (y_tasks s !! t) eqn:Et; [done|]. injection E as <- <-. apply expand_here. cbn [fstep]. rewrite as_fine_lookup, Et. cbn [fmap option_fmap option_map]. by rewrite as_fine_set.
    - cbn in E. destruct (y_tasks s !! t) eqn:Et; [done|]. injection E as <- <-. apply expand_here. cbn [fstep]. rewrite as_fine_lookup, Et. cbn [fmap option_fmap option_map]. by rewrite as_fine_set.
    - cbn in E. destruct (c_poisoned _) eqn:Ep; [done|]. injection E as <- <-. apply expand_here. cbn. by rewrite Ep.
    - cbn in E. destruct (lk_grant (y_used s)) eqn:Eg; [|done]. injection E as <- <-. apply expand_here. cbn. by rewrite Eg.
    - cbn in E. destruct (lk_grant (y_avail s)) eqn:Eg; [|done]. injection E as <- <-. apply expand_here. cbn. by rewrite Eg.
    - cbn [step] in E. destruct (y_tasks s !! t) as [[p cur]|] eqn:Et; [|done].
      assert (Hf : forall g, fstep dbg (as_fine s) (LRun t) = g <-> frun_task dbg (as_fine s) t (mkFT (FAt p) cur) = g).
      { intros g. cbn [fstep]. by rewrite as_fine_lookup, Et. }
      assert (Hset : forall s0 q qc, fstep dbg (fset_task (as_fine s0) t q qc) (LRun t) = frun_task dbg (fset_task (as_fine s0) t q qc) t (mkFT q qc)).
      { intros s0 q qc. cbn [fstep fset_task f_tasks]. by rewrite lookup_insert. }
      unfold run_task in E. cbn [t_pc t_cur] in E.
      destruct p as [|c|n|n b|n b|n b|b|e|e|r|d| |id|id|r]; try discriminate;
        try match type of E with context [lk_holds t ?m ?l] => destruct (lk_holds t m l) eqn:Hh; [|discriminate] end.
      + assert (F1 : fstep dbg (as_fine s) (LRun t) = Some (fset_task (as_fine s) t (FLook c (current_device (y_server s) cur)) cur, [])).
        { apply Hf. cbn. by rewrite Hh. }
        destruct c as [st|st b|sb|h n].
        * injection E as <- <-. exists [LRun t]. split; [by repeat constructor|]. eapply (frun_cons _ _ _ _ _ _ [] [] F1).
          eapply (frun_cons _ _ _ _ _ _ [] []); [rewrite Hset; done|]. rewrite as_fine_set. unfold fset_task. cbn. by rewrite insert_insert.
        * injection E as <- <-. exists [LRun t]. split; [by repeat constructor|]. eapply (frun_cons _ _ _ _ _ _ [] [] F1).
          eapply (frun_cons _ _ _ _ _ _ [] []); [rewrite Hset; done|]. rewrite as_fine_set. unfold fset_task. cbn. by rewrite insert_insert.
        * destruct (serve_submit dbg (y_world s) (current_device (y_server s) cur) sb) as [r w'] eqn:Es.
          apply some_pair2 in E as [-> ->]. eapply expand_respond; [exact F1|]. rewrite Hset. cbn. by rewrite Es.
        * apply some_pair2 in E as [-> ->]. eapply expand_respond; [exact F1|]. by rewrite Hset.
      + apply some_pair2 in E as [-> ->]. eapply expand_respond; [apply Hf; cbn; by rewrite Hh|]. by rewrite Hset.
      + injection E as <- <-. apply expand_here, Hf. cbn. by rewrite as_fine_set.
      + injection E as <- <-. apply expand_here, Hf. cbn. rewrite Hh. by rewrite as_fine_set.
      + rewrite take_import in E. destruct (take_first (names b) (sv_available (y_server s))) as [[d rest]|] eqn:Ef; apply some_pair2 in E as [-> ->].
        * set (s0 := set_server s (mkServer rest (<[d_bus_id d:=d]> (sv_used (y_server s))))).
          destruct (responds s0 t (FImpInserted n b (d_bus_id d)) cur (Some (d_bus_id d)) (OpReqImport n b) (Val (op_rep_import_success d))) as (ls & Hi & Er & Ee).
          exists (LRun t :: LRun t :: ls). split; [by repeat constructor|].
          eapply (frun_cons _ _ _ _ _ _ [] _); [apply Hf; cbn; rewrite Hh; change (fun d0 => bool_decide (until_nul b = utf8 (d_bus_id d0))) with (names b); by rewrite Ef|].
          eapply (frun_cons _ _ (fset_task (as_fine s0) t (FImpInserted n b (d_bus_id d)) cur) _ _ _ [] _).
          { cbn [fstep fset_task f_tasks]. rewrite lookup_insert. cbn. unfold fset_task, as_fine. cbn. by rewrite insert_insert. }
          destruct (frespond dbg (fset_task (as_fine s0) t (FImpInserted n b (d_bus_id d)) cur) t (Some (d_bus_id d)) (OpReqImport n b) (Val (op_rep_import_success d))) as [g' e'] eqn:Eg.
          cbn in Er, Ee. subst e'. match goal with |- frun _ _ _ = Some (_, ?x) => rewrite <- (app_nil_r x) end. eapply (frun_cons); [|exact Er].
          rewrite Hset. cbn. rewrite lookup_insert. by rewrite Eg.
        * destruct (responds s t (FAt (PImpAvailW n b)) cur None (OpReqImport n b) (Val op_rep_import_fail)) as (ls & Hi & Er & Ee).
          exists ls. split; [done|].
          assert (Eid : fset_task (as_fine s) t (FAt (PImpAvailW n b)) cur = as_fine s).
          { unfold fset_task. cbn. rewrite insert_id; [done|]. by rewrite lookup_fmap, Et. }
          rewrite Eid in Er, Ee.
          assert (E1 : fstep dbg (as_fine s) (LRun t) = Some (frespond dbg (as_fine s) t None (OpReqImport n b) (Val op_rep_import_fail))).
          { apply Hf. cbn. rewrite Hh. change (fun d0 => bool_decide (until_nul b = utf8 (d_bus_id d0))) with (names b). by rewrite Ef. }
          destruct (frespond dbg (as_fine s) t None (OpReqImport n b) (Val op_rep_import_fail)) as [g' e'].
          cbn in Er, Ee. subst e'. pose proof (frun_cons _ _ _ _ _ _ _ _ E1 Er) as E2. rewrite app_nil_r in E2. by destruct s.
      + injection E as <- <-. apply expand_here, Hf. cbn. rewrite Hh. by rewrite as_fine_set.
      + destruct cur as [id|]; [|done]. unfold release_device in E. destruct (sv_used (y_server s) !! id) as [d|] eqn:Eu; injection E as <- <-.
        * set (s0 := set_server s (mkServer (sv_available (y_server s) ++ [d]) (delete id (sv_used (y_server s))))).
          exists [LRun t; LRun t; LRun t; LRun t]. split; [by repeat constructor|].
          eapply (frun_cons _ _ _ _ _ _ [] _); [apply Hf; cbn; by rewrite Hh, Eu|].
          eapply (frun_cons _ _ (fdrop (as_fine s0) t (PEnd (read_end e)) (Some id)) _ _ _ [_; _] []); [|apply fdrops].
          cbn [fstep fset_task f_tasks]. rewrite lookup_insert. cbn. unfold fdrop, fset_task, as_fine. cbn. by rewrite insert_insert.
        * apply expand_drop. apply Hf. cbn. by rewrite Hh, Eu.
      + injection E as <- <-. apply (expand_drop s (set_server s (add_device (y_server s) d))). apply Hf. cbn. by rewrite Hh.
      + destruct (remove_available (y_server s) id) as [sv'|] eqn:Er; injection E as <- <-.
        * apply (expand_drop s (set_server s sv')). apply Hf. cbn. by rewrite Hh, Er.
        * apply expand_here, Hf. cbn. rewrite Hh, Er. by rewrite as_fine_set.
      + injection E as <- <-. exists [LRun t; LRun t; LRun t]. split; [by repeat constructor|].
        eapply (frun_cons _ _ _ _ _ _ [_] []); [apply Hf; cbn; by rewrite Hh|]. apply drops. by right.
  Qed.
End Embed.

Lemma outside_internal {H} (ls : list (label H)) : Forall (fun l => is_internal l = true) ls -> outside ls = [].
Proof. induction 1 as [|l ls Hl _ IH]; [done|]. unfold outside in *. cbn. by rewrite Hl. Qed.
Lemma outside_app {H} (ls ls' : list (label H)) : outside (ls ++ ls') = outside ls ++ outside ls'.
Proof. apply List.filter_app. Qed.
Lemma expand_run {H} dbg (s : sys H) ls s' evs : run dbg s ls = Some (s', evs) ->
  exists ls', frun dbg (as_fine s) ls' = Some (as_fine s', evs) /\ outside ls' = outside ls.
Proof.
  revert s s' evs. induction ls as [|l ls IH]; intros s s' evs E; cbn in E.
  - injection E as <- <-. by exists [].
  - destruct (step dbg s l) as [[s1 e1]|] eqn:E1; [|done]. destruct (run dbg s1 ls) as [[s2 e2]|] eqn:E2; [|done]. injection E as <- <-.
    apply expand_step in E1 as (ls1 & Hi & R1). apply IH in E2 as (ls2 & R2 & O2).
    exists ((l :: ls1) ++ ls2). split; [by eapply frun_app|]. rewrite outside_app, O2. unfold outside in *. cbn.
    change (List.filter _ ls1) with (outside ls1). rewrite (outside_internal _ Hi). by destruct (is_internal l).
Qed.
Lemma as_fine_init {H} ds (w : world H) : as_fine (init_sys ds w) = init_fsys ds w.
Proof. unfold as_fine, init_sys, init_fsys. cbn. by rewrite fmap_empty. Qed.

(** ** Progress *)
(** Only awaits stop a task. *)
Lemma fstuck_settled {H} dbg (f : fsys H) (s : sys H) : sim f s -> fstuck dbg f -> settled f.
Proof.
  intros S Hs t [p cur] Et. specialize (Hs (LRun t) eq_refl). cbn in Hs. rewrite Et in Hs. pose proof (s_mid _ _ S _ _ Et) as M.
  destruct p as [q|c dev|st ds|st b d|st b id|e d|ls q]; [by eexists|..]; exfalso; cbn in Hs, M.
  - destruct c as [| |sb|]; try done. by destruct (serve_submit dbg (f_world f) dev sb).
  - done.
  - done.
  - destruct M as (_ & d & rest & _ & -> & Msv). rewrite Msv in Hs. cbn in Hs. by rewrite lookup_insert in Hs.
  - destruct M as (_ & id & Mc & _). cbn in Mc. by subst cur.
  - by destruct ls.
Qed.
Lemma fstuck_stuck {H} dbg (s : sys H) : fstuck dbg (as_fine s) <-> stuck dbg s.
Proof.
  split.
  - intros Hs l Hl. destruct (step dbg s l) as [[s' ev]|] eqn:E; [|done]. apply expand_step in E as (ls & _ & R).
    cbn in R. by rewrite (Hs l Hl) in R.
  - intros Hs l Hl. specialize (Hs l Hl). destruct l as [| | | | | | | | | | |t]; try discriminate Hl; cbn in Hs |- *.
    + by destruct (lk_grant (y_used s)).
    + by destruct (lk_grant (y_avail s)).
    + rewrite lookup_fmap. destruct (y_tasks s !! t) as [[p cur]|]; [|done]. cbn. unfold run_task in Hs. cbn [t_pc t_cur] in Hs.
      destruct p as [|c|n|n b|n b|n b|b|e|e|r|d| |id|id|r]; cbn; try done;
        try match type of Hs with context [lk_holds t ?m ?l] => destruct (lk_holds t m l) eqn:Hh; [|done] end; try done.
      * destruct c as [| |sb|]; try done. by destruct (serve_submit _ _ _ sb).
      * by destruct (import_device _ _).
      * destruct cur as [id|]; [|done]. unfold release_device in Hs. by destruct (sv_used (y_server s) !! id).
      * by destruct (remove_available _ _).
Qed.

Definition prank (p : pc) : nat :=
  match p with
  | PUsedR _ => 12
  | PImpStart _ _ => 10
  | PImpUsedW _ _ => 8
  | PRelUsedW _ => 7
  | PImpAvailW _ _ | PRemAvailW _ => 6
  | PRelAvailW _ | PDevAvailR _ => 5
  | PAddAvailW _ | PRemUsedR _ => 4
  | _ => 0
  end%nat.
Definition frank (p : fpc) : nat :=
  match p with
  | FAt p => prank p
  | FLook _ _ => 11
  | FImpRemoved _ _ _ => 5
  | FImpInserted _ _ _ | FRelRemoved _ _ | FList _ _ => 4
  | FDrop ls p => S (length ls) + prank p
  end%nat.
Definition ftotal (m : gmap tid ftask) : nat := list_sum ((fun kv => frank (ft_pc kv.2)) <$> map_to_list m).
Definition fwork {H} (f : fsys H) : nat :=
  (ftotal (f_tasks f) + length (lk_queue (f_used f)) + length (lk_queue (f_avail f)))%nat.
Lemma ftotal_insert m t k : m !! t = None -> ftotal (<[t := k]> m) = (frank (ft_pc k) + ftotal m)%nat.
Proof.
  intros E. unfold ftotal. rewrite (list_sum_perm _ _ (fmap_perm _ _ _ (map_to_list_insert m t k E))). done.
Qed.
Lemma ftotal_update m t k k' : m !! t = Some k -> (ftotal (<[t := k']> m) + frank (ft_pc k) = ftotal m + frank (ft_pc k'))%nat.
Proof.
  intros E. rewrite <- (insert_delete m t k E) at 2. rewrite <- insert_delete_insert.
  rewrite !ftotal_insert by apply lookup_delete. lia.
Qed.
Lemma fwork_task {H} (f f' : fsys H) t k k' : f_tasks f !! t = Some k -> f_tasks f' = <[t := k']> (f_tasks f) ->
  (length (lk_queue (f_used f')) + length (lk_queue (f_avail f')) + frank (ft_pc k') + 1 <=
   length (lk_queue (f_used f)) + length (lk_queue (f_avail f)) + frank (ft_pc k))%nat ->
  (S (fwork f') <= fwork f)%nat.
Proof. intros E Et Hl. unfold fwork. rewrite Et. pose proof (ftotal_update _ _ _ k' E). lia. Qed.
Lemma fwork_respond {H} dbg (f f0 f' : fsys H) t k cur c r ev : f_tasks f !! t = Some k -> (4 <= frank (ft_pc k))%nat ->
  f_tasks f0 = f_tasks f -> f_used f0 = f_used f -> f_avail f0 = f_avail f ->
  Some (frespond dbg f0 t cur c r) = Some (f', ev) -> (S (fwork f') <= fwork f)%nat.
Proof.
  intros Et Hk E1 E2 E3 E. unfold frespond in E. destruct (obind r (response_to_bytes dbg)); injection E as <- <-;
    (eapply (fwork_task f); [eassumption|cbn; by rewrite E1|]); cbn; rewrite E2, E3; lia.
Qed.
Lemma finternal_step {H} dbg (f : fsys H) l f' ev : fstep dbg f l = Some (f', ev) -> is_internal l = true ->
  (S (fwork f') <= fwork f)%nat.
Proof.
  intros E Hi. destruct l as [| | | | | | | | | | |t]; try discriminate Hi; cbn [fstep] in E.
  - unfold lk_grant in E. destruct f as [sv w [hs [|[t m] q]] la T]; cbn [f_used lk_queue lk_holders] in E; [done|].
    destruct (compatible m hs); [|done]. injection E as <- <-. unfold fwork. cbn. lia.
  - unfold lk_grant in E. destruct f as [sv w lu [hs [|[t m] q]] T]; cbn [f_avail lk_queue lk_holders] in E; [done|].
    destruct (compatible m hs); [|done]. injection E as <- <-. unfold fwork. cbn. lia.
  - destruct (f_tasks f !! t) as [[p cur]|] eqn:Et; [|done].
    destruct p as [q|c dev|st ds|st b d|st b id|e d|ls q]; cbn [frun_task ft_pc ft_cur] in E.
    + destruct q as [|c|n|n b|n b|n b|b|e|e|r|d| |id|id|r]; try discriminate;
        try match type of E with context [lk_holds t ?m ?l] => destruct (lk_holds t m l) eqn:Hh; [|discriminate] end;
        repeat (case_match; try discriminate);
        try (by eapply (fwork_respond dbg f f); [exact Et|cbn; lia|..|exact E]);
        injection E as <- <-; (eapply (fwork_task f); [exact Et|reflexivity|]); cbn; rewrite ?app_length; cbn; lia.
    + destruct c as [| |sb|].
      * injection E as <- <-; (eapply (fwork_task f); [exact Et|reflexivity|]); cbn; rewrite ?app_length; cbn; lia.
      * injection E as <- <-; (eapply (fwork_task f); [exact Et|reflexivity|]); cbn; lia.
      * destruct (serve_submit _ _ _ _) as [r w']. eapply (fwork_respond dbg f (fset_world f w')); [exact Et|cbn; lia|done|done|done|exact E].
      * eapply (fwork_respond dbg f f); [exact Et|cbn; lia|done|done|done|exact E].
    + eapply (fwork_respond dbg f f); [exact Et|cbn; lia|done|done|done|exact E].
    + injection E as <- <-; (eapply (fwork_task f); [exact Et|reflexivity|]); cbn; lia.
    + destruct (sv_used (f_server f) !! id); [|done]. eapply (fwork_respond dbg f f); [exact Et|cbn; lia|done|done|done|exact E].
    + destruct cur; [|done]. injection E as <- <-; (eapply (fwork_task f); [exact Et|reflexivity|]); cbn; lia.
    + destruct ls as [|n ls]; injection E as <- <-.
      * (eapply (fwork_task f); [exact Et|reflexivity|]); cbn; lia.
      * destruct n; (eapply (fwork_task f); [exact Et|reflexivity|]); cbn; lia.
Qed.
Lemma finternal_run {H} dbg (f : fsys H) ls f' ev : frun dbg f ls = Some (f', ev) ->
  Forall (fun l => is_internal l = true) ls -> (length ls + fwork f' <= fwork f)%nat.
Proof.
  revert f f' ev. induction ls as [|l ls IH]; intros f f' ev E Hi; cbn in E.
  - injection E as <- <-. cbn. lia.
  - apply Forall_cons in Hi as [Hl Hi]. destruct (fstep dbg f l) as [[s1 e1]|] eqn:E1; [|done].
    destruct (frun dbg s1 ls) as [[s2 e2]|] eqn:E2; [|done]. injection E as <- <-.
    apply finternal_step in E1; [|done]. apply IH in E2; [|done]. cbn. lia.
Qed.
Lemma fstuck_dec {H} dbg (f : fsys H) : fstuck dbg f \/ exists l f' ev, is_internal l = true /\ fstep dbg f l = Some (f', ev).
Proof.
  destruct (list_find (fun l => is_Some (fstep dbg f l)) (LGrantUsed :: LGrantAvail :: (LRun <$> (map_to_list (f_tasks f)).*1))) as [[i l]|] eqn:E.
  - apply list_find_Some in E as (El & [[s' ev] Es] & _). right. exists l, s', ev. split; [|done].
    apply elem_of_list_lookup_2 in El.
    apply elem_of_cons in El as [->|El]; [done|]. apply elem_of_cons in El as [->|El]; [done|].
    by apply elem_of_list_fmap in El as (t & -> & _).
  - left. apply list_find_None in E. intros l Hl. rewrite Forall_forall in E.
    destruct l; try discriminate Hl.
    + apply eq_None_not_Some, E. left.
    + apply eq_None_not_Some, E. right. left.
    + cbn. destruct (f_tasks f !! t) as [k|] eqn:Et; [|done].
      specialize (E (LRun t)). cbn in E. rewrite Et in E. apply eq_None_not_Some, E.
      right. right. apply elem_of_list_fmap_1. apply elem_of_list_fmap. exists (t, k). split; [done|].
      by apply elem_of_map_to_list.
Qed.
Lemma freach_stuck {H} dbg (f : fsys H) : exists ls f' ev, frun dbg f ls = Some (f', ev) /\
  Forall (fun l => is_internal l = true) ls /\ fstuck dbg f'.
Proof.
  remember (fwork f) as n eqn:En. revert f En. induction n as [n IH] using lt_wf_ind. intros f ->.
  destruct (fstuck_dec dbg f) as [Hs|(l & s1 & e1 & Hl & E1)].
  - exists [], f, []. auto.
  - pose proof (finternal_step _ _ _ _ _ E1 Hl) as Hw.
    destruct (IH (fwork s1) ltac:(lia) s1 eq_refl) as (ls & s' & ev & E & Hi & Hs).
    exists (l :: ls), s', (e1 ++ ev). cbn. rewrite E1, E. auto.
Qed.

(** ** Lock discipline *)
Lemma lr_sub T n lf lc t m : lkrel T n lf lc -> (t, m) ∈ lk_holders lc -> (t, m) ∈ lk_holders lf.
Proof. intros [_ ->]. rewrite !elem_of_list_In, filter_In. by intros [? _]. Qed.
(** What a task in the middle of something holds. *)
Lemma mid_guards {H} (f : fsys H) (s : sys H) t p cur : sim f s -> locks_ok s -> f_tasks f !! t = Some (mkFT p cur) ->
  (moving p = true -> (t, MWrite) ∈ lk_holders (f_used f) /\ (t, MWrite) ∈ lk_holders (f_avail f)) /\
  (forall e, p = FAt (PRelAvailW e) -> (t, MWrite) ∈ lk_holders (f_used f)).
Proof.
  intros S HL Et. pose proof (s_mid _ _ S _ _ Et) as M. destruct (fp_of _ _ _ _ HL (sim_lookup _ _ _ _ _ S Et)) as [Fu _].
  split.
  - intros Hm. split.
    + apply (lr_sub _ _ _ _ _ _ (s_used _ _ S)). destruct p; try discriminate Hm; exact Fu.
    + apply (lr_sub _ _ _ _ _ _ (s_avail _ _ S)). destruct p; try discriminate Hm; cbn in M; apply M.
  - intros e ->. apply (lr_sub _ _ _ _ _ _ (s_used _ _ S)). exact Fu.
Qed.
Lemma held_guard l t m : (t, m) ∈ lk_holders l -> t ∈ (lk_holders l).*1.
Proof. intros E. by apply (elem_of_list_fmap_1 fst) in E. Qed.

Definition on_state {H} (g : fsys H -> fsys H) (x : option (fsys H * list event)) : option (fsys H * list event) :=
  match x with Some (f, ev) => Some (g f, ev) | None => None end.
Lemma with_avail_respond {H} dbg (f : fsys H) l t cur c r :
  Some (frespond dbg (with_avail f l) t cur c r) = on_state (fun g => with_avail g l) (Some (frespond dbg f t cur c r)).
Proof. unfold frespond. by destruct (obind r (response_to_bytes dbg)). Qed.
Lemma with_used_respond {H} dbg (f : fsys H) l t cur c r :
  Some (frespond dbg (with_used f l) t cur c r) = on_state (fun g => with_used g l) (Some (frespond dbg f t cur c r)).
Proof. unfold frespond. by destruct (obind r (response_to_bytes dbg)). Qed.

Lemma avail_untouched {H} dbg (f : fsys H) (s : sys H) l x : sim f s -> locks_ok s ->
  (forall t, l = LRun t -> ~ guarded f Available t) ->
  fstep dbg (with_avail f x) l = on_state (fun g => with_avail g x) (fstep dbg f l).
Proof.
  intros S HL Hg. destruct l as [t|t c|t e|t|t|t e|t d|t id|r g| | |t]; cbn [fstep with_avail f_tasks f_world f_used f_avail].
  - by destruct (f_tasks f !! t).
  - by destruct (f_tasks f !! t) as [[[[]| | | | | |] cur]|].
  - by destruct (f_tasks f !! t) as [[[[]| | | | | |] [id|]]|].
  - destruct (f_tasks f !! t) as [[[[]| | | | | |] cur]|]; try done. by destruct dbg.
  - by destruct (f_tasks f !! t) as [[[[]| | | | | |] cur]|].
  - by destruct (f_tasks f !! t) as [[[[]| | | | | |] cur]|].
  - by destruct (f_tasks f !! t).
  - by destruct (f_tasks f !! t).
  - by destruct (c_poisoned _).
  - by destruct (lk_grant _).
  - by destruct (lk_grant _).
  - specialize (Hg t eq_refl). unfold guarded in Hg. cbn in Hg.
    destruct (f_tasks f !! t) as [[p cur]|] eqn:Et; [|done]. destruct (mid_guards _ _ _ _ _ S HL Et) as [G1 G2].
    assert (Nh : forall m, lk_holds t m (f_avail f) = false).
    { intros m. destruct (lk_holds t m (f_avail f)) eqn:E; [|done]. apply lk_holds_in, held_guard in E. done. }
    destruct p as [q|c dev|st ds|st b d|st b id|e d|ls q]; cbn [frun_task ft_pc ft_cur].
    + destruct q as [|c|n|n b|n b|n b|b|e|e|r|d| |id|id|r]; try done; cbn [with_avail f_used f_avail f_server]; rewrite ?Nh; try done.
      * destruct (lk_holds _ _ _); [|done]. by unfold current_device.
      * by destruct (lk_holds _ _ _).
      * by destruct (lk_holds _ _ _).
      * by destruct (lk_holds _ _ _).
    + destruct c as [| |sb|]; try done.
      * cbn [with_avail f_world]. destruct (serve_submit _ _ _ _) as [r w']. apply (with_avail_respond dbg (fset_world f w')).
      * apply with_avail_respond.
    + apply with_avail_respond.
    + exfalso. apply Hg. by eapply held_guard, G1.
    + exfalso. apply Hg. by eapply held_guard, G1.
    + exfalso. apply Hg. by eapply held_guard, G1.
    + destruct ls as [|[] ls]; done.
Qed.
Lemma used_untouched {H} dbg (f : fsys H) (s : sys H) l x : sim f s -> locks_ok s ->
  (forall t, l = LRun t -> ~ guarded f Used t) ->
  fstep dbg (with_used f x) l = on_state (fun g => with_used g x) (fstep dbg f l).
Proof.
  intros S HL Hg. destruct l as [t|t c|t e|t|t|t e|t d|t id|r g| | |t]; cbn [fstep with_used f_tasks f_world f_used f_avail].
  - by destruct (f_tasks f !! t).
  - by destruct (f_tasks f !! t) as [[[[]| | | | | |] cur]|].
  - by destruct (f_tasks f !! t) as [[[[]| | | | | |] [id|]]|].
  - destruct (f_tasks f !! t) as [[[[]| | | | | |] cur]|]; try done. by destruct dbg.
  - by destruct (f_tasks f !! t) as [[[[]| | | | | |] cur]|].
  - by destruct (f_tasks f !! t) as [[[[]| | | | | |] cur]|].
  - by destruct (f_tasks f !! t).
  - by destruct (f_tasks f !! t).
  - by destruct (c_poisoned _).
  - by destruct (lk_grant _).
  - by destruct (lk_grant _).
  - specialize (Hg t eq_refl). unfold guarded in Hg. cbn in Hg.
    destruct (f_tasks f !! t) as [[p cur]|] eqn:Et; [|done]. destruct (mid_guards _ _ _ _ _ S HL Et) as [G1 G2].
    assert (Nh : forall m, lk_holds t m (f_used f) = false).
    { intros m. destruct (lk_holds t m (f_used f)) eqn:E; [|done]. apply lk_holds_in, held_guard in E. done. }
    destruct p as [q|c dev|st ds|st b d|st b id|e d|ls q]; cbn [frun_task ft_pc ft_cur].
    + destruct q as [|c|n|n b|n b|n b|b|e|e|r|d| |id|id|r]; try done; cbn [with_used f_used f_avail f_server sv_available]; rewrite ?Nh; try done.
      * by destruct (lk_holds _ _ _).
      * destruct (lk_holds _ _ _); [|done]. destruct (take_first _ _) as [[]|]; [done|]. apply with_used_respond.
      * exfalso. apply Hg. eapply held_guard, (G2 e eq_refl).
      * by destruct (lk_holds _ _ _).
      * destruct (lk_holds _ _ _); [|done]. unfold remove_available. cbn [sv_available]. by destruct (take_first _ _) as [[]|].
    + destruct c as [| |sb|]; try done.
      * cbn [with_used f_world]. destruct (serve_submit _ _ _ _) as [r w']. apply (with_used_respond dbg (fset_world f w')).
      * apply with_used_respond.
    + apply with_used_respond.
    + exfalso. apply Hg. by eapply held_guard, G1.
    + exfalso. apply Hg. by eapply held_guard, G1.
    + exfalso. apply Hg. by eapply held_guard, G1.
    + destruct ls as [|[] ls]; done.
Qed.
Lemma respond_server {H} dbg (f f' : fsys H) t cur c r ev : Some (frespond dbg f t cur c r) = Some (f', ev) -> f_server f' = f_server f.
Proof. unfold frespond. by destruct (obind r (response_to_bytes dbg)); intros [= <- <-]. Qed.
Lemma writers_only {H} dbg (f : fsys H) (s : sys H) l f' ev : sim f s -> locks_ok s -> fstep dbg f l = Some (f', ev) ->
  (sv_available (f_server f') <> sv_available (f_server f) -> exists t, l = LRun t /\ (t, MWrite) ∈ lk_holders (f_avail f)) /\
  (sv_used (f_server f') <> sv_used (f_server f) -> exists t, l = LRun t /\ (t, MWrite) ∈ lk_holders (f_used f)).
Proof.
  intros S HL E.
  assert (HG : f_server f' = f_server f \/ exists t, l = LRun t /\
    (sv_available (f_server f') <> sv_available (f_server f) -> (t, MWrite) ∈ lk_holders (f_avail f)) /\
    (sv_used (f_server f') <> sv_used (f_server f) -> (t, MWrite) ∈ lk_holders (f_used f))).
  2:{ destruct HG as [-> |(t & -> & G1 & G2)]; [by split|]. split; intros X; exists t; auto. }
  destruct l as [t|t c|t e|t|t|t e|t d|t id|r g| | |t]; cbn [fstep] in E;
    try (left; repeat (case_match; try discriminate); injection E as <- <-; done).
  destruct (f_tasks f !! t) as [[p cur]|] eqn:Et; [|done]. destruct (mid_guards _ _ _ _ _ S HL Et) as [G1 G2].
  destruct p as [q|c dev|st ds|st b d|st b id|e d|ls q]; cbn [frun_task ft_pc ft_cur] in E.
  - destruct q as [|c|n|n b|n b|n b|b|e|e|r|d| |id|id|r]; try discriminate;
      try match type of E with context [lk_holds t ?m (?g f)] => destruct (lk_holds t m (g f)) eqn:Hh; [|discriminate]; apply lk_holds_in in Hh end;
      try (left; injection E as <- <-; done).
    + destruct (take_first _ _) as [[d rest]|]; [|left; by eapply respond_server]. injection E as <- <-. right. exists t. by split_and!.
    + destruct cur as [id|]; [|done]. destruct (sv_used _ !! id); injection E as <- <-; [|by left]. right. exists t. split_and!; [done|done|].
      intros _. by apply (G2 e).
    + injection E as <- <-. right. exists t. by split_and!.
    + destruct (remove_available (f_server f) id) as [sv'|] eqn:Er; injection E as <- <-; [|by left]. right. exists t. split_and!; [done|done|].
      unfold remove_available in Er. destruct (take_first _ _) as [[]|]; [|done]. by injection Er as <-.
  - destruct c as [| |sb|]; try (left; injection E as <- <-; done).
    + destruct (serve_submit _ _ _ _) as [r w']. left. by apply respond_server in E.
    + left. by eapply respond_server.
  - left. by eapply respond_server.
  - right. exists t. split; [done|]. by destruct (G1 eq_refl).
  - destruct (sv_used _ !! id); [|done]. left. by eapply respond_server.
  - right. exists t. split; [done|]. by destruct (G1 eq_refl).
  - left. destruct ls as [|[] ls]; by injection E as <- <-.
Qed.

(** A writer excludes everybody else. *)
Definition excl (l : rwlock) : Prop := forall t, (t, MWrite) ∈ lk_holders l -> lk_holders l = [(t, MWrite)].
Definition excls {H} (f : fsys H) : Prop := excl (f_used f) /\ excl (f_avail f).
Lemma excl_release t l : excl l -> excl (lk_release t l).
Proof.
  intros Hw u. cbn. rewrite filter_out. intros [Hu Hut]. rewrite (Hw _ Hu). cbn in *.
  apply N.eqb_neq in Hut. by rewrite Hut.
Qed.
Lemma excl_grant l l' : lk_grant l = Some l' -> excl l -> excl l'.
Proof.
  unfold lk_grant, excl. destruct l as [hs [|[t m] q]]; cbn [lk_queue lk_holders] in *; [done|].
  destruct (compatible m hs) eqn:Ec; [|done]. intros [= <-] Hw. cbn.
  intros u [[= <- <-]|Hu]%elem_of_cons.
  - by rewrite (compatible_write _ Ec).
  - destruct m; [by apply compatible_read with (t := u) in Ec|].
    apply compatible_write in Ec as ->. by apply elem_of_nil in Hu.
Qed.
Lemma excls_respond {H} dbg (f f' : fsys H) t cur c r ev : Some (frespond dbg f t cur c r) = Some (f', ev) -> excls f -> excls f'.
Proof. unfold frespond. by destruct (obind r (response_to_bytes dbg)); intros [= <- <-]. Qed.
Lemma excls_step {H} dbg (f : fsys H) l f' ev : fstep dbg f l = Some (f', ev) -> excls f -> excls f'.
Proof.
  intros E HX. pose proof HX as [X1 X2]. destruct l as [t|t c|t e|t|t|t e|t d|t id|r g| | |t]; cbn [fstep] in E;
    try (repeat (case_match; try discriminate); injection E as <- <-; done).
  - destruct (lk_grant (f_used f)) eqn:Eg; [|done]. injection E as <- <-. split; [by eapply excl_grant|done].
  - destruct (lk_grant (f_avail f)) eqn:Eg; [|done]. injection E as <- <-. split; [done|by eapply excl_grant].
  - destruct (f_tasks f !! t) as [[p cur]|] eqn:Et; [|done].
    destruct p as [q|c dev|st ds|st b d|st b id|e d|ls q]; cbn [frun_task ft_pc ft_cur] in E.
    + destruct q as [|c|n|n b|n b|n b|b|e|e|r|d| |id|id|r]; try discriminate;
        repeat (case_match; try discriminate); try (by eapply excls_respond); injection E as <- <-; done.
    + destruct c as [| |sb|].
      * by injection E as <- <-.
      * injection E as <- <-. split; [by apply excl_release|done].
      * destruct (serve_submit _ _ _ _) as [r w']. eapply excls_respond; [exact E|done].
      * by eapply excls_respond.
    + by eapply excls_respond.
    + by injection E as <- <-.
    + destruct (sv_used _ !! id); [|done]. by eapply excls_respond.
    + destruct cur; [|done]. by injection E as <- <-.
    + destruct ls as [|[] ls]; injection E as <- <-; split; try done; by apply excl_release.
Qed.
Lemma excls_run {H} dbg (f : fsys H) ls f' evs : frun dbg f ls = Some (f', evs) -> excls f -> excls f'.
Proof.
  revert f f' evs. induction ls as [|l ls IH]; intros f f' evs E HX; cbn in E; [by injection E as <- <-|].
  destruct (fstep dbg f l) as [[f1 e1]|] eqn:E1; [|done]. destruct (frun dbg f1 ls) as [[f2 e2]|] eqn:E2; [|done]. injection E as <- <-.
  eapply IH; [exact E2|]. by eapply excls_step.
Qed.
Lemma excls_init {H} ds (w : world H) : excls (init_fsys ds w).
Proof. split; intros t Ht; by apply elem_of_nil in Ht. Qed.
