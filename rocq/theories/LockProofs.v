(** * The two locks: who holds what, at every instant of every execution *)
From Verif Require Export SysProofs.

(** Holders and waiters of a lock. *)
Definition claims (l : rwlock) : list (tid * mode) := lk_holders l ++ lk_queue l.

(** Nobody claims a lock twice; a writer is the only holder. *)
Definition lock_ok (l : rwlock) : Prop :=
  NoDup (claims l).*1 /\ (forall t, (t, MWrite) ∈ lk_holders l -> lk_holders l = [(t, MWrite)]).

(** How a task relates to a lock. *)
Inductive foot := FNone | FReq (m : mode) | FHas (m : mode) | FSome | FFree.
Definition fp_ok (l : rwlock) (t : tid) (f : foot) : Prop :=
  match f with
  | FNone => t ∉ (claims l).*1
  | FReq m => (t, m) ∈ claims l
  | FHas m => (t, m) ∈ lk_holders l
  | FSome => t ∈ (lk_holders l).*1
  | FFree => t ∉ (lk_queue l).*1
  end.

Definition used_fp (p : option pc) : foot :=
  match p with
  | Some (PUsedR _) => FReq MRead
  | Some (PDevAvailR _) => FHas MRead
  | Some (PImpUsedW _ _) | Some (PRelUsedW _) => FReq MWrite
  | Some (PImpAvailW _ _) | Some (PRelAvailW _) => FHas MWrite
  | Some (PWrite _) => FSome
  | Some (PRemUsedR _) => FReq MRead
  | _ => FNone
  end.
Definition avail_fp (p : option pc) : foot :=
  match p with
  | Some (PDevAvailR _) => FReq MRead
  | Some (PImpAvailW _ _) | Some (PRelAvailW _) => FReq MWrite
  | Some (PAddAvailW _) | Some (PRemAvailW _) => FReq MWrite
  | Some (PRemUsedR _) => FHas MWrite
  | Some (PWrite _) => FFree
  | _ => FNone
  end.

Definition pc_of {H} (s : sys H) (t : tid) : option pc := t_pc <$> y_tasks s !! t.

Definition locks_ok {H} (s : sys H) : Prop :=
  lock_ok (y_used s) /\ lock_ok (y_avail s) /\
  forall t, fp_ok (y_used s) t (used_fp (pc_of s t)) /\ fp_ok (y_avail s) t (avail_fp (pc_of s t)).

(** ** Lists of claims *)
Lemma claims_in l t m : (t, m) ∈ claims l -> t ∈ (claims l).*1.
Proof. intros E. by apply (elem_of_list_fmap_1 fst) in E. Qed.
Lemma holders_in l t m : (t, m) ∈ lk_holders l -> (t, m) ∈ claims l.
Proof. intros. apply elem_of_app. by left. Qed.
Lemma claims_fun l t m m' : lock_ok l -> (t, m) ∈ claims l -> (t, m') ∈ claims l -> m = m'.
Proof.
  intros [Hn _] H1 H2. apply elem_of_list_lookup in H1 as [i Hi], H2 as [j Hj].
  assert (i = j) as ->.
  { apply (NoDup_lookup (claims l).*1 i j t Hn); by rewrite list_lookup_fmap, ?Hi, ?Hj. }
  congruence.
Qed.
Lemma holder_not_queued l t m : lock_ok l -> (t, m) ∈ lk_holders l -> t ∉ (lk_queue l).*1.
Proof.
  intros [Hn _] Hh Hq. unfold claims in Hn. rewrite fmap_app in Hn.
  apply NoDup_app in Hn as (_ & Hd & _). apply (Hd t); [|done].
  by apply (elem_of_list_fmap_1 fst) in Hh.
Qed.
Lemma lk_holds_in t m l : lk_holds t m l = true <-> (t, m) ∈ lk_holders l.
Proof. unfold lk_holds. apply bool_decide_eq_true. Qed.
Lemma fnone_claims l t m : fp_ok l t FNone -> (t, m) ∉ claims l.
Proof. cbn. intros Hn Hc. by apply Hn, (claims_in _ _ m). Qed.

Lemma filter_out t (l : list (tid * mode)) : forall x, x ∈ List.filter (fun h => negb (fst h =? t)) l <-> x ∈ l /\ x.1 <> t.
Proof.
  intros x. rewrite !elem_of_list_In, filter_In, negb_true_iff, N.eqb_neq. done.
Qed.
Lemma sublist_NoDup {A} (l k : list A) : sublist l k -> NoDup k -> NoDup l.
Proof.
  induction 1 as [|x l k Hs IH|x l k Hs IH]; [done|..]; rewrite ?NoDup_cons; intros [Hx Hk].
  - split; [|by apply IH]. intros Hl. apply Hx. eapply elem_of_submseteq; [done|by apply sublist_submseteq].
  - by apply IH.
Qed.
Lemma filter_out_sub t (l : list (tid * mode)) : sublist (List.filter (fun h => negb (fst h =? t)) l) l.
Proof.
  induction l as [|x l IH]; cbn; [constructor|]. destruct (negb _); by constructor.
Qed.

(** ** What the lock operations preserve *)
Definition trans (t : tid) (l l' : rwlock) : Prop :=
  lock_ok l' /\ forall u f, u <> t -> fp_ok l u f -> fp_ok l' u f.

Lemma tr_refl t l : lock_ok l -> trans t l l.
Proof. by split. Qed.
Lemma claims_request t m l : claims (lk_request t m l) = claims l ++ [(t, m)].
Proof. unfold claims, lk_request; cbn. by rewrite app_assoc. Qed.
Lemma tr_request t m l : lock_ok l -> fp_ok l t FNone -> trans t l (lk_request t m l).
Proof.
  intros [Hn Hw] Ht. split; [split|].
  - rewrite claims_request, fmap_app. apply NoDup_app. split; [done|]. split.
    + intros x Hx. cbn. rewrite elem_of_list_singleton. intros ->. by apply Ht.
    + cbn. constructor; [apply not_elem_of_nil|constructor].
  - done.
  - intros u [| | | |] Hu Hf; cbn [fp_ok] in *.
    + rewrite claims_request, fmap_app, elem_of_app. cbn. rewrite elem_of_list_singleton. tauto.
    + rewrite claims_request, elem_of_app. by left.
    + done.
    + done.
    + cbn. rewrite fmap_app, elem_of_app. cbn. rewrite elem_of_list_singleton. tauto.
Qed.
Lemma request_req t m l : fp_ok (lk_request t m l) t (FReq m).
Proof. cbn [fp_ok]. rewrite claims_request, elem_of_app, elem_of_list_singleton. by right. Qed.

Lemma claims_release_sub t l : sublist (claims (lk_release t l)) (claims l).
Proof. unfold claims, lk_release; cbn. apply sublist_app; [apply filter_out_sub|done]. Qed.
Lemma tr_release t l : lock_ok l -> trans t l (lk_release t l).
Proof.
  intros [Hn Hw]. split; [split|].
  - eapply sublist_NoDup; [apply fmap_sublist, claims_release_sub|done].
  - intros u. cbn. rewrite filter_out. intros [Hu Hut]. rewrite (Hw _ Hu). cbn in *.
    apply N.eqb_neq in Hut. by rewrite Hut.
  - intros u [|m|m| |] Hu Hf; cbn [fp_ok] in *.
    + intros Hc. apply Hf. eapply elem_of_submseteq; [done|].
      apply sublist_submseteq, fmap_sublist, claims_release_sub.
    + unfold claims, lk_release in *; cbn. rewrite elem_of_app, filter_out in *. cbn. tauto.
    + cbn. rewrite filter_out. done.
    + cbn. apply elem_of_list_fmap in Hf as ([v m] & -> & Hf). apply elem_of_list_fmap.
      exists (v, m). by rewrite filter_out.
    + done.
Qed.
Lemma release_none t l : fp_ok l t FFree -> fp_ok (lk_release t l) t FNone.
Proof.
  cbn. intros Hq. unfold claims, lk_release; cbn. rewrite fmap_app, elem_of_app.
  intros [Hh|Hh]; [|done]. apply elem_of_list_fmap in Hh as ([u m] & -> & Hh).
  apply filter_out in Hh. by destruct Hh.
Qed.
Lemma free_none l t : fp_ok l t FNone -> fp_ok l t FFree.
Proof. cbn. unfold claims. rewrite fmap_app, elem_of_app. tauto. Qed.
Lemma free_has l t m : lock_ok l -> (t, m) ∈ lk_holders l -> fp_ok l t FFree.
Proof. intros Hl Hh. cbn. by eapply holder_not_queued. Qed.
Lemma some_has l t m : (t, m) ∈ lk_holders l -> fp_ok l t FSome.
Proof. intros Hh. by apply (elem_of_list_fmap_1 fst) in Hh. Qed.
Lemma free_some l t : lock_ok l -> fp_ok l t FSome -> fp_ok l t FFree.
Proof.
  intros Hl Hs. cbn in Hs. apply elem_of_list_fmap in Hs as ([u m] & -> & Hs). by eapply free_has.
Qed.
Lemma tr_trans t l1 l2 l3 : trans t l1 l2 -> trans t l2 l3 -> trans t l1 l3.
Proof. intros [_ H1] [H2 H3]. split; [done|]. eauto. Qed.
Lemma release_absent t l : fp_ok l t FNone -> lk_release t l = l.
Proof.
  intros Ht. destruct l as [hs q]. unfold lk_release; cbn in *. f_equal.
  assert (Hh : t ∉ hs.*1). { intros Hh. apply Ht. unfold claims; cbn. rewrite fmap_app, elem_of_app. by left. }
  clear Ht. induction hs as [|[u m] hs IH]; [done|]. cbn in *.
  rewrite not_elem_of_cons in Hh. destruct Hh as [Hu Hh]. assert ((u =? t) = false) as -> by (apply N.eqb_neq; congruence).
  cbn. by rewrite IH.
Qed.

Lemma compatible_write hs : compatible MWrite hs = true -> hs = [].
Proof. by destruct hs. Qed.
Lemma compatible_read hs : compatible MRead hs = true -> forall t, (t, MWrite) ∉ hs.
Proof.
  cbn. rewrite forallb_forall. intros Hf t Hin. apply elem_of_list_In, Hf in Hin. done.
Qed.
Lemma claims_grant l l' : lk_grant l = Some l' -> Permutation (claims l') (claims l).
Proof.
  unfold lk_grant. destruct l as [hs [|[t m] q]]; cbn [lk_queue lk_holders]; [done|].
  destruct (compatible m hs); [|done]. intros [= <-]. unfold claims; cbn. apply Permutation_middle.
Qed.
Lemma grant_ok l l' : lk_grant l = Some l' -> lock_ok l -> lock_ok l' /\ forall u f, fp_ok l u f -> fp_ok l' u f.
Proof.
  intros E [Hn Hw]. pose proof (claims_grant _ _ E) as Hp. split; [split|].
  - by rewrite Hp.
  - unfold lk_grant in E. destruct l as [hs [|[t m] q]]; cbn [lk_queue lk_holders] in *; [done|].
    destruct (compatible m hs) eqn:Ec; [|done]. injection E as <-. cbn.
    intros u [[= <- <-]|Hu]%elem_of_cons.
    + by rewrite (compatible_write _ Ec).
    + destruct m; [by apply compatible_read with (t := u) in Ec|].
      apply compatible_write in Ec as ->. by apply elem_of_nil in Hu.
  - intros u [|m|m| |] Hf; cbn [fp_ok] in *.
    + by rewrite Hp.
    + by rewrite Hp.
    + unfold lk_grant in E. destruct l as [hs [|[t m'] q]]; cbn [lk_queue lk_holders] in *; [done|].
      destruct (compatible m' hs); [|done]. injection E as <-. cbn. rewrite elem_of_cons. by right.
    + unfold lk_grant in E. destruct l as [hs [|[t m'] q]]; cbn [lk_queue lk_holders] in *; [done|].
      destruct (compatible m' hs); [|done]. injection E as <-. cbn. rewrite elem_of_cons. by right.
    + unfold lk_grant in E. destruct l as [hs [|[t m'] q]]; cbn [lk_queue lk_holders] in *; [done|].
      destruct (compatible m' hs); [|done]. injection E as <-. cbn in *. rewrite elem_of_cons in Hf. tauto.
Qed.

(** ** The invariant is kept by every step *)
Lemma locks_upd {H} (s s' : sys H) t k : locks_ok s -> y_tasks s' = <[t := k]> (y_tasks s) ->
  trans t (y_used s) (y_used s') -> trans t (y_avail s) (y_avail s') ->
  fp_ok (y_used s') t (used_fp (Some (t_pc k))) -> fp_ok (y_avail s') t (avail_fp (Some (t_pc k))) ->
  locks_ok s'.
Proof.
  intros (Hu & Ha & Hf) Et [Hu' Tu] [Ha' Ta] Fu Fa. split; [done|]. split; [done|]. intros v.
  unfold pc_of. rewrite Et. destruct (decide (v = t)) as [->|Hv].
  - by rewrite lookup_insert.
  - rewrite lookup_insert_ne by congruence. destruct (Hf v). split; eauto.
Qed.

Lemma fp_of {H} (s : sys H) t p cur : locks_ok s -> y_tasks s !! t = Some (mkTask p cur) ->
  fp_ok (y_used s) t (used_fp (Some p)) /\ fp_ok (y_avail s) t (avail_fp (Some p)).
Proof. intros (_ & _ & Hf) E. specialize (Hf t). unfold pc_of in Hf. by rewrite E in Hf. Qed.
Lemma fp_absent {H} (s : sys H) t : locks_ok s -> y_tasks s !! t = None ->
  fp_ok (y_used s) t FNone /\ fp_ok (y_avail s) t FNone.
Proof. intros (_ & _ & Hf) E. specialize (Hf t). unfold pc_of in Hf. by rewrite E in Hf. Qed.

(** A task not in any queue may drop its guards. *)
Lemma drop_ok {H} (s s0 : sys H) t k : locks_ok s ->
  y_used s0 = y_used s -> y_avail s0 = y_avail s -> y_tasks s0 = y_tasks s ->
  fp_ok (y_used s) t FFree -> fp_ok (y_avail s) t FFree ->
  used_fp (Some (t_pc k)) = FNone -> avail_fp (Some (t_pc k)) = FNone ->
  locks_ok (set_task (drop_guards s0 t) t k).
Proof.
  intros HI Eu Ea Et Fu Fa Ku Ka. pose proof HI as (Hu & Ha & _).
  apply (locks_upd s _ t k HI); cbn [y_used y_avail y_tasks set_task drop_guards set_avail set_used]; rewrite ?Eu, ?Ea, ?Et; try done.
  - by apply tr_release.
  - by apply tr_release.
  - rewrite Ku. by apply release_none.
  - rewrite Ka. by apply release_none.
Qed.
Lemma keep_ok {H} (s s0 : sys H) t k : locks_ok s ->
  y_used s0 = y_used s -> y_avail s0 = y_avail s -> y_tasks s0 = y_tasks s ->
  fp_ok (y_used s) t (used_fp (Some (t_pc k))) -> fp_ok (y_avail s) t (avail_fp (Some (t_pc k))) ->
  locks_ok (set_task s0 t k).
Proof.
  intros HI Eu Ea Et Fu Fa. pose proof HI as (Hu & Ha & _).
  apply (locks_upd s _ t k HI); cbn [y_used y_avail y_tasks set_task drop_guards set_avail set_used]; rewrite ?Eu, ?Ea, ?Et; try done; by apply tr_refl.
Qed.
Lemma answered_ok {H} dbg (s s0 : sys H) t cur c r s' ev : locks_ok s ->
  y_used s0 = y_used s -> y_avail s0 = y_avail s -> y_tasks s0 = y_tasks s ->
  fp_ok (y_used s) t FSome -> fp_ok (y_avail s) t FFree ->
  answered dbg s0 t cur c r s' ev -> locks_ok s'.
Proof.
  intros HI Eu Ea Et Fu Fa [b E|e E _ _].
  - by apply (keep_ok s).
  - apply (drop_ok s); try done. apply free_some; [apply HI|done].
Qed.

Lemma locks_move {H} dbg (s : sys H) l s' ev : move dbg s l s' ev -> locks_ok s -> locks_ok s'.
Proof.
  intros M HI. pose proof HI as (Lu & La & Hf).
  destruct M;
    try match goal with E : y_tasks s !! ?t = Some (mkTask ?p ?c) |- _ => destruct (fp_of s t p c HI E) as [Fu Fa] end;
    try match goal with E : y_tasks s !! ?t = None |- _ => destruct (fp_absent s t HI E) as [Fu Fa] end;
    try match goal with E : lk_holds _ _ _ = true |- _ => apply lk_holds_in in E as Hh end;
    cbn [used_fp avail_fp] in *.
  - by apply (keep_ok s).
  - eapply (locks_upd s _ t _ HI); [reflexivity|..]; cbn [y_used y_avail y_tasks set_task set_avail set_used want_used want_avail t_pc used_fp avail_fp]; [by apply tr_request|by apply tr_refl|apply request_req|done].
  - by apply (keep_ok s).
  - eapply (locks_upd s _ t _ HI); [reflexivity|..]; cbn [y_used y_avail y_tasks set_task set_avail set_used want_used want_avail t_pc used_fp avail_fp]; [by apply tr_request|by apply tr_refl|apply request_req|done].
  - by apply (keep_ok s).
  - apply (drop_ok s); try done. by apply free_some.
  - apply (drop_ok s); try done. by apply free_some.
  - eapply (locks_upd s _ t _ HI); [reflexivity|..]; cbn [y_used y_avail y_tasks set_task set_avail set_used want_used want_avail t_pc used_fp avail_fp]; [by apply tr_refl|by apply tr_request|done|apply request_req].
  - eapply (locks_upd s _ t _ HI); [reflexivity|..]; cbn [y_used y_avail y_tasks set_task set_avail set_used want_used want_avail t_pc used_fp avail_fp]; [by apply tr_refl|by apply tr_request|done|apply request_req].
  - done.
  - destruct (grant_ok _ _ H0 Lu) as [Lu' Hg]. split; [done|]. split; [done|]. intros u.
    destruct (Hf u) as [F1 F2]. split; [by apply Hg|done].
  - destruct (grant_ok _ _ H0 La) as [La' Hg]. split; [done|]. split; [done|]. intros u.
    destruct (Hf u) as [F1 F2]. split; [done|by apply Hg].
  - eapply (locks_upd s _ t _ HI); [reflexivity|..]; cbn [y_used y_avail y_tasks set_task set_avail set_used want_used want_avail t_pc used_fp avail_fp]; [by apply tr_refl|by apply tr_request|done|apply request_req].
  - pose proof (release_none t _ (free_has _ _ _ Lu Hh)) as Fn.
    eapply (locks_upd s _ t _ HI); [reflexivity|..]; cbn [y_used y_avail y_tasks set_task set_avail set_used want_used want_avail t_pc used_fp avail_fp]; [by apply tr_release|by apply tr_refl|done|done].
  - eapply (locks_upd s _ t _ HI); [reflexivity|..]; cbn [y_used y_avail y_tasks set_task set_avail set_used want_used want_avail t_pc used_fp avail_fp]; [by apply tr_request|by apply tr_refl|apply request_req|done].
  - eapply (answered_ok dbg s); [exact HI| | | | | |eassumption]; [done|done|done|by eapply some_has|by apply free_none].
  - eapply (answered_ok dbg s); [exact HI| | | | | |eassumption]; [done|done|done|by eapply some_has|by apply free_none].
  - eapply (answered_ok dbg s); [exact HI| | | | | |eassumption]; [done|done|done|by eapply some_has|by eapply free_has].
  - eapply (locks_upd s _ t _ HI); [reflexivity|..]; cbn [y_used y_avail y_tasks set_task set_avail set_used want_used want_avail t_pc used_fp avail_fp]; [by apply tr_refl|by apply tr_request|done|apply request_req].
  - eapply (answered_ok dbg s); [exact HI| | | | | |eassumption]; [done|done|done|by eapply some_has|by eapply free_has].
  - eapply (locks_upd s _ t _ HI); [reflexivity|..]; cbn [y_used y_avail y_tasks set_task set_avail set_used want_used want_avail t_pc used_fp avail_fp]; [by apply tr_refl|by apply tr_request|done|apply request_req].
  - apply (drop_ok s); try done; by eapply free_has.
  - apply (drop_ok s); try done; by eapply free_has.
  - apply (drop_ok s); try done; [by apply free_none|by eapply free_has].
  - apply (drop_ok s); try done; [by apply free_none|by eapply free_has].
  - eapply (locks_upd s _ t _ HI); [reflexivity|..]; cbn [y_used y_avail y_tasks set_task set_avail set_used want_used want_avail t_pc used_fp avail_fp]; [by apply tr_request|by apply tr_refl|apply request_req|done].
  - apply (drop_ok s); try done; by eapply free_has.
Qed.
Lemma locks_step {H} dbg (s : sys H) l s' ev : step dbg s l = Some (s', ev) -> locks_ok s -> locks_ok s'.
Proof. intros E. by eapply locks_move, step_move. Qed.
Lemma locks_init {H} ds (w : world H) : locks_ok (init_sys ds w).
Proof.
  assert (lock_ok lk_free). { split; cbn; [constructor|]. intros t Ht. by apply elem_of_nil in Ht. }
  split; [done|]. split; [done|]. intros t. unfold pc_of; cbn. rewrite lookup_empty. cbn.
  split; apply not_elem_of_nil.
Qed.
Lemma locks_run {H} dbg (s : sys H) ls s' ev : run dbg s ls = Some (s', ev) -> locks_ok s -> locks_ok s'.
Proof.
  revert s s' ev. induction ls as [|l ls IH]; intros s s' ev; cbn.
  - by intros [= <- <-].
  - destruct (step dbg s l) as [[s1 e1]|] eqn:E; [|done].
    destruct (run dbg s1 ls) as [[s2 e2]|] eqn:E2; [|done]. intros [= <- <-] HI.
    eapply IH; [done|]. by eapply locks_step.
Qed.
