(** * Proofs about devices that share a bus id *)
From Verif Require Export SpecDup DevProofs.

Record dup_inv {H} (ds : list device) (s : sys H) (evs : list event) : Prop := {
  du_ledger : exists l, entrusted ds evs l /\ Permutation (all_devices (y_server s)) l;
  du_taken : forall id, id ∈ taken evs <-> is_Some (sv_used (y_server s) !! id);
  du_filed : filed (y_server s);
  (* held devices are in use *)
  du_held : forall t d, held evs t = Some d -> sv_used (y_server s) !! d_bus_id d = Some d;
  du_excl : forall t t' d d', held evs t = Some d -> held evs t' = Some d' ->
    d_bus_id d = d_bus_id d' -> t = t';
  (* the connection's own idea of what it holds *)
  du_cur : forall t k, y_tasks s !! t = Some k -> finished (t_pc k) = false -> importing (t_pc k) = false ->
    t_cur k = d_bus_id <$> held evs t;
  du_importing : forall t k, y_tasks s !! t = Some k -> importing (t_pc k) = true -> t_cur k = None;
  du_rel : forall t k, y_tasks s !! t = Some k -> releasing (t_pc k) = true -> is_Some (t_cur k);
  du_absent : forall t, y_tasks s !! t = None -> held evs t = None;
  du_ended : forall t k, y_tasks s !! t = Some k -> finished (t_pc k) = true -> held evs t = None;
  (* a remove_device call waiting for the in-use table found nothing available *)
  du_removing : forall t id cur, y_tasks s !! t = Some (mkTask (PRemUsedR id) cur) ->
    remove_available (y_server s) id = None }.

Lemma taken_app e1 e2 : taken (e1 ++ e2) = foldl taken1 (taken e1) e2.
Proof. unfold taken. apply foldl_app. Qed.
(** Events that move no device in or out. *)
Definition still (e : event) : bool :=
  match e with
  | EvServe _ (OpReqImport _ _) (Val (OpRepImport _ (Some _))) | EvRelease _ _ | EvAdd _ _ | EvRemove _ _ (IOk _) => false
  | _ => true
  end.
Lemma still_entrusted ds evs l ev : entrusted ds evs l -> forallb still ev = true -> entrusted ds (evs ++ ev) l.
Proof.
  revert evs. induction ev as [|e ev IH]; intros evs; cbn; [by rewrite app_nil_r|]. intros E [H1 H2]%andb_prop.
  replace (evs ++ e :: ev) with ((evs ++ [e]) ++ ev) by (by rewrite <- app_assoc). apply IH; [|done]. apply et_other; [done|]. destruct e as [| | |? ? r| |]; try done; by destruct r.
Qed.
Lemma still_taken evs ev : forallb still ev = true -> taken (evs ++ ev) = taken evs.
Proof.
  rewrite taken_app. generalize (taken evs). induction ev as [|e ev IH]; intros l; cbn; [done|].
  intros [H1 H2]%andb_prop. rewrite IH by done. destruct e as [? c r| | | | |]; try done. destruct c; try done. destruct r as [r| |]; try done. destruct r as [| ? o| |]; try done. by destruct o.
Qed.

Lemma dup_init {H} ds (w : world H) : dup_inv ds (init_sys ds w) [].
Proof.
  split; cbn; try (intros; rewrite ?lookup_empty in *; done).
  - exists ds. split; [constructor|]. unfold all_devices, in_use, init_sys; cbn. rewrite map_to_list_empty. cbn. by rewrite app_nil_r.
  - intros id. rewrite lookup_empty. split; [by intros ?%elem_of_nil|by intros []].
Qed.


(** One task acts: it may change its own status, what it holds, and the server. *)
Lemma dup_upd {H} ds (s s' : sys H) evs ev t k :
  dup_inv ds s evs -> y_tasks s' = <[t := k]> (y_tasks s) ->
  (forall u, u <> t -> held (evs ++ ev) u = held evs u) ->
  (exists l, entrusted ds (evs ++ ev) l /\ Permutation (all_devices (y_server s')) l) ->
  (forall id, id ∈ taken (evs ++ ev) <-> is_Some (sv_used (y_server s') !! id)) ->
  filed (y_server s') ->
  (forall u d, u <> t -> held evs u = Some d -> sv_used (y_server s') !! d_bus_id d = Some d) ->
  (forall d, held (evs ++ ev) t = Some d -> sv_used (y_server s') !! d_bus_id d = Some d /\
     forall u d', u <> t -> held evs u = Some d' -> d_bus_id d <> d_bus_id d') ->
  (finished (t_pc k) = false -> importing (t_pc k) = false -> t_cur k = d_bus_id <$> held (evs ++ ev) t) ->
  (importing (t_pc k) = true -> t_cur k = None) ->
  (releasing (t_pc k) = true -> is_Some (t_cur k)) ->
  (finished (t_pc k) = true -> held (evs ++ ev) t = None) ->
  (forall u id cur, u <> t -> y_tasks s !! u = Some (mkTask (PRemUsedR id) cur) ->
     remove_available (y_server s') id = None) ->
  (forall id, t_pc k = PRemUsedR id -> remove_available (y_server s') id = None) ->
  dup_inv ds s' (evs ++ ev).
Proof.
  intros [I1 Ik I2 I3 I4 I5 I6 I7 I8 I9 I10] Et Eh El Hk Hf Hu Ht K1 K2 K3 K4 Kr K5.
  assert (L : forall u, u <> t -> y_tasks s' !! u = y_tasks s !! u) by (intros u E; rewrite Et; apply lookup_insert_ne; congruence).
  assert (L' : y_tasks s' !! t = Some k) by (rewrite Et; apply lookup_insert).
  split; try done.
  - intros u d. destruct (decide (u = t)) as [->|E]; [intros ?; by apply Ht|]. rewrite Eh by done. by apply Hu.
  - intros u u' d d' E1 E2 E. destruct (decide (u = t)) as [->|Nu], (decide (u' = t)) as [->|Nu']; try done.
    + rewrite Eh in E2 by done. by apply (proj2 (Ht _ E1) _ _ Nu') in E2.
    + rewrite Eh in E1 by done. symmetry in E. by apply (proj2 (Ht _ E2) _ _ Nu) in E1.
    + rewrite Eh in E1, E2 by done. by eapply I4.
  - intros u k'. destruct (decide (u = t)) as [->|E]; [rewrite L'; intros [= <-]; done|].
    rewrite L, Eh by done. apply I5.
  - intros u k'. destruct (decide (u = t)) as [->|E]; [rewrite L'; intros [= <-]; done|].
    rewrite L by done. apply I6.
  - intros u k'. destruct (decide (u = t)) as [->|E]; [rewrite L'; intros [= <-]; done|].
    rewrite L by done. apply I7.
  - intros u. destruct (decide (u = t)) as [->|E]; [rewrite L'; done|].
    rewrite L, Eh by done. apply I8.
  - intros u k'. destruct (decide (u = t)) as [->|E]; [rewrite L'; intros [= <-]; done|].
    rewrite L, Eh by done. apply I9.
  - intros u id cur. destruct (decide (u = t)) as [->|E]; [rewrite L'; intros [= ->]; by apply K5|].
    rewrite L by done. by apply Kr.
Qed.

(** Steps that do not touch the devices. *)
Lemma dup_frame {H} ds (s s' : sys H) evs ev t k :
  dup_inv ds s evs -> y_server s' = y_server s -> y_tasks s' = <[t := k]> (y_tasks s) ->
  forallb still ev = true ->
  (forall u, u <> t -> held (evs ++ ev) u = held evs u) ->
  held (evs ++ ev) t = held evs t \/ held (evs ++ ev) t = None ->
  (finished (t_pc k) = false -> importing (t_pc k) = false -> t_cur k = d_bus_id <$> held (evs ++ ev) t) ->
  (importing (t_pc k) = true -> t_cur k = None) ->
  (releasing (t_pc k) = true -> is_Some (t_cur k)) ->
  (finished (t_pc k) = true -> held (evs ++ ev) t = None) ->
  (forall id, t_pc k = PRemUsedR id -> remove_available (y_server s) id = None) ->
  dup_inv ds s' (evs ++ ev).
Proof.
  intros HI Es Et El Eh Eh' K1 K2 K3 K4 K5. pose proof HI as [I1 Ik I2 I3 I4 I5 I6 I7 I8 I9 I10].
  apply (dup_upd ds s s' evs ev t k); rewrite ?Es, ?(still_taken _ _ El); try done.
  - destruct I1 as (l & Hl & Hp). exists l. split; [by apply still_entrusted|done].
  - intros. by eapply I3.
  - intros d Hd. destruct Eh' as [Eh'|Eh']; [rewrite Eh' in Hd|congruence].
    split; [by eapply I3|]. intros u d' Nu Hd' E. apply Nu. by eapply I4.
  - intros u id cur _. apply I10.
Qed.

(** Responding to a command other than import. *)
Lemma dup_answered {H} dbg ds (s s0 s' : sys H) evs t cur p c r ev :
  dup_inv ds s evs -> y_server s0 = y_server s -> y_tasks s0 = y_tasks s ->
  y_tasks s !! t = Some (mkTask p cur) -> finished p = false -> importing p = false ->
  quiet_ev (EvServe t c r) = true ->
  answered dbg s0 t cur c r s' ev -> dup_inv ds s' (evs ++ ev).
Proof.
  intros HI Es Et Ek Hf Hi Hq A. pose proof (du_cur _ _ _ HI _ _ Ek Hf Hi) as Hc. cbn [t_cur] in Hc.
  assert (Hh : forall e, quiet_ev e = true -> held1 (held evs) e = held evs) by (by intros [? [] ?| | | | |]).
  assert (Hl : still (EvServe t c r) = true) by (by destruct c).
  destruct A as [b E|e E He _].
  - eapply (dup_frame ds s _ evs _ t _ HI); [exact Es|cbn; by rewrite Et|cbn [forallb]; by rewrite Hl|..]; try done.
    + intros u _. rewrite held_app. cbn [foldl]. by rewrite Hh.
    + left. rewrite held_app. cbn [foldl]. by rewrite Hh.
    + intros _ _. rewrite held_app. cbn [foldl]. by rewrite Hh.
  - eapply (dup_frame ds s _ evs _ t _ HI); [exact Es|cbn; by rewrite Et|cbn [forallb]; by rewrite Hl|..]; try done.
    + intros u Nu. rewrite held_app. cbn [foldl]. rewrite Hh by done. cbn. by apply held_other.
    + right. rewrite held_app. cbn [foldl]. rewrite Hh by done. cbn. by apply held_same.
    + intros _. rewrite held_app. cbn [foldl]. rewrite Hh by done. cbn. by apply held_same.
Qed.

Lemma dup_move {H} dbg ds (s : sys H) evs l s' ev : move dbg s l s' ev -> locks_ok s ->
  dup_inv ds s evs -> no_clash (evs ++ ev) -> dup_inv ds s' (evs ++ ev).
Proof.
  intros M HL HI Hn. pose proof HI as [I1 Ik I2 I3 I4 I5 I6 I7 I8 I9 I10].
  destruct M;
    try match goal with E : lk_holds _ _ _ = true |- _ => apply lk_holds_in in E as Hh end.
  - eapply (dup_frame ds s _ evs _ t _ HI); try done; rewrite ?app_nil_r; try done; [by left|].
    intros _ _. cbn. by rewrite I8.
  - eapply (dup_frame ds s _ evs _ t _ HI); try done; rewrite ?app_nil_r; try done; [by left|].
    intros _ _. by apply (I5 _ _ H0).
  - eapply (dup_frame ds s _ evs _ t _ HI); try done; rewrite ?held_app; cbn;
      [intros; by apply held_other|right; by apply held_same|intros; by apply held_same].
  - eapply (dup_frame ds s _ evs _ t _ HI); try done; rewrite ?app_nil_r; try done; [by left|].
    intros _ _. by apply (I5 _ _ H0).
  - eapply (dup_frame ds s _ evs _ t _ HI); try done; rewrite ?held_app; cbn;
      [intros; by apply held_other|right; by apply held_same|intros; by apply held_same].
  - eapply (dup_frame ds s _ evs _ t _ HI); try done; rewrite ?held_app; cbn; try done; [by left|].
    intros _ _. by apply (I5 _ _ H0).
  - eapply (dup_frame ds s _ evs _ t _ HI); try done; rewrite ?held_app; cbn;
      [intros; by apply held_other|right; by apply held_same|intros; by apply held_same].
  - eapply (dup_frame ds s _ evs _ t _ HI); try done; rewrite ?app_nil_r; try done; [by left|].
    intros _ _. cbn. by rewrite I8.
  - eapply (dup_frame ds s _ evs _ t _ HI); try done; rewrite ?app_nil_r; try done; [by left|].
    intros _ _. cbn. by rewrite I8.
  - rewrite app_nil_r. by destruct HI.
  - rewrite app_nil_r. by destruct HI.
  - rewrite app_nil_r. by destruct HI.
  - eapply (dup_frame ds s _ evs _ t _ HI); try done; rewrite ?app_nil_r; try done; [by left|].
    intros _ _. by apply (I5 _ _ H0).
  - eapply (dup_frame ds s _ evs _ t _ HI); try done; rewrite ?app_nil_r; try done. by left.
  - eapply (dup_frame ds s _ evs _ t _ HI); try done; rewrite ?app_nil_r; try done; [by left|].
    intros _. by apply (I6 _ _ H0).
  - eapply (dup_answered dbg ds s (set_world s w')); [exact HI|reflexivity|reflexivity|eassumption|done|done| |eassumption]; done.
  - eapply (dup_answered dbg ds s s); [exact HI|reflexivity|reflexivity|eassumption|done|done| |eassumption]; done.
  - eapply (dup_answered dbg ds s s); [exact HI|reflexivity|reflexivity|eassumption|done|done| |eassumption]; done.
  - eapply (dup_frame ds s _ evs _ t _ HI); try done; rewrite ?app_nil_r; try done; [by left|].
    intros _. by apply (I6 _ _ H0).
  - (* import *)
    pose proof (I6 _ _ H0 eq_refl) as Hc. cbn in Hc. subst cur.
    assert (HE : exists k, y_tasks s' = <[t := k]> (y_tasks s) /\ y_server s' = sv' /\
      (forall u, u <> t -> held (evs ++ ev) u = held evs u) /\
      (held (evs ++ ev) t = r \/ held (evs ++ ev) t = None) /\
      (exists e2, ev = EvServe t (OpReqImport n busid) (Val (import_response r)) :: e2 /\ forallb still e2 = true) /\
      (finished (t_pc k) = false -> importing (t_pc k) = false -> t_cur k = d_bus_id <$> held (evs ++ ev) t) /\
      importing (t_pc k) = false /\ releasing (t_pc k) = false /\ (forall id, t_pc k <> PRemUsedR id) /\
      (finished (t_pc k) = true -> held (evs ++ ev) t = None)).
    { assert (Hr : forall x h, held1 h (EvServe t (OpReqImport n busid) (Val (import_response r))) x = if x =? t then r else h x)
        by (intros x h; by destruct r).
      destruct H3 as [b E|e E He _]; eexists; (split; [reflexivity|]); (split; [reflexivity|]);
        rewrite held_app; cbn [foldl].
      - split; [intros u Nu; rewrite Hr; by apply held_other|]. rewrite Hr, held_same.
        split; [by left|]. split; [by exists []|]. done.
      - assert (He' : forall h u, held1 h (EvEnd t e) u = if u =? t then None else h u) by done.
        split; [intros u Nu; rewrite He', held_other by done; rewrite Hr; by apply held_other|]. rewrite He', held_same.
        split; [by right|]. split; [by eexists [_]|]. done. }
    destruct HE as (k & Et & Es & Eh & Eh' & (e2 & Ev & He2) & K1 & K2 & K3 & K4 & K5).
    destruct r as [d|].
    + apply import_some in H2 as (l1 & l2 & [Ea [_ _]] & Esv).
      assert (Hu : sv_used (y_server s) !! d_bus_id d = None).
      { destruct (sv_used (y_server s) !! d_bus_id d) as [x|] eqn:Ex; [|done]. exfalso.
        apply (Hn evs t n busid 0 d e2); [by rewrite Ev|]. apply Ik. by rewrite Ex. }
      assert (Hdiff : forall u d', held evs u = Some d' -> d_bus_id d <> d_bus_id d').
      { intros u d' Hd' E. apply I3 in Hd'. rewrite <- E, Hu in Hd'. done. }
      subst sv'. apply (dup_upd ds s s' evs ev t k HI Et Eh); rewrite ?Es.
      * destruct I1 as (l & Hl & Hp). exists l. split.
        -- rewrite Ev. replace (evs ++ _ :: e2) with ((evs ++ [EvServe t (OpReqImport n busid) (Val (import_response (Some d)))]) ++ e2)
             by (by rewrite <- app_assoc). apply still_entrusted; [|done]. by apply et_other.
        -- rewrite <- Hp. unfold all_devices. rewrite in_use_insert by done. cbn. rewrite Ea.
           rewrite <- !app_assoc. apply Permutation_app_head. cbn. symmetry. apply Permutation_middle.
      * intros id. rewrite Ev.
        replace (evs ++ _ :: e2) with ((evs ++ [EvServe t (OpReqImport n busid) (Val (import_response (Some d)))]) ++ e2)
          by (by rewrite <- app_assoc).
        rewrite (still_taken _ _ He2), taken_app. cbn [foldl taken1 import_response op_rep_import_success sv_used].
        rewrite elem_of_cons, Ik. destruct (decide (id = d_bus_id d)) as [-> |Ne].
        -- rewrite lookup_insert. split; [by eexists|by left].
        -- rewrite lookup_insert_ne by congruence. split; [by intros [?|?]|by right].
      * intros id d'. cbn. rewrite lookup_insert_Some. intros [[<- <-]|[_ E]]; [done|]. by apply I2.
      * intros u d' _ Hd'. cbn. rewrite lookup_insert_ne by (by eapply Hdiff). by eapply I3.
      * intros d' Hd'. destruct Eh' as [Eh'|Eh']; rewrite Eh' in Hd'; [|done]. injection Hd' as <-.
        split; [cbn; apply lookup_insert|]. intros u d' _. apply Hdiff.
      * done.
      * by rewrite K2.
      * by rewrite K3.
      * done.
      * intros u id cur Nu E. by eapply (no_removing s t u).
      * intros id E. by apply K4 in E.
    + apply import_none in H2 as [-> _].
      apply (dup_frame ds s s' evs ev t k HI); try done.
      * rewrite Ev. cbn [forallb]. by rewrite He2.
      * destruct Eh' as [Eh'|Eh']; by right.
      * by rewrite K2.
      * by rewrite K3.
      * intros id E. by apply K4 in E.
  - eapply (dup_frame ds s _ evs _ t _ HI); try done; rewrite ?app_nil_r; try done.
    + by left.
    + intros _ _. by apply (I5 _ _ H0).
    + intros _. by apply (I7 _ _ H0).
  - (* release *)
    pose proof (I5 _ _ H0 eq_refl eq_refl) as Hc. cbn in Hc.
    destruct (held evs t) as [d|] eqn:Hd; [|done]. injection Hc as ->.
    pose proof (I3 _ _ Hd) as Hu. unfold release_device in H2. rewrite Hu in H2. injection H2 as <-.
    eapply (dup_upd ds s _ evs _ t _ HI); [reflexivity|..]; rewrite ?held_app, ?taken_app;
      cbn [foldl held1 taken1 y_server set_task set_server drop_guards set_avail set_used t_pc]; try done.
    + intros u Nu. by rewrite !held_other.
    + destruct I1 as (l & Hl & Hp). exists l. split; [|rewrite <- Hp; unfold all_devices; cbn;
        rewrite (in_use_delete (y_server s) _ d (sv_available (y_server s) ++ [d]) Hu);
        rewrite <- app_assoc; apply Permutation_app_head; done].
      replace (evs ++ [_; _]) with ((evs ++ [EvRelease t (d_bus_id d)]) ++ [EvEnd t (read_end e)]) by (by rewrite <- app_assoc).
      apply still_entrusted; [|done]. by apply et_other.
    + intros id. rewrite elem_of_list_filter, Ik. cbn [sv_used]. destruct (decide (id = d_bus_id d)) as [-> |Ne].
      * rewrite lookup_delete. split; [by intros [? _]|by intros [? ?]].
      * rewrite lookup_delete_ne by congruence. split; [by intros [_ ?]|done].
    + intros id d'. cbn. rewrite lookup_delete_Some. intros [_ E]. by apply I2.
    + intros u d' Nu Hd'. cbn. rewrite lookup_delete_ne; [by eapply I3|].
      intros E. apply Nu. by eapply I4.
    + intros d0. rewrite N.eqb_refl. done.
    + intros _. by rewrite N.eqb_refl.
    + intros u id cur Nu E. by eapply (no_removing s t u).
  - (* release of an absent device *)
    pose proof (I5 _ _ H0 eq_refl eq_refl) as Hc. cbn in Hc.
    destruct (held evs t) as [d|] eqn:Hd; [|done]. injection Hc as ->.
    pose proof (I3 _ _ Hd) as Hu. unfold release_device in H2. by rewrite Hu in H2.
  - (* add *)
    eapply (dup_upd ds s _ evs _ t _ HI); [reflexivity|..]; rewrite ?held_app, ?taken_app;
      cbn [foldl held1 taken1 y_server set_task set_server drop_guards set_avail set_used t_pc]; try done.
    + destruct I1 as (l & Hl & Hp). exists (l ++ [d]). split; [by apply et_add|]. rewrite <- Hp.
      unfold all_devices, add_device, in_use. cbn. rewrite <- !app_assoc.
      apply Permutation_app_head. cbn. apply Permutation_cons_append.
    + intros u d' _ Hd'. by eapply I3.
    + intros d' Hd'. split; [by eapply I3|]. intros u d'' Nu Hd'' E. apply Nu. by eapply I4.
    + intros _ _. by apply (I5 _ _ H0).
    + intros u id cur' Nu E. by eapply (no_removing s t u).
  - (* remove *)
    apply remove_available_some in H2 as (d & l1 & l2 & (Ea & Hid & Hf) & ->).
    eapply (dup_upd ds s _ evs _ t _ HI); [reflexivity|..]; rewrite ?held_app, ?taken_app;
      cbn [foldl held1 taken1 y_server set_task set_server drop_guards set_avail set_used t_pc]; try done.
    + destruct I1 as (l & Hl & Hp). unfold all_devices in Hp. rewrite Ea in Hp.
      assert (Hin : d ∈ l) by (rewrite <- Hp, <- app_assoc; apply elem_of_app; right; left).
      apply elem_of_list_split in Hin as (k1 & k2 & ->). exists (k1 ++ k2). split; [subst id; by apply et_remove|].
      apply (Permutation_cons_inv (a := d)). rewrite Permutation_middle, <- Hp. unfold all_devices, in_use. cbn.
      rewrite <- !app_assoc. cbn. apply Permutation_middle.
    + intros u d' _ Hd'. by eapply I3.
    + intros d' Hd'. split; [by eapply I3|]. intros u d'' Nu Hd'' E. apply Nu. by eapply I4.
    + intros _ _. by apply (I5 _ _ H0).
    + intros u id' cur' Nu E. by eapply (no_removing s t u).
  - eapply (dup_frame ds s _ evs _ t _ HI); try done; rewrite ?app_nil_r; try done.
    + by left.
    + intros _ _. by apply (I5 _ _ H0).
    + cbn. by intros id' [= <-].
  - eapply (dup_frame ds s _ evs _ t _ HI); try done; rewrite ?held_app; cbn; try done.
    + by left.
    + intros _ _. by apply (I5 _ _ H0).
Qed.

Lemma no_clash_app e1 e2 : no_clash (e1 ++ e2) -> no_clash e1.
Proof. intros Hn evs1 t n f k d evs2 ->. apply (Hn evs1 t n f k d (evs2 ++ e2)). by rewrite <- app_assoc. Qed.
Lemma dup_run {H} dbg ds (w : world H) ls s evs : run dbg (init_sys ds w) ls = Some (s, evs) ->
  no_clash evs -> dup_inv ds s evs.
Proof.
  revert ls s evs. apply (run_ind dbg (init_sys ds w) (fun ls s evs => no_clash evs -> dup_inv ds s evs)).
  - intros _. apply dup_init.
  - intros ls s ev l s' ev' Hr IH Hs Hd. pose proof (no_clash_app _ _ Hd) as Hd'.
    eapply dup_move; [by apply step_move| |by apply IH|done].
    eapply locks_run; [exact Hr|apply locks_init].
Qed.
