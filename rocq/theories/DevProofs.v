(** * Where the devices are, at every instant of every execution *)
From Verif Require Export SpecSys LockProofs.

(** ** Lists and maps of devices *)
Lemma take_first_some p ds d rest : take_first p ds = Some (d, rest) ->
  exists l1 l2, ds = l1 ++ d :: l2 /\ rest = l1 ++ l2 /\ p d = true /\ Forall (fun x => p x = false) l1.
Proof.
  revert rest. induction ds as [|x ds IH]; intros rest; cbn; [done|]. destruct (p x) eqn:E.
  - intros [= -> ->]. exists [], rest. auto using Forall_nil.
  - destruct (take_first p ds) as [[y r]|]; [|done]. intros [= -> <-].
    destruct (IH _ eq_refl) as (l1 & l2 & -> & -> & Hp & Hf). exists (x :: l1), l2. auto.
Qed.
Lemma take_first_none p ds : take_first p ds = None <-> Forall (fun x => p x = false) ds.
Proof.
  induction ds as [|x ds IH]; cbn; [split; auto|]. rewrite Forall_cons, <- IH. destruct (p x).
  - split; [done|]. by intros [? _].
  - destruct (take_first p ds) as [[y r]|]; split; try done. by intros [_ ?].
Qed.
Lemma take_first_intro p l1 d l2 : p d = true -> Forall (fun x => p x = false) l1 ->
  take_first p (l1 ++ d :: l2) = Some (d, l1 ++ l2).
Proof.
  intros Hd. induction 1 as [|x l1 Hx _ IH]; cbn; [by rewrite Hd|]. by rewrite Hx, IH.
Qed.

Lemma in_use_insert sv id d l : sv_used sv !! id = None ->
  Permutation (in_use (mkServer l (<[id := d]> (sv_used sv)))) (d :: in_use sv).
Proof. intros E. unfold in_use. cbn. by rewrite map_to_list_insert. Qed.
Lemma in_use_delete sv id d l : sv_used sv !! id = Some d ->
  Permutation (in_use sv) (d :: in_use (mkServer l (delete id (sv_used sv)))).
Proof.
  intros E. unfold in_use. cbn. rewrite <- (insert_delete _ id d E) at 1.
  rewrite map_to_list_insert by apply lookup_delete. done.
Qed.
Lemma in_use_elem sv d : d ∈ in_use sv <-> exists id, sv_used sv !! id = Some d.
Proof.
  unfold in_use. rewrite elem_of_list_fmap. split.
  - intros ([id d'] & -> & E). apply elem_of_map_to_list in E. eauto.
  - intros [id E]. exists (id, d). split; [done|]. by apply elem_of_map_to_list.
Qed.

(** Every device in the in-use table is filed under its own bus id. *)
Definition filed (sv : server) : Prop := forall id d, sv_used sv !! id = Some d -> d_bus_id d = id.

Lemma avail_not_used sv d : NoDup (d_bus_id <$> all_devices sv) -> filed sv ->
  d ∈ sv_available sv -> sv_used sv !! d_bus_id d = None.
Proof.
  intros Hn Hf Hd. destruct (sv_used sv !! d_bus_id d) as [d'|] eqn:E; [|done]. exfalso.
  unfold all_devices in Hn. rewrite fmap_app in Hn. apply NoDup_app in Hn as (_ & Hx & _).
  apply (Hx (d_bus_id d)); [by apply elem_of_list_fmap_1|]. rewrite <- (Hf _ _ E).
  apply elem_of_list_fmap_1, in_use_elem. eauto.
Qed.

Lemma ledger_app ds e1 e2 : ledger ds (e1 ++ e2) = ledger (ledger ds e1) e2.
Proof. unfold ledger. apply foldl_app. Qed.
Lemma held_app e1 e2 : held (e1 ++ e2) = foldl held1 (held e1) e2.
Proof. unfold held. apply foldl_app. Qed.
Lemma distinct_app ds e1 e2 : distinct_ids ds (e1 ++ e2) -> distinct_ids ds e1.
Proof. intros Hd a b ->. apply (Hd a (b ++ e2)). by rewrite app_assoc. Qed.
Lemma distinct_last ds evs : distinct_ids ds evs -> NoDup (d_bus_id <$> ledger ds evs).
Proof. intros Hd. apply (Hd evs []). by rewrite app_nil_r. Qed.

(** ** The invariant *)
Definition quiet_ev (e : event) : bool :=     (* concerns no device *)
  match e with
  | EvServe _ (OpReqImport _ _) _ | EvRelease _ _ | EvAdd _ _ | EvRemove _ _ _ | EvEnd _ _ => false
  | _ => true
  end.

Definition importing (p : pc) : bool :=
  match p with PImpStart _ _ | PImpUsedW _ _ | PImpAvailW _ _ => true | _ => false end.
Definition finished (p : pc) : bool := match p with PEnd _ => true | _ => false end.
Definition releasing (p : pc) : bool :=
  match p with PRelUsedW _ | PRelAvailW _ => true | _ => false end.
Definition api (p : pc) : bool :=
  match p with PAddAvailW _ | PAdded | PRemAvailW _ | PRemUsedR _ | PRemoved _ => true | _ => false end.

Record dev_inv {H} (ds : list device) (s : sys H) (evs : list event) : Prop := {
  di_ledger : Permutation (all_devices (y_server s)) (ledger ds evs);
  di_filed : filed (y_server s);
  (* held devices are in use *)
  di_held : forall t d, held evs t = Some d -> sv_used (y_server s) !! d_bus_id d = Some d;
  di_excl : forall t t' d d', held evs t = Some d -> held evs t' = Some d' ->
    d_bus_id d = d_bus_id d' -> t = t';
  (* the connection's own idea of what it holds *)
  di_cur : forall t k, y_tasks s !! t = Some k -> finished (t_pc k) = false -> importing (t_pc k) = false ->
    t_cur k = d_bus_id <$> held evs t;
  di_importing : forall t k, y_tasks s !! t = Some k -> importing (t_pc k) = true -> t_cur k = None;
  di_rel : forall t k, y_tasks s !! t = Some k -> releasing (t_pc k) = true -> is_Some (t_cur k);
  di_absent : forall t, y_tasks s !! t = None -> held evs t = None;
  di_ended : forall t k, y_tasks s !! t = Some k -> finished (t_pc k) = true -> held evs t = None;
  (* a remove_device call waiting for the in-use table found nothing available *)
  di_removing : forall t id cur, y_tasks s !! t = Some (mkTask (PRemUsedR id) cur) ->
    remove_available (y_server s) id = None }.

Lemma dev_init {H} ds (w : world H) : dev_inv ds (init_sys ds w) [].
Proof.
  split; cbn; try (intros; rewrite ?lookup_empty in *; done).
  - unfold all_devices, in_use, init_sys; cbn. rewrite map_to_list_empty. cbn. by rewrite app_nil_r.
Qed.


Lemma writer_alone l t u m : lock_ok l -> (t, MWrite) ∈ lk_holders l -> (u, m) ∈ lk_holders l -> u = t.
Proof. intros [_ Hw] Ht Hu. rewrite (Hw _ Ht) in Hu. apply elem_of_list_singleton in Hu. congruence. Qed.

(** One task acts: it may change its own status, what it holds, and the server. *)
Lemma dev_upd {H} ds (s s' : sys H) evs ev t k :
  dev_inv ds s evs -> y_tasks s' = <[t := k]> (y_tasks s) ->
  (forall u, u <> t -> held (evs ++ ev) u = held evs u) ->
  Permutation (all_devices (y_server s')) (ledger ds (evs ++ ev)) ->
  filed (y_server s') ->
  (forall u d, u <> t -> held evs u = Some d -> sv_used (y_server s') !! d_bus_id d = Some d) ->
  (forall d, held (evs ++ ev) t = Some d -> sv_used (y_server s') !! d_bus_id d = Some d /\
     forall u d', u <> t -> held evs u = Some d' -> d_bus_id d <> d_bus_id d') ->
  (finished (t_pc k) = false -> importing (t_pc k) = false -> t_cur k = d_bus_id <$> held (evs ++ ev) t) ->
  (importing (t_pc k) = true -> t_cur k = None) ->
  (releasing (t_pc k) = true -> is_Some (t_cur k)) ->
  (finished (t_pc k) = true -> held (evs ++ ev) t = None) ->
  (forall u id cur, u <> t -> y_tasks s !! u = Some (mkTask (PRemUsedR id) cur) ->
     remove_available (y_server s') id = None) ->
  (forall id, t_pc k = PRemUsedR id -> remove_available (y_server s') id = None) ->
  dev_inv ds s' (evs ++ ev).
Proof.
  intros [I1 I2 I3 I4 I5 I6 I7 I8 I9 I10] Et Eh El Hf Hu Ht K1 K2 K3 K4 Kr K5.
  assert (L : forall u, u <> t -> y_tasks s' !! u = y_tasks s !! u) by (intros u E; rewrite Et; apply lookup_insert_ne; congruence).
  assert (L' : y_tasks s' !! t = Some k) by (rewrite Et; apply lookup_insert).
  split; try done.
  - intros u d. destruct (decide (u = t)) as [->|E]; [intros ?; by apply Ht|]. rewrite Eh by done. by apply Hu.
  - intros u u' d d' E1 E2 E. destruct (decide (u = t)) as [->|Nu], (decide (u' = t)) as [->|Nu']; try done.
    + rewrite Eh in E2 by done. by apply (proj2 (Ht _ E1) _ _ Nu') in E2.
    + rewrite Eh in E1 by done. symmetry in E. by apply (proj2 (Ht _ E2) _ _ Nu) in E1.
    + rewrite Eh in E1, E2 by done. by eapply I4.
  - intros u k'. destruct (decide (u = t)) as [->|E]; [rewrite L'; intros [= <-]; done|].
    rewrite L, Eh by done. apply I5.
  - intros u k'. destruct (decide (u = t)) as [->|E]; [rewrite L'; intros [= <-]; done|].
    rewrite L by done. apply I6.
  - intros u k'. destruct (decide (u = t)) as [->|E]; [rewrite L'; intros [= <-]; done|].
    rewrite L by done. apply I7.
  - intros u. destruct (decide (u = t)) as [->|E]; [rewrite L'; done|].
    rewrite L, Eh by done. apply I8.
  - intros u k'. destruct (decide (u = t)) as [->|E]; [rewrite L'; intros [= <-]; done|].
    rewrite L, Eh by done. apply I9.
  - intros u id cur. destruct (decide (u = t)) as [->|E]; [rewrite L'; intros [= ->]; by apply K5|].
    rewrite L by done. by apply Kr.
Qed.

(** Steps that do not touch the devices. *)
Lemma dev_frame {H} ds (s s' : sys H) evs ev t k :
  dev_inv ds s evs -> y_server s' = y_server s -> y_tasks s' = <[t := k]> (y_tasks s) ->
  ledger (ledger ds evs) ev = ledger ds evs ->
  (forall u, u <> t -> held (evs ++ ev) u = held evs u) ->
  held (evs ++ ev) t = held evs t \/ held (evs ++ ev) t = None ->
  (finished (t_pc k) = false -> importing (t_pc k) = false -> t_cur k = d_bus_id <$> held (evs ++ ev) t) ->
  (importing (t_pc k) = true -> t_cur k = None) ->
  (releasing (t_pc k) = true -> is_Some (t_cur k)) ->
  (finished (t_pc k) = true -> held (evs ++ ev) t = None) ->
  (forall id, t_pc k = PRemUsedR id -> remove_available (y_server s) id = None) ->
  dev_inv ds s' (evs ++ ev).
Proof.
  intros HI Es Et El Eh Eh' K1 K2 K3 K4 K5. pose proof HI as [I1 I2 I3 I4 I5 I6 I7 I8 I9 I10].
  apply (dev_upd ds s s' evs ev t k); rewrite ?Es, ?ledger_app, ?El; try done.
  - intros. by eapply I3.
  - intros d Hd. destruct Eh' as [Eh'|Eh']; [rewrite Eh' in Hd|congruence].
    split; [by eapply I3|]. intros u d' Nu Hd' E. apply Nu. by eapply I4.
  - intros u id cur _. apply I10.
Qed.

Lemma held_other t r u (h : tid -> option device) : u <> t -> (if u =? t then r else h u) = h u.
Proof. intros E. destruct (N.eqb_spec u t); [done|done]. Qed.
Lemma held_same t r (h : tid -> option device) : (if t =? t then r else h t) = r.
Proof. by rewrite N.eqb_refl. Qed.

(** Responding to a command other than import. *)
Lemma dev_answered {H} dbg ds (s s0 s' : sys H) evs t cur p c r ev :
  dev_inv ds s evs -> y_server s0 = y_server s -> y_tasks s0 = y_tasks s ->
  y_tasks s !! t = Some (mkTask p cur) -> finished p = false -> importing p = false ->
  quiet_ev (EvServe t c r) = true ->
  answered dbg s0 t cur c r s' ev -> dev_inv ds s' (evs ++ ev).
Proof.
  intros HI Es Et Ek Hf Hi Hq A. pose proof (di_cur _ _ _ HI _ _ Ek Hf Hi) as Hc. cbn [t_cur] in Hc.
  assert (Hh : forall e, quiet_ev e = true -> held1 (held evs) e = held evs) by (by intros [? [] ?| | | | |]).
  assert (Hl : forall l e, quiet_ev e = true -> ledger1 l e = l) by (by intros l []).
  destruct A as [b E|e E He _].
  - eapply (dev_frame ds s _ evs _ t _ HI); [exact Es|cbn; by rewrite Et|..]; try done.
    + intros u _. rewrite held_app. cbn [foldl]. by rewrite Hh.
    + left. rewrite held_app. cbn [foldl]. by rewrite Hh.
    + intros _ _. rewrite held_app. cbn [foldl]. by rewrite Hh.
  - eapply (dev_frame ds s _ evs _ t _ HI); [exact Es|cbn; by rewrite Et|..]; try done.
    + intros u Nu. rewrite held_app. cbn [foldl]. rewrite Hh by done. cbn. by apply held_other.
    + right. rewrite held_app. cbn [foldl]. rewrite Hh by done. cbn. by apply held_same.
    + intros _. rewrite held_app. cbn [foldl]. rewrite Hh by done. cbn. by apply held_same.
Qed.

Lemma remove_available_none sv id : remove_available sv id = None <-> Forall (fun d => d_bus_id d <> id) (sv_available sv).
Proof.
  unfold remove_available. destruct (take_first _ _) as [[d rest]|] eqn:E.
  - split; [done|]. apply take_first_some in E as (l1 & l2 & -> & _ & Hp & _).
    intros Hf. apply Forall_app in Hf as [_ Hf]. apply Forall_cons in Hf as [Hd _].
    unfold str_eqb in Hp. apply bool_decide_eq_true in Hp. done.
  - split; [|done]. intros _. apply take_first_none in E. eapply Forall_impl; [exact E|].
    intros d Hd. unfold str_eqb in Hd. by apply bool_decide_eq_false in Hd.
Qed.
Lemma remove_available_some sv id sv' : remove_available sv id = Some sv' ->
  exists d l1 l2, first_such (fun d => d_bus_id d = id) (sv_available sv) d l1 l2 /\
    sv' = mkServer (l1 ++ l2) (sv_used sv).
Proof.
  unfold remove_available. destruct (take_first _ _) as [[d rest]|] eqn:E; [|done]. intros [= <-].
  apply take_first_some in E as (l1 & l2 & E & -> & Hp & Hf). exists d, l1, l2. split; [|done].
  split; [done|]. unfold str_eqb in *. apply bool_decide_eq_true in Hp. split; [done|].
  eapply Forall_impl; [exact Hf|]. intros x Hx. by apply bool_decide_eq_false in Hx.
Qed.
Lemma import_some sv f sv' d : import_device sv f = (sv', Some d) ->
  exists l1 l2, first_such (fun d => until_nul f = utf8 (d_bus_id d)) (sv_available sv) d l1 l2 /\
    sv' = mkServer (l1 ++ l2) (<[d_bus_id d := d]> (sv_used sv)).
Proof.
  unfold import_device. destruct (take_first _ _) as [[d' rest]|] eqn:E; [|done]. intros [= <- <-].
  apply take_first_some in E as (l1 & l2 & E & -> & Hp & Hf). exists l1, l2. split; [|done].
  split; [done|]. apply bool_decide_eq_true in Hp. split; [done|].
  eapply Forall_impl; [exact Hf|]. intros x Hx. by apply bool_decide_eq_false in Hx.
Qed.
Lemma import_none sv f sv' : import_device sv f = (sv', None) ->
  sv' = sv /\ Forall (fun d => until_nul f <> utf8 (d_bus_id d)) (sv_available sv).
Proof.
  unfold import_device. destruct (take_first _ _) as [[d' rest]|] eqn:E; [done|]. intros [= <-].
  split; [done|]. apply take_first_none in E. eapply Forall_impl; [exact E|].
  intros x Hx. by apply bool_decide_eq_false in Hx.
Qed.

Lemma filter_all {A} (P : A -> Prop) `{forall x, Decision (P x)} l : Forall P l -> filter P l = l.
Proof. induction 1; [done|]. rewrite filter_cons_True by done. by f_equal. Qed.
Lemma fmap_perm {A B} (f : A -> B) l k : Permutation l k -> Permutation (f <$> l) (f <$> k).
Proof. by intros ->. Qed.

(** While [t] holds the available list for writing, no other remove_device call waits for the
    in-use table. *)
Lemma no_removing {H} (s : sys H) t u id cur (P : Prop) : locks_ok s -> (t, MWrite) ∈ lk_holders (y_avail s) ->
  u <> t -> y_tasks s !! u = Some (mkTask (PRemUsedR id) cur) -> P.
Proof.
  intros HL Ht Nu E. destruct (fp_of s u _ _ HL E) as [_ Fa]. cbn in Fa. destruct HL as (_ & La & _).
  by apply (writer_alone _ _ _ _ La Ht) in Fa.
Qed.

Lemma dev_move {H} dbg ds (s : sys H) evs l s' ev : move dbg s l s' ev -> locks_ok s ->
  dev_inv ds s evs -> NoDup (d_bus_id <$> ledger ds evs) -> dev_inv ds s' (evs ++ ev).
Proof.
  intros M HL HI Hn. pose proof HI as [I1 I2 I3 I4 I5 I6 I7 I8 I9 I10].
  assert (Hnd : NoDup (d_bus_id <$> all_devices (y_server s))) by (by rewrite (fmap_perm d_bus_id _ _ I1)).
  destruct M;
    try match goal with E : lk_holds _ _ _ = true |- _ => apply lk_holds_in in E as Hh end.
  - eapply (dev_frame ds s _ evs _ t _ HI); try done; rewrite ?app_nil_r; try done; [by left|].
    intros _ _. cbn. by rewrite I8.
  - eapply (dev_frame ds s _ evs _ t _ HI); try done; rewrite ?app_nil_r; try done; [by left|].
    intros _ _. by apply (I5 _ _ H0).
  - eapply (dev_frame ds s _ evs _ t _ HI); try done; rewrite ?held_app; cbn;
      [intros; by apply held_other|right; by apply held_same|intros; by apply held_same].
  - eapply (dev_frame ds s _ evs _ t _ HI); try done; rewrite ?app_nil_r; try done; [by left|].
    intros _ _. by apply (I5 _ _ H0).
  - eapply (dev_frame ds s _ evs _ t _ HI); try done; rewrite ?held_app; cbn;
      [intros; by apply held_other|right; by apply held_same|intros; by apply held_same].
  - eapply (dev_frame ds s _ evs _ t _ HI); try done; rewrite ?held_app; cbn; try done; [by left|].
    intros _ _. by apply (I5 _ _ H0).
  - eapply (dev_frame ds s _ evs _ t _ HI); try done; rewrite ?held_app; cbn;
      [intros; by apply held_other|right; by apply held_same|intros; by apply held_same].
  - eapply (dev_frame ds s _ evs _ t _ HI); try done; rewrite ?app_nil_r; try done; [by left|].
    intros _ _. cbn. by rewrite I8.
  - eapply (dev_frame ds s _ evs _ t _ HI); try done; rewrite ?app_nil_r; try done; [by left|].
    intros _ _. cbn. by rewrite I8.
  - rewrite app_nil_r. by destruct HI.
  - rewrite app_nil_r. by destruct HI.
  - rewrite app_nil_r. by destruct HI.
  - eapply (dev_frame ds s _ evs _ t _ HI); try done; rewrite ?app_nil_r; try done; [by left|].
    intros _ _. by apply (I5 _ _ H0).
  - eapply (dev_frame ds s _ evs _ t _ HI); try done; rewrite ?app_nil_r; try done. by left.
  - eapply (dev_frame ds s _ evs _ t _ HI); try done; rewrite ?app_nil_r; try done; [by left|].
    intros _. by apply (I6 _ _ H0).
  - eapply (dev_answered dbg ds s (set_world s w')); [exact HI|reflexivity|reflexivity|eassumption|done|done| |eassumption]; done.
  - eapply (dev_answered dbg ds s s); [exact HI|reflexivity|reflexivity|eassumption|done|done| |eassumption]; done.
  - eapply (dev_answered dbg ds s s); [exact HI|reflexivity|reflexivity|eassumption|done|done| |eassumption]; done.
  - eapply (dev_frame ds s _ evs _ t _ HI); try done; rewrite ?app_nil_r; try done; [by left|].
    intros _. by apply (I6 _ _ H0).
  - (* import *)
    pose proof (I6 _ _ H0 eq_refl) as Hc. cbn in Hc. subst cur.
    assert (HE : exists k, y_tasks s' = <[t := k]> (y_tasks s) /\ y_server s' = sv' /\
      (forall u, u <> t -> held (evs ++ ev) u = held evs u) /\
      (held (evs ++ ev) t = r \/ held (evs ++ ev) t = None) /\
      ledger ds (evs ++ ev) = ledger ds evs /\
      (finished (t_pc k) = false -> importing (t_pc k) = false -> t_cur k = d_bus_id <$> held (evs ++ ev) t) /\
      importing (t_pc k) = false /\ releasing (t_pc k) = false /\ (forall id, t_pc k <> PRemUsedR id) /\
      (finished (t_pc k) = true -> held (evs ++ ev) t = None)).
    { assert (Hr : forall x h, held1 h (EvServe t (OpReqImport n busid) (Val (import_response r))) x = if x =? t then r else h x)
        by (intros x h; by destruct r).
      destruct H3 as [b E|e E He _]; eexists; (split; [reflexivity|]); (split; [reflexivity|]);
        rewrite held_app, ledger_app; cbn [foldl].
      - split; [intros u Nu; rewrite Hr; by apply held_other|]. rewrite Hr, held_same.
        split; [by left|]. split; [done|]. done.
      - assert (He' : forall h u, held1 h (EvEnd t e) u = if u =? t then None else h u) by done.
        split; [intros u Nu; rewrite He', held_other by done; rewrite Hr; by apply held_other|]. rewrite He', held_same.
        split; [by right|]. split; [done|]. done. }
    destruct HE as (k & Et & Es & Eh & Eh' & El & K1 & K2 & K3 & K4 & K5).
    destruct r as [d|].
    + apply import_some in H2 as (l1 & l2 & [Ea [_ _]] & Esv).
      assert (Hu : sv_used (y_server s) !! d_bus_id d = None).
      { apply avail_not_used; [done|done|]. rewrite Ea. apply elem_of_app. right. by left. }
      assert (Hdiff : forall u d', held evs u = Some d' -> d_bus_id d <> d_bus_id d').
      { intros u d' Hd' E. apply I3 in Hd'. rewrite <- E, Hu in Hd'. done. }
      subst sv'. apply (dev_upd ds s s' evs ev t k HI Et Eh); rewrite ?Es.
      * rewrite El, <- I1. unfold all_devices. rewrite in_use_insert by done. cbn. rewrite Ea.
        rewrite <- !app_assoc. apply Permutation_app_head. cbn. symmetry. apply Permutation_middle.
      * intros id d'. cbn. rewrite lookup_insert_Some. intros [[<- <-]|[_ E]]; [done|]. by apply I2.
      * intros u d' _ Hd'. cbn. rewrite lookup_insert_ne by (by eapply Hdiff). by eapply I3.
      * intros d' Hd'. destruct Eh' as [Eh'|Eh']; rewrite Eh' in Hd'; [|done]. injection Hd' as <-.
        split; [cbn; apply lookup_insert|]. intros u d' _. apply Hdiff.
      * done.
      * by rewrite K2.
      * by rewrite K3.
      * done.
      * intros u id cur Nu E. by eapply (no_removing s t u).
      * intros id E. by apply K4 in E.
    + apply import_none in H2 as [-> _].
      apply (dev_frame ds s s' evs ev t k HI); try done.
      * by rewrite <- ledger_app.
      * destruct Eh' as [Eh'|Eh']; by right.
      * by rewrite K2.
      * by rewrite K3.
      * intros id E. by apply K4 in E.
  - eapply (dev_frame ds s _ evs _ t _ HI); try done; rewrite ?app_nil_r; try done.
    + by left.
    + intros _ _. by apply (I5 _ _ H0).
    + intros _. by apply (I7 _ _ H0).
  - (* release *)
    pose proof (I5 _ _ H0 eq_refl eq_refl) as Hc. cbn in Hc.
    destruct (held evs t) as [d|] eqn:Hd; [|done]. injection Hc as ->.
    pose proof (I3 _ _ Hd) as Hu. unfold release_device in H2. rewrite Hu in H2. injection H2 as <-.
    eapply (dev_upd ds s _ evs _ t _ HI); [reflexivity|..]; rewrite ?held_app, ?ledger_app;
      cbn [foldl held1 ledger ledger1 y_server set_task set_server drop_guards set_avail set_used t_pc]; try done.
    + intros u Nu. by rewrite !held_other.
    + rewrite <- I1. unfold all_devices. cbn.
      rewrite (in_use_delete (y_server s) _ d (sv_available (y_server s) ++ [d]) Hu).
      rewrite <- app_assoc. apply Permutation_app_head. done.
    + intros id d'. cbn. rewrite lookup_delete_Some. intros [_ E]. by apply I2.
    + intros u d' Nu Hd'. cbn. rewrite lookup_delete_ne; [by eapply I3|].
      intros E. apply Nu. by eapply I4.
    + intros d0. rewrite N.eqb_refl. done.
    + intros _. by rewrite N.eqb_refl.
    + intros u id cur Nu E. by eapply (no_removing s t u).
  - (* release of an absent device *)
    pose proof (I5 _ _ H0 eq_refl eq_refl) as Hc. cbn in Hc.
    destruct (held evs t) as [d|] eqn:Hd; [|done]. injection Hc as ->.
    pose proof (I3 _ _ Hd) as Hu. unfold release_device in H2. by rewrite Hu in H2.
  - (* add *)
    eapply (dev_upd ds s _ evs _ t _ HI); [reflexivity|..]; rewrite ?held_app, ?ledger_app;
      cbn [foldl held1 ledger ledger1 y_server set_task set_server drop_guards set_avail set_used t_pc]; try done.
    + rewrite <- I1. unfold all_devices, add_device, in_use. cbn. rewrite <- !app_assoc.
      apply Permutation_app_head. cbn. apply Permutation_cons_append.
    + intros u d' _ Hd'. by eapply I3.
    + intros d' Hd'. split; [by eapply I3|]. intros u d'' Nu Hd'' E. apply Nu. by eapply I4.
    + intros _ _. by apply (I5 _ _ H0).
    + intros u id cur' Nu E. by eapply (no_removing s t u).
  - (* remove *)
    apply remove_available_some in H2 as (d & l1 & l2 & (Ea & Hid & Hf) & ->).
    eapply (dev_upd ds s _ evs _ t _ HI); [reflexivity|..]; rewrite ?held_app, ?ledger_app;
      cbn [foldl held1 ledger ledger1 y_server set_task set_server drop_guards set_avail set_used t_pc]; try done.
    + fold (ledger ds evs). rewrite <- I1. unfold all_devices, in_use; cbn. rewrite Ea.
      unfold all_devices in Hnd. rewrite Ea in Hnd. rewrite !filter_app, filter_cons_False by (intros E; by apply E).
      rewrite !filter_all; [done|..].
      * apply Forall_forall. intros x Hx E. rewrite !fmap_app in Hnd. apply NoDup_app in Hnd as (_ & Hnd & _).
        apply (Hnd id); [|rewrite <- E; by apply elem_of_list_fmap_1].
        rewrite elem_of_app. right. rewrite <- Hid. cbn. left.
      * apply Forall_forall. intros x Hx E. rewrite !fmap_app in Hnd. apply NoDup_app in Hnd as (Hnd & _ & _).
        apply NoDup_app in Hnd as (_ & _ & Hnd). cbn in Hnd. apply NoDup_cons in Hnd as [Hnd _]. apply Hnd.
        rewrite Hid, <- E. by apply elem_of_list_fmap_1.
      * done.
    + intros u d' _ Hd'. by eapply I3.
    + intros d' Hd'. split; [by eapply I3|]. intros u d'' Nu Hd'' E. apply Nu. by eapply I4.
    + intros _ _. by apply (I5 _ _ H0).
    + intros u id' cur' Nu E. by eapply (no_removing s t u).
  - eapply (dev_frame ds s _ evs _ t _ HI); try done; rewrite ?app_nil_r; try done.
    + by left.
    + intros _ _. by apply (I5 _ _ H0).
    + cbn. by intros id' [= <-].
  - eapply (dev_frame ds s _ evs _ t _ HI); try done; rewrite ?held_app; cbn; try done.
    + by left.
    + intros _ _. by apply (I5 _ _ H0).
Qed.

Lemma dev_run {H} dbg ds (w : world H) ls s evs : run dbg (init_sys ds w) ls = Some (s, evs) ->
  distinct_ids ds evs -> dev_inv ds s evs.
Proof.
  revert ls s evs. apply (run_ind dbg (init_sys ds w) (fun ls s evs => distinct_ids ds evs -> dev_inv ds s evs)).
  - intros _. apply dev_init.
  - intros ls s ev l s' ev' Hr IH Hs Hd. pose proof (distinct_app _ _ _ Hd) as Hd'.
    eapply dev_move; [by apply step_move| |by apply IH|by apply distinct_last].
    eapply locks_run; [exact Hr|apply locks_init].
Qed.
