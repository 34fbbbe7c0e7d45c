(** * Termination of the byte-level server when nothing comes from outside *)
From Verif Require Import NetProofs LiveProofs.
From Verif Require Export SpecNet.
From stdpp Require Import relations.

(** ** Sums over sockets *)
Definition msum (g : tid -> sock -> nat) (m : gmap tid sock) : nat :=
  list_sum ((fun kv => g kv.1 kv.2) <$> map_to_list m).
Lemma msum_insert g m t k : m !! t = None -> msum g (<[t := k]> m) = (g t k + msum g m)%nat.
Proof. intros E. unfold msum. rewrite (list_sum_perm _ _ (fmap_perm _ _ _ (map_to_list_insert m t k E))). done. Qed.
Lemma msum_le g g' m : (forall t k, m !! t = Some k -> (g' t k <= g t k)%nat) -> (msum g' m <= msum g m)%nat.
Proof.
  induction m as [|t k m E IH] using map_ind; intros Hle; [done|]. rewrite !msum_insert by done.
  pose proof (Hle t k (lookup_insert _ _ _)). assert (msum g' m <= msum g m)%nat; [|lia].
  apply IH. intros u ku Hu. apply Hle. rewrite lookup_insert_ne; [done|congruence].
Qed.
Lemma msum_at g m t k : m !! t = Some k -> msum g m = (g t k + msum g (delete t m))%nat.
Proof. intros E. rewrite <- (insert_delete m t k E) at 1. apply msum_insert, lookup_delete. Qed.
Lemma msum_update g g' m t k k' : m !! t = Some k ->
  (forall u ku, u <> t -> m !! u = Some ku -> (g' u ku <= g u ku)%nat) ->
  ((g' t k' <= g t k)%nat -> (msum g' (<[t := k']> m) <= msum g m)%nat) /\
  ((g' t k' < g t k)%nat -> (msum g' (<[t := k']> m) < msum g m)%nat).
Proof.
  intros E Hle. rewrite (msum_at g m t k E), (msum_at g' _ t k') by apply lookup_insert.
  rewrite delete_insert_delete. assert (msum g' (delete t m) <= msum g (delete t m))%nat; [|split; lia].
  apply msum_le. intros u ku Hu. apply lookup_delete_Some in Hu as [? ?]. apply Hle; congruence.
Qed.

(** ** The measure *)
Definition blocked (k : sock) : bool :=
  match k_rd k with RRead n _ => (len (k_buf k) <? n)%N | _ => false end.
Definition step_no (k : sock) (p : pc) : nat :=
  match p with
  | PRead => if blocked k then 1 else 3
  | PUsedR _ | PDevAvailR _ | PImpStart _ _ | PImpUsedW _ _ | PImpAvailW _ _ | PWrite _ => 2
  | _ => 0
  end%nat.
Definition pc_of {H} (n : net H) (t : tid) : pc :=
  match y_tasks (n_sys n) !! t with Some k => t_pc k | None => PAdded end.
(** How many polls do not need input. *)
Fixpoint free_polls (p : rd command) (buf : bytes) : nat :=
  match p with
  | RAlloc _ p' => S (free_polls p' buf)
  | RRead n f => if (n <=? len buf)%N then S (free_polls (f buf) []) else 0
  | _ => 0
  end%nat.
Definition to_write (k : sock) (p : pc) : nat :=
  match p with PWrite b => N.to_nat (len b - k_pos k)%N | _ => 0 end%nat.
Definition unread (k : sock) : nat := (length (k_in k) + length (mjoin (k_in k)))%nat.

Definition m1 {H} (n : net H) : nat := msum (fun _ k => unread k) (n_socks n).
Definition m2 {H} (n : net H) : nat := msum (fun t k => step_no k (pc_of n t)) (n_socks n).
Definition m3 {H} (n : net H) : nat := work (n_sys n).
Definition m4 {H} (n : net H) : nat :=
  msum (fun t k => (to_write k (pc_of n t) + free_polls (k_rd k) (k_buf k))%nat) (n_socks n).
Definition less {H} (n' n : net H) : Prop :=
  (m1 n' < m1 n \/ (m1 n' <= m1 n /\ (m2 n' < m2 n \/ (m2 n' <= m2 n /\
    (m3 n' < m3 n \/ (m3 n' <= m3 n /\ m4 n' < m4 n))))))%nat.
Lemma less_wf {H} (n : net H) : Acc less n.
Proof.
  remember (m1 n) as a eqn:Ea. revert n Ea. induction a as [a IHa] using lt_wf_ind. intros n ->.
  remember (m2 n) as b eqn:Eb. revert n IHa Eb. induction b as [b IHb] using lt_wf_ind. intros n IHa ->.
  remember (m3 n) as c eqn:Ec. revert n IHa IHb Ec. induction c as [c IHc] using lt_wf_ind. intros n IHa IHb ->.
  remember (m4 n) as d eqn:Ed. revert n IHa IHb IHc Ed. induction d as [d IHd] using lt_wf_ind. intros n IHa IHb IHc ->.
  constructor. intros n' L.
  destruct (decide (m1 n' < m1 n)%nat) as [|N1]; [by eapply IHa|].
  destruct L as [|[L1 L]]; [lia|]. assert (E1 : m1 n' = m1 n) by lia.
  destruct (decide (m2 n' < m2 n)%nat) as [|N2].
  { eapply (IHb (m2 n')); [done| |done]. intros x Hx y ->. eapply IHa; [|done]. lia. }
  destruct L as [|[L2 L]]; [lia|]. assert (E2 : m2 n' = m2 n) by lia.
  destruct (decide (m3 n' < m3 n)%nat) as [|N3].
  { eapply (IHc (m3 n')); [done| | |done].
    - intros x Hx y ->. eapply IHa; [|done]. lia.
    - intros x Hx y Hy ->. eapply (IHb (m2 y)); [lia|done|done]. }
  destruct L as [|[L3 L]]; [lia|]. assert (E3 : m3 n' = m3 n) by lia.
  eapply (IHd (m4 n')); [done| | | |done].
  - intros x Hx y ->. eapply IHa; [|done]. lia.
  - intros x Hx y Hy ->. eapply (IHb (m2 y)); [lia|done|done].
  - intros x Hx y Hy Hz ->. eapply (IHc (m3 y)); [lia|done|done|done].
Qed.

(** ** Every internal step decreases it *)
Lemma poll_less k k' : poll k = Some k' ->
  (unread k' < unread k)%nat \/
  (unread k' = unread k /\ (step_no k' PRead <= step_no k PRead)%nat /\
   (free_polls (k_rd k') (k_buf k') < free_polls (k_rd k) (k_buf k))%nat).
Proof.
  intros E. unfold poll in E. destruct k as [i e r b p g s]. cbn [k_in k_end k_rd k_buf k_pos k_got k_sent] in E.
  destruct r as [c|x|q|m f|m r]; try discriminate.
  - destruct (N.leb_spec m (len b)) as [Hl|Hl].
    + injection E as <-. right. split; [done|]. unfold step_no, blocked. cbn [k_rd k_buf free_polls].
      rewrite (proj2 (N.leb_le m (len b)) Hl), (proj2 (N.ltb_ge (len b) m) Hl).
      split; [|lia]. destruct (match f b with RRead _ _ => _ | _ => _ end); lia.
    + destruct i as [|c i]; [discriminate|]. injection E as <-. left. unfold unread. cbn [k_in].
      destruct (Nat.leb_spec (length c) (N.to_nat (m - len b))) as [Hc|Hc].
      * change (mjoin (c :: i)) with (c ++ mjoin i). rewrite app_length. cbn [length]. lia.
      * change (mjoin (drop (N.to_nat (m - len b)) c :: i)) with (drop (N.to_nat (m - len b)) c ++ mjoin i).
        change (mjoin (c :: i)) with (c ++ mjoin i). rewrite !app_length, drop_length. cbn [length]. lia.
  - injection E as <-. right. split; [done|]. unfold step_no, blocked. cbn [k_rd k_buf free_polls]. split; [|lia].
    destruct (match r with RRead _ _ => _ | _ => _ end); lia.
Qed.
Lemma pc_bystander {H} dbg (n n' : net H) l ev u : move dbg (n_sys n) l (n_sys n') ev -> actor l <> Some u ->
  pc_of n' u = pc_of n u.
Proof. intros M Ha. unfold pc_of. by rewrite (move_bystander _ _ _ _ _ _ M Ha). Qed.
Lemma step_no_internal {H} dbg (n n' : net H) l ev k t : move dbg (n_sys n) l (n_sys n') ev -> is_internal l = true ->
  (step_no k (pc_of n' t) <= step_no k (pc_of n t))%nat.
Proof.
  intros M Hi. destruct (decide (actor l = Some t)) as [Ha|Ha]; [|by rewrite (pc_bystander _ _ _ _ _ _ M Ha)].
  unfold pc_of. destruct M; try discriminate Hi; try discriminate Ha; injection Ha as ->;
    try match goal with A : answered _ _ _ _ _ _ _ _ |- _ => destruct A end;
    cbn; rewrite lookup_insert; match goal with E : y_tasks _ !! t = Some _ |- _ => rewrite E end; cbn; lia.
Qed.
Lemma polled_actor {H} t k (l : label H) : polled t k = Some l ->
  (exists c, l = LRecv t c /\ k_rd k = RRet c) \/ (exists e, l = LReadErr t e) \/ l = LReadPanic t.
Proof.
  unfold polled. intros Ep. destruct (k_rd k); try discriminate; try (injection Ep as <-; eauto).
  destruct (_ <=? _)%N; [discriminate|]. destruct (k_in k), (k_end k); try discriminate. injection Ep as <-. eauto.
Qed.
(** The socket of [t] and the position of [t] change, nothing else that counts. *)
Lemma phase_less {H} (n n' : net H) t k k' : n_socks n !! t = Some k -> n_socks n' = <[t := k']> (n_socks n) ->
  (forall u, u <> t -> pc_of n' u = pc_of n u) ->
  (unread k' <= unread k)%nat -> (step_no k' (pc_of n' t) < step_no k (pc_of n t))%nat -> less n' n.
Proof.
  intros Ek Ek' Hu H1 H2. right. unfold m1, m2. rewrite Ek'. split.
  - apply (msum_update (fun _ k => unread k) (fun _ k => unread k) _ t k k' Ek); [done|done].
  - left. apply (msum_update (fun t k => step_no k (pc_of n t)) (fun t k => step_no k (pc_of n' t)) _ t k k' Ek); [|done].
    intros u ku Hn _. by rewrite Hu.
Qed.
Lemma internal_less {H} dbg (n n' : net H) l ev : nstep dbg n l = Some (n', ev) -> n_internal l = true -> less n' n.
Proof.
  intros E Hi. destruct l as [l|t c|t f|t|t m|t|t e]; try discriminate Hi; cbn [nstep] in E.
  - cbn in Hi. assert (E' : sys_step dbg n l = Some (n', ev)) by (by destruct l).
    apply sys_step_move in E' as (M & Es & E'). right. split; [unfold m1; by rewrite Es|]. right. split.
    + unfold m2. rewrite Es. apply msum_le. intros u k _. by eapply step_no_internal.
    + left. unfold m3. apply internal_step in E'; [lia|done].
  - destruct (n_socks n !! t) as [k|] eqn:Ek; [|discriminate].
    destruct (y_tasks (n_sys n) !! t) as [[[] cur]|] eqn:Et; try discriminate.
    destruct (polled t k) as [l|] eqn:Ep.
    + apply sys_step_move in E as (M & Es & _). pose proof (polled_actor _ _ _ Ep) as Hc.
      eapply (phase_less n n' t k k Ek); [by rewrite insert_id| |done|].
      * intros u Hn. eapply pc_bystander; [exact M|]. destruct Hc as [(c & -> & _)|[(e & ->)| -> ]]; cbn; congruence.
      * unfold pc_of. rewrite Et. cbn [t_pc]. unfold step_no at 2.
        destruct Hc as [(c & -> & Er)|[(e & ->)| -> ]]; inversion M; subst; cbn; rewrite lookup_insert; cbn.
        -- unfold blocked. rewrite Er. lia.
        -- destruct (blocked k); lia.
        -- destruct (blocked k); lia.
        -- destruct (blocked k); lia.
    + destruct (poll k) as [k'|] eqn:Epk; [|discriminate]. injection E as <- <-.
      assert (Epc : pc_of n t = PRead) by (unfold pc_of; by rewrite Et).
      destruct (poll_less _ _ Epk) as [L|(L1 & L2 & L4)].
      * left. unfold m1. cbn [n_socks set_sock].
        apply (msum_update (fun _ k => unread k) (fun _ k => unread k) _ t k k' Ek); [done|done].
      * right. unfold m1, m2, m3, m4. cbn [n_socks n_sys set_sock]. split.
        { apply (msum_update (fun _ k => unread k) (fun _ k => unread k) _ t k k' Ek); [done|lia]. }
        right. split.
        { apply (msum_update (fun t k => step_no k (pc_of n t)) (fun u k => step_no k (pc_of (set_sock n t k') u)) _ t k k' Ek); [done|].
          change (pc_of (set_sock n t k') t) with (pc_of n t). by rewrite Epc. }
        right. split; [done|].
        apply (msum_update (fun t k => (to_write k (pc_of n t) + free_polls (k_rd k) (k_buf k))%nat)
          (fun u k => (to_write k (pc_of (set_sock n t k') u) + free_polls (k_rd k) (k_buf k))%nat) _ t k k' Ek); [done|].
        change (pc_of (set_sock n t k') t) with (pc_of n t). rewrite Epc. cbn [to_write]. lia.
  - destruct (n_socks n !! t) as [[i f r b p g s]|] eqn:Ek; [|discriminate].
    destruct (y_tasks (n_sys n) !! t) as [[[] cur]|] eqn:Et; try discriminate.
    destruct (N.leb_spec 1 m) as [Hm|]; [|discriminate]. destruct (N.leb_spec (p + m) (len b0)) as [Hp|]; [|discriminate].
    injection E as <- <-. set (k' := mkSock _ _ _ _ _ _ _).
    assert (Epc : pc_of n t = PWrite b0) by (unfold pc_of; by rewrite Et).
    right. unfold m1, m2, m3, m4. cbn [n_socks n_sys set_sock]. split.
    { apply (msum_update (fun _ k => unread k) (fun _ k => unread k) _ t _ k' Ek); done. }
    right. split.
    { apply (msum_update (fun t k => step_no k (pc_of n t)) (fun u k => step_no k (pc_of (set_sock n t k') u)) _ t _ k' Ek); [done|].
      change (pc_of (set_sock n t k') t) with (pc_of n t). by rewrite Epc. }
    right. split; [done|].
    apply (msum_update (fun t k => (to_write k (pc_of n t) + free_polls (k_rd k) (k_buf k))%nat)
          (fun u k => (to_write k (pc_of (set_sock n t k') u) + free_polls (k_rd k) (k_buf k))%nat) _ t _ k' Ek); [done|].
    change (pc_of (set_sock n t k') t) with (pc_of n t). rewrite Epc. cbn [to_write k_pos k_rd k_buf k']. lia.
  - destruct (n_socks n !! t) as [[i f r b p g s]|] eqn:Ek; [|discriminate].
    destruct (y_tasks (n_sys n) !! t) as [[[] cur]|] eqn:Et; try discriminate.
    destruct (N.eqb_spec p (len b0)) as [Hp|]; [|discriminate]. apply sys_step_move in E as (M & Es & _).
    eapply (phase_less n n' t _ _ Ek Es).
    + intros u Hn. eapply (pc_bystander dbg n n'); [exact M|]. cbn. congruence.
    + done.
    + unfold pc_of. rewrite Et. inversion M; subst. cbn [n_sys set_sock set_task y_tasks]. rewrite lookup_insert.
      apply (Nat.lt_succ_diag_r 1).
Qed.

(** ** At rest *)
Definition n_internal_labels {H} (n : net H) : list (nlabel H) :=
  (NSys <$> internal_labels (n_sys n)) ++
  ((fun kv => NPoll kv.1) <$> map_to_list (n_socks n)) ++
  ((fun kv => NWrite kv.1 1) <$> map_to_list (n_socks n)) ++
  ((fun kv => NFlushed kv.1) <$> map_to_list (n_socks n)).
Definition rest_b {H} (dbg : bool) (n : net H) : bool :=
  forallb (fun l => match nstep dbg n l with None => true | _ => false end) (n_internal_labels n).
Lemma labels_internal {H} (n : net H) : Forall (fun l => n_internal l = true) (n_internal_labels n).
Proof.
  unfold n_internal_labels, internal_labels. rewrite !Forall_app, !Forall_fmap. split_and!.
  - repeat constructor. apply Forall_fmap, Forall_true. done.
  - by apply Forall_true.
  - by apply Forall_true.
  - by apply Forall_true.
Qed.
Lemma in_labels {H} (n : net H) t k : n_socks n !! t = Some k ->
  NPoll t ∈ n_internal_labels n /\ NWrite t 1 ∈ n_internal_labels n /\ NFlushed t ∈ n_internal_labels n.
Proof.
  intros E%elem_of_map_to_list. unfold n_internal_labels. rewrite !elem_of_app. split_and!.
  - right. left. by apply (elem_of_list_fmap_1 (fun kv => NPoll kv.1) _ (t, k)).
  - right. right. left. by apply (elem_of_list_fmap_1 (fun kv => NWrite kv.1 1) _ (t, k)).
  - right. right. right. by apply (elem_of_list_fmap_1 (fun kv => NFlushed kv.1) _ (t, k)).
Qed.
Lemma rest_b_ok {H} dbg (n : net H) : rest_b dbg n = true -> at_rest dbg n.
Proof.
  intros E l Hl. unfold rest_b in E. rewrite forallb_forall in E.
  assert (X : forall l, l ∈ n_internal_labels n -> nstep dbg n l = None).
  { intros l' Hin%elem_of_list_In%E. by destruct (nstep dbg n l'). }
  destruct l as [l|t c|t f|t|t m|t|t e]; try discriminate Hl.
  - assert (S : stuck dbg (n_sys n)).
    { assert (Y : forall l', l' ∈ internal_labels (n_sys n) -> is_internal l' = true -> step dbg (n_sys n) l' = None).
      { intros l' Hin Hi. specialize (X (NSys l')). cbn [nstep] in X.
        assert (Z : sys_step dbg n l' = None).
        { destruct l'; try discriminate Hi; apply X; unfold n_internal_labels; apply elem_of_app; left; by apply elem_of_list_fmap_1. }
        unfold sys_step in Z. by destruct (step dbg (n_sys n) l') as [[? ?]|]. }
      intros l' Hi. destruct l'; try discriminate Hi.
      - apply Y; [left|done].
      - apply Y; [right; left|done].
      - cbn. destruct (y_tasks (n_sys n) !! t) as [k|] eqn:Et; [|done].
        specialize (Y (LRun t)). cbn in Y. rewrite Et in Y. apply Y; [|done].
        right. right. apply elem_of_list_fmap_1, elem_of_list_fmap. exists (t, k). split; [done|].
        by apply elem_of_map_to_list. }
    cbn in Hl. specialize (S l Hl). destruct l; try discriminate Hl; cbn [nstep socket_label]; unfold sys_step; by rewrite S.
  - destruct (n_socks n !! t) as [k|] eqn:Ek; [apply X, (in_labels _ _ _ Ek)|]. cbn. by rewrite Ek.
  - destruct (n_socks n !! t) as [k|] eqn:Ek; [|cbn; by rewrite Ek].
    pose proof (X _ (proj1 (proj2 (in_labels _ _ _ Ek)))) as Z. cbn [nstep] in *. rewrite Ek in *. destruct k as [i f r b p g s].
    destruct (y_tasks (n_sys n) !! t) as [[[] cur]|]; try done.
    destruct (N.leb_spec 1 m); [|done]. destruct (N.leb_spec (p + m) (len b0)); [|done].
    exfalso. destruct (N.leb_spec 1 1); [|lia]. destruct (N.leb_spec (p + 1) (len b0)); [done|lia].
  - destruct (n_socks n !! t) as [k|] eqn:Ek; [apply X, (in_labels _ _ _ Ek)|]. cbn. by rewrite Ek.
Qed.
Lemma rest_b_no {H} dbg (n : net H) : rest_b dbg n = false ->
  exists l n' ev, n_internal l = true /\ nstep dbg n l = Some (n', ev).
Proof.
  unfold rest_b. pose proof (labels_internal n) as F. induction (n_internal_labels n) as [|l ls IH]; [done|].
  apply Forall_cons in F as [F1 F]. cbn [forallb]. destruct (nstep dbg n l) as [[n' ev]|] eqn:E; [by exists l, n', ev|].
  by apply IH.
Qed.
Lemma reach_rest {H} dbg (n : net H) : exists ls n' ev, nrun dbg n ls = Some (n', ev) /\
  Forall (fun l => n_internal l = true) ls /\ at_rest dbg n'.
Proof.
  induction (less_wf n) as [n _ IH]. destruct (rest_b dbg n) eqn:Er.
  - exists [], n, []. split_and!; [done|done|by apply rest_b_ok].
  - apply rest_b_no in Er as (l & n1 & e1 & Hl & E1).
    destruct (IH n1 (internal_less _ _ _ _ _ E1 Hl)) as (ls & n' & ev & E & F & R).
    exists (l :: ls), n', (e1 ++ ev). cbn. rewrite E1, E. split_and!; [done|by constructor|done].
Qed.
Lemma internal_acc {H} dbg (n : net H) :
  Acc (fun n' n => exists l ev, n_internal l = true /\ nstep dbg n l = Some (n', ev)) n.
Proof.
  induction (less_wf n) as [n _ IH]. constructor. intros n' (l & ev & Hl & E). by eapply IH, internal_less.
Qed.

(** Every connection has a socket. *)
Definition covered {H} (n : net H) : Prop :=
  forall t p cur, y_tasks (n_sys n) !! t = Some (mkTask p cur) -> is_conn_pc p = true -> is_Some (n_socks n !! t).
Lemma covered_move {H} dbg (s s' : sys H) l ev t p' cur' : move dbg s l s' ev ->
  y_tasks s' !! t = Some (mkTask p' cur') -> is_conn_pc p' = true ->
  l = LConnect t \/ exists p cur, y_tasks s !! t = Some (mkTask p cur) /\ is_conn_pc p = true.
Proof.
  intros M. destruct (decide (actor l = Some t)) as [Ha|Ha].
  2: { rewrite (move_bystander _ _ _ _ _ _ M Ha). eauto. }
  destruct M; cbn in Ha; try discriminate; injection Ha as ->; cbn; rewrite ?lookup_insert;
  try match goal with X : answered _ _ _ _ _ _ _ _ |- _ => destruct X; cbn; rewrite ?lookup_insert end;
    intros [= <- <-] Hc; try discriminate; try (by left); right; eexists _, _; (split; [eassumption|done]).
Qed.
Lemma covered_step {H} dbg (n n' : net H) l ev : nstep dbg n l = Some (n', ev) -> covered n -> covered n'.
Proof.
  intros E C.
  assert (G : (forall u, is_Some (n_socks n !! u) -> is_Some (n_socks n' !! u)) ->
    (n_sys n' = n_sys n \/ exists l', move dbg (n_sys n) l' (n_sys n') ev /\
      forall u, l' = LConnect u -> is_Some (n_socks n' !! u)) -> covered n').
  { intros Hk [Es|(l' & M & Hc)] t p cur Ht Hp.
    - rewrite Es in Ht. eauto.
    - destruct (covered_move _ _ _ _ _ _ _ _ M Ht Hp) as [->|(q & cur' & Hq & Hq')]; [by apply Hc|]. eauto. }
  assert (I : forall (m : gmap tid sock) (t : tid) (k : sock) (u : tid), is_Some (m !! u) -> is_Some (<[t := k]> m !! u)).
  { intros m t k u Hs. rewrite lookup_insert_is_Some'. by right. }
  destruct l as [l|t c|t f|t|t m|t|t e]; cbn [nstep] in E.
  - destruct (socket_label l) eqn:Hl; [discriminate|].
    destruct l; try discriminate Hl; apply sys_step_move in E as (M & Es & _); apply G;
      try (intros u; rewrite Es; cbn; by auto); right; eexists; (split; [exact M|]); intros u; try discriminate.
    intros [= ->]. rewrite Es. cbn. by rewrite lookup_insert.
  - destruct (n_socks n !! t) as [[i [?|] r b p g s]|] eqn:Ek; try discriminate. destruct c as [|x c]; [discriminate|].
    injection E as <- <-. apply G; [intros u; cbn; apply I|by left].
  - destruct (n_socks n !! t) as [[i [?|] r b p g s]|] eqn:Ek; try discriminate.
    injection E as <- <-. apply G; [intros u; cbn; apply I|by left].
  - destruct (n_socks n !! t) as [k|] eqn:Ek; [|discriminate].
    destruct (y_tasks (n_sys n) !! t) as [[[] cur]|] eqn:Et; try discriminate.
    destruct (polled t k) as [l|] eqn:Ep.
    + apply sys_step_move in E as (M & Es & _). apply G; [intros u; by rewrite Es|]. right. exists l. split; [exact M|].
      intros u ->. apply polled_actor in Ep as [(c & ? & _)|[(e & ?)|?]]; discriminate.
    + destruct (poll k) as [k'|] eqn:Epk; [|discriminate]. injection E as <- <-. apply G; [intros u; cbn; apply I|by left].
  - destruct (n_socks n !! t) as [[i f r b p g s]|] eqn:Ek; [|discriminate].
    destruct (y_tasks (n_sys n) !! t) as [[[] cur]|] eqn:Et; try discriminate. destruct (_ && _); [|discriminate].
    injection E as <- <-. apply G; [intros u; cbn; apply I|by left].
  - destruct (n_socks n !! t) as [[i f r b p g s]|] eqn:Ek; [|discriminate].
    destruct (y_tasks (n_sys n) !! t) as [[[] cur]|] eqn:Et; try discriminate. destruct (_ =? _)%N; [|discriminate].
    apply sys_step_move in E as (M & Es & _). apply G; [intros u; rewrite Es; cbn; apply I|]. right. eexists. by split.
  - destruct (n_socks n !! t) as [k|] eqn:Ek; [|discriminate]. apply sys_step_move in E as (M & Es & _).
    apply G; [intros u; by rewrite Es|]. right. eexists. by split.
Qed.
Lemma covered_run {H} dbg ls (n n' : net H) ev : nrun dbg n ls = Some (n', ev) -> covered n -> covered n'.
Proof.
  revert n ev. induction ls as [|l ls IH]; intros n ev E C; cbn [nrun] in E.
  - by injection E as <- <-.
  - destruct (nstep dbg n l) as [[n1 e1]|] eqn:E1; [|discriminate].
    destruct (nrun dbg n1 ls) as [[n2 e2]|] eqn:E2; [|discriminate]. injection E as <- <-.
    eapply IH; [exact E2|]. by eapply covered_step.
Qed.
