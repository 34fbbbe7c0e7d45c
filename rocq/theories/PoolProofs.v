(** * Proofs about the string pool *)
From Verif Require Export SpecNames Lemmas.
From Coq Require Strings.String.
Import Strings.String.StringSyntax.

(** The k-th index tried, for k = 0, 1, ... *)
Definition tried (k : nat) : N := N.of_nat (1 + k) mod 256.
Lemma tried_succ k : (tried k + 1) mod 256 = tried (S k).
Proof. unfold tried. lia. Qed.
Lemma tried_0 : tried 0 = 1. Proof. done. Qed.
Lemma tried_small k : (k < 255)%nat -> tried k = N.of_nat (1 + k).
Proof. intros. unfold tried. lia. Qed.

Definition occupied (pool : gmap N rstring) (i : N) : Prop := is_Some (pool !! i).

Lemma find_vacant_spec dbg pool k fuel :
  match find_vacant dbg pool (tried k) fuel with
  | Val r => exists k', (k <= k' < k + fuel)%nat /\ r = tried k' /\ pool !! r = None /\
      (forall j, (k <= j < k')%nat -> occupied pool (tried j)) /\
      (dbg = true -> forall j, (k <= j <= k')%nat -> tried j <> 255)
  | Panic p => dbg = true /\ p = POverflow /\ exists k', (k <= k' < k + fuel)%nat /\ tried k' = 255 /\
      (forall j, (k <= j < k')%nat -> occupied pool (tried j))
  | Diverge => forall j, (k <= j < k + fuel)%nat -> occupied pool (tried j)
  end.
Proof.
  revert k. induction fuel as [|fuel IH]; intros k; cbn [find_vacant]; [intros; lia|].
  destruct (N.eqb_spec (tried k) 255) as [E|E].
  - destruct dbg; cbn [andb].
    + split; [done|]. split; [done|]. exists k. split; [lia|]. split; [done|]. intros; lia.
    + destruct (pool !! tried k) eqn:Ep.
      * rewrite tried_succ. specialize (IH (S k)).
        destruct (find_vacant false pool (tried (S k)) fuel).
        -- destruct IH as (k' & ? & ? & ? & Ho & Hd). exists k'. split; [lia|]. split; [done|]. split; [done|].
           split; [|done]. intros j Hj. destruct (decide (j = k)) as [-> |]; [eexists; exact Ep|apply Ho; lia].
        -- by destruct IH.
        -- intros j Hj. destruct (decide (j = k)) as [-> |]; [eexists; exact Ep|apply IH; lia].
      * exists k. split; [lia|]. split; [done|]. split; [done|]. split; [intros; lia|done].
  - rewrite andb_false_r. destruct (pool !! tried k) eqn:Ep.
    + rewrite tried_succ. specialize (IH (S k)).
      destruct (find_vacant dbg pool (tried (S k)) fuel).
      * destruct IH as (k' & ? & ? & ? & Ho & Hd). exists k'. split; [lia|]. split; [done|]. split; [done|].
        split.
        -- intros j Hj. destruct (decide (j = k)) as [-> |]; [eexists; exact Ep|apply Ho; lia].
        -- intros Hdbg j Hj. destruct (decide (j = k)) as [-> |]; [done|apply Hd; [done|lia]].
      * destruct IH as (? & ? & k' & ? & ? & Ho). split; [done|]. split; [done|]. exists k'. split; [lia|]. split; [done|].
        intros j Hj. destruct (decide (j = k)) as [-> |]; [eexists; exact Ep|apply Ho; lia].
      * intros j Hj. destruct (decide (j = k)) as [-> |]; [eexists; exact Ep|apply IH; lia].
    + exists k. split; [lia|]. split; [done|]. split; [done|]. split; [intros; lia|].
      intros _ j Hj. by replace j with k by lia.
Qed.

(** A vacant index among 1..254: the least one is chosen, in both builds. *)
Lemma find_vacant_low dbg pool : (exists i, 1 <= i <= 254 /\ pool !! i = None) ->
  exists r, find_vacant dbg pool 1 256 = Val r /\ 1 <= r <= 254 /\ pool !! r = None /\
    forall j, 1 <= j < r -> occupied pool j.
Proof.
  intros (i & Hi & Hn). pose proof (find_vacant_spec dbg pool 0 256) as S. rewrite tried_0 in S.
  assert (Hti : tried (N.to_nat i - 1) = i) by (unfold tried; lia).
  assert (Hno : ~ occupied pool (tried (N.to_nat i - 1))) by (rewrite Hti; unfold occupied; rewrite Hn; intros [? [=]]).
  destruct (find_vacant dbg pool 1 256) as [r|p|].
  - destruct S as (k' & Hk & -> & Hp & Ho & Hd).
    assert (k' <= N.to_nat i - 1)%nat.
    { destruct (le_gt_dec k' (N.to_nat i - 1)); [done|]. exfalso. apply Hno, Ho. lia. }
    rewrite tried_small in * by lia. eexists. split; [done|]. split; [lia|]. split; [done|].
    intros j Hj. specialize (Ho (N.to_nat j - 1)%nat ltac:(lia)). rewrite tried_small in Ho by lia.
    by replace (N.of_nat (1 + (N.to_nat j - 1))) with j in Ho by lia.
  - destruct S as (_ & _ & k' & Hk & Ht & Ho). exfalso. apply Hno, Ho.
    split; [lia|]. unfold tried in Ht. lia.
  - exfalso. apply Hno, S. lia.
Qed.

Definition low_full (pool : gmap N rstring) : Prop := forall i, 1 <= i <= 254 -> occupied pool i.

Lemma occ_some pool i : occupied pool i -> exists s, pool !! i = Some s.
Proof. done. Qed.

Lemma full_walk dbg pool k fuel : low_full pool -> (k <= 254)%nat ->
  find_vacant dbg pool (tried k) (254 - k + fuel) = find_vacant dbg pool 255 fuel.
Proof.
  intros Hf. induction (254 - k)%nat as [|n IH] eqn:En in k |- *; intros Hk.
  - replace k with 254%nat by lia. done.
  - cbn [find_vacant Nat.add]. rewrite tried_small by lia.
    destruct (N.eqb_spec (N.of_nat (1 + k)) 255); [lia|]. rewrite andb_false_r.
    destruct (occ_some _ _ (Hf (N.of_nat (1 + k)) ltac:(lia))) as [s ->].
    replace ((N.of_nat (1 + k) + 1) mod 256) with (tried (S k)) by (unfold tried; lia).
    apply IH; lia.
Qed.
Lemma full_start dbg pool fuel : low_full pool ->
  find_vacant dbg pool 1 (254 + fuel) = find_vacant dbg pool 255 fuel.
Proof. intros Hf. exact (full_walk dbg pool 0 fuel Hf ltac:(lia)). Qed.

(** All of 1..254 in use. *)
Lemma find_vacant_full_debug pool : low_full pool -> find_vacant true pool 1 256 = Panic POverflow.
Proof. intros Hf. exact (full_start true pool 2 Hf). Qed.
Lemma find_vacant_full_255 pool : low_full pool -> pool !! 255 = None ->
  find_vacant false pool 1 256 = Val 255.
Proof. intros Hf Hn. change 256%nat with (254 + 2)%nat. rewrite full_start by done. cbn. by rewrite Hn. Qed.
Lemma find_vacant_full_0 pool : low_full pool -> occupied pool 255 -> pool !! 0 = None ->
  find_vacant false pool 1 256 = Val 0.
Proof.
  intros Hf [s Hs] Hn. change 256%nat with (254 + 2)%nat. rewrite full_start by done.
  cbn. rewrite Hs. change ((255 + 1) mod 256) with 0. by rewrite Hn.
Qed.
(** Nothing vacant at all: the loop never ends, however long it runs. *)
Lemma find_vacant_loops pool i fuel : (forall j, j < 256 -> occupied pool j) -> i < 256 ->
  find_vacant false pool i fuel = Diverge.
Proof.
  intros Hf. revert i. induction fuel as [|fuel IH]; intros i Hi; [done|]. cbn [find_vacant andb].
  destruct (occ_some _ _ (Hf i Hi)) as [s ->]. apply IH. lia.
Qed.
(** The fuel does not matter: 256 iterations decide. *)
Lemma find_vacant_fuel dbg pool fuel : (256 <= fuel)%nat ->
  find_vacant dbg pool 1 fuel = find_vacant dbg pool 1 256.
Proof.
  intros Hfu. assert (G : forall n m i r, find_vacant dbg pool i n = r -> r <> Diverge ->
    find_vacant dbg pool i (n + m) = r).
  { induction n as [|n IH]; intros m i r E Hr; [by cbn in E; subst|]. cbn [find_vacant Nat.add] in *.
    destruct (dbg && (i =? 255)); [done|]. destruct (pool !! i); [|done]. by apply IH. }
  destruct (find_vacant dbg pool 1 256) as [r|p|] eqn:E.
  - replace fuel with (256 + (fuel - 256))%nat by lia. by apply G.
  - replace fuel with (256 + (fuel - 256))%nat by lia. by apply G.
  - pose proof (find_vacant_spec dbg pool 0 256) as S. rewrite tried_0, E in S.
    assert (Hall : forall j, j < 256 -> occupied pool j).
    { intros j Hj. destruct (decide (j = 0)) as [-> |].
      - exact (S 255%nat ltac:(lia)).
      - specialize (S (N.to_nat j - 1)%nat ltac:(lia)). unfold tried in S.
        by replace (N.of_nat (1 + (N.to_nat j - 1)) mod 256) with j in S by lia. }
    destruct dbg; [|apply find_vacant_loops; [done|lia]].
    rewrite find_vacant_full_debug in E; [done|]. intros i Hi. apply Hall. lia.
Qed.

(** ** The invariant of the pool *)
Definition slot : Type := N * option rstring.
Definition used (l : list slot) : list N := omap (fun x => match x.2 with Some _ => Some x.1 | None => None end) l.
Definition slot_ok (pool : gmap N rstring) (x : slot) : Prop :=
  match x.2 with None => x.1 = 0 | Some s => 0 < x.1 /\ x.1 < 256 /\ pool !! x.1 = Some s end.
Definition pool_inv (l : list slot) (pool : gmap N rstring) : Prop :=
  Forall (slot_ok pool) l /\ NoDup (used l) /\ dom pool = list_to_set (C := gset N) (used l).

Global Instance used_proper : Proper ((≡ₚ) ==> (≡ₚ)) used.
Proof. intros l1 l2 H. unfold used. by rewrite H. Qed.
Lemma inv_perm l1 l2 pool : l1 ≡ₚ l2 -> pool_inv l1 pool -> pool_inv l2 pool.
Proof.
  intros HP (Hf & Hn & Hd). split; [by rewrite <- HP|]. split; [by rewrite <- HP|].
  rewrite Hd. apply leibniz_equiv. by rewrite HP.
Qed.

Lemma inv_drop x l pool : pool_inv (x :: l) pool ->
  pool_inv ((0, None) :: l) (if negb (x.1 =? 0) then delete x.1 pool else pool).
Proof.
  destruct x as [i [s|]]; intros (Hf & Hn & Hd); apply Forall_cons in Hf as [Hx Hf]; cbn in *.
  - destruct Hx as (Hi & Hi2 & Hp). destruct (N.eqb_spec i 0); [lia|]. cbn [negb].
    apply NoDup_cons in Hn as [Hni Hn]. split; [|split].
    + constructor; [done|]. apply Forall_forall. intros [j [t|]] Hj; rewrite Forall_forall in Hf;
        specialize (Hf _ Hj); cbn in *; [|done].
      destruct Hf as (? & ? & Hpj). split_and!; try done. rewrite lookup_delete_ne; [done|].
      intros ->. apply Hni. apply elem_of_list_omap. exists (j, Some t). done.
    + done.
    + rewrite dom_delete_L, Hd. cbn. apply set_eq. intros j. rewrite elem_of_difference, elem_of_union, !elem_of_singleton.
      rewrite elem_of_list_to_set. split; [tauto|]. intros Hj. split; [tauto|]. intros ->. done.
  - subst i. cbn. split; [constructor; done|]. done.
Qed.
Lemma inv_fill l pool j s : pool_inv ((0, None) :: l) pool -> 0 < j -> j < 256 -> pool !! j = None ->
  pool_inv ((j, Some s) :: l) (<[j := s]> pool).
Proof.
  intros (Hf & Hn & Hd) H0 Hj Hv. apply Forall_cons in Hf as [_ Hf]. cbn in *. split; [|split].
  - constructor; [cbn; by rewrite lookup_insert|]. apply Forall_forall. intros [k [t|]] Hk;
      rewrite Forall_forall in Hf; specialize (Hf _ Hk); cbn in *; [|done].
    destruct Hf as (? & ? & Hp). split_and!; try done. rewrite lookup_insert_ne; [done|]. intros ->. congruence.
  - cbn. apply NoDup_cons. split; [|done]. intros Hin.
    assert (j ∈ dom pool) as Hdj by (rewrite Hd; by apply elem_of_list_to_set).
    apply elem_of_dom in Hdj. rewrite Hv in Hdj. by destruct Hdj.
  - rewrite dom_insert_L, Hd. done.
Qed.
Lemma inv_none l pool : pool_inv l pool -> pool_inv ((0, None) :: l) pool.
Proof. intros (Hf & Hn & Hd). split; [by constructor|]. done. Qed.

Lemma inv_size l pool : pool_inv l pool -> size pool = length (used l).
Proof.
  intros (_ & Hn & Hd). rewrite <- size_dom, Hd. by apply size_list_to_set.
Qed.

(** Fewer than 254 strings: some index in 1..254 is vacant. *)
Lemma some_vacant (pool : gmap N rstring) : (size pool < 254)%nat ->
  exists i, 1 <= i <= 254 /\ pool !! i = None.
Proof.
  intros Hs. destruct (decide (Forall (fun i => is_Some (pool !! N.of_nat i)) (seq 1 254))) as [Hall|Hex].
  - exfalso. assert (list_to_set (C := gset N) (N.of_nat <$> seq 1 254) ⊆ dom pool) as Hsub.
    { intros i. rewrite elem_of_list_to_set, elem_of_list_fmap. intros (k & -> & Hk).
      apply elem_of_dom. rewrite Forall_forall in Hall. auto. }
    apply subseteq_size in Hsub. rewrite size_dom in Hsub.
    rewrite size_list_to_set in Hsub; [rewrite fmap_length, seq_length in Hsub; lia|].
    apply NoDup_fmap_2; [intros a b E; lia|apply NoDup_seq].
  - apply not_Forall_Exists in Hex; [|apply _].
    apply Exists_exists in Hex as (k & Hk & Hn). apply elem_of_seq in Hk.
    exists (N.of_nat k). split; [lia|]. by apply eq_None_not_Some.
Qed.

(** ** Operations refine their effect on the names *)
Definition slots (d : device) (n : names) : list slot :=
  [(d_string_configuration d, n_conf n); (d_string_manufacturer d, n_manu n);
   (d_string_product d, n_prod n); (d_string_serial d, n_serial n)]
  ++ zip (if_string <$> d_interfaces d) (n_intf n).
Definition names_inv (d : device) (n : names) : Prop :=
  length (d_interfaces d) = length (n_intf n) /\ pool_inv (slots d n) (d_string_pool d).

Lemma used_length l : length (used l) = list_sum (one_if_set <$> l.*2).
Proof.
  induction l as [|[i [s|]] l IH]; [done| |].
  - change (S (length (used l)) = S (list_sum (one_if_set <$> l.*2))). by rewrite IH.
  - exact IH.
Qed.
Lemma names_inv_size d n : names_inv d n -> size (d_string_pool d) = names_count n.
Proof.
  intros [Hl Hi]. rewrite (inv_size _ _ Hi), used_length. unfold slots, names_count. cbn.
  rewrite snd_zip by (rewrite fmap_length; lia). unfold list_sum. lia.
Qed.

Lemma new_string_ok dbg d l s :
  pool_inv ((0, None) :: l) (d_string_pool d) -> (length (used l) < 254)%nat ->
  exists i, new_string dbg d s = Val (i, with_pool d (<[i := s]> (d_string_pool d))) /\
    pool_inv ((i, Some s) :: l) (<[i := s]> (d_string_pool d)).
Proof.
  intros Hi Hc. pose proof (inv_size _ _ Hi) as Hs. cbn in Hs.
  destruct (find_vacant_low dbg (d_string_pool d)) as (r & E & Hr & Hv & _).
  { apply some_vacant. fold (used l) in Hs. lia. }
  exists r. unfold new_string. rewrite E. cbn. split; [done|]. apply inv_fill; try done; lia.
Qed.

Lemma remove_string_ok d x l : pool_inv (x :: l) (d_string_pool d) ->
  exists p, remove_string d x.1 = (x.2, with_pool d p) /\ pool_inv ((0, None) :: l) p.
Proof.
  intros Hi. pose proof (inv_drop _ _ _ Hi) as Hd. unfold remove_string.
  destruct Hi as (Hf & _ & _). apply Forall_cons in Hf as [Hx _].
  destruct x as [i [s|]]; cbn in *.
  - destruct Hx as (? & ? & Hp). destruct (N.eqb_spec i 0); [lia|]. cbn in *.
    eexists. split; [|exact Hd]. by rewrite Hp.
  - subst i. cbn in *. eexists. split; [|exact Hd]. by destruct d.
Qed.

Lemma slots_zip_app (l1 : list N) (l2 : list (option rstring)) a b : length l1 = length l2 ->
  zip (l1 ++ [a]) (l2 ++ [b]) = zip l1 l2 ++ [(a, b)].
Proof. revert l2. induction l1 as [|x l1 IH]; intros [|y l2] E; cbn in *; try done. by rewrite IH by lia. Qed.

Definition index_of (d : device) (k : which) : N :=
  match k with
  | WConf => d_string_configuration d | WManu => d_string_manufacturer d
  | WProd => d_string_product d | WSerial => d_string_serial d
  end.
Definition put_index (d : device) (k : which) (i : N) : device :=
  match k with
  | WConf => with_string_refs d i (d_string_manufacturer d) (d_string_product d) (d_string_serial d)
  | WManu => with_string_refs d (d_string_configuration d) i (d_string_product d) (d_string_serial d)
  | WProd => with_string_refs d (d_string_configuration d) (d_string_manufacturer d) i (d_string_serial d)
  | WSerial => with_string_refs d (d_string_configuration d) (d_string_manufacturer d) (d_string_product d) i
  end.
(** The slots other than that of [k]. *)
Definition others (d : device) (n : names) (k : which) : list slot :=
  let c := (d_string_configuration d, n_conf n) in
  let m := (d_string_manufacturer d, n_manu n) in
  let p := (d_string_product d, n_prod n) in
  let s := (d_string_serial d, n_serial n) in
  (match k with WConf => [m; p; s] | WManu => [c; p; s] | WProd => [c; m; s] | WSerial => [c; m; p] end)
  ++ zip (if_string <$> d_interfaces d) (n_intf n).
Lemma slots_put d n k p i o :
  slots (put_index (with_pool d p) k i) (put_name n k o) ≡ₚ (i, o) :: others d n k.
Proof.
  unfold slots, others. destruct d, k, n; cbn; [reflexivity|apply perm_swap|..].
  - etrans; [apply perm_skip, perm_swap|apply perm_swap].
  - etrans; [apply perm_skip, perm_skip, perm_swap|]. etrans; [apply perm_skip, perm_swap|apply perm_swap].
Qed.
Lemma slots_get d n k : slots d n ≡ₚ (index_of d k, get_name n k) :: others d n k.
Proof.
  rewrite <- (slots_put d n k (d_string_pool d) (index_of d k) (get_name n k)).
  by destruct d, k, n.
Qed.

Lemma set_name_unfold {H} dbg (w : world H) d k s :
  api_step dbg w d (SetName k s) =
  let '(old, d1) := remove_string d (index_of d k) in
  obind (new_string dbg d1 s) (fun '(i, d2) => Val (put_index d2 k i, Some old)).
Proof.
  destruct k; cbn; unfold set_configuration_name, set_manufacturer_name, set_product_name, set_serial_number;
    destruct (remove_string _ _) as [old d1]; cbn;
    destruct (new_string dbg d1 s) as [[i d2]| |]; done.
Qed.
Lemma unset_name_unfold {H} dbg (w : world H) d k :
  api_step dbg w d (UnsetName k) =
  let '(old, d1) := remove_string d (index_of d k) in Val (put_index d1 k 0, Some old).
Proof.
  destruct k; cbn; unfold unset_configuration_name, unset_manufacturer_name, unset_product_name, unset_serial_number;
    destruct (remove_string _ _) as [old d1]; done.
Qed.

Lemma count_put n k o : (names_count (put_name n k o) + one_if_set (get_name n k) = names_count n + one_if_set o)%nat.
Proof. destruct n, k; unfold names_count; cbn; lia. Qed.
Lemma others_count d n k : length (d_interfaces d) = length (n_intf n) ->
  (length (used (others d n k)) + one_if_set (get_name n k) = names_count n)%nat.
Proof.
  intros Hl. pose proof (Permutation_length (used_proper _ _ (slots_get d n k))) as E.
  rewrite !used_length in *. cbn in E. unfold slots in E. cbn in E.
  rewrite snd_zip in E by (rewrite fmap_length; lia). unfold names_count. unfold list_sum in *. lia.
Qed.

Lemma api_step_ok {H} dbg (w : world H) d n o :
  (forall h, c_poisoned (w_intf w h) = false) ->
  names_inv d n -> (names_count (names_step n o).1 <= 254)%nat ->
  exists d', api_step dbg w d o = Val (d', (names_step n o).2) /\ names_inv d' (names_step n o).1.
Proof.
  intros Hw [Hl Hi] Hc. destruct o as [k s|k|c sc p name eps h]; cbn [names_step fst snd] in *.
  - rewrite set_name_unfold.
    destruct (remove_string_ok d (index_of d k, get_name n k) (others d n k)) as (p & E & Hp).
    { eapply inv_perm; [apply slots_get|done]. }
    cbn [fst snd] in E. rewrite E.
    destruct (new_string_ok dbg (with_pool d p) (others d n k) s) as (i & E2 & Hp2).
    { by destruct d. }
    { pose proof (others_count d n k Hl). pose proof (count_put n k (Some s)). cbn in *. lia. }
    rewrite E2. cbn [obind]. eexists. split; [reflexivity|]. split.
    + by destruct d, k, n.
    + eapply inv_perm; [symmetry; apply (slots_put d n k (<[i:=s]> p))|]. by destruct d, k, n.
  - rewrite unset_name_unfold.
    destruct (remove_string_ok d (index_of d k, get_name n k) (others d n k)) as (p & E & Hp).
    { eapply inv_perm; [apply slots_get|done]. }
    cbn [fst snd] in E. rewrite E. eexists. split; [reflexivity|]. split.
    + by destruct d, k, n.
    + eapply inv_perm; [symmetry; apply (slots_put d n k p)|]. by destruct d, k, n.
  - cbn [api_step]. unfold with_interface.
    assert (Hslot : forall i nm cd, slots (with_interfaces d (d_interfaces d ++
        [mkInterface c sc p eps i cd h])) (mkNames (n_conf n) (n_manu n) (n_prod n) (n_serial n) (n_intf n ++ [nm]))
      ≡ₚ (i, nm) :: slots d n).
    { intros i nm cd. unfold slots. destruct d, n; cbn in *. rewrite fmap_app. cbn.
      rewrite slots_zip_app by (by rewrite fmap_length). 
      rewrite (Permutation_app_comm (zip _ _) [_]). cbn.
      etrans; [do 3 apply perm_skip; apply perm_swap|]. etrans; [do 2 apply perm_skip; apply perm_swap|].
      etrans; [apply perm_skip; apply perm_swap|]. apply perm_swap. }
    destruct name as [s|]; cbn [obind].
    + destruct (new_string_ok dbg d (slots d n) s) as (i & E2 & Hp2).
      { by apply inv_none. }
      { rewrite <- (inv_size _ _ Hi), (names_inv_size d n) by done.
        unfold names_count in *. cbn in *. rewrite fmap_app, list_sum_app in Hc. cbn in Hc. lia. }
      rewrite E2. cbn [obind]. rewrite Hw. cbn [obind]. eexists. split; [reflexivity|]. split.
      * destruct d, n; cbn in *. rewrite !app_length; cbn. lia.
      * eapply inv_perm; [symmetry|]; [|]; cycle 1.
        -- replace (d_string_pool _) with (<[i:=s]> (d_string_pool d)) by by destruct d. exact Hp2.
        -- specialize (Hslot i (Some s) (i_csd H (c_state (w_intf w h)))). by destruct d, n.
    + rewrite Hw. cbn [obind]. eexists. split; [reflexivity|]. split.
      * destruct d, n; cbn in *. rewrite !app_length; cbn. lia.
      * eapply inv_perm; [symmetry; apply Hslot|]. apply inv_none. by destruct d.
Qed.

Lemma names_run_cons n o ops :
  names_run n (o :: ops) = ((names_run (names_step n o).1 ops).1,
                            (names_step n o).2 :: (names_run (names_step n o).1 ops).2).
Proof. cbn. destruct (names_step n o) as [n1 r]. cbn. by destruct (names_run n1 ops). Qed.

Lemma api_run_ok {H} dbg (w : world H) d n ops :
  (forall h, c_poisoned (w_intf w h) = false) ->
  names_inv d n -> (forall p, p `prefix_of` ops -> (names_count (names_run n p).1 <= 254)%nat) ->
  exists d', api_run dbg w d ops = Val (d', (names_run n ops).2) /\ names_inv d' (names_run n ops).1.
Proof.
  intros Hw. revert d n. induction ops as [|o ops IH]; intros d n Hi Hc; [by exists d|].
  rewrite names_run_cons. cbn [api_run fst snd].
  destruct (api_step_ok dbg w d n o Hw Hi) as (d1 & E & Hi1).
  { specialize (Hc [o] ltac:(by exists ops)). by rewrite names_run_cons in Hc. }
  destruct (IH d1 _ Hi1) as (d2 & E2 & Hi2).
  { intros p [q ->]. specialize (Hc (o :: p) ltac:(by exists q)). by rewrite names_run_cons in Hc. }
  exists d2. rewrite E. cbn [obind]. rewrite E2. done.
Qed.

Lemma inv_reports d n : names_inv d n -> reports d n.
Proof.
  intros [Hl (Hf & Hn & Hd)]. unfold slots in Hf. rewrite Forall_app in Hf. destruct Hf as [Hf Hz].
  rewrite !Forall_cons in Hf. destruct Hf as (H1 & H2 & H3 & H4 & _).
  assert (Hall : Forall2 (fun f o => names_string d (if_string f) o) (d_interfaces d) (n_intf n)).
  { clear -Hz Hl. revert Hz Hl. generalize (n_intf n). unfold names_string.
    induction (d_interfaces d) as [|f l IH]; intros [|o l'] Hz Hl; cbn in *; try done; constructor.
    - apply Forall_cons in Hz as [Hz _]. exact Hz.
    - apply IH; [by apply Forall_cons in Hz as [_ Hz]|lia]. }
  split_and!; try done.
  assert (E : used_indices d = used (slots d n)); [|by rewrite E].
  assert (G : forall l, Forall (slot_ok (d_string_pool d)) l -> filter (fun i : N => i <> 0) l.*1 = used l).
  { clear. induction l as [|[i [s|]] l IH]; intros Hf; [done| |]; apply Forall_cons in Hf as [Hx Hf]; cbn in Hx.
    - change (filter (fun i : N => i <> 0) (i :: l.*1) = i :: used l).
      rewrite filter_cons_True by lia. by rewrite IH.
    - subst i. change (filter (fun i : N => i <> 0) (0 :: l.*1) = used l).
      rewrite filter_cons_False by (intros X; apply X; done). by rewrite IH. }
  rewrite <- G.
  - unfold used_indices, slots. cbn. rewrite fst_zip by (rewrite fmap_length; lia). done.
  - unfold slots. apply Forall_app. split; [|done]. by rewrite !Forall_cons.
Qed.

Lemma new_device_names dbg index : exists d, new_device dbg index = Val d /\ names_inv d fresh_names.
Proof.
  unfold new_device. cbv zeta.
  match goal with |- context [new_string dbg ?d0 _] => set (d00 := d0) end.
  assert (I0 : pool_inv [(0, None)] (d_string_pool d00)).
  { split; [by repeat constructor|]. split; [constructor|]. cbn. by rewrite dom_empty_L. }
  destruct (new_string_ok dbg d00 [] (Utf.lit "Default Configuration") I0 ltac:(cbn; lia)) as (i1 & E1 & I1).
  rewrite E1. cbn [obind].
  match goal with |- context [new_string dbg ?d0 _] => set (d01 := d0) end.
  destruct (new_string_ok dbg d01 [(i1, Some (Utf.lit "Default Configuration"))] (Utf.lit "Manufacturer") (inv_none _ _ I1)
    ltac:(cbn; lia)) as (i2 & E2 & I2).
  rewrite E2. cbn [obind].
  match goal with |- context [new_string dbg ?d0 _] => set (d02 := d0) end.
  destruct (new_string_ok dbg d02 [(i2, Some (Utf.lit "Manufacturer")); (i1, Some (Utf.lit "Default Configuration"))]
    (Utf.lit "Product") (inv_none _ _ I2) ltac:(cbn; lia)) as (i3 & E3 & I3).
  rewrite E3. cbn [obind].
  match goal with |- context [new_string dbg ?d0 _] => set (d03 := d0) end.
  destruct (new_string_ok dbg d03 [(i3, Some (Utf.lit "Product")); (i2, Some (Utf.lit "Manufacturer"));
    (i1, Some (Utf.lit "Default Configuration"))] (Utf.lit "Serial") (inv_none _ _ I3) ltac:(cbn; lia)) as (i4 & E4 & I4).
  rewrite E4. cbn [obind]. eexists. split; [reflexivity|]. split; [reflexivity|].
  eapply inv_perm; [|exact I4].
  change (rev [(i1, Some (Utf.lit "Default Configuration")); (i2, Some (Utf.lit "Manufacturer"));
      (i3, Some (Utf.lit "Product")); (i4, Some (Utf.lit "Serial"))]
    ≡ₚ [(i1, Some (Utf.lit "Default Configuration")); (i2, Some (Utf.lit "Manufacturer"));
      (i3, Some (Utf.lit "Product")); (i4, Some (Utf.lit "Serial"))]).
  symmetry. apply Permutation_rev.
Qed.

(** ** Filling the pool *)
Lemma val_inj {A} (a b : A) : Val a = Val b -> a = b.
Proof. congruence. Qed.
Definition fills (d : device) (n : N) : Prop := forall i, is_Some (d_string_pool d !! i) <-> 1 <= i <= n.
Definition named_interface : name_op := AddInterface 0 0 0 (Some [65]) [] 0.

Lemma fill_step {H} dbg (w : world H) d r : (forall h, c_poisoned (w_intf w h) = false) ->
  find_vacant dbg (d_string_pool d) 1 256 = Val r ->
  exists d', api_step dbg w d named_interface = Val (d', None) /\
    d_string_pool d' = <[r := [65]]> (d_string_pool d) /\ if_string <$> last (d_interfaces d') = Some r.
Proof.
  intros Hw E. eexists. split.
  - cbn [api_step named_interface]. unfold with_interface, new_string. rewrite E. cbn [obind]. rewrite Hw. reflexivity.
  - split; [reflexivity|]. cbn -[last]. by rewrite last_snoc.
Qed.
Lemma fill {H} dbg (w : world H) k : (forall h, c_poisoned (w_intf w h) = false) ->
  forall d n, fills d n -> n + N.of_nat k <= 254 ->
  exists d' outs, api_run dbg w d (replicate k named_interface) = Val (d', outs) /\ fills d' (n + N.of_nat k).
Proof.
  intros Hw. induction k as [|k IH]; intros d n Hf Hn; [exists d, []; split; [done|]; by rewrite N.add_0_r|].
  destruct (find_vacant_low dbg (d_string_pool d)) as (r & E & Hr & Hno & Hj).
  { exists (n + 1). split; [lia|]. apply eq_None_not_Some. rewrite (Hf (n + 1)). lia. }
  assert (r = n + 1) as ->.
  { destruct (N.lt_trichotomy r (n + 1)) as [Hlt|[?|Hgt]]; [|done|].
    - exfalso. apply eq_None_not_Some in Hno. apply Hno, Hf. lia.
    - destruct (Hj (n + 1)) as [x Hx]; [lia|]. destruct (proj1 (Hf (n + 1))); [by exists x|lia]. }
  destruct (fill_step dbg w d _ Hw E) as (d1 & E1 & Hp & _).
  assert (Hf1 : fills d1 (n + 1)).
  { intros i. rewrite Hp. destruct (decide (i = n + 1)) as [-> |Hne].
    - rewrite lookup_insert. split; [lia|by eexists].
    - rewrite lookup_insert_ne by done. rewrite (Hf i). lia. }
  destruct (IH d1 (n + 1) Hf1 ltac:(lia)) as (d' & outs & E2 & Hf2).
  exists d', (None :: outs). split; [cbn [replicate api_run]; rewrite E1; cbn [obind]; by rewrite E2|].
  by replace (n + N.of_nat (S k)) with (n + 1 + N.of_nat k) by lia.
Qed.
Lemma fills_insert d d' n s : fills d n -> d_string_pool d' = <[n + 1 := s]> (d_string_pool d) -> fills d' (n + 1).
Proof.
  intros Hf Hp i. rewrite Hp. destruct (decide (i = n + 1)) as [-> |Hne].
  - rewrite lookup_insert. split; [lia|by eexists].
  - rewrite lookup_insert_ne by done. rewrite (Hf i). lia.
Qed.
Lemma next_string dbg d n : fills d n -> n < 254 -> find_vacant dbg (d_string_pool d) 1 256 = Val (n + 1).
Proof.
  intros Hf Hn. destruct (find_vacant_low dbg (d_string_pool d)) as (r & E & Hr & Hno & Hj).
  { exists (n + 1). split; [lia|]. apply eq_None_not_Some. rewrite (Hf (n + 1)). lia. }
  rewrite E. f_equal. destruct (N.lt_trichotomy r (n + 1)) as [Hlt|[?|Hgt]]; [|done|].
  - exfalso. apply eq_None_not_Some in Hno. apply Hno, Hf. lia.
  - destruct (Hj (n + 1)) as [x Hx]; [lia|]. destruct (proj1 (Hf (n + 1))); [by exists x|lia].
Qed.
Lemma new_device_fills dbg index : exists d, new_device dbg index = Val d /\ fills d 4.
Proof.
  unfold new_device. cbv zeta.
  match goal with |- context [new_string dbg ?d0 _] => set (d00 := d0) end.
  assert (F0 : fills d00 0).
  { intros i. change (d_string_pool d00) with (∅ : gmap N rstring). rewrite lookup_empty. split; [intros [? [=]]|lia]. }
  clearbody d00. unfold new_string at 1. rewrite (next_string _ _ _ F0) by lia. cbn [obind].
  match goal with |- context [new_string dbg ?d0 _] => set (d01 := d0) end.
  assert (F1 : fills d01 1) by exact (fills_insert d00 d01 0 _ F0 eq_refl).
  clearbody d01. unfold new_string at 1. rewrite (next_string _ _ _ F1) by lia. cbn [obind].
  match goal with |- context [new_string dbg ?d0 _] => set (d02 := d0) end.
  assert (F2 : fills d02 2) by exact (fills_insert d01 d02 1 _ F1 eq_refl).
  clearbody d02. unfold new_string at 1. rewrite (next_string _ _ _ F2) by lia. cbn [obind].
  match goal with |- context [new_string dbg ?d0 _] => set (d03 := d0) end.
  assert (F3 : fills d03 3) by exact (fills_insert d02 d03 2 _ F2 eq_refl).
  clearbody d03. unfold new_string at 1. rewrite (next_string _ _ _ F3) by lia. cbn [obind].
  eexists. split; [reflexivity|]. eapply (fills_insert d03 _ 3 (Utf.lit "Serial") F3). reflexivity.
Qed.
Lemma api_run_app {H} dbg (w : world H) d l1 l2 d1 o1 : api_run dbg w d l1 = Val (d1, o1) ->
  api_run dbg w d (l1 ++ l2) = obind (api_run dbg w d1 l2) (fun '(d2, o2) => Val (d2, o1 ++ o2)).
Proof.
  revert d o1. induction l1 as [|o l1 IH]; intros d o1 E; cbn [api_run app] in *.
  - apply val_inj in E. injection E as -> <-. by destruct (api_run dbg w d1 l2) as [[]| |].
  - destruct (api_step dbg w d o) as [[d0 r]| |] eqn:E0; cbn [obind] in *; [|done|done].
    destruct (api_run dbg w d0 l1) as [[d2 o2]| |] eqn:E1; cbn [obind] in *; [|done|done].
    apply val_inj in E. injection E as -> <-. rewrite (IH _ _ E1). by destruct (api_run dbg w d1 l2) as [[]| |].
Qed.
