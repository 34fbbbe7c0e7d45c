(** * Devices built with the public API *)
From Verif Require Export SpecBuild SessionProofs.
From Verif Require Import PoolProofs.
From Coq Require Strings.String.
Import Strings.String.StringSyntax.

(** A device without its names and interfaces. *)
Definition erase (d : device) : device := with_interfaces (with_string_refs (with_pool d ∅) 0 0 0 0) [].
Lemma erase_step {H} dbg (w : world H) d o d' r : api_step dbg w d o = Val (d', r) -> erase d' = erase d.
Proof.
  assert (R : forall i, erase (remove_string d i).2 = erase d).
  { intros i. unfold remove_string. destruct (negb _); by destruct d. }
  assert (N : forall d s i d1, new_string dbg d s = Val (i, d1) -> erase d1 = erase d).
  { intros d0 s i d1 E. unfold new_string in E. apply obind_val in E as (j & _ & E). apply Val_inj in E. injection E as <- <-. by destruct d0. }
  destruct o as [k s|k|c sc p name eps h]; intros E.
  - rewrite set_name_unfold in E. specialize (R (index_of d k)). destruct (remove_string d _) as [old d1]. cbn in R.
    apply obind_val in E as ([i d2] & E & E2). apply Val_inj in E2. injection E2 as <- <-.
    rewrite <- R, <- (N _ _ _ _ E). by destruct k, d2.
  - rewrite unset_name_unfold in E. specialize (R (index_of d k)). destruct (remove_string d _) as [old d1]. cbn in R.
    apply Val_inj in E. injection E as <- <-. rewrite <- R. by destruct k, d1.
  - cbn [api_step] in E. apply obind_val in E as (d2 & E & E2). apply Val_inj in E2. injection E2 as <- <-.
    unfold with_interface in E. apply obind_val in E as ([i d1] & E & E2). destruct (c_poisoned _); [done|].
    apply Val_inj in E2. subst d2.
    assert (erase d1 = erase d) as <-. { destruct name; [by eapply N|]. apply Val_inj in E. by injection E as <- <-. }
    by destruct d1.
Qed.
Lemma erase_run {H} dbg (w : world H) d ops d' r : api_run dbg w d ops = Val (d', r) -> erase d' = erase d.
Proof.
  revert d r. induction ops as [|o ops IH]; intros d r E; cbn in E; [apply Val_inj in E; by injection E as -> _|].
  apply obind_val in E as ([d1 r1] & E1 & E). apply obind_val in E as ([d2 r2] & E2 & E). apply Val_inj in E. injection E as <- _.
  rewrite (IH _ _ E2). by eapply erase_step.
Qed.

Lemma intfs_step {H} dbg (w : world H) d o d' r l : api_step dbg w d o = Val (d', r) ->
  Forall2 as_asked (d_interfaces d) l -> Forall2 as_asked (d_interfaces d') (l ++ asked w [o]).
Proof.
  assert (R : forall i, d_interfaces (remove_string d i).2 = d_interfaces d).
  { intros i. unfold remove_string. destruct (negb _); by destruct d. }
  assert (N : forall d s i d1, new_string dbg d s = Val (i, d1) -> d_interfaces d1 = d_interfaces d).
  { intros d0 s i d1 E. unfold new_string in E. apply obind_val in E as (j & _ & E). apply Val_inj in E. injection E as <- <-. by destruct d0. }
  destruct o as [k s|k|c sc p name eps h]; intros E Hf.
  - cbn. rewrite app_nil_r. rewrite set_name_unfold in E. specialize (R (index_of d k)). destruct (remove_string d _) as [old d1]. cbn in R.
    apply obind_val in E as ([i d2] & E & E2). apply Val_inj in E2. injection E2 as <- <-.
    rewrite <- R, <- (N _ _ _ _ E) in Hf. by destruct k, d2.
  - cbn. rewrite app_nil_r. rewrite unset_name_unfold in E. specialize (R (index_of d k)). destruct (remove_string d _) as [old d1]. cbn in R.
    apply Val_inj in E. injection E as <- <-. rewrite <- R in Hf. by destruct k, d1.
  - cbn [api_step] in E. apply obind_val in E as (d2 & E & E2). apply Val_inj in E2. injection E2 as <- <-.
    unfold with_interface in E. apply obind_val in E as ([i d1] & E & E2). destruct (c_poisoned _); [done|].
    apply Val_inj in E2. subst d2.
    assert (d_interfaces d1 = d_interfaces d) as Ed. { destruct name; [by eapply N|]. apply Val_inj in E. by injection E as <- <-. }
    replace (d_interfaces (with_interfaces _ _)) with (d_interfaces d1 ++ [mkInterface c sc p eps i (i_csd H (c_state (w_intf w h))) h]) by by destruct d1.
    rewrite Ed. apply Forall2_app; [done|]. cbn. constructor; [|constructor]. by repeat split.
Qed.
Lemma asked_app {H} (w : world H) l1 l2 : asked w (l1 ++ l2) = asked w l1 ++ asked w l2.
Proof. apply omap_app. Qed.
Lemma intfs_run {H} dbg (w : world H) d ops d' r l : api_run dbg w d ops = Val (d', r) ->
  Forall2 as_asked (d_interfaces d) l -> Forall2 as_asked (d_interfaces d') (l ++ asked w ops).
Proof.
  revert d r l. induction ops as [|o ops IH]; intros d r l E Hf; cbn in E; [apply Val_inj in E; injection E as -> _; cbn; by rewrite app_nil_r|].
  apply obind_val in E as ([d1 r1] & E1 & E). apply obind_val in E as ([d2 r2] & E2 & E). apply Val_inj in E. injection E as <- _.
  change (o :: ops) with ([o] ++ ops). rewrite asked_app, app_assoc. eapply IH; [exact E2|]. by eapply intfs_step.
Qed.

(** The names in use were given by the user, or are the default ones. *)
Definition names_list (n : names) : list rstring :=
  omap id ([n_conf n; n_manu n; n_prod n; n_serial n] ++ n_intf n).
Lemma names_step_all (P : rstring -> Prop) n o : Forall P (names_list n) -> Forall P (op_names o) ->
  Forall P (names_list (names_step n o).1).
Proof.
  unfold names_list. rewrite !omap_app, !Forall_app. intros [H1 H2] Ho.
  assert (K : forall o, Forall P (omap id [o]) <-> match o with Some s => P s | None => True end).
  { intros [s|]; cbn; [|done]. rewrite Forall_singleton. done. }
  assert (K4 : forall a b c d, Forall P (omap id [a; b; c; d]) <->
    Forall P (omap id [a]) /\ Forall P (omap id [b]) /\ Forall P (omap id [c]) /\ Forall P (omap id [d])).
  { intros a b c d. change [a; b; c; d] with ([a] ++ [b] ++ [c] ++ [d]). by rewrite !omap_app, !Forall_app. }
  rewrite K4 in *. rewrite !K in *. destruct H1 as (Ha & Hb & Hc & Hd).
  destruct o as [k s|k|c sc p name eps h]; cbn [names_step fst op_names] in *.
  - rewrite Forall_singleton in Ho. destruct k; cbn [put_name n_conf n_manu n_prod n_serial n_intf] in *; (split; [split; [|split; [|split]]|]); first [assumption|exact I].
  - destruct k; cbn [put_name n_conf n_manu n_prod n_serial n_intf] in *; (split; [split; [|split; [|split]]|]); first [assumption|exact I].
  - cbn [n_intf]. rewrite omap_app, Forall_app, K. destruct name; [rewrite Forall_singleton in Ho|]; cbn [n_conf n_manu n_prod n_serial n_intf] in *; (split; [split; [|split; [|split]]|split]); first [assumption|exact I].
Qed.
Lemma names_run_all (P : rstring -> Prop) n ops : Forall P (names_list n) -> Forall P (ops ≫= op_names) ->
  Forall P (names_list (names_run n ops).1).
Proof.
  revert n. induction ops as [|o ops IH]; intros n Hn Ho; [done|]. cbn in Ho. apply Forall_app in Ho as [H1 H2].
  rewrite names_run_cons. cbn [fst]. apply IH; [|done]. by apply names_step_all.
Qed.

(** Every string of the pool is one of the names. *)
Lemma pool_names d n i s : names_inv d n -> d_string_pool d !! i = Some s -> s ∈ names_list n /\ 0 < i < 256.
Proof.
  intros [Hl (Hf & _ & Hd)] Hp. assert (Hi : i ∈ dom (d_string_pool d)) by (apply elem_of_dom; by eexists).
  rewrite Hd, elem_of_list_to_set in Hi. unfold used in Hi. apply elem_of_list_omap in Hi as ([j [t|]] & Hin & Ej); [|done].
  cbn in Ej. injection Ej as ->. rewrite Forall_forall in Hf. destruct (Hf _ Hin) as (H1 & H2 & H3). cbn [fst snd] in *.
  rewrite Hp in H3. injection H3 as ->. split; [|done]. unfold names_list. apply elem_of_list_omap. exists (Some t). split; [|done].
  assert (Hs : Some t ∈ (slots d n).*2) by (apply elem_of_list_fmap; by exists (i, Some t)).
  unfold slots in Hs. rewrite fmap_app, snd_zip in Hs by (rewrite fmap_length; lia). exact Hs.
Qed.

Lemma as_asked_size l a : Forall2 as_asked l a ->
  fold_right (fun f n => 9 + len (if_class_specific f) + 7 * len (if_endpoints f) + n) 9 l = total_size a.
Proof.
  induction 1 as [|f x l a (_ & _ & _ & E1 & E2 & _) Hf IH]; [done|]. cbn -[N.add N.mul]. unfold total_size in IH. rewrite IH, E1, E2. done.
Qed.
Lemma as_asked_view k l a : Forall2 as_asked l a ->
  imap (fun n f => intf_view (N.of_nat (k + n)) f) l = imap (fun n x => asked_view (k + n) x) (zip a (if_string <$> l)).
Proof.
  intros Hf. revert k. induction Hf as [|f x l a (E1 & E2 & E3 & E4 & E5 & E6) Hf IH]; intros k; [done|].
  cbn [zip fmap list_fmap]. cbn. f_equal.
  - unfold intf_view, asked_view. cbn. by rewrite E1, E2, E3, E4, E5.
  - specialize (IH (S k)). etrans; [|etrans; [exact IH|]]; apply imap_ext; intros j y _; cbn; do 2 f_equal; lia.
Qed.

(** ** The built device *)
Definition base (index : N) : device :=
  mkDevice (lit "/sys/bus/0/0/0") (lit "0-0-0") 0 index 3 0 0 (mkVersion 0 0 0) 0 0 0 1 1 [] None (mkVersion 0 0 0)
    (mkEndpoint 128 0 64 0) (mkEndpoint 0 0 64 0) ∅ 0 0 0 0.
Lemma new_string_erase dbg d s i d1 : new_string dbg d s = Val (i, d1) -> erase d1 = erase d /\ d_interfaces d1 = d_interfaces d.
Proof.
  intros E. unfold new_string in E. apply obind_val in E as (j & _ & E). apply Val_inj in E. injection E as <- <-. by destruct d.
Qed.
Lemma refs_erase d a b c e : erase (with_string_refs d a b c e) = erase d /\ d_interfaces (with_string_refs d a b c e) = d_interfaces d.
Proof. by destruct d. Qed.
Lemma new_device_erase dbg index d : new_device dbg index = Val d -> erase d = base index /\ d_interfaces d = [].
Proof.
  unfold new_device. intros E. cbv zeta in E.
  apply obind_val in E as ([i1 d1] & E1 & E). apply obind_val in E as ([i2 d2] & E2 & E).
  apply obind_val in E as ([i3 d3] & E3 & E). apply obind_val in E as ([i4 d4] & E4 & E). apply Val_inj in E. subst d.
  apply new_string_erase in E1, E2, E3, E4.
  destruct (refs_erase d4 i1 i2 i3 i4) as [-> ->]. destruct E4 as [-> ->]. destruct (refs_erase d3 i1 i2 i3 0) as [-> ->].
  destruct E3 as [-> ->]. destruct (refs_erase d2 i1 i2 0 0) as [-> ->]. destruct E2 as [-> ->].
  destruct (refs_erase d1 i1 0 0 0) as [-> ->]. destruct E1 as [-> ->]. done.
Qed.

Lemma base_fields index d : erase d = base index ->
  d_path d = lit "/sys/bus/0/0/0" /\ d_bus_id d = lit "0-0-0" /\ d_bus_num d = 0 /\ d_dev_num d = index /\ d_speed d = 3 /\
  d_vendor_id d = 0 /\ d_product_id d = 0 /\ d_bcd d = mkVersion 0 0 0 /\ d_class d = 0 /\ d_subclass d = 0 /\ d_protocol d = 0 /\
  d_configuration_value d = 1 /\ d_num_configurations d = 1 /\ d_handler d = None /\ d_usb_version d = mkVersion 0 0 0 /\
  d_ep0_in d = mkEndpoint 128 0 64 0 /\ d_ep0_out d = mkEndpoint 0 0 64 0.
Proof. intros B. destruct d. unfold erase, base in B. cbn -[lit] in B. injection B as -> -> -> -> -> -> -> -> -> -> -> -> -> -> -> -> ->. by split_and!. Qed.

Lemma names_string_u8 d i o : names_string d i o -> u8 i.
Proof. unfold u8. destruct o; cbn; [|intros ->]; lia. Qed.

Lemma fresh_names_ok : Forall name_ok (names_list fresh_names).
Proof. unfold names_list. cbn -[lit]. repeat constructor; vm_compute; done. Qed.

Lemma built {H} dbg (w : world H) index ops : reasonable w ops ->
  exists d0 d r, new_device dbg index = Val d0 /\ api_run dbg w d0 ops = Val (d, r) /\
    names_inv d (names_run fresh_names ops).1 /\ erase d = base index /\ Forall2 as_asked (d_interfaces d) (asked w ops).
Proof.
  intros [Hh Hc _ _ _ _]. destruct (new_device_names dbg index) as (d0 & E0 & I0).
  destruct (api_run_ok dbg w d0 fresh_names ops Hh I0 Hc) as (d & E & I). destruct (new_device_erase _ _ _ E0) as [B1 B2].
  exists d0, d, (names_run fresh_names ops).2. split_and!; try done.
  - rewrite <- B1. by eapply erase_run.
  - eapply (intfs_run _ _ _ _ _ _ []); [exact E|]. rewrite B2. constructor.
Qed.

Lemma built_enumerable {H} (w : world H) index ops d : reasonable w ops -> u32 index ->
  names_inv d (names_run fresh_names ops).1 -> erase d = base index -> Forall2 as_asked (d_interfaces d) (asked w ops) ->
  enumerable d.
Proof.
  intros [_ _ Hn Hi Hk Ht] Hx I B F. pose proof (inv_reports _ _ I) as (R1 & R2 & R3 & R4 & R5 & _).
  apply names_string_u8 in R1, R2, R3, R4.
  assert (Hp : forall i s, d_string_pool d !! i = Some s -> name_ok s /\ 0 < i < 256).
  { intros i s Hs. destruct (pool_names _ _ _ _ I Hs) as [Hin Hr]. split; [|done].
    pose proof (names_run_all name_ok fresh_names ops fresh_names_ok Hn) as Ha. rewrite Forall_forall in Ha. by apply Ha. }
  assert (Hs : config_size d = total_size (asked w ops)) by by apply as_asked_size.
  assert (Hlen : len (d_interfaces d) = len (asked w ops)) by (unfold len; by rewrite (Forall2_length _ _ _ F)).
  assert (Hti : Forall typed_interface (d_interfaces d)).
  { apply Forall_forall. intros f Hf. apply elem_of_list_lookup in Hf as [k Hf].
    destruct (Forall2_lookup_l _ _ _ _ _ F Hf) as (a & Ha & (E1 & E2 & E3 & E4 & E5 & _)).
    destruct (Forall2_lookup_l _ _ _ _ _ R5 Hf) as (o & Ho & Hso). apply names_string_u8 in Hso.
    rewrite Forall_forall in Hi. destruct (Hi a) as (A1 & A2 & A3 & A4 & A5 & A6 & A7); [by eapply elem_of_list_lookup_2|].
    unfold typed_interface. rewrite E1, E2, E3, E4, E5. split_and!; done. }
  assert (Hcl : config_limits d).
  { split; [by rewrite Hlen|]. apply Forall_forall. intros f Hf. apply elem_of_list_lookup in Hf as [k Hf].
    destruct (Forall2_lookup_l _ _ _ _ _ F Hf) as (a & Ha & (E1 & E2 & E3 & E4 & E5 & _)).
    rewrite Forall_forall in Hi. destruct (Hi a) as (A1 & A2 & A3 & A4 & A5 & A6 & A7); [by eapply elem_of_list_lookup_2|].
    by rewrite E4, E5. }
  assert (Hsz : config_size d < 65536) by (by rewrite Hs).
  clear R5 F Hs Hlen I.
  destruct (base_fields _ _ B) as (B1 & B2 & B3 & B4 & B5 & B6 & B7 & B8 & B9 & B10 & B11 & B12 & B13 & B14 & B15 & B16 & B17).
  unfold enumerable, fits. rewrite B1, B2, B16, B17. split_and!; try done.
  - unfold typed_device. rewrite B1, B2, B3, B4, B5, B6, B7, B8, B9, B10, B11, B12, B13, B15, B16, B17. split_and!; try done.
    intros i s Hl. destruct (Hp _ _ Hl) as [[? _] ?]. split; [|done]. unfold u8. lia.
  - intros ix str Hl. by destruct (Hp _ _ Hl) as [[_ ?] ?].
Qed.

Lemma name_learnt {H} dbg (st : cstate H) d i o : names_string d i o ->
  (forall str, o = Some str -> name_ok str) -> host_name dbg st d i o.
Proof.
  destruct o as [s|]; cbn; [|done]. intros (H1 & H2 & H3) Hok. destruct (Hok s eq_refl) as [Hr Hu]. split; [lia|].
  intros m sb st0 HC HG. destruct (string_desc_reply dbg st m sb d st0 i s HC HG ltac:(lia) H3 Hr Hu) as (desc & Hl & _ & HR). eauto.
Qed.

Lemma eighteen (b bs : list N) : length b = 18%nat -> length bs = 18%nat ->
  (forall i x, (i < 18)%nat -> bs !! i = Some x -> b !! i = Some x) -> b = bs.
Proof.
  intros L1 L2 Hx. apply list_eq. intros i. destruct (decide (i < 18)%nat) as [Hi|Hi].
  - destruct (lookup_lt_is_Some_2 bs i ltac:(lia)) as [x E]. by rewrite E, (Hx i x).
  - by rewrite !lookup_ge_None_2 by lia.
Qed.

Lemma built_learnt {H} dbg (w : world H) (st : cstate H) index ops d : reasonable w ops -> u32 index ->
  names_inv d (names_run fresh_names ops).1 -> erase d = base index -> Forall2 as_asked (d_interfaces d) (asked w ops) ->
  host_learns dbg st d (asked w ops) (names_run fresh_names ops).1.
Proof.
  intros Hr Hx I B F. pose proof (built_enumerable w index ops d Hr Hx I B F) as (Ht & _ & _ & _ & _ & _ & Hcl & Hcs & _).
  pose proof (inv_reports _ _ I) as (R1 & R2 & R3 & R4 & R5 & _).
  assert (Hok : forall o str, o ∈ [n_conf (names_run fresh_names ops).1; n_manu (names_run fresh_names ops).1;
      n_prod (names_run fresh_names ops).1; n_serial (names_run fresh_names ops).1] ++ n_intf (names_run fresh_names ops).1 ->
      o = Some str -> name_ok str).
  { intros o str Ho ->. pose proof (names_run_all name_ok fresh_names ops fresh_names_ok (rs_names _ _ Hr)) as Ha.
    rewrite Forall_forall in Ha. apply Ha. unfold names_list. apply elem_of_list_omap. by exists (Some str). }
  set (n := (names_run fresh_names ops).1) in *.
  exists (d_string_manufacturer d), (d_string_product d), (d_string_serial d), (d_string_configuration d), (if_string <$> d_interfaces d).
  split_and!.
  - intros ix m sb s HC HG. destruct (device_desc_reply dbg st m sb d s ix HC Ht HG) as (desc & HL & HR). exists desc. split; [|done].
    assert (E : d_usb_version d = mkVersion 0 0 0 /\ d_class d = 0 /\ d_subclass d = 0 /\ d_protocol d = 0 /\
      ep_max_packet_size (d_ep0_in d) = 64 /\ d_vendor_id d = 0 /\ d_product_id d = 0 /\ d_bcd d = mkVersion 0 0 0 /\ d_num_configurations d = 1).
    { destruct (base_fields _ _ B) as (B1 & B2 & B3 & B4 & B5 & B6 & B7 & B8 & B9 & B10 & B11 & B12 & B13 & B14 & B15 & B16 & B17). rewrite B16. by split_and!. }
    destruct E as (E1 & E2 & E3 & E4 & E5 & E6 & E7 & E8 & E9).
    unfold device_desc_layout in HL. rewrite E1, E2, E3, E4, E5, E6, E7, E8, E9 in HL.
    destruct HL as (L & L0 & L1 & L2 & L3 & L4 & L5 & L6 & L7 & (a & b & La & Lb & _ & _ & Lab) & (a' & b' & La' & Lb' & _ & _ & Lab') & L12 & L13 & L14 & L15 & L16 & L17).
    assert (a = 0 /\ b = 0 /\ a' = 0 /\ b' = 0) as (-> & -> & -> & ->) by lia.
    unfold u8_at in *. cbn in La, Lb, La', Lb', L2, L3, L7, L12, L13.
    apply eighteen; [done|done|]. intros i x Hi Ex.
    do 18 (destruct i as [|i]; [cbn in Ex; injection Ex as <-; assumption|]). lia.
  - intros ix m sb s HC HG. destruct (config_desc_reply dbg st m sb d s ix HC Ht HG Hcl Hcs) as (desc & HL & HV & HU & HR).
    exists desc. split; [|done].
    assert (Hs : config_size d = total_size (asked w ops)) by by apply as_asked_size.
    assert (Hlen : len (d_interfaces d) = len (asked w ops)) by (unfold len; by rewrite (Forall2_length _ _ _ F)).
    assert (EV : config_view d (len desc) = mkHostConfig (total_size (asked w ops)) (len (asked w ops)) 1 (d_string_configuration d) 128 50
      (imap asked_view (zip (asked w ops) (if_string <$> d_interfaces d)))).
    { unfold config_view. rewrite HL, Hs, Hlen. f_equal.
      - destruct (base_fields _ _ B) as (B1 & B2 & B3 & B4 & B5 & B6 & B7 & B8 & B9 & B10 & B11 & B12 & B13 & B14 & B15 & B16 & B17). done.
      - exact (as_asked_view 0 _ _ F). }
    rewrite <- EV. split; [by rewrite HL|]. split; [done|exact HU].
  - by rewrite fmap_length, (Forall2_length _ _ _ F).
  - apply name_learnt; [done|]. intros str. apply Hok. set_solver.
  - apply name_learnt; [done|]. intros str. apply Hok. set_solver.
  - apply name_learnt; [done|]. intros str. apply Hok. set_solver.
  - apply name_learnt; [done|]. intros str. apply Hok. set_solver.
  - apply Forall2_fmap_l. apply Forall2_same_length_lookup. split; [by eapply Forall2_length|]. intros k f o Hf Ho. apply name_learnt.
    + exact (Forall2_lookup_lr _ _ _ _ _ _ R5 Hf Ho).
    + intros str. apply Hok. apply elem_of_app. right. by eapply elem_of_list_lookup_2.
Qed.

(** ** Endpoints *)
Definition addresses (l : list asked_intf) : list N := l ≫= fun a => ep_address <$> a_endpoints a.
Lemma addresses_app l1 l2 : addresses (l1 ++ l2) = addresses l1 ++ addresses l2.
Proof. unfold addresses. by rewrite bind_app. Qed.
Lemma built_addressed index d l k a e : erase d = base index -> Forall2 as_asked (d_interfaces d) l ->
  NoDup (0 :: 128 :: addresses l) -> l !! k = Some a -> e ∈ a_endpoints a ->
  exists f, d_interfaces d !! k = Some f /\ addressed d (ep_address e) e (Some f) /\ if_handler f = a_handler a.
Proof.
  intros B F Hn Hk He.
  destruct (base_fields _ _ B) as (_ & _ & _ & _ & _ & _ & _ & _ & _ & _ & _ & _ & _ & _ & _ & B16 & B17).
  destruct (Forall2_lookup_r _ _ _ _ _ F Hk) as (f & Hf & (E1 & E2 & E3 & E4 & E5 & E6)).
  exists f. split; [done|]. split; [|done].
  apply elem_of_list_split_length in Hf as (fs1 & fs2 & Ed & Lk).
  rewrite Ed in F. apply Forall2_app_inv_l in F as (l1 & l2' & F1 & F2 & El). apply Forall2_cons_inv_l in F2 as (a' & l2 & (A1 & A2 & A3 & A4 & A5 & A6) & F2 & ->).
  assert (a' = a) as ->.
  { rewrite El, lookup_app_r in Hk by (rewrite <- (Forall2_length _ _ _ F1); lia).
    rewrite <- (Forall2_length _ _ _ F1), Lk, Nat.sub_diag in Hk. by injection Hk. }
  subst l. rewrite addresses_app in Hn. change (addresses (a :: l2)) with ((ep_address <$> a_endpoints a) ++ addresses l2) in Hn.
  apply NoDup_cons in Hn as [N1 Hn]. apply NoDup_cons in Hn as [N2 Hn].
  apply elem_of_list_split in He as (es1 & es2 & Ee).
  rewrite Ee, fmap_app in *. cbn [fmap list_fmap] in *.
  rewrite elem_of_cons, !elem_of_app, elem_of_cons in N1. rewrite !elem_of_app, elem_of_cons in N2.
  apply NoDup_app in Hn as (_ & Hd1 & Hn). apply NoDup_app in Hn as (Hn & _ & _). apply NoDup_app in Hn as (_ & Hd2 & _).
  eapply (addr_intf _ _ fs1 f fs2 es1 e es2).
  - rewrite B16. cbn. intros X. apply N2. tauto.
  - rewrite B17. cbn. intros X. apply N1. tauto.
  - exact Ed.
  - intros g Hg (x & Hx & Ex). apply elem_of_list_lookup in Hg as [j Hg].
    destruct (Forall2_lookup_l _ _ _ _ _ F1 Hg) as (b & Hb & (_ & _ & _ & G4 & _)).
    apply (Hd1 (ep_address e)).
    + unfold addresses. apply elem_of_list_bind. exists b. split; [|by eapply elem_of_list_lookup_2].
      apply elem_of_list_fmap. exists x. split; [done|]. by rewrite <- G4.
    + rewrite !elem_of_app, elem_of_cons. auto.
  - congruence.
  - done.
  - intros x Hx Ex. apply (Hd2 (ep_address e)).
    + apply elem_of_list_fmap. exists x. done.
    + apply elem_of_cons. auto.
Qed.

(** ** Builder calls on any device *)
Lemma new_string_own dbg d s i d1 : new_string dbg d s = Val (i, d1) ->
  own_fields d1 = own_fields d /\ d_handler d1 = d_handler d /\ d_interfaces d1 = d_interfaces d.
Proof. intros E. unfold new_string in E. apply obind_val in E as (j & _ & E). apply Val_inj in E. injection E as <- <-. by destruct d. Qed.
Lemma remove_string_own d i : own_fields (remove_string d i).2 = own_fields d /\ d_handler (remove_string d i).2 = d_handler d /\
  d_interfaces (remove_string d i).2 = d_interfaces d.
Proof. unfold remove_string. destruct (negb _); by destruct d. Qed.
Lemma step_own {H} dbg (w : world H) d o d' r : api_step dbg w d o = Val (d', r) ->
  own_fields d' = own_fields d /\ d_handler d' = d_handler d /\
  exists new, d_interfaces d' = d_interfaces d ++ new /\ Forall2 as_asked new (asked w [o]).
Proof.
  destruct o as [k s|k|c sc p name eps h]; intros E.
  - rewrite set_name_unfold in E. destruct (remove_string_own d (index_of d k)) as (R1 & R2 & R3). destruct (remove_string d _) as [old d1]. cbn in R1, R2, R3.
    apply obind_val in E as ([i d2] & E & E2). apply Val_inj in E2. injection E2 as <- <-.
    destruct (new_string_own _ _ _ _ _ E) as (N1 & N2 & N3).
    rewrite <- R1, <- R2, <- R3, <- N1, <- N2, <- N3. split_and!; [by destruct k, d2..|]. exists []. rewrite app_nil_r. split; [by destruct k, d2|constructor].
  - rewrite unset_name_unfold in E. destruct (remove_string_own d (index_of d k)) as (R1 & R2 & R3). destruct (remove_string d _) as [old d1]. cbn in R1, R2, R3.
    apply Val_inj in E. injection E as <- <-.
    rewrite <- R1, <- R2, <- R3. split_and!; [by destruct k, d1..|]. exists []. rewrite app_nil_r. split; [by destruct k, d1|constructor].
  - cbn [api_step] in E. apply obind_val in E as (d2 & E & E2). apply Val_inj in E2. injection E2 as <- <-.
    unfold with_interface in E. apply obind_val in E as ([i d1] & E & E2). destruct (c_poisoned _); [done|].
    apply Val_inj in E2. subst d2.
    assert (own_fields d1 = own_fields d /\ d_handler d1 = d_handler d /\ d_interfaces d1 = d_interfaces d) as (<- & <- & <-).
    { destruct name; [by eapply new_string_own|]. apply Val_inj in E. by injection E as <- <-. }
    split_and!; [by destruct d1..|]. eexists. split; [by destruct d1|]. cbn. constructor; [|constructor]. by repeat split.
Qed.
Lemma build_own {H} dbg (w : world H) cs : forall d d', build_run dbg w d cs = Val d' ->
  own_fields d' = own_fields d /\ d_handler d' = handler_after (d_handler d) cs /\
  exists new, d_interfaces d' = d_interfaces d ++ new /\ Forall2 as_asked new (asked w (name_ops cs)).
Proof.
  induction cs as [|[o|h] cs IH]; intros d d' E; cbn in E.
  - apply Val_inj in E as <-. split_and!; [done..|]. exists []. rewrite app_nil_r. split; [done|constructor].
  - apply obind_val in E as ([d1 r] & E1 & E). destruct (step_own _ _ _ _ _ _ E1) as (S1 & S2 & new1 & S3 & F1).
    destruct (IH _ _ E) as (I1 & I2 & new2 & I3 & F2). split; [congruence|]. split; [cbn; by rewrite I2, S2|].
    exists (new1 ++ new2). split; [by rewrite I3, S3, app_assoc|].
    change (name_ops (BName o :: cs)) with ([o] ++ name_ops cs). rewrite asked_app. by apply Forall2_app.
  - destruct (IH _ _ E) as (I1 & I2 & new2 & I3 & F2). split; [rewrite I1; by destruct d|]. split; [rewrite I2; by destruct d|].
    exists new2. split; [rewrite I3; by destruct d|done].
Qed.

(** The device handler makes no difference to the other calls. *)
Definition map_dev (h : href) {A} (o : outcome (device * A)) : outcome (device * A) :=
  match o with Val (d, x) => Val (with_device_handler d h, x) | Panic p => Panic p | Diverge => Diverge end.
Lemma new_string_handler dbg d h s : new_string dbg (with_device_handler d h) s =
  match new_string dbg d s with Val (i, d1) => Val (i, with_device_handler d1 h) | Panic p => Panic p | Diverge => Diverge end.
Proof. unfold new_string. cbn [with_device_handler d_string_pool]. destruct (find_vacant _ _ _ _); try done. Qed.
Lemma remove_string_handler d h i : remove_string (with_device_handler d h) i =
  ((remove_string d i).1, with_device_handler (remove_string d i).2 h).
Proof. unfold remove_string. cbn [with_device_handler d_string_pool]. by destruct (negb _). Qed.
Lemma api_step_handler {H} dbg (w : world H) d h o : api_step dbg w (with_device_handler d h) o = map_dev h (api_step dbg w d o).
Proof.
  destruct o as [k s|k|c sc p name eps h'].
  - rewrite !set_name_unfold. replace (index_of (with_device_handler d h) k) with (index_of d k) by by destruct k.
    rewrite remove_string_handler. destruct (remove_string d _) as [old d1]. cbn [fst snd].
    rewrite new_string_handler. destruct (new_string dbg d1 s) as [[i d2]| |]; cbn [obind map_dev]; try done. by destruct k.
  - rewrite !unset_name_unfold. replace (index_of (with_device_handler d h) k) with (index_of d k) by by destruct k.
    rewrite remove_string_handler. destruct (remove_string d _) as [old d1]. cbn. by destruct k.
  - cbn [api_step]. unfold with_interface. destruct name as [s|].
    + rewrite new_string_handler. destruct (new_string dbg d s) as [[i d2]| |]; cbn [obind map_dev]; try done. by destruct (c_poisoned _).
    + cbn [obind]. by destruct (c_poisoned _).
Qed.
Lemma api_run_handler {H} dbg (w : world H) h ops : forall d, api_run dbg w (with_device_handler d h) ops = map_dev h (api_run dbg w d ops).
Proof.
  induction ops as [|o ops IH]; intros d; cbn [api_run]; [done|]. rewrite api_step_handler.
  destruct (api_step dbg w d o) as [[d1 r1]| |]; cbn [map_dev obind]; try done. rewrite IH.
  by destruct (api_run dbg w d1 ops) as [[d2 r2]| |].
Qed.
Lemma build_names {H} dbg (w : world H) cs : forall d d', build_run dbg w d cs = Val d' -> exists d2 r,
  api_run dbg w d (name_ops cs) = Val (d2, r) /\ name_fields d2 = name_fields d' /\ d_interfaces d2 = d_interfaces d'.
Proof.
  induction cs as [|[o|h] cs IH]; intros d d' E; cbn [build_run] in E.
  - apply Val_inj in E as <-. by exists d, [].
  - apply obind_val in E as ([d1 r1] & E1 & E). destruct (IH _ _ E) as (d2 & r & E2 & I).
    exists d2, (r1 :: r). split; [|exact I]. change (name_ops (BName o :: cs)) with (o :: name_ops cs). cbn [api_run]. by rewrite E1; cbn [obind]; rewrite E2.
  - destruct (IH _ _ E) as (d2 & r & E2 & I1 & I2). rewrite api_run_handler in E2.
    change (name_ops (BHandler h :: cs)) with (name_ops cs).
    destruct (api_run dbg w d (name_ops cs)) as [[d3 r3]| |]; try discriminate. cbn in E2. injection E2 as <- <-.
    exists d3, r3. split; [done|]. split; [by rewrite <- I1|by rewrite <- I2].
Qed.
