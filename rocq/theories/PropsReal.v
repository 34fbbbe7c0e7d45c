(** * Property C105: the client of a shared host device reads the descriptors of the device *)
From Verif Require Import Examples SpecReal RealProofs HostProofs DescProofs PropsHost.
From Coq Require Strings.String.
Import Strings.String.StringSyntax.

(** What GET_DESCRIPTOR for the device and for the configuration is answered with. *)
Definition answers_with (d : device) (dev conf : list N) : Prop :=
  forall H dbg (st : cstate H) m sb s ix, control_in dbg st m sb d s ->
    (get_desc s 1 ix -> replies dbg st m sb (take (N.to_nat (s_length s)) dev) st) /\
    (get_desc s 2 ix -> replies dbg st m sb (take (N.to_nat (s_length s)) conf) st).
Lemma answers_desc d : len (configuration_descriptor d) < 65536 -> answers_with d (device_descriptor d) (configuration_descriptor d).
Proof.
  intros Hl H dbg st m sb s ix Hc. split; intros Hg; pose proof (control_in_desc _ _ _ _ _ _ _ _ Hc Hg) as R;
    unfold get_descriptor in R; rewrite (proj1 (desc_type_ix _ _ _ Hg)) in R; cbn [desc_type_of] in R;
    rewrite limit_take in R by (done || (unfold len; cbn; lia)); exact R.
Qed.

Lemma rusb_each dbg hs next dh ds : with_rusb_device_handles dbg hs next dh = Val ds ->
  Forall2 (fun x d => exists next dh, rusb_device dbg x.1.1 x.1.2 x.2 next dh = Val d) (omap rusb_described hs) ds.
Proof.
  revert next dh ds. induction hs as [|h hs IH]; intros next dh ds E; [apply Val_inj in E; subst ds; constructor|].
  cbn [with_rusb_device_handles] in E. cbn [omap list_omap]. unfold rusb_described at 1.
  destruct (rh_desc h) as [desc|]; [destruct (rh_cfg h) as [cfg|]|]; try (by eapply IH).
  apply obind_val in E as (d & Ed & E). apply obind_val in E as (ds' & Es & E). apply Val_inj in E. subst ds.
  constructor; [by exists next, dh|]. by eapply IH.
Qed.
Lemma nusb_each dbg is next dh ds : with_nusb_devices dbg is next dh = Val ds ->
  Forall2 (fun x d => exists next dh, nusb_device dbg x.1.1 x.1.2 x.2 next dh = Val d) (nusb_usable is) ds.
Proof.
  revert next dh ds. induction is as [|i is IH]; intros next dh ds E; [apply Val_inj in E; subst ds; constructor|].
  cbn [with_nusb_devices] in E. unfold nusb_usable. cbn [omap list_omap]. unfold nusb_described at 1.
  destruct (ni_open i) as [o|]; [destruct (no_cfg o) as [cfg|]|]; try (by eapply IH).
  apply obind_val in E as (d & Ed & E). apply obind_val in E as (ds' & Es & E). apply Val_inj in E. subst ds.
  constructor; [by exists next, dh|]. by eapply IH.
Qed.

(** Of every device that is shared, clients read the descriptors of the device with the changes
    that [rusb_seen], [rusb_seen_config] (libusb) and [nusb_seen], [nusb_seen_config] (nusb) say. *)
Theorem C105_rusb_partial : forall dbg hs ds, with_rusb_devices dbg hs = Val ds ->
  Forall2 (fun x d => forall r c, x.1.2 = rusb_shows r -> x.2 = rusb_shows_config c -> typed_real r -> typed_real_config c ->
    answers_with d (real_device_bytes (rusb_seen r)) (real_config_bytes (rusb_seen_config c))) (rusb_usable hs) ds.
Proof.
  intros dbg hs ds E. eapply Forall2_impl; [exact (rusb_each _ _ _ _ _ E)|]. intros [[h desc] cfg] d (next & dh & Ed) r c Hr Hc Tr Tc.
  cbn [fst snd] in *. subst desc cfg. destruct (rusb_shown _ _ _ _ _ _ _ Tr Tc Ed) as (E1 & E2 & Hl). rewrite <- E1, <- E2. by apply answers_desc.
Qed.
Print Assumptions C105_rusb_partial.
Theorem C105_nusb_partial : forall dbg is ds, with_nusb_devices dbg is 0 0 = Val ds ->
  Forall2 (fun x d => forall r c, nusb_shows r x.1.1 x.1.2 -> nusb_shows_config c x.2 -> typed_real r -> typed_real_config c ->
    answers_with d (real_device_bytes (nusb_seen r)) (real_config_bytes (nusb_seen_config c))) (nusb_usable is) ds.
Proof.
  intros dbg is ds E. eapply Forall2_impl; [exact (nusb_each _ _ _ _ _ E)|]. intros [[i o] cfg] d (next & dh & Ed) r c Hr Hc Tr Tc.
  cbn [fst snd] in *. destruct (nusb_shown _ _ _ _ _ _ _ _ _ Tr Tc Hr Hc Ed) as (E1 & E2 & Hl). rewrite <- E1, <- E2. by apply answers_desc.
Qed.
Print Assumptions C105_nusb_partial.

(** These are the descriptors of the device itself exactly for the plain devices. *)
Theorem C105_same_partial : forall r c, typed_real r -> typed_real_config c ->
  (real_device_bytes (rusb_seen r) = real_device_bytes r <-> plain_device r) /\
  (real_device_bytes (nusb_seen r) = real_device_bytes r <-> rv_usb r = 0 /\ rv_packet r = 16 /\ rv_bcd r mod 256 = 0 /\ plain_names r) /\
  (real_config_bytes (rusb_seen_config c) = real_config_bytes c <-> plain_config c) /\
  (real_config_bytes (nusb_seen_config c) = real_config_bytes c <-> plainer_config c).
Proof.
  intros r c (T1 & T2 & T3 & T4 & T5 & T6) Tc. split; [|split; [|split]].
  - unfold real_device_bytes, rusb_seen, with_versions, plain_device, plain_names. destruct (renumbered r) as [[m p] s].
    cbn [rv_usb rv_class rv_subclass rv_protocol rv_packet rv_vendor rv_product rv_bcd rv_man rv_prod rv_serial rv_configs].
    assert (V : forall n, n < 65536 -> lohi (rusb_version n) = lohi n <-> plain_version n).
    { intros n Hn. rewrite rusb_version_bytes by done. unfold lohi, plain_version. split.
      - intros E. injection E as E1 E2. exists (n / 256). lia.
      - intros (k & Hk & ->). f_equal; [lia|]. f_equal. lia. }
    rewrite <- !V by done. split.
    + intros E. cbn in E. injection E as E1 E2 E3 E4 E5 E6 E7. unfold lohi. split_and!; congruence.
    + intros (E1 & E2 & E3). injection E3 as -> -> ->. by rewrite E1, E2.
  - unfold real_device_bytes, nusb_seen, with_versions, plain_names. destruct (renumbered r) as [[m p] s].
    cbn [rv_usb rv_class rv_subclass rv_protocol rv_packet rv_vendor rv_product rv_bcd rv_man rv_prod rv_serial rv_configs].
    assert (V : lohi (nusb_version (rv_bcd r)) = lohi (rv_bcd r) <-> rv_bcd r mod 256 = 0).
    { rewrite nusb_version_bytes by done. unfold lohi. split; [intros E; injection E as E1; lia|intros E; f_equal; lia]. }
    rewrite <- V. split.
    + intros E. cbn -[lohi] in E. assert (Eu : rv_usb r = 0) by (symmetry; apply lohi_inj; unfold lohi in *; cbn in E; injection E; congruence).
      cbn in E. injection E as E1 E2 E3 E4 E5 E6 E7 E8. unfold lohi. split_and!; congruence.
    + intros (E1 & E2 & E3 & E4). injection E4 as -> -> ->. by rewrite E1, E2, E3.
  - unfold rusb_seen_config. rewrite seen_config_eq by (try done; by right). split; [by intros [? _]|]. intros Hp. split; [done|].
    rewrite Forall_forall. intros a _. split; [done|]. rewrite Forall_forall. done.
  - unfold nusb_seen_config, plainer_config. rewrite seen_config_eq by (try done; by left).
    assert (V : forall a, [] = ra_extra a /\ Forall (fun e => re_packet e mod 2048 = re_packet e) (ra_eps a) <->
      ra_extra a = [] /\ Forall (fun e => re_packet e < 2048) (ra_eps a)).
    { intros a. rewrite !Forall_forall. split; intros [A B]; (split; [done|]); intros e He; specialize (B e He); lia. }
    split; intros [A B]; (split; [done|]); rewrite Forall_forall in *; intros a Ha; apply V, B, Ha.
Qed.
Print Assumptions C105_same_partial.

(** A camera: version 1.23, 500 mA, an interface association, a streaming interface with an
    alternate setting that has the isochronous endpoint. *)
Definition cam : real_device := mkReal 0x200 239 2 1 64 0x46d 0x825 0x123 1 2 0 1.
Definition cam_config : real_config := mkRealConfig 1 4 128 250 [8; 11; 0; 2; 14; 3; 0; 5]
  [[mkRealAlt 0 0 14 1 0 5 [13; 36; 1; 0; 1; 50; 0; 128; 141; 91; 0; 1; 1] [mkRealEp 131 3 16 6 [5; 37; 3; 16; 0]]];
   [mkRealAlt 1 0 14 2 0 0 [] []; mkRealAlt 1 1 14 2 0 0 [] [mkRealEp 129 5 0x1400 1 []]]].
Definition cam_h : rusb_handle := mkRusbHandle 1 7 3 RsHigh (Some (rusb_shows cam)) (Some (rusb_shows_config cam_config)) hx_strings.
Lemma cam_typed : typed_real cam /\ typed_real_config cam_config.
Proof.
  split; [unfold typed_real; cbn; lia|]. split; [vm_compute; done|]. split; [vm_compute; done|].
  split; [repeat constructor; discriminate|]. cbn. repeat constructor; vm_compute; done.
Qed.
Theorem C105_descriptors_refuted : exists d, with_rusb_devices false [Some cam_h] = Val [d] /\
  forall dbg, exists m sb dev m' sb' conf,
    control_in dbg (on_device d) m sb d (mkSetup 128 6 256 0 255) /\ replies dbg (on_device d) m sb dev (on_device d) /\
    dev <> real_device_bytes cam /\
    control_in dbg (on_device d) m' sb' d (mkSetup 128 6 512 0 255) /\ replies dbg (on_device d) m' sb' conf (on_device d) /\
    conf <> real_config_bytes cam_config /\
    (** the endpoint of the stream cannot be found *)
    len conf < len (real_config_bytes cam_config) /\
    forall e, e ∈ d_interfaces d -> ~ exists x, x ∈ if_endpoints e /\ ep_address x = 129.
Proof.
  destruct (with_rusb_devices false [Some cam_h]) as [ds|p|] eqn:E; [|by vm_compute in E|by vm_compute in E].
  pose proof (C105_rusb_partial _ _ _ E) as HF. change (rusb_usable [Some cam_h]) with [(cam_h, rusb_shows cam, rusb_shows_config cam_config)] in HF.
  destruct ds as [|d ds]; [by inversion HF|]. apply Forall2_cons in HF as [HF HF']. destruct ds; [|by inversion HF'].
  destruct cam_typed as [T1 T2]. specialize (HF cam cam_config eq_refl eq_refl T1 T2). exists d. split; [done|]. intros dbg.
  assert (Hd : ep_address (d_ep0_in d) = 128 /\ ep_attributes (d_ep0_in d) = 0 /\
    forall e, e ∈ d_interfaces d -> ~ exists x, x ∈ if_endpoints e /\ ep_address x = 129).
  { assert (Ev : match with_rusb_devices false [Some cam_h] with Val [x] =>
      ep_address (d_ep0_in x) = 128 /\ ep_attributes (d_ep0_in x) = 0 /\ Forall (fun a => a <> 129) (ep_address <$> concat (if_endpoints <$> d_interfaces x)) | _ => False end).
    { vm_compute. split; [done|]. split; [done|]. repeat constructor; discriminate. }
    rewrite E in Ev. destruct Ev as (A & B & C). split; [done|]. split; [done|]. intros e He (x & Hx & Ha).
    rewrite Forall_forall in C. apply (C (ep_address x)); [|done]. apply elem_of_list_fmap. exists x. split; [done|].
    apply elem_of_list_In, in_concat. exists (if_endpoints e). split; apply elem_of_list_In; [|done]. apply elem_of_list_fmap. by exists e. }
  destruct Hd as (A & B & C).
  pose proof (on_device_ctl dbg d 128 6 0 1 0 0 255 0 eq_refl A B) as C1.
  pose proof (on_device_ctl dbg d 128 6 0 2 0 0 255 0 eq_refl A B) as C2.
  destruct (HF _ _ _ _ _ _ 0 C1) as [R1 _]. destruct (HF _ _ _ _ _ _ 0 C2) as [_ R2].
  specialize (R1 ltac:(by repeat split)). specialize (R2 ltac:(by repeat split)).
  do 6 eexists. split; [exact C1|]. split; [exact R1|]. split; [by vm_compute|]. split; [exact C2|]. split; [exact R2|].
  split; [by vm_compute|]. split; [by vm_compute|]. exact C.
Qed.
Print Assumptions C105_descriptors_refuted.
(** A plain device: the client reads what the device has. *)
Example C105_example :
  let r := mkReal 0x200 0 0 0 8 0x46d 0xc31c 0x100 1 2 0 1 in
  let c := mkRealConfig 1 0 128 50 []
    [[mkRealAlt 0 0 3 1 1 0 [9; 33; 16; 1; 0; 1; 34; 65; 0] [mkRealEp 129 3 8 10 []]]] in
  plain_device r /\ plain_config c /\ ~ plainer_config c /\ typed_real r /\ typed_real_config c /\
  is_Some (match with_rusb_devices true [Some (mkRusbHandle 1 8 3 RsLow (Some (rusb_shows r)) (Some (rusb_shows_config c)) hx_strings)] with
    Val ds => Some (length ds) | _ => None end).
Proof.
  cbv zeta. split; [|split; [|split; [|split; [|split]]]].
  - split; [by exists 2|]. split; [by exists 1|]. reflexivity.
  - split_and!; try done. intros [|[|n]] alts Hn; cbn in Hn; [injection Hn as <-|done|done].
    eexists. split_and!; try done. repeat constructor.
  - intros [_ HF]. apply Forall_cons in HF as [[HF _] _]. done.
  - unfold typed_real. cbn. lia.
  - split; [vm_compute; done|]. split; [vm_compute; done|]. split; [repeat constructor; discriminate|]. cbn. repeat constructor; vm_compute; done.
  - vm_compute. by eexists.
Qed.
