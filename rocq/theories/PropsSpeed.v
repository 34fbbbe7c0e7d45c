(** * C83: the speed of host devices *)
From Verif Require Import PropsHost PropsCodec.

(** A client that imports [d] reads [v] in the speed field of the reply. *)
Definition speed_told (dbg : bool) (d : device) (v : N) : Prop :=
  exists b, response_to_bytes dbg (op_rep_import_success d) = Val b /\ u32_at b (8 + 296) v.

Lemma speed_on_wire dbg d v : typed_device d -> fits d -> speed_told dbg d v <-> v = d_speed d.
Proof.
  intros Ht Hf.
  destruct (proj2 (proj1 (C07_encoding_total dbg (op_rep_import_success d)))) as [b E]; [by intros _|].
  destruct (proj1 (C07_import_layout dbg) d b Ht E) as (_ & _ & _ & _ & Hr).
  unfold dev_record_at in Hr. destruct Hr as (_ & _ & _ & _ & Hr & _). change (dr_speed (record_of d)) with (d_speed d) in Hr.
  split; [|intros ->; by exists b]. intros (b' & E' & Hv). rewrite E in E'. apply val_inj in E' as <-.
  destruct Hv as (x & y & z & w & X & Y & Z & W & _ & _ & _ & _ & ->).
  destruct Hr as (x' & y' & z' & w' & X' & Y' & Z' & W' & _ & _ & _ & _ & ->). congruence.
Qed.
Lemma host_fits d a b c : a < 256 -> b < 256 -> c < 256 -> d_bus_id d = host_bus_id a b c -> d_path d = host_path a b c -> fits d.
Proof.
  intros Ha Hb Hc Ei Ep. unfold fits. rewrite Ei, Ep.
  destruct (bus_id_requestable a b c Ha Hb Hc) as [H1 _]. destruct (path_fits a b c Ha Hb Hc) as [H2 _]. split; lia.
Qed.

(** With libusb: the speed told is the right one exactly for devices that are not SuperSpeed; those
    are presented as wireless, and SuperSpeed+ devices as SuperSpeed. *)
Theorem C83_speed_partial : forall dbg hs ds,
  Forall (fun o => forall h, o = Some h -> rusb_sane h) hs -> with_rusb_devices dbg hs = Val ds ->
  Forall2 (fun x d => typed_device d ->
      (speed_told dbg d (rusb_speed_code (rh_speed x.1.1)) <-> ~ rusb_superspeed (rh_speed x.1.1)) /\
      (rh_speed x.1.1 = RsSuper -> forall v, speed_told dbg d v <-> v = 4) /\
      (rh_speed x.1.1 = RsSuperPlus -> forall v, speed_told dbg d v <-> v = 5))
    (rusb_usable hs) ds.
Proof.
  intros dbg hs ds Hs E. unfold with_rusb_devices in E.
  assert (Hs' : Forall rusb_sane (omap id hs)).
  { apply Forall_forall. intros h Hh. apply elem_of_list_omap in Hh as (o & Ho & Eo). rewrite Forall_forall in Hs. by apply (Hs o). }
  pose proof (rusb_val_complete _ _ _ _ _ E) as Hc.
  destruct (rusb_handles_ok dbg _ 0 0 Hs' Hc) as (ds' & E' & HF). rewrite E in E'. apply val_inj in E' as <-.
  eapply Forall2_same_length_lookup. pose proof (proj1 (Forall2_same_length_lookup _ _ _) HF) as [Hl HL].
  split; [exact Hl|]. intros k x d Hx Hd Ht. destruct (HL _ _ _ Hx Hd) as (_ & Ei & Ep & Esp).
  assert (Hf : fits d).
  { apply elem_of_list_lookup_2, elem_of_list_omap in Hx as (h' & Hh' & Ed').
    assert (x.1.1 = h') as Eh. { unfold rusb_described in Ed'. repeat case_match; by simplify_eq. }
    rewrite Forall_forall in Hs'. destruct (Hs' _ Hh') as (? & ? & ? & _). rewrite Eh in Ei, Ep. eapply host_fits; [..|exact Ei|exact Ep]; done. }
  rewrite speed_on_wire, Esp by done. split_and!.
  - unfold rusb_superspeed. destruct (rh_speed x.1.1); cbn; naive_solver.
  - intros Hr v. rewrite speed_on_wire, Esp, Hr by done. done.
  - intros Hr v. rewrite speed_on_wire, Esp, Hr by done. done.
Qed.
Print Assumptions C83_speed_partial.

(** With nusb the speed told is wrong for every device: everything looks slower than it is. *)
Theorem C83_nusb_speed_refuted : forall dbg is ds,
  Forall nusb_sane is -> with_nusb_devices dbg is 0 0 = Val ds ->
  Forall2 (fun x d => typed_device d -> exists s v, ni_speed x.1.1 = Some s /\
      (forall w, speed_told dbg d w <-> w = v) /\ v < nusb_speed_code s)
    (nusb_usable is) ds.
Proof.
  intros dbg is ds Hs E. pose proof (nusb_val_complete _ _ _ _ _ E) as Hc.
  destruct (nusb_list_ok dbg _ 0 0 Hs Hc) as (ds' & E' & HF). rewrite E in E'. apply val_inj in E' as <-.
  eapply Forall2_same_length_lookup. pose proof (proj1 (Forall2_same_length_lookup _ _ _) HF) as [Hl HL].
  split; [exact Hl|]. intros k x d Hx Hd Ht. destruct (HL _ _ _ Hx Hd) as (_ & _ & Ei & Ep & Esp).
  assert (Hf : fits d).
  { apply elem_of_list_lookup_2, elem_of_list_omap in Hx as (h' & Hh' & Ed').
    assert (x.1.1 = h') as Eh. { unfold nusb_described in Ed'. repeat case_match; by simplify_eq. }
    rewrite Forall_forall in Hs. destruct (Hs _ Hh') as (? & ? & _). rewrite Eh in Ei, Ep. eapply host_fits; [..|exact Ei|exact Ep]; done. }
  destruct (ni_speed x.1.1) as [s|]; [|done]. injection Esp as Esp. exists s, (nusb_speed_val s).
  split; [done|]. split; [|destruct s; cbn; lia]. intros w. rewrite speed_on_wire, Esp by done. done.
Qed.
Print Assumptions C83_nusb_speed_refuted.

(** A SuperSpeed device shared through libusb is presented as wireless. *)
Definition hsuper : rusb_handle := mkRusbHandle 1 7 2 RsSuper (Some hx_desc) (Some hx_cfg) hx_strings.
Definition hsuper_dev : device := match rusb_device true hsuper hx_desc hx_cfg 0 0 with Val d => d | _ => ex_dev end.
Lemma hsuper_sane : rusb_sane hsuper.
Proof. destruct hx_sane as (? & ? & ? & ? & ?). split_and!; auto; cbn; lia. Qed.
Lemma hsuper_typed : typed_device hsuper_dev.
Proof.
  assert (Hp : forall i s, d_string_pool hsuper_dev !! i = Some s -> u8 i /\ is_rstring s = true).
  { intros i s E. apply elem_of_map_to_list in E. vm_compute in E.
    repeat (apply elem_of_cons in E as [E|E]; [injection E as -> ->; split; [unfold u8; lia|vm_compute; reflexivity]|]).
    by apply elem_of_nil in E. }
  unfold typed_device. split_and!; try (exact Hp); try (vm_compute; done).
  repeat constructor.
Qed.
Theorem C83_speed_refuted : exists h d, rusb_sane h /\ rh_speed h = RsSuper /\ typed_device d /\
  forall dbg, with_rusb_devices dbg [Some h] = Val [d] /\
    ~ speed_told dbg d (rusb_speed_code (rh_speed h)) /\ speed_told dbg d 4.
Proof.
  exists hsuper, hsuper_dev. split; [exact hsuper_sane|]. split; [done|]. split; [exact hsuper_typed|]. intros dbg.
  assert (E : with_rusb_devices dbg [Some hsuper] = Val [hsuper_dev]) by (destruct dbg; vm_compute; reflexivity).
  split; [exact E|].
  assert (F : Forall (fun o => forall h, o = Some h -> rusb_sane h) [Some hsuper]).
  { constructor; [intros h [= <-]; exact hsuper_sane|constructor]. }
  pose proof (C83_speed_partial dbg [Some hsuper] _ F E) as HF. apply Forall2_cons in HF as [HF _].
  destruct (HF hsuper_typed) as (H1 & H2 & _). split.
  - rewrite H1. intros Hn. apply Hn. by left.
  - by apply H2.
Qed.
Print Assumptions C83_speed_refuted.
Example C83_example :
  (forall dbg, with_rusb_devices dbg [Some hx] = Val [hx_dev]) /\ rusb_sane hx /\ ~ rusb_superspeed (rh_speed hx) /\
  (exists d, (forall dbg, with_nusb_devices dbg [nx] 0 0 = Val [d]) /\ d_speed d = 2 /\ ni_speed nx = Some NsHigh).
Proof.
  split; [intros []; vm_compute; reflexivity|]. split; [exact hx_sane|]. split; [intros [E|E]; discriminate E|].
  exists (match nusb_device true nx (mkNusbOpen (Some (mkNusbCfg 1 [Some (Some hx_alt)])) 1) (mkNusbCfg 1 [Some (Some hx_alt)]) 0 0
     with Val d => d | _ => ex_dev end).
  split; [intros []; vm_compute; reflexivity|]. split; vm_compute; reflexivity.
Qed.
