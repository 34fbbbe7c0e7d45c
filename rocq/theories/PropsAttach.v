(** * From the device list to the attached device (C104)

    What [usbip list -r] and [usbip attach -b] do: one connection asks for the list, the user picks
    an entry, another connection asks for the bus id of that entry. *)
From Verif Require Import Examples ReplyProofs SysFacts DevProofs ConcProofs PropsCodec PropsSys.

(** ** The client *)

(** OP_REP_IMPORT: version, reply code, status, and the record of the device; unlike in the device
    list no interfaces follow, there is only their number. *)
Definition p_record : parser (client_dev * N) :=
  p_bind (p_text 256) (fun path =>
  p_bind (p_text 32) (fun busid =>
  p_bind p_u32 (fun busnum => p_bind p_u32 (fun devnum => p_bind p_u32 (fun speed =>
  p_bind p_u16 (fun vendor => p_bind p_u16 (fun product =>
  p_bind p_u8 (fun bh => p_bind p_u8 (fun bl =>
  p_bind p_u8 (fun cl => p_bind p_u8 (fun scl => p_bind p_u8 (fun pr =>
  p_bind p_u8 (fun cv => p_bind p_u8 (fun nc => p_bind p_u8 (fun ni =>
  p_ret (mkClientDev path busid busnum devnum speed vendor product bh bl cl scl pr cv nc [], ni)
  ))))))))))))))).
Definition p_import : parser (client_dev * N) :=
  p_bind p_u16 (fun v => p_bind p_u16 (fun code => p_bind p_u32 (fun status b =>
    if (v =? 0x111) && (code =? 3) && (status =? 0) then p_record b else None))).
(** The record a client expects after it has picked the entry [v]. *)
Definition picked (v : client_dev) : client_dev * N :=
  (mkClientDev (cd_path v) (cd_busid v) (cd_busnum v) (cd_devnum v) (cd_speed v) (cd_vendor v) (cd_product v)
     (cd_bcd_hi v) (cd_bcd_lo v) (cd_class v) (cd_subclass v) (cd_protocol v) (cd_confval v) (cd_numconf v) [],
   len (cd_interfaces v)).
(** The request for it: the bus id in UTF-8, filled up with NULs. *)
Definition asks_for (f : list N) (v : client_dev) : Prop :=
  exists n, f = utf8 (cd_busid v) ++ replicate n 0 /\ length f = 32%nat.
(** Somebody took a device with this bus id away: another client, or the application. *)
Definition taken (id : rstring) (evs : list event) : Prop :=
  exists x, (exists n f d, EvServe x (OpReqImport n f) (Val (OpRepImport 0 (Some d))) ∈ evs /\ d_bus_id d = id) \/
            EvRemove x id (IOk tt) ∈ evs.

(** ** Proofs *)
Lemma p_record_ok dbg d b r : typed_device d -> fits d -> no_nul d -> len (d_interfaces d) <= 255 ->
  device_to_bytes dbg d = Val b -> p_record (b ++ r) = Some (picked (client_view d), r).
Proof.
  intros Ht [Hf1 Hf2] [Hn1 Hn2] Hi Hd.
  apply device_bytes_shape in Hd as [-> _].
  unfold len in Hf1, Hf2. rewrite !take_ge by lia.
  destruct Ht as (Hs1 & Hs2 & Hbn & Hdn & Hsp & Hv & Hp & _).
  rewrite <- (app_assoc (utf8 (d_path d) ++ _)).
  unfold p_record.
  erewrite p_bind_some; [|apply p_text_ok; [assumption..|lia]].
  rewrite <- (app_assoc (utf8 (d_bus_id d) ++ _)).
  erewrite p_bind_some; [|apply p_text_ok; [assumption..|lia]].
  rewrite <- (app_assoc (be32 (d_bus_num d))). erewrite p_bind_some; [|apply p_u32_be32; assumption].
  rewrite <- (app_assoc (be32 (d_dev_num d))). erewrite p_bind_some; [|apply p_u32_be32; assumption].
  rewrite <- (app_assoc (be32 (d_speed d))). erewrite p_bind_some; [|apply p_u32_be32; assumption].
  rewrite <- (app_assoc (be16 (d_vendor_id d))). erewrite p_bind_some; [|apply p_u16_be16; assumption].
  rewrite <- (app_assoc (be16 (d_product_id d))). erewrite p_bind_some; [|apply p_u16_be16; assumption].
  cbn [app]. do 8 (erewrite p_bind_some; [|reflexivity]).
  rewrite N.mod_small by lia. unfold p_ret, picked, client_view. cbn. unfold len. by rewrite fmap_length.
Qed.
Lemma p_import_ok dbg d b r : typed_device d -> fits d -> no_nul d -> len (d_interfaces d) <= 255 ->
  response_to_bytes dbg (op_rep_import_success d) = Val b -> p_import (b ++ r) = Some (picked (client_view d), r).
Proof.
  intros Ht Hf Hn Hi E. cbn [response_to_bytes op_rep_import_success] in E. apply obind_val in E as (bs & Hb & E).
  apply Val_inj in E. subst b. rewrite <- !app_assoc. unfold p_import.
  erewrite p_bind_some; [|by apply p_u16_be16]. erewrite p_bind_some; [|by apply p_u16_be16].
  erewrite p_bind_some; [|by apply p_u32_be32]. cbn. by eapply p_record_ok.
Qed.

Lemma stay_move {H} dbg (s s' : sys H) l ev d : move dbg s l s' ev -> d ∈ sv_available (y_server s) ->
  d ∈ sv_available (y_server s') \/ taken (d_bus_id d) ev.
Proof.
  intros M Hd.
  assert (A : forall (s0 : sys H) t cur c r, answered dbg s0 t cur c r s' ev -> d ∈ sv_available (y_server s0) ->
    d ∈ sv_available (y_server s')) by (intros s0 t cur c r []; done).
  destruct M; try (left; exact Hd); try (left; by eapply A).
  - destruct r as [x|].
    + apply import_some in H2 as (l1 & l2 & (Ea & _) & ->). rewrite Ea in Hd.
      apply elem_of_app in Hd as [Hd|Hd]; [left; eapply A; [done|]; cbn; set_solver|].
      apply elem_of_cons in Hd as [-> |Hd]; [|left; eapply A; [done|]; cbn; set_solver].
      right. exists t. left. exists n, busid, x. split; [|done]. destruct H3; left.
    + apply import_none in H2 as [-> _]. left. by eapply A.
  - left. unfold release_device in H2. destruct (sv_used _ !! id); [|done]. apply Val_inj in H2. subst sv'. cbn. set_solver.
  - left. cbn. set_solver.
  - apply remove_available_some in H2 as (x & l1 & l2 & (Ea & Hx & _) & ->). rewrite Ea in Hd.
    apply elem_of_app in Hd as [Hd|Hd]; [left; cbn; set_solver|].
    apply elem_of_cons in Hd as [-> |Hd]; [|left; cbn; set_solver].
    right. exists t. right. rewrite Hx. left.
Qed.
Lemma taken_app id e1 e2 : taken id e1 \/ taken id e2 -> taken id (e1 ++ e2).
Proof.
  intros [(x & [(n & f & d & Hin & Hd)|Hin])|(x & [(n & f & d & Hin & Hd)|Hin])]; exists x;
    [left; exists n, f, d|right|left; exists n, f, d|right]; rewrite elem_of_app; auto.
Qed.
Lemma stay_run {H} dbg (s : sys H) d : d ∈ sv_available (y_server s) -> forall ls s' evs, run dbg s ls = Some (s', evs) ->
  d ∈ sv_available (y_server s') \/ taken (d_bus_id d) evs.
Proof.
  intros Hd. match goal with |- forall ls1 s1 e1, _ -> @?Q ls1 s1 e1 => apply (run_ind dbg s Q) end; [by left|].
  intros ls1 s1 e1 l s2 e2 E1 IH E2. destruct IH as [IH|IH]; [|right; apply taken_app; by left].
  destruct (stay_move _ _ _ _ _ _ (step_move _ _ _ _ _ E2) IH); [by left|right; apply taken_app; by right].
Qed.

(** What the client needs of the devices: texts that fit their fields and contain no NUL, and no
    more interfaces than the list can show. *)
Definition showable (d : device) : Prop :=
  typed_device d /\ fits d /\ (0 ∉ d_path d /\ 0 ∉ d_bus_id d) /\ len (d_interfaces d) <= 255.

(** Whatever happens between the two requests: who picks an entry [v] of the list reply [b] and asks
    for its bus id on any connection gets the device that the entry describes, unless somebody else
    was faster. *)
Theorem C104_list_then_attach : forall H dbg ds (w : world H) ls s evs l s1 ev1 t n r ls2 s2 evs2 l2 s3 ev3 u m f r',
  run dbg (init_sys ds w) ls = Some (s, evs) -> step dbg s l = Some (s1, ev1) -> EvServe t (OpReqDevlist n) r ∈ ev1 ->
  run dbg s1 ls2 = Some (s2, evs2) -> step dbg s2 l2 = Some (s3, ev3) -> EvServe u (OpReqImport m f) r' ∈ ev3 ->
  distinct_ids ds ((evs ++ ev1) ++ evs2) -> Forall showable (ledger ds evs) -> Forall typed_device (ledger ds ((evs ++ ev1) ++ evs2)) ->
  len (ledger ds evs) < 4294967296 ->
  exists b c vs, y_tasks s1 !! t = Some (mkTask (PWrite b) c) /\ p_devlist b = Some (vs, []) /\
    forall v, v ∈ vs -> asks_for f v ->
      (exists b' d, y_tasks s3 !! u = Some (mkTask (PWrite b') (Some (cd_busid v))) /\ p_import b' = Some (picked v, []) /\
         held (((evs ++ ev1) ++ evs2) ++ ev3) u = Some d /\ client_view d = v) \/
      taken (cd_busid v) evs2.
Proof.
  intros H dbg ds w ls s evs l s1 ev1 t n r ls2 s2 evs2 l2 s3 ev3 u m f r' E E1 He1 E2 E3 He3 Hd Hok Hty Hlen.
  pose proof (distinct_app _ _ _ (distinct_app _ _ _ Hd)) as Hd0.
  pose proof (run_step _ _ _ _ _ _ _ _ E E1) as E01. pose proof (run_app_intro _ _ _ _ _ _ _ _ E01 E2) as E02.
  pose proof (step_move _ _ _ _ _ E1) as M1. pose proof (step_move _ _ _ _ _ E3) as M3.
  destruct (ev_devlist _ _ _ _ _ _ _ _ M1 He1) as (cur & _ & _ & Er & Hsv & _ & A1).
  pose proof (dev_run _ _ _ _ _ _ E Hd0) as HI. pose proof (di_ledger _ _ _ HI) as Hp.
  pose proof (dev_run _ _ _ _ _ _ E02 Hd) as HI2. pose proof (di_ledger _ _ _ HI2) as Hp2.
  destruct (C25_conserved _ _ _ _ _ _ _ E02 Hd) as [_ Hnd].
  pose proof (stay_run dbg s1) as Hstay. clear E E1 E01 E02 E3 HI HI2.
  rewrite <- Hp in Hok. unfold len in Hlen. rewrite <- (Permutation_length Hp) in Hlen. rewrite <- Hp2 in Hty.
  unfold all_devices in Hok, Hlen, Hty, Hnd. apply Forall_app in Hok as [Hok _]. apply Forall_app in Hty as [Hty _].
  rewrite fmap_app in Hnd. apply NoDup_app in Hnd as (Hnd & _ & _). rewrite app_length in Hlen.
  destruct (C08_devlist_encodable dbg (sv_available (y_server s))) as [b Hb].
  { eapply Forall_impl; [exact Hok|]. unfold showable. tauto. }
  exists b, cur, (client_view <$> sv_available (y_server s)). split; [|split].
  - subst r. inversion A1 as [b1 Hb1 Es' Ev|e Hb1]; subst; [|by destruct (Hb1 b)].
    cbn [obind] in Hb1. rewrite Hb in Hb1. apply Val_inj in Hb1. subst b1. apply lookup_insert.
  - rewrite <- (app_nil_r b). eapply C08_devlist_decodable; [exact Hok| |exact Hb]. unfold len. lia.
  - intros v Hv Hf. apply elem_of_list_fmap in Hv as (d & -> & Hin). cbn [client_view cd_busid].
    rewrite Forall_forall in Hok. destruct (Hok d Hin) as (Ht & Hfit & Hn & Hi).
    destruct (Hstay d ltac:(by rewrite Hsv) _ _ _ E2) as [Hin2|]; [left|by right]. clear E2 Hstay.
    destruct Hf as (k & Hf & Hl32). cbn [client_view cd_busid] in Hf.
    assert (f = field_of (d_bus_id d)) as ->.
    { rewrite Hf. unfold field_of. do 2 f_equal. rewrite Hf, app_length, replicate_length in Hl32. lia. }
    assert (Hreq : requestable (d_bus_id d)).
    { split; [apply Hfit|]. rewrite utf8_nul. apply Hn. }
    destruct (importable (y_server s2) d Hin2 Hnd) as [sv' Hsv']; [|done|].
    { unfold valid_ids. eapply Forall_impl; [exact Hty|]. by intros x (_ & ? & _). }
    destruct (ev_import _ _ _ _ _ _ _ _ _ M3 He3) as (c3 & x & _ & _ & _ & Hx & Hr' & _ & A3).
    rewrite Hsv' in Hx. injection Hx as Hx1 <-. cbn [fmap option_fmap option_map import_response] in *.
    destruct (proj2 (response_total dbg (op_rep_import_success d)) (fun _ => Hfit)) as [b' Hb'].
    inversion A3 as [b1 Hb1 Es' Ev|e Hb1]; subst; [|by destruct (Hb1 b')].
    cbn [obind] in Hb1. rewrite Hb' in Hb1. apply Val_inj in Hb1. subst b1. exists b', d.
    split; [rewrite <- Es'; cbn; apply lookup_insert|]. split; [|split; [|done]].
    + rewrite <- (app_nil_r b'). by eapply p_import_ok.
    + rewrite held_app. cbn. by rewrite N.eqb_refl.
Qed.
Print Assumptions C104_list_then_attach.

(** Client 2 lists the two devices and picks the first entry. Client 1 lists as well in the
    meantime: the import of client 2 gets the device of the entry. When client 1
    imports the device in the meantime, client 2 is told that there is none. *)
Definition C104_list : list (label ex_h) := [LConnect 1; LConnect 2] ++ do_list 2.
Definition C104_idle : list (label ex_h) := do_list 1 ++ [LSent 1; LSent 2].
Definition C104_faster : list (label ex_h) := [LSent 2] ++ do_import 1 id_a ++ [LSent 1].
Definition C104_ends (ls : list (label ex_h)) : option (list client_dev * option (client_dev * N)) :=
  match run false sys0 C104_list with
  | Some (s, _) => match y_tasks s !! 2 with
    | Some (mkTask (PWrite b) _) => match p_devlist b, run false s (ls ++ do_import 2 id_a) with
      | Some (vs, []), Some (s', _) => match y_tasks s' !! 2 with
        | Some (mkTask (PWrite b') _) => Some (vs, fst <$> p_import b')
        | _ => None end
      | _, _ => None end
    | _ => None end
  | None => None
  end.
Example C104_example :
  C104_ends C104_idle = Some ([client_view ex_dev; client_view dev_b], Some (picked (client_view ex_dev))) /\
  C104_ends C104_faster = Some ([client_view ex_dev; client_view dev_b], None) /\
  Forall showable [ex_dev; dev_b] /\ cd_busid (client_view ex_dev) = id_a /\ asks_for (field_of id_a) (client_view ex_dev).
Proof.
  split; [vm_compute; reflexivity|]. split; [vm_compute; reflexivity|]. split; [|split; [done|]].
  - assert (T : typed_device ex_dev /\ typed_device dev_b).
    { split; unfold typed_device, typed_version, typed_endpoint, u8, u16, u32; cbn -[map_Forall];
        (split_and!; try reflexivity; try lia;
         [repeat constructor; cbn; unfold typed_endpoint, u8, u16; cbn; try lia|
          intros i s Hs; repeat (apply lookup_insert_Some in Hs as [[<- <-]|[_ Hs]]; [split; [lia|reflexivity]|]);
          by apply lookup_empty_Some in Hs]). }
    destruct T as [T1 T2]. unfold showable, fits.
    repeat (apply Forall_cons; split); [split_and!; try (by vm_compute); try assumption..|constructor];
      intros X; apply elem_of_list_In in X; cbn in X; intuition discriminate.
  - exists 27%nat. by vm_compute.
Qed.
