(** * Sessions of one client (C67-C71) *)
From Verif Require Import Examples PropsDesc SessionProofs.
From Coq Require Strings.String.
Import Strings.String.StringSyntax.

(** ** C67 *)
Theorem C67_irrelevant_fields : forall H dbg (st : cstate H) m1 m2 sb1 sb2,
  cmd_layout dbg m1 (CmdSubmit sb1) -> cmd_layout dbg m2 (CmdSubmit sb2) -> same_urb sb1 sb2 ->
  (exists p st1, forall m inp fin, m ∈ [m1; m2] -> connection dbg st (m ++ inp) fin None = ([], EndPanic p, st1)) \/
  (exists b1 b2 st1, answers (CmdSubmit sb1) b1 /\ answers (CmdSubmit sb2) b2 /\ drop 20 b1 = drop 20 b2 /\
     forall inp fin out en st', connection dbg st1 inp fin None = (out, en, st') ->
       connection dbg st (m1 ++ inp) fin None = (b1 ++ out, en, st') /\
       connection dbg st (m2 ++ inp) fin None = (b2 ++ out, en, st')).
Proof. intros H dbg st m1 m2 sb1 sb2. exact (same_urb_connection dbg st m1 m2 sb1 sb2). Qed.
Print Assumptions C67_irrelevant_fields.
(** The same bulk OUT transfer with another sequence number, device id, flags, start frame and packets. *)
Definition ex_out' : submit :=
  mkSubmit (mkHeader 1 77 5 0 2) 3 3 8 1 4 (replicate 8 0) [1; 2; 3] (replicate 16 7).
Lemma ex_out'_wire dbg : all_u8 (wire (CmdSubmit ex_out')) = true /\ cmd_layout dbg (wire (CmdSubmit ex_out')) (CmdSubmit ex_out').
Proof. apply wire_ok; destruct dbg; wf_ex. Qed.
Example C67_example : same_urb ex_out ex_out' /\ ex_out <> ex_out' /\
  cmd_layout true (wire (CmdSubmit ex_out)) (CmdSubmit ex_out) /\ cmd_layout true (wire (CmdSubmit ex_out')) (CmdSubmit ex_out') /\
  len (fst (fst (connection true ex_state (wire (CmdSubmit ex_out')) SEof None))) = 48.
Proof.
  split; [done|]. split; [done|]. split; [apply (ex_wire true ex_out); in_list|]. split; [apply ex_out'_wire|]. vm_compute. reflexivity.
Qed.

(** ** C68 *)
(** A submit with a wrong device id is served as if it were right. *)
Theorem C68_devid_checked_refuted : exists (m : list N) (sb : submit) (d : device),
  (forall dbg, cmd_layout dbg m (CmdSubmit sb)) /\ imported ex_state d /\ ~ right_devid d (h_devid (sb_header sb)) /\
  forall dbg, exists b st', connection dbg ex_state m SEof None = (b, EndOk, st') /\ submit_ok_reply (sb_header sb) [] b /\
    c_state (w_intf (cs_world st') 4) = [65; 66; 67; 1; 2; 3].
Proof.
  exists (wire (CmdSubmit ex_out)), ex_out, ex_dev. split; [intros dbg; apply (ex_wire dbg ex_out); in_list|].
  split; [exact ex_imported|]. split; [done|]. intros dbg.
  assert (HL : cmd_layout dbg (wire (CmdSubmit ex_out)) (CmdSubmit ex_out)) by (apply (ex_wire dbg ex_out); in_list).
  pose proof (layout_u32 _ _ _ HL) as Hu.
  destruct (response_to_bytes dbg (usbip_ret_submit_success (reply_header (sb_header ex_out) USBIP_RET_SUBMIT) 0 0 [] [])) as [b| |] eqn:Eb;
    [|by destruct dbg..].
  exists b. eexists. split; [|split; [exact (ok_reply dbg _ _ _ Hu Eb)|]].
  - rewrite <- (app_nil_r (wire _)), <- (app_nil_r b). eapply connection_step; [exact HL|cbn; reflexivity|exact Eb|].
    vm_compute. reflexivity.
  - vm_compute. reflexivity.
Qed.
Print Assumptions C68_devid_checked_refuted.
(** What is true: a submit, whatever its device id, changes no handler but those of the device
    its connection imported, and the server not at all, before the next message is read. *)
Theorem C68_devid_checked_partial : forall H dbg (st : cstate H) m sb d, imported st d ->
  cmd_layout dbg m (CmdSubmit sb) ->
  exists st1, cs_server st1 = cs_server st /\ cs_current st1 = cs_current st /\
  (forall x, w_intf (cs_world st1) x = w_intf (cs_world st) x \/ uses_intf d x) /\
  (forall x, w_dev (cs_world st1) x = w_dev (cs_world st) x \/ uses_dev d x) /\
  ((exists p, forall inp fin, connection dbg st (m ++ inp) fin None = ([], EndPanic p, st1)) \/
   (exists b, answers (CmdSubmit sb) b /\
      forall inp fin out en st', connection dbg st1 inp fin None = (out, en, st') ->
        connection dbg st (m ++ inp) fin None = (b ++ out, en, st'))).
Proof.
  intros H dbg st m sb d Hd HL.
  assert (W : let st1 := (serve dbg st (CmdSubmit sb)).2 in cs_server st1 = cs_server st /\ cs_current st1 = cs_current st /\
    (forall x, w_intf (cs_world st1) x = w_intf (cs_world st) x \/ uses_intf d x) /\
    (forall x, w_dev (cs_world st1) x = w_dev (cs_world st) x \/ uses_dev d x)).
  { cbn [serve]. rewrite (imported_current _ _ Hd).
    pose proof (serve_submit_local dbg (cs_world st) d sb) as [L1 L2].
    destruct (serve_submit _ _ _ _) as [r0 w'] eqn:Ess. cbn in *. split_and!; [done|done| |].
    - intros x. destruct (uses_intf_dec d x); [by right|left; by apply L1].
    - intros x. destruct (uses_dev_dec d x); [by right|left; by apply L2]. }
  destruct (serve dbg st (CmdSubmit sb)) as [r st1] eqn:Es. cbn [snd] in W. cbv zeta in W. destruct W as (W1 & W2 & W3 & W4).
  exists st1. do 4 (split; [done|]).
  destruct (obind r (response_to_bytes dbg)) as [b|p|] eqn:Eb.
  - right. exists b. split.
    + apply (serve_answers dbg st); [exact (layout_u32 _ _ _ HL)|]. rewrite Es. exact Eb.
    + intros inp fin out en st' Ec. eapply connection_step; eassumption.
  - left. exists p. intros inp fin. eapply connection_panic; eassumption.
  - pose proof (step_never_diverges dbg st (CmdSubmit sb)) as N0. rewrite Es in N0. done.
Qed.
Print Assumptions C68_devid_checked_partial.
Example C68_example : imported ex_state ex_dev /\ uses_intf ex_dev 4 /\ ~ uses_intf ex_dev 5.
Proof.
  split; [exact ex_imported|]. split; [exists ex_intf; split; [left|done]|]. by intros (f & ->%elem_of_list_singleton & ?).
Qed.

(** ** C69 *)
(** An isochronous transfer of one packet: the reply says zero packets and carries no packet
    descriptor. *)
Definition iso_intf : interface := mkInterface 255 0 0 [mkEndpoint 129 1 512 1] 0 [] 4.
Definition iso_dev : device :=
  mkDevice (lit "/sys/bus/0/0/0") (lit "0-0-0") 0 0 3 4660 22136 (mkVersion 1 2 0) 0 0 0 1 1
    [iso_intf] None (mkVersion 2 0 0) (mkEndpoint 128 0 64 0) (mkEndpoint 0 0 64 0) ∅ 1 2 3 4.
Definition iso_in : submit :=
  mkSubmit (mkHeader 1 9 65538 1 1) 0 2 0 1 1 (replicate 8 0) [] [0;0;0;0; 0;0;0;2; 0;0;0;0; 0;0;0;0].
Theorem C69_iso_packets_refuted : exists (m : list N) (sb : submit), (forall dbg, cmd_layout dbg m (CmdSubmit sb)) /\
  addressed iso_dev (ep_byte (sb_header sb)) (mkEndpoint 129 1 512 1) (Some iso_intf) /\ sb_number_of_packets sb = 1 /\
  forall dbg, exists b st', connection dbg (on_device iso_dev) m SEof None = (b, EndOk, st') /\
    submit_ok_reply (sb_header sb) [65; 66] b /\ u32_at b 32 0 /\ length b = (48 + 2)%nat.
Proof.
  exists (wire (CmdSubmit iso_in)), iso_in.
  assert (HL : forall dbg, cmd_layout dbg (wire (CmdSubmit iso_in)) (CmdSubmit iso_in)).
  { intros dbg. apply wire_ok; destruct dbg; wf_ex. }
  split; [done|]. split; [apply find_ep_some; reflexivity|]. split; [done|]. intros dbg.
  pose proof (layout_u32 _ _ _ (HL dbg)) as Hu.
  destruct (response_to_bytes dbg (usbip_ret_submit_success (reply_header (sb_header iso_in) USBIP_RET_SUBMIT) 0 0 [65; 66] [])) as [b| |] eqn:Eb;
    [|by destruct dbg..].
  pose proof (ok_reply dbg _ _ _ Hu Eb) as Hb. exists b. eexists. split; [|split; [exact Hb|]].
  - rewrite <- (app_nil_r (wire _)), <- (app_nil_r b). eapply connection_step; [exact (HL dbg)|cbn; reflexivity|exact Eb|].
    vm_compute. reflexivity.
  - unfold submit_ok_reply, ret_submit_layout in Hb. destruct_and! Hb. cbn in *. split; [assumption|done].
Qed.
Print Assumptions C69_iso_packets_refuted.
(** What is true: the packet count of the reply is the one of the request exactly when that is
    zero; there are never packet descriptors. *)
Theorem C69_iso_packets_partial : forall H dbg (st : cstate H) m sb inp fin out en st',
  cmd_layout dbg m (CmdSubmit sb) -> connection dbg st (m ++ inp) fin None = (out, en, st') ->
  (out = [] /\ exists p, en = EndPanic p) \/
  (exists b out' n, out = b ++ out' /\ answers (CmdSubmit sb) b /\ u32_at b 24 (n mod 4294967296) /\ length b = (48 + N.to_nat n)%nat /\
     (u32_at b 32 (sb_number_of_packets sb) <-> sb_number_of_packets sb = 0)).
Proof. intros H dbg st m sb inp fin out en st'. exact (reply_packets dbg st m sb inp fin out en st'). Qed.
Print Assumptions C69_iso_packets_partial.
Example C69_example : cmd_layout true (wire (CmdSubmit ex_out)) (CmdSubmit ex_out) /\ sb_number_of_packets ex_out = 0.
Proof. split; [apply (ex_wire true ex_out); in_list|done]. Qed.

(** ** C70 *)
Theorem C70_list_and_import_agree : forall H dbg (st : cstate H) m1 m2 n1 n2 f d l1 l2,
  cmd_layout dbg m1 (OpReqDevlist n1) -> cmd_layout dbg m2 (OpReqImport n2 f) ->
  first_such (fun d => field_names f (d_bus_id d)) (sv_available (cs_server st)) d l1 l2 ->
  Forall fits (sv_available (cs_server st)) ->
  exists b1 b2 rc, length rc = 312%nat /\ length b2 = 320%nat /\ bytes_at b2 8 rc /\ bytes_at b1 (record_offset l1) rc /\
    answers (OpReqDevlist n1) b1 /\ answers (OpReqImport n2 f) b2 /\
    forall inp fin, exists st1, forall out en st', connection dbg st1 inp fin None = (out, en, st') ->
      connection dbg st (m1 ++ m2 ++ inp) fin None = (b1 ++ b2 ++ out, en, st').
Proof.
  intros H dbg st m1 m2 n1 n2 f d l1 l2 L1 L2 Hf Hfit.
  destruct (records_agree dbg st m1 m2 n1 n2 f d l1 l2 L1 L2 Hf Hfit) as (b1 & b2 & rc & Hl & Hl2 & B2 & B1 & A1 & A2 & C).
  exists b1, b2, rc. split_and!; try done. intros inp fin. eexists. intros out en st'. apply C.
Qed.
Print Assumptions C70_list_and_import_agree.
Definition second_dev : device :=
  mkDevice (lit "/sys/bus/0/0/1") (lit "0-0-1") 0 1 3 4660 22136 (mkVersion 1 2 0) 0 0 0 1 1
    [ex_intf] None (mkVersion 2 0 0) (mkEndpoint 128 0 64 0) (mkEndpoint 0 0 64 0) ∅ 1 2 3 4.
Definition two_devs : cstate ex_h := mkC (mkServer [iso_dev; second_dev] ∅) ex_world None.
Example C70_example :
  first_such (fun d => field_names (field_of (lit "0-0-1")) (d_bus_id d)) (sv_available (cs_server two_devs))
    second_dev [iso_dev] [] /\
  Forall fits (sv_available (cs_server two_devs)) /\ record_offset [iso_dev] = 328%nat.
Proof.
  split; [split; [done|split]|split; [|reflexivity]].
  - apply field_names_spec. by vm_compute.
  - constructor; [|constructor]. rewrite field_names_spec. by vm_compute.
  - repeat constructor; by vm_compute.
Qed.

(** ** C71 *)
Theorem C71_enumeration : forall H dbg (st : cstate H) m n f d l1 l2 inp l rest fin,
  cmd_layout dbg m (OpReqImport n f) ->
  first_such (fun d => field_names f (d_bus_id d)) (sv_available (cs_server st)) d l1 l2 ->
  enumerable d -> enumeration dbg d inp l ->
  exists b bs st1, dev_record_at b 8 (record_of d) /\ length b = 320%nat /\ u32_at b 4 0 /\
    Forall2 (fun '(sb, s) b => exists data, enum_reply d s data /\ submit_ok_reply (sb_header sb) data b) l bs /\
    cs_world st1 = cs_world st /\ imported st1 d /\
    forall out en st', connection dbg st1 rest fin None = (out, en, st') ->
      connection dbg st (m ++ inp ++ rest) fin None = (b ++ mjoin bs ++ out, en, st').
Proof.
  intros H dbg st m n f d l1 l2 inp l rest fin HL Hf He Hen.
  destruct (import_step dbg st m n f d l1 l2 HL Hf (proj1 (proj2 He)) (proj1 He)) as (b & (Hl & _ & _ & H4 & Hr) & C).
  set (st1 := mkC (mkServer (l1 ++ l2) (<[d_bus_id d := d]> (sv_used (cs_server st)))) (cs_world st) (Some (d_bus_id d))) in *.
  assert (Hd : imported st1 d). { exists (d_bus_id d). split; [done|]. apply lookup_insert. }
  destruct (enum_all dbg st1 d inp l He Hd Hen rest fin) as (bs & F & C2).
  exists b, bs, st1. split_and!; try done. intros out en st' Ec. apply C. by apply C2.
Qed.
Print Assumptions C71_enumeration.
Definition enum_session : list submit :=
  [ctl_in [128; 6; 0; 1; 0; 0; 8; 0]; ctl_in [128; 6; 0; 1; 0; 0; 18; 0]; ctl_in [128; 6; 0; 2; 0; 0; 9; 0];
   ctl_in [128; 6; 0; 2; 0; 0; 32; 0]; ctl_in [128; 6; 0; 3; 0; 0; 255; 0]; ctl_in [128; 6; 3; 3; 9; 4; 255; 0];
   ex_setconf 0].
Example C71_example : forall dbg, enumerable ex_dev /\
  exists l, l.*1 = enum_session /\ enumeration dbg ex_dev (mjoin (wire ∘ CmdSubmit <$> enum_session)) l.
Proof.
  intros dbg. split.
  - destruct C40_example as (_ & _ & Ht & Hc & Hs). split; [exact Ht|]. split; [split; by vm_compute|].
    do 4 (split; [done|]). split; [exact Hc|]. split; [by rewrite Hs|].
    intros ix str Hp. unfold ex_dev in Hp. cbn [d_string_pool] in Hp. repeat (apply lookup_insert_Some in Hp as [[<- <-]|[_ Hp]]; [by vm_compute|]).
    by apply lookup_empty_Some in Hp.
  - eexists [(_, _); (_, _); (_, _); (_, _); (_, _); (_, _); (_, _)]. split; [reflexivity|]. unfold enum_session.
    assert (G : forall b0 b1 b2 b3 b4 b5 b6 b7 inp l, all_u8 [b0; b1; b2; b3; b4; b5; b6; b7] = true ->
      enum_request ex_dev (sb_header (ctl_in [b0; b1; b2; b3; b4; b5; b6; b7])) (mkSetup b0 b1 (b2 + 256 * b3) (b4 + 256 * b5) (b6 + 256 * b7)) ->
      enumeration dbg ex_dev inp l ->
      enumeration dbg ex_dev (wire (CmdSubmit (ctl_in [b0; b1; b2; b3; b4; b5; b6; b7])) ++ inp)
        ((ctl_in [b0; b1; b2; b3; b4; b5; b6; b7], mkSetup b0 b1 (b2 + 256 * b3) (b4 + 256 * b5) (b6 + 256 * b7)) :: l)).
    { intros b0 b1 b2 b3 b4 b5 b6 b7 inp l Hu Hr Hen. destruct (ctl_wire dbg [b0; b1; b2; b3; b4; b5; b6; b7] eq_refl Hu) as [A B].
      apply en_cons; [exact A|exact B|do 8 eexists; split; reflexivity|exact Hr|exact Hen]. }
    assert (R : forall s ty ix, get_desc s ty ix ->
       (ty = 1 \/ ty = 2 \/ ty = 6 \/ ty = 3 /\ (ix = 0 \/ is_Some (d_string_pool ex_dev !! ix))) ->
       forall b, enum_request ex_dev (sb_header (ctl_in b)) s).
    { intros s ty ix Hg Hty b. left. split; [done|]. split; [done|]. by exists ty, ix. }
    apply G; [done|eapply (R _ 1 0); [by repeat split|auto]|].
    apply G; [done|eapply (R _ 1 0); [by repeat split|auto]|].
    apply G; [done|eapply (R _ 2 0); [by repeat split|auto]|].
    apply G; [done|eapply (R _ 2 0); [by repeat split|auto]|].
    apply G; [done|eapply (R _ 3 0); [by repeat split|by auto 6]|].
    apply G; [done|eapply (R _ 3 3); [by repeat split|right; right; right; split; [done|]; right; by eexists]|].
    destruct (ex_wire dbg (ex_setconf 0)) as [A B]; [in_list|].
    apply (en_cons dbg ex_dev _ (ex_setconf 0) (mkSetup 0 9 1 0 0)); [exact A|exact B|do 8 eexists; split; reflexivity| |constructor].
    by right.
Qed.

(** ** C46: version numbers on the wire *)

(** A client imports a device, then reads its device descriptor. *)
Definition bcd_request : submit := ctl_in [128; 6; 0; 1; 0; 0; 18; 0].
Definition bcd_session : list N := wire (OpReqImport 0 (field_of (d_bus_id ex_dev))) ++ wire (CmdSubmit bcd_request).
(** C46 is false: a device of version 0x0120 (1.2.0) is reported as 0x0102, both in the import
    reply and in the device descriptor. *)
Theorem C46_bcd_reported_refuted : d_bcd ex_dev = version_of_bcd 0x0120 /\ typed_device ex_dev /\ forall dbg,
  exists out st', handler dbg (new_simulated [ex_dev]) ex_world bcd_session SEof None = (out, EndOk, st') /\
    u16_at out (8 + 304) 0x0102 /\ u16le_at out (320 + 48 + 12) 0x0102.
Proof.
  split; [reflexivity|]. split; [exact ex_dev_typed|]. intros dbg.
  destruct (handler dbg (new_simulated [ex_dev]) ex_world bcd_session SEof None) as [[out en] st'] eqn:E.
  assert (X : (let r := handler dbg (new_simulated [ex_dev]) ex_world bcd_session SEof None in
    (r.1.2, r.1.1 !! 312%nat, r.1.1 !! 313%nat, r.1.1 !! 380%nat, r.1.1 !! 381%nat)) = (EndOk, Some 1, Some 2, Some 2, Some 1))
    by (destruct dbg; vm_compute; reflexivity).
  rewrite E in X. cbn [fst snd] in X. injection X as -> X1 X2 X3 X4. exists out, st'. split; [done|].
  split; [exists 1, 2|exists 2, 1]; split_and!; done.
Qed.
Print Assumptions C46_bcd_reported_refuted.
(** Versions of libusb and of the library are the same numbers, in both directions. *)
Theorem C46_rusb_versions : forall v major minor sub,
  version_of_rusb (version_to_rusb v) = v /\
  version_to_rusb (version_of_rusb (major, minor, sub)) = (major, minor, sub) /\
  version_of_rusb (2, 1, 0) = version_of_bcd 0x0210.
Proof. intros [a b c] ma mi su. split_and!; reflexivity. Qed.
Print Assumptions C46_rusb_versions.
(** What is true: versions [v] without minor and patch, and only those, are reported faithfully:
    to a client that imports the device and reads its device descriptor, in the import reply
    (bcdDevice), and in the descriptor (bcdDevice, bcdUSB). *)
Theorem C46_bcd_reported_partial : forall H dbg (st : cstate H) m n f d l1 l2 m1 sb s ix rest fin v u,
  cmd_layout dbg m (OpReqImport n f) ->
  first_such (fun d => field_names f (d_bus_id d)) (sv_available (cs_server st)) d l1 l2 ->
  enumerable d -> v < 65536 -> d_bcd d = version_of_bcd v -> u < 65536 -> d_usb_version d = version_of_bcd u ->
  all_u8 m1 = true -> cmd_layout dbg m1 (CmdSubmit sb) -> setup_of (sb_setup sb) s ->
  h_direction (sb_header sb) = 1 -> h_ep (sb_header sb) = 0 -> get_desc s 1 ix -> 18 <= s_length s ->
  exists b b1 st1, length b = 320%nat /\ length b1 = (48 + 18)%nat /\
    (forall out en st', connection dbg st1 rest fin None = (out, en, st') ->
       connection dbg st (m ++ m1 ++ rest) fin None = (b ++ b1 ++ out, en, st')) /\
    (u16_at b (8 + 304) v <-> v mod 256 = 0) /\
    (u16le_at b1 (48 + 12) v <-> v mod 256 = 0) /\
    (u16le_at b1 (48 + 2) u <-> u mod 256 = 0).
Proof.
  intros H dbg st m n f d l1 l2 m1 sb s ix rest fin v u HL Hf He Hv Ev Hu Eu Hm1 HL1 Hs Hdir Hep Hg Hlen.
  assert (Hen : enumeration dbg d (m1 ++ []) [(sb, s)]).
  { apply en_cons; [done|done|done| |constructor]. left. split; [done|]. split; [done|]. exists 1, ix. auto. }
  rewrite app_nil_r in Hen.
  destruct (C71_enumeration H dbg st m n f d l1 l2 m1 _ rest fin HL Hf He Hen) as (b & bs & st1 & Hr & Hl & _ & F & _ & _ & C).
  apply Forall2_cons_inv_l in F as (b1 & bs' & (data & Hd & Hok) & F & ->). apply Forall2_nil_inv_l in F as ->.
  cbn [mjoin list_join] in C. rewrite app_nil_r in C.
  assert (Hdd : device_desc_layout data d).
  { destruct Hg as (G1 & G2 & G3).
    destruct Hd as [ix' desc _ HD|? ? (_ & _ & ?)|(_ & _ & ?)|? ? ? (_ & _ & ?)|? ? (_ & _ & ?)|G]; try lia.
    rewrite take_ge; [done|]. destruct HD as [HD _]. lia. }
  destruct Hok as (L1 & _ & _ & _ & _ & _ & _ & _ & B & _). cbn [rs_transfer_buffer rs_iso] in *.
  assert (Hlk : forall i, (i < 18)%nat -> b1 !! (48 + i)%nat = data !! i).
  { intros i Hi. rewrite <- B, <- (lookup_drop b1 48 i), lookup_take; [done|]. destruct Hdd as [-> _]. lia. }
  assert (U : forall o x, (o + 1 < 18)%nat -> u16le_at b1 (48 + o) x <-> u16le_at data o x).
  { intros o x Ho. unfold u16le_at. replace (48 + o + 1)%nat with (48 + (o + 1))%nat by lia.
    by rewrite !Hlk by lia. }
  destruct (bcd_in_layouts v d data Hv Hdd) as (P1 & _ & P3). destruct (bcd_in_layouts u d data Hu Hdd) as (_ & P2 & _).
  exists b, b1, st1. split; [done|]. split; [destruct Hdd as [Hdd _]; cbn in L1; lia|]. split_and!.
  - intros out en st' Ec. rewrite (C _ _ _ Ec). done.
  - apply P3; auto.
  - rewrite U by lia. auto.
  - rewrite U by lia. auto.
Qed.
Print Assumptions C46_bcd_reported_partial.
Example C46_example : forall dbg, enumerable ex_dev /\ d_bcd ex_dev = version_of_bcd 0x0120 /\
  d_usb_version ex_dev = version_of_bcd 0x0200 /\
  all_u8 (wire (CmdSubmit bcd_request)) = true /\ cmd_layout dbg (wire (CmdSubmit bcd_request)) (CmdSubmit bcd_request) /\
  setup_of (sb_setup bcd_request) (mkSetup 128 6 256 0 18) /\ get_desc (mkSetup 128 6 256 0 18) 1 0 /\
  first_such (fun d => field_names (field_of (d_bus_id ex_dev)) (d_bus_id d)) [ex_dev] ex_dev [] [].
Proof.
  intros dbg. destruct (C71_example dbg) as [He _]. destruct (ctl_wire dbg [128; 6; 0; 1; 0; 0; 18; 0] eq_refl eq_refl) as [A B].
  split; [exact He|]. split; [reflexivity|]. split; [reflexivity|]. split; [exact A|]. split; [exact B|].
  split; [do 8 eexists; split; reflexivity|]. split; [by repeat split|].
  split; [done|]. split; [|constructor]. apply field_names_spec. by vm_compute.
Qed.

(** ** C28 on the wire: a failed import is answered with the 8-byte failure and leaves the server
    and the handlers as they are, but the connection has no device any more. *)
Theorem C28_on_the_wire_partial : forall H dbg (st : cstate H) m n f,
  cmd_layout dbg m (OpReqImport n f) ->
  Forall (fun d => ~ field_names f (d_bus_id d)) (sv_available (cs_server st)) ->
  exists b, length b = 8%nat /\ u16_at b 0 0x111 /\ u16_at b 2 3 /\ u32_at b 4 1 /\
  forall inp fin out en st', connection dbg (mkC (cs_server st) (cs_world st) None) inp fin None = (out, en, st') ->
    connection dbg st (m ++ inp) fin None = (b ++ out, en, st').
Proof.
  intros H dbg st m n f HL Hf. exists [1; 17; 0; 3; 0; 0; 0; 1]. split; [done|].
  split; [exists 1, 17; split_and!; done|]. split; [exists 0, 3; split_and!; done|].
  split; [exists 0, 0, 0, 1; split_and!; done|]. intros inp fin out en st' Ec.
  eapply (connection_step dbg st m _ _ _ (Val op_rep_import_fail)); [exact HL| |reflexivity|exact Ec]. cbn [serve].
  by rewrite (proj2 (import_none_iff _ _ _) (conj Hf eq_refl)).
Qed.
Print Assumptions C28_on_the_wire_partial.
Example C28_wire_example : forall dbg,
  cmd_layout dbg (wire (OpReqImport 0 (field_of (lit "9-9-9")))) (OpReqImport 0 (field_of (lit "9-9-9"))) /\
  Forall (fun d => ~ field_names (field_of (lit "9-9-9")) (d_bus_id d)) [ex_dev].
Proof.
  intros dbg. split; [apply wire_ok; destruct dbg; wf_ex|]. constructor; [|constructor]. rewrite field_names_spec. by vm_compute.
Qed.

(** ** C81: how much was written *)

(** C81 is false for every handler and every OUT submit with data: the reply is either longer than
    the 48 bytes of a reply to an OUT transfer, or does not report the bytes. *)
Theorem C81_out_length_refuted : forall H dbg (st : cstate H) m sb inp fin out en st',
  all_u8 m = true -> cmd_layout dbg m (CmdSubmit sb) -> sb_data sb <> [] ->
  connection dbg st (m ++ inp) fin None = (out, en, st') ->
  (out = [] /\ exists p, en = EndPanic p) \/
  exists b out' st1, out = b ++ out' /\ connection dbg st1 inp fin None = (out', en, st') /\
    answers (CmdSubmit sb) b /\ ~ (length b = 48%nat /\ u32_at b 24 (len (sb_data sb))).
Proof.
  intros H dbg st m sb inp fin out en st' Hm HL Hne E.
  destruct (submit_head dbg st m sb inp fin out en st' Hm HL E) as [Hp|(b & out' & st1 & -> & Ec & d & Hd & Hc)]; [by left|right].
  exists b, out', st1. split; [done|]. split; [done|].
  assert (L : len (sb_data sb) <> 0) by (unfold len; destruct (sb_data sb); [done|]; cbn [length]; lia).
  assert (F : forall b, submit_fail_reply (sb_header sb) b -> answers (CmdSubmit sb) b /\ ~ (length b = 48%nat /\ u32_at b 24 (len (sb_data sb)))).
  { intros b0 Hb. split; [by right|]. intros [_ H24]. destruct Hb as (_ & _ & _ & H24' & _).
    cbn [rs_actual_length] in H24'. pose proof (u32_at_inj _ _ _ _ H24 H24'). lia. }
  destruct Hc as [(_ & Hb & _)|(e & i & s & r & w' & _ & _ & _ & _ & Hr)]; [by apply F|].
  destruct r as [data|x|p]; [|by apply F|done].
  split; [left; by exists data|]. intros [H48 H24]. destruct Hr as (Hl & _ & _ & H24' & _).
  cbn [rs_actual_length rs_transfer_buffer rs_iso] in *. rewrite Nat.add_0_r in Hl.
  assert (data = []) as -> by (apply nil_length_inv; cbn [length] in Hl; lia).
  pose proof (u32_at_inj _ _ _ _ H24 H24') as X. cbn in X. lia.
Qed.
Print Assumptions C81_out_length_refuted.
(** Three bytes for the bulk OUT endpoint: the handler has stored them, the reply reports none. *)
Example C81_example :
  sb_data ex_out = [1; 2; 3] /\ h_direction (sb_header ex_out) = 0 /\
  (forall dbg, all_u8 (wire (CmdSubmit ex_out)) = true /\ cmd_layout dbg (wire (CmdSubmit ex_out)) (CmdSubmit ex_out)) /\
  (forall dbg, let r := connection dbg ex_state (wire (CmdSubmit ex_out)) SEof None in
     c_state (w_intf (cs_world r.2) 4) = [65; 66; 67; 1; 2; 3] /\ length r.1.1 = 48%nat /\
     take 8 (drop 20 r.1.1) = [0; 0; 0; 0; 0; 0; 0; 0]).
Proof.
  split; [done|]. split; [done|]. split; [intros dbg; apply ex_wire; in_list|].
  intros dbg. destruct dbg; vm_compute; split_and!; reflexivity.
Qed.
(** What is true: the length reported is the number of bytes the handler returned, which follow in
    the reply; in a debug build it is always zero. *)
Theorem C81_out_length_partial : forall H dbg (st : cstate H) m sb d e i s t w' data,
  delivered dbg st m sb d e i s t -> h_direction (sb_header sb) = 0 ->
  invoked (cs_world st) e (sb_transfer_buffer_length sb) s (sb_data sb) t (HOk data) w' ->
  (exists st1, forall inp fin, exists b, length b = (48 + length data)%nat /\ u32_at b 20 0 /\
     u32_at b 24 (len data mod 4294967296) /\ bytes_at b 48 data /\ (dbg = true -> u32_at b 24 0) /\
     forall out en st', connection dbg st1 inp fin None = (out, en, st') ->
       connection dbg st (m ++ inp) fin None = (b ++ out, en, st')) \/
  (dbg = true /\ len data mod 4294967296 <> 0 /\
   exists st1, forall inp fin, connection dbg st (m ++ inp) fin None = ([], EndPanic PDebugAssert, st1)).
Proof.
  intros H dbg st m sb d e i s t w' data HD Hdir Hi.
  destruct (delivered_step _ _ _ _ _ _ _ _ _ HD) as (w1 & Hi1 & Hr).
  pose proof (invoked_answer _ _ _ _ _ _ _ _ Hi) as Ho. rewrite <- Ho in Hr, Hi1.
  destruct Hr as [Hr1 Hr2].
  assert (Hc : (dbg = false \/ len data mod 4294967296 = 0) \/ (dbg = true /\ len data mod 4294967296 <> 0))
    by (destruct dbg; lia).
  destruct Hc as [Hc|[-> Hc]].
  - left. eexists. intros inp fin. destruct (Hr1 ltac:(tauto) inp fin) as (b & Hb & Hk). exists b.
    destruct Hb as (Hl & _ & H20 & H24 & _ & _ & _ & _ & H48 & _). cbn [rs_status rs_actual_length rs_transfer_buffer rs_iso length] in *.
    split_and!; [lia|done|done|done| |exact Hk]. intros ->. destruct Hc as [|Hc]; [done|]. by rewrite Hc in H24.
  - right. split; [done|]. split; [done|]. eexists. intros inp fin. apply Hr2; [done|lia|done].
Qed.
Print Assumptions C81_out_length_partial.
Example C81_partial_example : forall dbg, exists w', 
  delivered dbg ex_state (wire (CmdSubmit ex_out)) ex_out ex_dev (mkEndpoint 2 2 512 0) (Some ex_intf) (mkSetup 0 0 0 0 0) (TIntf ex_intf) /\
  invoked (cs_world ex_state) (mkEndpoint 2 2 512 0) 3 (mkSetup 0 0 0 0 0) [1; 2; 3] (TIntf ex_intf) (HOk []) w'.
Proof.
  intros dbg.
  assert (HD : delivered dbg ex_state (wire (CmdSubmit ex_out)) ex_out ex_dev (mkEndpoint 2 2 512 0) (Some ex_intf) (mkSetup 0 0 0 0 0) (TIntf ex_intf)).
  { destruct (ex_wire dbg ex_out) as [A B]; [in_list|].
    split; [exact A|exact B|exact ex_imported|apply find_ep_some; reflexivity| | |reflexivity].
    - unfold setup_of; do 8 eexists; split; reflexivity.
    - apply rt_transfer; cbn; [lia|done]. }
  destruct (delivered_step _ _ _ _ _ _ _ _ _ HD) as (w' & Hi & _). exists w'. split; [exact HD|exact Hi].
Qed.
