(** * Proofs about replies, headers, SETUP packets, allocation *)
From Verif Require Export CodecProofs2 TextProofs.

(** ** Basic header *)
Lemma header_layout h : u32 (h_command h) -> u32 (h_seqnum h) -> u32 (h_devid h) ->
  u32 (h_direction h) -> u32 (h_ep h) ->
  length (header_to_bytes h) = 20%nat /\ reply_header_at (header_to_bytes h) h.
Proof.
  intros. unfold reply_header_at, header_at, header_to_bytes.
  split; [done|]. repeat split; u32_lit.
Qed.

Lemma header_rt dbg h : u32 (h_command h) -> u32 (h_seqnum h) -> u32 (h_devid h) ->
  u32 (h_direction h) -> u32 (h_ep h) ->
  header_from_bytes dbg (header_to_bytes h) =
  if dbg && (1 <? h_direction h) then Panic PDebugAssert else Val h.
Proof.
  intros. unfold header_from_bytes.
  assert (E : mkHeader (of_be (slice (header_to_bytes h) 0 4)) (of_be (slice (header_to_bytes h) 4 8))
     (of_be (slice (header_to_bytes h) 8 12)) (of_be (slice (header_to_bytes h) 12 16))
     (of_be (slice (header_to_bytes h) 16 20)) = h).
  { destruct h as [a b c d e]; cbn [h_command h_seqnum h_devid h_direction h_ep] in *.
    unfold header_to_bytes, slice, u32, be32 in *.
    cbn [h_command h_seqnum h_devid h_direction h_ep app drop take Nat.sub].
    rewrite !of_be_4. f_equal; lia. }
  cbv zeta. rewrite E. unfold debug_assert. rewrite land_1.
  destruct dbg; cbn [andb]; [|done].
  destruct (N.eqb_spec (h_direction h mod 2) (h_direction h)), (N.ltb_spec 1 (h_direction h));
    cbn; try done; lia.
Qed.

Lemma cons_eq (x y : N) l k : x = y -> l = k -> x :: l = y :: k.
Proof. intros -> ->. done. Qed.

Lemma header_rt' b h : length b = 20%nat -> all_u8 b = true ->
  header_from_bytes false b = Val h ->
  header_to_bytes h = b /\ u32 (h_command h) /\ u32 (h_seqnum h) /\ u32 (h_devid h)
  /\ u32 (h_direction h) /\ u32 (h_ep h).
Proof.
  intros Hl Hb [= <-].
  do 20 (destruct b as [|? b]; [discriminate|]). destruct b; [|discriminate].
  apply all_u8_spec in Hb. repeat rewrite Forall_cons in Hb. destruct_and!.
  unfold header_to_bytes, slice, u32, be32. cbn [h_command h_seqnum h_devid h_direction h_ep app drop take Nat.sub].
  rewrite !of_be_4. split; [|repeat split; lia].
  repeat (apply cons_eq; [lia|]). done.
Qed.

(** ** SETUP *)
Lemma setup_le (b : bytes) b0 b1 b2 b3 b4 b5 b6 b7 :
  b = [b0; b1; b2; b3; b4; b5; b6; b7] -> all_u8 b = true ->
  setup_parse b = mkSetup b0 b1 (b2 + 256 * b3) (b4 + 256 * b5) (b6 + 256 * b7).
Proof.
  intros -> Hb. apply all_u8_spec in Hb. repeat rewrite Forall_cons in Hb. destruct_and!.
  unfold setup_parse. cbn [nth]. rewrite !shiftl_8. unfold as_u16.
  rewrite !N.mod_small by lia. rewrite !lor_8 by lia. f_equal; lia.
Qed.

(** ** Replies *)
Lemma ret_submit_bytes dbg r b : response_to_bytes dbg (RetSubmit r) = Val b ->
  u32 (h_command (rs_header r)) -> u32 (h_seqnum (rs_header r)) -> u32 (h_devid (rs_header r)) ->
  u32 (h_direction (rs_header r)) -> u32 (h_ep (rs_header r)) ->
  u32 (rs_status r) -> u32 (rs_actual_length r) -> u32 (rs_start_frame r) ->
  u32 (rs_number_of_packets r) -> u32 (rs_error_count r) ->
  ret_submit_layout b r.
Proof.
  destruct r as [[cm sq di dr ep] st al sf np ec buf iso].
  cbn [response_to_bytes]. unfold debug_assert.
  cbn [rs_header rs_status rs_actual_length rs_start_frame rs_number_of_packets rs_error_count
       rs_transfer_buffer rs_iso h_command h_seqnum h_devid h_direction h_ep].
  destruct (dbg && negb (cm =? _)); [discriminate|].
  match goal with |- (if ?c then _ else _) = _ -> _ => destruct c; [discriminate|] end.
  intros E; apply Val_inj in E; subst b. intros.
  unfold ret_submit_layout, reply_header_at, header_at.
  cbn [rs_header rs_status rs_actual_length rs_start_frame rs_number_of_packets rs_error_count
       rs_transfer_buffer rs_iso h_command h_seqnum h_devid h_direction h_ep].
  split_and!; unfold header_to_bytes; try u32_lit.
  - rewrite !app_length. cbn. lia.
  - done.
  - rewrite !app_assoc. rewrite <- (app_assoc _ buf). apply bytes_at_mid'. done.
  - rewrite !app_assoc. apply bytes_at_end. rewrite !app_length. cbn. lia.
Qed.

Lemma ret_unlink_bytes dbg h st b : response_to_bytes dbg (RetUnlink h st) = Val b ->
  u32 (h_command h) -> u32 (h_seqnum h) -> u32 (h_devid h) ->
  u32 (h_direction h) -> u32 (h_ep h) -> u32 st ->
  ret_unlink_layout b h st.
Proof.
  destruct h as [cm sq di dr ep].
  cbn [response_to_bytes]. unfold debug_assert.
  cbn [h_command h_seqnum h_devid h_direction h_ep].
  destruct (dbg && negb (cm =? _)); [discriminate|].
  intros E; apply Val_inj in E; subst b. intros.
  unfold ret_unlink_layout, reply_header_at, header_at.
  cbn [h_command h_seqnum h_devid h_direction h_ep].
  split_and!; unfold header_to_bytes; try u32_lit; [done|].
  intros i Hi. unfold u8_at. rewrite app_assoc, lookup_app_r by (cbn; lia).
  apply lookup_replicate. split; [done|]. cbn. lia.
Qed.

Lemma device_bytes_shape dbg d b : device_to_bytes dbg d = Val b ->
  b = (take 256 (utf8 (d_path d)) ++ replicate (256 - length (take 256 (utf8 (d_path d)))) 0)
      ++ (take 32 (utf8 (d_bus_id d)) ++ replicate (32 - length (take 32 (utf8 (d_bus_id d)))) 0)
      ++ be32 (d_bus_num d) ++ be32 (d_dev_num d) ++ be32 (d_speed d)
      ++ be16 (d_vendor_id d) ++ be16 (d_product_id d)
      ++ [v_major (d_bcd d); v_minor (d_bcd d); d_class d; d_subclass d; d_protocol d;
          d_configuration_value d; d_num_configurations d; len (d_interfaces d) mod 256]
  /\ (dbg = true -> fits d).
Proof.
  unfold device_to_bytes, debug_assert. cbv zeta.
  destruct (dbg && negb (len (utf8 (d_path d)) <=? 256)) eqn:E1; [discriminate|].
  destruct (dbg && negb (len (utf8 (d_bus_id d)) <=? 32)) eqn:E2; [discriminate|].
  intros E; apply Val_inj in E; subst b. split.
  - unfold vec_resize.
    f_equal; [f_equal; f_equal; rewrite take_length; change (N.to_nat 256) with 256%nat; lia|].
    f_equal. f_equal. f_equal. rewrite take_length; change (N.to_nat 32) with 32%nat. lia.
  - intros ->. unfold fits. cbn [andb] in *. lia.
Qed.

Lemma device_bytes_total dbg d : (dbg = true -> fits d) -> exists b, device_to_bytes dbg d = Val b.
Proof.
  unfold device_to_bytes, debug_assert, fits. cbv zeta. intros Hf.
  destruct dbg; cbn [andb]; [|eauto]. destruct (Hf eq_refl) as [Ha Hb].
  destruct (N.leb_spec (len (utf8 (d_path d))) 256); [|lia].
  destruct (N.leb_spec (len (utf8 (d_bus_id d))) 32); [|lia]. cbn. eauto.
Qed.

Lemma device_bytes_panic dbg d p : device_to_bytes dbg d = Panic p ->
  dbg = true /\ ~ fits d /\ p = PDebugAssert.
Proof.
  unfold device_to_bytes, debug_assert, fits. cbv zeta.
  destruct dbg; cbn [andb]; [|discriminate].
  destruct (N.leb_spec (len (utf8 (d_path d))) 256); cbn [negb].
  - destruct (N.leb_spec (len (utf8 (d_bus_id d))) 32); cbn [negb]; [discriminate|].
    intros [= <-]. repeat split. lia.
  - intros [= <-]. repeat split. lia.
Qed.
Lemma device_bytes_diverge dbg d : device_to_bytes dbg d <> Diverge.
Proof. unfold device_to_bytes, debug_assert. cbv zeta. repeat case_match; discriminate. Qed.

Lemma pad_length (n : nat) l : (length l <= n)%nat -> length (l ++ replicate (n - length l) 0) = n.
Proof. intros. rewrite app_length, replicate_length. lia. Qed.

Lemma device_bytes_length dbg d b : device_to_bytes dbg d = Val b -> length b = 312%nat.
Proof.
  intros H. apply device_bytes_shape in H as [-> _].
  rewrite !app_length, !replicate_length. cbn [length be32 be16].
  rewrite !take_length. lia.
Qed.

Lemma lookup_shift {A} (p q : list A) i o : o = length p -> (p ++ q) !! (o + i)%nat = q !! i.
Proof. intros ->. rewrite lookup_app_r by lia. f_equal. lia. Qed.

Lemma device_record dbg d b pre post : typed_device d -> device_to_bytes dbg d = Val b ->
  dev_record_at (pre ++ b ++ post) (length pre) (record_of d).
Proof.
  intros Ht H. apply device_bytes_shape in H as [-> _].
  unfold dev_record_at, record_of. cbn [dr_path dr_busid dr_busnum dr_devnum dr_speed dr_vendor dr_product
    dr_bcd_hi dr_bcd_lo dr_class dr_subclass dr_protocol dr_confval dr_numconf dr_numintf].
  set (P := take 256 (utf8 (d_path d)) ++ _). set (B := take 32 (utf8 (d_bus_id d)) ++ _).
  assert (HP : length P = 256%nat) by (apply pad_length; rewrite take_length; lia).
  assert (HB : length B = 32%nat) by (apply pad_length; rewrite take_length; lia).
  clearbody P B.
  destruct Ht as (_ & _ & Hbn & Hdn & Hsp & Hv & Hp & _).
  assert (E : forall x : list N, pre ++ (P ++ B ++ x) ++ post = (pre ++ P ++ B) ++ (x ++ post))
    by (intros; rewrite <- !app_assoc; done).
  split_and!.
  1: { rewrite <- !app_assoc. apply bytes_at_mid. }
  1: { rewrite <- !app_assoc. rewrite (app_assoc pre). apply bytes_at_mid'. rewrite app_length. lia. }
  all: rewrite E; clear E.
  all: assert (HQ : length (pre ++ P ++ B) = (length pre + 288)%nat) by (rewrite !app_length; lia).
  all: revert HQ; generalize (pre ++ P ++ B); intros Q HQ.
  1-3: lazymatch goal with |- u32_at _ (?a + ?k)%nat ?v =>
         replace (a + k)%nat with (length Q + (k - 288))%nat by lia;
         apply u32_at_shift; cbn [Nat.sub]; u32_lit end.
  1-2: lazymatch goal with |- u16_at _ (?a + ?k)%nat ?v =>
         replace (a + k)%nat with (length Q + (k - 288))%nat by lia;
         apply u16_at_shift; cbn [Nat.sub]; unfold u16 in *; u16_lit end.
  all: lazymatch goal with |- u8_at _ (?a + ?k)%nat ?v =>
         replace (a + k)%nat with (length Q + (k - 288))%nat by lia;
         unfold u8_at; rewrite lookup_shift by reflexivity; cbn [Nat.sub]; reflexivity end.
Qed.

Lemma import_dev_bytes dbg st d b : u32 st -> typed_device d ->
  response_to_bytes dbg (OpRepImport st (Some d)) = Val b ->
  length b = 320%nat /\ u16_at b 0 0x111 /\ u16_at b 2 3 /\ u32_at b 4 st
  /\ dev_record_at b 8 (record_of d).
Proof.
  intros Hst Ht H. cbn [response_to_bytes] in H. apply obind_val in H as (db & Hd & E).
  apply Val_inj in E; subst b. pose proof (device_bytes_length _ _ _ Hd) as Hl.
  split_and!.
  - rewrite !app_length, Hl. done.
  - u16_lit.
  - u16_lit.
  - u32_lit.
  - pose proof (device_record dbg d db (be16 USBIP_VERSION ++ be16 OP_REP_IMPORT ++ be32 st) [] Ht Hd) as R.
    rewrite app_nil_r, <- !app_assoc in R. exact R.
Qed.
Lemma import_ok_bytes dbg d b : typed_device d ->
  response_to_bytes dbg (OpRepImport 0 (Some d)) = Val b ->
  length b = 320%nat /\ u16_at b 0 0x111 /\ u16_at b 2 3 /\ u32_at b 4 0
  /\ dev_record_at b 8 (record_of d).
Proof. by apply import_dev_bytes. Qed.

Lemma import_fail_bytes dbg st : u32 st -> exists b,
  response_to_bytes dbg (OpRepImport st None) = Val b /\
  length b = 8%nat /\ u16_at b 0 0x111 /\ u16_at b 2 3 /\ u32_at b 4 st.
Proof.
  intros. cbn [response_to_bytes obind]. eexists. split; [reflexivity|].
  split_and!; [done|u16_lit|u16_lit|u32_lit].
Qed.

(** ** Device list *)
Lemma p_u32_be32 v r : u32 v -> p_u32 (be32 v ++ r) = Some (v, r).
Proof. unfold u32, be32, p_u32. intros. cbn [app]. do 2 f_equal. lia. Qed.
Lemma p_u16_be16 v r : v < 65536 -> p_u16 (be16 v ++ r) = Some (v, r).
Proof. unfold be16, p_u16. intros. cbn [app]. do 2 f_equal. lia. Qed.
Lemma p_bind_some {A B} (p : parser A) (f : A -> parser B) b a r :
  p b = Some (a, r) -> p_bind p f b = f a r.
Proof. intros E. unfold p_bind. rewrite E. done. Qed.
Lemma p_bytes_app l r n : length l = n -> p_bytes n (l ++ r) = Some (l, r).
Proof.
  intros <-. unfold p_bytes. rewrite app_length.
  destruct (Nat.ltb_spec (length l + length r) (length l)); [lia|].
  rewrite take_app, drop_app. done.
Qed.

Lemma p_text_ok n s r : is_rstring s = true -> 0 ∉ s -> (length (utf8 s) <= n)%nat ->
  p_text n ((utf8 s ++ replicate (n - length (utf8 s)) 0) ++ r) = Some (s, r).
Proof.
  intros Hs H0 Hl. unfold p_text. erewrite p_bind_some; [|apply p_bytes_app, pad_length; exact Hl].
  cbn beta. rewrite c_string_pad by (rewrite utf8_nul; exact H0).
  rewrite utf8_roundtrip by exact Hs. done.
Qed.

Lemma p_many_app {A} (p : parser A) (enc : list (A * list N)) r :
  Forall (fun ab => forall r', p (snd ab ++ r') = Some (fst ab, r')) enc ->
  p_many (length enc) p (mjoin (snd <$> enc) ++ r) = Some (fst <$> enc, r).
Proof.
  induction 1 as [|[a b] enc Hp _ IH]; [done|].
  cbn [length p_many fmap list_fmap fst snd] in *. change (mjoin (b :: (snd <$> enc))) with (b ++ mjoin (snd <$> enc)).
  rewrite <- app_assoc. unfold p_bind at 1. rewrite Hp. unfold p_bind. rewrite IH. done.
Qed.

Definition no_nul (d : device) : Prop := 0 ∉ d_path d /\ 0 ∉ d_bus_id d.

Lemma p_device_ok dbg d b r : typed_device d -> fits d -> no_nul d ->
  len (d_interfaces d) <= 255 -> device_to_bytes_with_interfaces dbg d = Val b ->
  p_device (b ++ r) = Some (client_view d, r).
Proof.
  intros Ht [Hf1 Hf2] [Hn1 Hn2] Hi H. unfold device_to_bytes_with_interfaces in H.
  apply obind_val in H as (db & Hd & E). apply Val_inj in E; subst b.
  apply device_bytes_shape in Hd as [-> _].
  unfold len in Hf1, Hf2. rewrite !take_ge by lia.
  destruct Ht as (Hs1 & Hs2 & Hbn & Hdn & Hsp & Hv & Hp & _).
  rewrite <- !(app_assoc _ _ r). rewrite <- (app_assoc (utf8 (d_path d) ++ _)).
  unfold p_device.
  erewrite p_bind_some; [|apply p_text_ok; [assumption..|lia]].
  rewrite <- (app_assoc (utf8 (d_bus_id d) ++ _)).
  erewrite p_bind_some; [|apply p_text_ok; [assumption..|lia]].
  rewrite <- (app_assoc (be32 (d_bus_num d))). erewrite p_bind_some; [|apply p_u32_be32; assumption].
  rewrite <- (app_assoc (be32 (d_dev_num d))). erewrite p_bind_some; [|apply p_u32_be32; assumption].
  rewrite <- (app_assoc (be32 (d_speed d))). erewrite p_bind_some; [|apply p_u32_be32; assumption].
  rewrite <- (app_assoc (be16 (d_vendor_id d))). erewrite p_bind_some; [|apply p_u16_be16; assumption].
  rewrite <- (app_assoc (be16 (d_product_id d))). erewrite p_bind_some; [|apply p_u16_be16; assumption].
  cbn [app]. do 8 (erewrite p_bind_some; [|reflexivity]).
  rewrite N.mod_small by lia.
  set (enc := (fun i => ((if_class i, if_subclass i, if_protocol i),
                         [if_class i; if_subclass i; if_protocol i; 0])) <$> d_interfaces d).
  replace (N.to_nat (len (d_interfaces d))) with (length enc)
    by (unfold enc, len; rewrite fmap_length; lia).
  replace ((λ i : interface, [if_class i; if_subclass i; if_protocol i; 0]) <$> d_interfaces d)
    with (snd <$> enc) by (unfold enc; rewrite <- list_fmap_compose; done).
  erewrite p_bind_some.
  2:{ apply p_many_app. unfold enc. apply Forall_fmap, Forall_true. intros i r'. done. }
  unfold p_ret, client_view, enc. rewrite <- list_fmap_compose. done.
Qed.

Lemma p_many_length {A} (p : parser A) n : forall b l r, p_many n p b = Some (l, r) -> length l = n.
Proof.
  induction n as [|n IH]; intros b l r E; cbn [p_many] in E.
  - by injection E as <- <-.
  - unfold p_bind in E. destruct (p b) as [[a b1]|]; [|discriminate].
    destruct (p_many n p b1) as [[l2 b2]|] eqn:E2; [|discriminate]. injection E as <- <-. cbn. f_equal. by eapply IH.
Qed.
(** Whatever is announced, a client finds at most 255 interfaces. *)
Lemma p_device_at_most dbg d b r v r' : typed_device d -> fits d -> no_nul d ->
  device_to_bytes_with_interfaces dbg d = Val b -> p_device (b ++ r) = Some (v, r') ->
  len (cd_interfaces v) <= 255.
Proof.
  intros Ht [Hf1 Hf2] [Hn1 Hn2] H. unfold device_to_bytes_with_interfaces in H.
  apply obind_val in H as (db & Hd & E). apply Val_inj in E; subst b.
  apply device_bytes_shape in Hd as [-> _].
  unfold len in Hf1, Hf2. rewrite !take_ge by lia.
  destruct Ht as (Hs1 & Hs2 & Hbn & Hdn & Hsp & Hv & Hp & _).
  rewrite <- !(app_assoc _ _ r). rewrite <- (app_assoc (utf8 (d_path d) ++ _)).
  unfold p_device.
  erewrite p_bind_some; [|apply p_text_ok; [assumption..|lia]].
  rewrite <- (app_assoc (utf8 (d_bus_id d) ++ _)).
  erewrite p_bind_some; [|apply p_text_ok; [assumption..|lia]].
  rewrite <- (app_assoc (be32 (d_bus_num d))). erewrite p_bind_some; [|apply p_u32_be32; assumption].
  rewrite <- (app_assoc (be32 (d_dev_num d))). erewrite p_bind_some; [|apply p_u32_be32; assumption].
  rewrite <- (app_assoc (be32 (d_speed d))). erewrite p_bind_some; [|apply p_u32_be32; assumption].
  rewrite <- (app_assoc (be16 (d_vendor_id d))). erewrite p_bind_some; [|apply p_u16_be16; assumption].
  rewrite <- (app_assoc (be16 (d_product_id d))). erewrite p_bind_some; [|apply p_u16_be16; assumption].
  cbn [app]. do 8 (erewrite p_bind_some; [|reflexivity]). unfold p_bind.
  destruct (p_many _ p_interface _) as [[is b2]|] eqn:E; [|discriminate]. intros [= <- <-].
  apply p_many_length in E. unfold len in *. cbn [cd_interfaces]. lia.
Qed.

Lemma devices_bytes_enc dbg ds bs : devices_to_bytes dbg ds = Val bs ->
  exists enc, bs = mjoin enc /\ Forall2 (fun d b => device_to_bytes_with_interfaces dbg d = Val b) ds enc.
Proof.
  revert bs. induction ds as [|d ds IH]; intros bs H; cbn [devices_to_bytes] in H.
  - apply Val_inj in H; subst bs. exists []. split; [done|constructor].
  - apply obind_val in H as (b & Hb & H). apply obind_val in H as (bs' & Hbs & E).
    apply Val_inj in E; subst bs. destruct (IH _ Hbs) as (enc & -> & Hf).
    exists (b :: enc). split; [done|constructor; assumption].
Qed.

Lemma devlist_decodable dbg ds b r :
  Forall (fun d => typed_device d /\ fits d /\ no_nul d /\ len (d_interfaces d) <= 255) ds ->
  len ds < 4294967296 ->
  response_to_bytes dbg (op_rep_devlist ds) = Val b ->
  p_devlist (b ++ r) = Some (client_view <$> ds, r).
Proof.
  intros Hf Hn H. unfold op_rep_devlist in H. cbn [response_to_bytes] in H.
  apply obind_val in H as (bs & Hbs & E). apply Val_inj in E; subst b.
  rewrite <- !app_assoc. unfold p_devlist.
  erewrite p_bind_some; [|apply p_u16_be16; done].
  erewrite p_bind_some; [|apply p_u16_be16; done].
  erewrite p_bind_some; [|apply p_u32_be32; done].
  erewrite p_bind_some; [|apply p_u32_be32; unfold u32, as_u32; lia].
  unfold as_u32. rewrite N.mod_small by lia.
  change ((USBIP_VERSION =? 273) && (OP_REP_DEVLIST =? 5) && (0 =? 0)) with true. cbv iota.
  destruct (devices_bytes_enc _ _ _ Hbs) as (enc & -> & HF2).
  set (E := zip (client_view <$> ds) enc).
  pose proof (Forall2_length _ _ _ HF2) as Hlen.
  assert (E1 : fst <$> E = client_view <$> ds) by (apply fst_zip; rewrite fmap_length; lia).
  assert (E2 : snd <$> E = enc) by (apply snd_zip; rewrite fmap_length; lia).
  replace (N.to_nat (len ds)) with (length E).
  2:{ unfold E, len. rewrite zip_with_length_l; rewrite fmap_length; lia. }
  rewrite <- E2 at 1. rewrite <- E1. apply p_many_app. unfold E. clear - Hf HF2.
  induction HF2 as [|d b ds enc Hb _ IH]; [constructor|].
  apply Forall_cons in Hf as [(Ht & Hfi & Hnn & Hi) Hf]. cbn [fmap list_fmap zip_with].
  constructor; [|auto]. intros r'. cbn [fst snd]. eapply p_device_ok; eassumption.
Qed.

Lemma devlist_decodable_only dbg ds b r r' :
  Forall (fun d => typed_device d /\ fits d /\ no_nul d) ds -> len ds < 4294967296 ->
  response_to_bytes dbg (op_rep_devlist ds) = Val b ->
  p_devlist (b ++ r) = Some (client_view <$> ds, r') -> Forall (fun d => len (d_interfaces d) <= 255) ds.
Proof.
  intros Hf Hn H. unfold op_rep_devlist in H. cbn [response_to_bytes] in H.
  apply obind_val in H as (bs & Hbs & E). apply Val_inj in E; subst b.
  rewrite <- !app_assoc. unfold p_devlist.
  erewrite p_bind_some; [|apply p_u16_be16; done].
  erewrite p_bind_some; [|apply p_u16_be16; done].
  erewrite p_bind_some; [|apply p_u32_be32; done].
  erewrite p_bind_some; [|apply p_u32_be32; unfold u32, as_u32; lia].
  unfold as_u32. rewrite N.mod_small by lia.
  change ((USBIP_VERSION =? 273) && (OP_REP_DEVLIST =? 5) && (0 =? 0)) with true. cbv iota.
  destruct (devices_bytes_enc _ _ _ Hbs) as (enc & -> & HF2). unfold len. rewrite Nat2N.id. clear Hbs Hn.
  revert r r'. induction HF2 as [|d b ds enc Hd HF2 IH]; intros r r' E; [constructor|].
  apply Forall_cons in Hf as [(Ht & Hfd & Hnn) Hf]. cbn [length p_many fmap list_fmap] in E.
  change (mjoin (b :: enc)) with (b ++ mjoin enc) in E. rewrite <- app_assoc in E. unfold p_bind in E.
  destruct (p_device (b ++ mjoin enc ++ r)) as [[v b1]|] eqn:Ed; [|discriminate].
  destruct (p_many (length ds) p_device b1) as [[l b2]|] eqn:Em; [|discriminate]. injection E as -> -> <-.
  pose proof (p_device_at_most _ _ _ _ _ _ Ht Hfd Hnn Hd Ed) as Hle.
  assert (Hl : len (d_interfaces d) <= 255).
  { unfold client_view, len in *. cbn [cd_interfaces] in Hle. by rewrite fmap_length in Hle. }
  constructor; [done|]. rewrite (p_device_ok _ _ _ _ Ht Hfd Hnn Hl Hd) in Ed. injection Ed as <-. by eapply IH.
Qed.

(** No prefix decoder can work without a limit on the number of interfaces: two
    different lists followed by suitable bytes give the same stream. *)
Definition many_intf (n : nat) : device :=
  with_interfaces default_device (replicate n (mkInterface 3 0 0 [] 0 [] 0)).
Lemma typed_many n : typed_device (many_intf n).
Proof.
  unfold typed_device, many_intf, with_interfaces. cbn.
  split_and!; try done.
  apply Forall_replicate. unfold typed_interface. cbn. split_and!; try done.
Qed.

Lemma devlist_ambiguous dbg : exists b1 b2 r,
  response_to_bytes dbg (op_rep_devlist [many_intf 256]) = Val b1 /\
  response_to_bytes dbg (op_rep_devlist [many_intf 0]) = Val b2 /\ b1 = b2 ++ r.
Proof.
  destruct dbg.
  - eexists _, _, _. split; [vm_compute; reflexivity|]. split; [vm_compute; reflexivity|].
    vm_compute. reflexivity.
  - eexists _, _, _. split; [vm_compute; reflexivity|]. split; [vm_compute; reflexivity|].
    vm_compute. reflexivity.
Qed.

(** ** Allocation while reading *)
Lemma allocs_read_at {A} n (k : bytes -> rd A) inp o : (o <= length inp)%nat ->
  rd_allocs (RRead n k) (drop o inp) (N.of_nat o) =
  if (length inp <? o + N.to_nat n)%nat then []
  else rd_allocs (k (take (N.to_nat n) (drop o inp))) (drop (o + N.to_nat n) inp)
         (N.of_nat (o + N.to_nat n)).
Proof.
  intros Ho. cbn [rd_allocs]. unfold len. rewrite drop_length, drop_drop.
  destruct (Nat.ltb_spec (length inp) (o + N.to_nat n)), (N.ltb_spec (N.of_nat (length inp - o)) n);
    try lia; [done|]. do 2 f_equal. lia.
Qed.
Lemma allocs_step {A} n (k : bytes -> rd A) inp o x : (o <= length inp)%nat ->
  In x (rd_allocs (RRead n k) (drop o inp) (N.of_nat o)) ->
  (o + N.to_nat n <= length inp)%nat /\
  In x (rd_allocs (k (take (N.to_nat n) (drop o inp))) (drop (o + N.to_nat n) inp)
          (N.of_nat (o + N.to_nat n))).
Proof.
  intros Ho. rewrite allocs_read_at by exact Ho.
  destruct (Nat.ltb_spec (length inp) (o + N.to_nat n)); [intros []|]. intros; split; [lia|done].
Qed.
Lemma allocs_assert {A} dbg b (k : rd A) inp got x :
  In x (rd_allocs (rd_debug_assert dbg b k) inp got) -> In x (rd_allocs k inp got).
Proof. unfold rd_debug_assert. destruct (dbg && negb b); [intros []|done]. Qed.

Ltac al_step H o2 :=
  apply allocs_step in H; [|lia];
  let Hl := fresh "Hl" in destruct H as [Hl H]; cbn beta in H;
  match type of H with
  | context [ drop (?a + N.to_nat ?n) _ ] => change (a + N.to_nat n)%nat with o2 in H, Hl
  end.

Lemma no_allocs_import dbg st inp got :
  rd_allocs (rd_debug_assert dbg (st =? 0) (RRead 32 (fun busid => RRet (OpReqImport st busid)))) inp got = [].
Proof. unfold rd_debug_assert. destruct (dbg && _); [done|]. cbn. by destruct (_ <? _). Qed.

Lemma allocs_bound dbg inp n got : all_u8 inp = true ->
  In (n, got) (rd_allocs (read_from_socket dbg) inp 0) ->
  exists dir tbl np,
  u16_at inp 2 1 /\ u32_at inp 12 dir /\ u32_at inp 24 tbl /\ u32_at inp 32 np /\
  ((dir <> 1 /\ n = tbl /\ got = 48) \/ (n = 16 * np /\ got = 48 + payload_len dir tbl)).
Proof.
  intros Hb H. rewrite <- (drop_0 inp) in H at 1. change 0 with (N.of_nat 0) in H.
  unfold read_from_socket in H.
  unfold read_u16 at 1 in H. al_step H 2%nat.
  match type of H with context [if ?c then _ else _] => destruct c; [destruct H|] end.
  unfold read_u16 at 1 in H. al_step H 4%nat.
  pose proof (u16_at_of_be inp 2 Hb ltac:(lia)) as Hc. cbn beta in Hc.
  change (take (N.to_nat 2) (drop 2 inp)) with (take 2 (drop 2 inp)) in H.
  set (c := of_be (take 2 (drop 2 inp))) in *.
  destruct (c =? OP_REQ_DEVLIST).
  { unfold read_u32 at 1 in H. al_step H 8%nat. apply allocs_assert in H. destruct H. }
  destruct (c =? OP_REQ_IMPORT).
  { unfold read_u32 at 1 in H. al_step H 8%nat. rewrite no_allocs_import in H. destruct H. }
  destruct (N.eqb_spec c USBIP_CMD_SUBMIT) as [Ec|].
  2:{ destruct (c =? USBIP_CMD_UNLINK); [|destruct H].
      unfold read_header, read_u32 at 1 2 3 in H.
      al_step H 8%nat. al_step H 12%nat. al_step H 16%nat. apply allocs_assert in H.
      unfold read_u32 in H. al_step H 20%nat. al_step H 24%nat. al_step H 48%nat. destruct H. }
  unfold read_header, read_u32 at 1 2 3 in H.
  al_step H 8%nat. al_step H 12%nat. al_step H 16%nat. apply allocs_assert in H.
  unfold read_u32 in H. al_step H 20%nat. al_step H 24%nat.
  al_step H 28%nat. al_step H 32%nat. al_step H 36%nat. al_step H 40%nat. al_step H 48%nat.
  change (N.to_nat 4) with 4%nat in H.
  pose proof (u32_at_of_be inp 12 Hb ltac:(lia)) as H12. pose proof (u32_at_of_be inp 24 Hb ltac:(lia)) as H24.
  pose proof (u32_at_of_be inp 32 Hb ltac:(lia)) as H32.
  set (dir := of_be (take 4 (drop 12 inp))) in *.
  set (tbl := of_be (take 4 (drop 24 inp))) in *.
  set (np := of_be (take 4 (drop 32 inp))) in *.
  exists dir, tbl, np. rewrite Ec in Hc. split_and!; [done..|].
  cbn [h_direction] in H. change DIR_IN with 1 in H. change (N.of_nat 48) with 48 in H. unfold payload_len.
  destruct (N.eqb_spec dir 1) as [Ed|Ed].
  - right. destruct (negb (np =? 0) && negb (np =? 4294967295)); [|destruct H].
    cbn [rd_allocs] in H. destruct H as [[= <- <-]|H]; [split; [done|lia]|].
    destruct (_ <? _); destruct H.
  - cbn [rd_allocs] in H. destruct H as [[= <- <-]|H]; [left; auto|]. right.
    destruct (len (drop 48 inp) <? tbl); [destruct H|].
    destruct (negb (np =? 0) && negb (np =? 4294967295)); [|destruct H].
    cbn [rd_allocs] in H. destruct H as [[= <- <-]|H]; [split; [done|lia]|].
    destruct (_ <? _); destruct H.
Qed.

(** A 48-byte request that makes the server reserve 64 GiB - 32 bytes at once. *)
Definition greedy_request : bytes :=
  be32 1 ++ be32 1 ++ be32 0 ++ be32 1 ++ be32 0 ++ be32 0 ++ be32 0 ++ be32 0
  ++ be32 0xFFFFFFFE ++ be32 0 ++ replicate 8 0.
Lemma greedy_allocs dbg :
  length greedy_request = 48%nat /\ all_u8 greedy_request = true /\
  rd_allocs (read_from_socket dbg) greedy_request 0 = [(68719476704, 48)].
Proof. destruct dbg; vm_compute; done. Qed.

Lemma reads_chunks_iff dbg fin cs cmds e :
  reads_chunks dbg fin cs cmds e <-> reads dbg fin (mjoin cs) cmds e.
Proof.
  split.
  - induction 1 as [cs e H|cs c cs' cmds e H _ IH].
    + apply reads_end. rewrite <- run_chunks, H. done.
    + apply reads_cons with (mjoin cs'); [|exact IH]. rewrite <- run_chunks, H. done.
  - intros H. remember (mjoin cs) as inp eqn:E. revert cs E.
    induction H as [inp e H|inp c rest cmds e H _ IH]; intros cs ->; rewrite <- run_chunks in H.
    + apply readsc_end. destruct (run_rd_chunks _ cs fin); cbn in H; try discriminate. congruence.
    + destruct (run_rd_chunks _ cs fin) as [c' cs'| |] eqn:E; cbn in H; try discriminate.
      injection H as <- <-. eapply readsc_cons; [exact E|]. apply IH. done.
Qed.

Lemma device_wi_total dbg d : (exists b, device_to_bytes_with_interfaces dbg d = Val b)
  <-> (dbg = true -> fits d).
Proof.
  unfold device_to_bytes_with_interfaces. split.
  - intros (b & H). apply obind_val in H as (db & H & _). by apply device_bytes_shape in H as [_ ?].
  - intros Hf. destruct (device_bytes_total dbg d Hf) as [b ->]. cbn. eauto.
Qed.
Lemma device_wi_cases dbg d : (exists b, device_to_bytes_with_interfaces dbg d = Val b)
  \/ device_to_bytes_with_interfaces dbg d = Panic PDebugAssert.
Proof.
  unfold device_to_bytes_with_interfaces.
  destruct (device_to_bytes dbg d) as [b|p|] eqn:E; cbn; [eauto| |].
  - apply device_bytes_panic in E as (_ & _ & ->). auto.
  - by apply device_bytes_diverge in E.
Qed.
Lemma devices_cases dbg ds : (exists b, devices_to_bytes dbg ds = Val b)
  \/ devices_to_bytes dbg ds = Panic PDebugAssert.
Proof.
  induction ds as [|d ds IH]; cbn [devices_to_bytes]; [eauto|].
  destruct (device_wi_cases dbg d) as [[b ->]| ->]; cbn [obind]; [|auto].
  destruct IH as [[bs ->]| ->]; cbn [obind]; eauto.
Qed.
Lemma devices_total dbg ds : (exists b, devices_to_bytes dbg ds = Val b)
  <-> (dbg = true -> Forall fits ds).
Proof.
  induction ds as [|d ds IH]; cbn [devices_to_bytes].
  - split; eauto.
  - split.
    + intros (b & H) Hd. apply obind_val in H as (x & Hx & H). apply obind_val in H as (y & Hy & _).
      constructor; [apply (proj1 (device_wi_total dbg d)); eauto|].
      apply (proj1 IH); eauto.
    + intros Hf. destruct (proj2 (device_wi_total dbg d)) as [b ->].
      { intros Hd. specialize (Hf Hd). by apply Forall_cons in Hf as [? ?]. }
      destruct (proj2 IH) as [bs ->]. { intros Hd. specialize (Hf Hd). by apply Forall_cons in Hf as [? ?]. }
      cbn. eauto.
Qed.

Lemma response_cases dbg r : (exists b, response_to_bytes dbg r = Val b)
  \/ response_to_bytes dbg r = Panic PDebugAssert.
Proof.
  destruct r as [st n ds|st [d|]|s|h st]; cbn [response_to_bytes].
  - destruct (devices_cases dbg ds) as [[b ->]| ->]; cbn [obind]; eauto.
  - destruct (device_to_bytes dbg d) as [b|p|] eqn:E; cbn; [eauto| |].
    + apply device_bytes_panic in E as (_ & _ & ->). auto.
    + by apply device_bytes_diverge in E.
  - cbn. eauto.
  - unfold debug_assert. repeat case_match; eauto.
  - unfold debug_assert. repeat case_match; eauto.
Qed.

Lemma response_total dbg r :
  (exists b, response_to_bytes dbg r = Val b) <-> (dbg = true -> reply_ok r).
Proof.
  destruct r as [st n ds|st [d|]|s|h st]; cbn [response_to_bytes reply_ok].
  - rewrite <- devices_total. split.
    + intros (b & H). apply obind_val in H as (x & Hx & _). eauto.
    + intros [b ->]. cbn. eauto.
  - split.
    + intros (b & H). apply obind_val in H as (x & Hx & _). by apply device_bytes_shape in Hx as [_ ?].
    + intros Hf. destruct (device_bytes_total dbg d Hf) as [b ->]. cbn. eauto.
  - cbn. split; eauto.
  - unfold debug_assert, USBIP_RET_SUBMIT, DIR_IN, as_u32. destruct dbg; cbn [andb]; [|split; eauto; done].
    destruct (N.eqb_spec (h_command (rs_header s)) 3); cbn [negb].
    2:{ split; [intros (? & [=])|]. intros H. destruct (H eq_refl). done. }
    destruct (h_direction (rs_header s) =? 1).
    + destruct (N.eqb_spec (rs_actual_length s) (len (rs_transfer_buffer s) mod 4294967296)); cbn [negb].
      * split; eauto.
      * split; [intros (? & [=])|]. intros H. destruct (H eq_refl). done.
    + destruct (N.eqb_spec (rs_actual_length s) 0); cbn [negb].
      * split; eauto.
      * split; [intros (? & [=])|]. intros H. destruct (H eq_refl). done.
  - unfold debug_assert, USBIP_RET_UNLINK. destruct dbg; cbn [andb]; [|split; eauto; done].
    destruct (N.eqb_spec (h_command h) 4); cbn [negb].
    + split; eauto.
    + split; [intros (? & [=])|]. intros H. specialize (H eq_refl). done.
Qed.

Lemma response_panic dbg r : response_to_bytes dbg r = Panic PDebugAssert <-> (dbg = true /\ ~ reply_ok r).
Proof.
  pose proof (response_total dbg r) as HT. split.
  - intros H. destruct dbg.
    + split; [done|]. intros Hok. destruct (proj2 HT (fun _ => Hok)) as [b E]. congruence.
    + destruct (proj2 HT) as [b E]; [done|congruence].
  - intros [-> Hn]. destruct (response_cases true r) as [Hb|]; [|done].
    exfalso. apply Hn. apply (proj1 HT Hb). done.
Qed.

(** ** Packaged statements *)
Lemma reader_iff dbg inp fin c rest : all_u8 inp = true ->
  run_rd (read_from_socket dbg) inp fin = ROk c rest <->
  exists msg, inp = msg ++ rest /\ cmd_layout dbg msg c.
Proof.
  intros Hb. split; [apply reader_sound; exact Hb|].
  intros (msg & -> & HL). apply reader_complete. exact HL.
Qed.

Lemma reader_truncated dbg msg c pre suf fin : cmd_layout dbg msg c -> msg = pre ++ suf ->
  suf <> [] -> run_rd (read_from_socket dbg) pre fin = RErr (end_error fin).
Proof.
  intros HL E Hs. pose proof (reader_complete dbg msg c [] SEof HL) as R. rewrite app_nil_r in R.
  eapply run_truncated; eauto.
Qed.

Lemma reject_version_iff dbg inp fin v : all_u8 inp = true ->
  run_rd (read_from_socket dbg) inp fin = RErr (EUnknownVersion v)
  <-> u16_at inp 0 v /\ ~ version_ok v.
Proof.
  intros Hb. split.
  - intros H. apply reader_errors in H; [|exact Hb].
    destruct H as [H|[(v' & [= ->] & ?)|(? & ? & [=] & _)]]; [|done].
    destruct fin; discriminate.
  - intros [? ?]. apply reject_version; assumption.
Qed.
Lemma reject_command_iff dbg inp fin c : all_u8 inp = true ->
  run_rd (read_from_socket dbg) inp fin = RErr (EUnknownCommand c)
  <-> exists v, u16_at inp 0 v /\ version_ok v /\ u16_at inp 2 c /\ ~ known_code c.
Proof.
  intros Hb. split.
  - intros H. apply reader_errors in H; [|exact Hb].
    destruct H as [H|[(v' & [=] & _)|(v & c' & [= ->] & ?)]]; [|eauto].
    destruct fin; discriminate.
  - intros (v & ? & ? & ? & ?). eapply reject_command; eassumption.
Qed.

Lemma run_panics dbg inp fin p : run_rd (read_from_socket dbg) inp fin = RPan p ->
  dbg = true /\ p = PDebugAssert.
Proof.
  assert (G : forall A (q : rd A), (fix go (q : rd A) : Prop := match q with
      | RRet _ | RFail _ => True | RPanic p => dbg = true /\ p = PDebugAssert
      | RAlloc _ k => go k | RRead _ k => forall b, go (k b) end) q ->
      forall inp fin p, run_rd q inp fin = RPan p -> dbg = true /\ p = PDebugAssert).
  { intros A q. induction q as [x|e|q|n k IH|n k IH]; intros Hq inp' fin' p' H; cbn [run_rd] in H;
      try discriminate.
    - injection H as ->. exact Hq.
    - destruct (len inp' <? n); [discriminate|]. eapply IH; [apply Hq|exact H].
    - eapply IH; [apply Hq|exact H]. }
  apply G. unfold read_from_socket, read_header, read_u16, read_u32, rd_debug_assert.
  repeat first [progress intros | progress cbv zeta
    | match goal with |- context [if ?c then _ else _] => destruct c eqn:? end
    | exact I | split; [destruct dbg; [done|discriminate]|done] ].
Qed.

(** A debug build rejects by panicking exactly the messages whose status is not 0 or
    whose direction is not 0/1. *)
Lemma reads_pipeline_full dbg cs bs :
  Forall2 (fun c b => wf_command dbg c /\ command_to_bytes dbg c = Val b) cs bs ->
  reads dbg SEof (mjoin bs) cs EUnexpectedEof /\
  forall cs' e', reads dbg SEof (mjoin bs) cs' e' -> cs' = cs /\ e' = EUnexpectedEof.
Proof.
  intros HF. pose proof (reads_pipeline dbg SEof cs bs [] EUnexpectedEof HF eq_refl) as R.
  rewrite app_nil_r in R. split; [exact R|]. apply reads_det. exact R.
Qed.

Lemma no_devlist_decoder dbg :
  ~ exists (decode : list N -> option (list client_dev * list N)),
      forall ds b r, Forall typed_device ds -> Forall fits ds ->
        response_to_bytes dbg (op_rep_devlist ds) = Val b ->
        decode (b ++ r) = Some (client_view <$> ds, r).
Proof.
  intros (dec & Hdec). destruct (devlist_ambiguous dbg) as (b1 & b2 & r & H1 & H2 & E).
  assert (HT : forall n, Forall typed_device [many_intf n]) by (intros; constructor; [apply typed_many|constructor]).
  assert (HF : forall n, Forall fits [many_intf n]) by (intros; constructor; [split; apply N.leb_le; reflexivity|constructor]).
  pose proof (Hdec [many_intf 256] b1 [] (HT _) (HF _) H1) as D1.
  pose proof (Hdec [many_intf 0] b2 r (HT _) (HF _) H2) as D2.
  rewrite app_nil_r, E, D2 in D1. injection D1 as D1 _. discriminate D1.
Qed.
