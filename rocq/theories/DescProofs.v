(** * Proofs about the descriptors the library serves *)
From Verif Require Export SpecDesc SubmitProofs TextProofs.

(** ** Lifting handle_urb results to the connection *)
Lemma urb_serve {H} dbg (st : cstate H) m sb d e i s :
  all_u8 m = true -> cmd_layout dbg m (CmdSubmit sb) -> imported st d ->
  addressed d (ep_byte (sb_header sb)) e i -> setup_of (sb_setup sb) s ->
  serve dbg st (CmdSubmit sb) =
  let '(r, w') := handle_urb dbg (cs_world st) d e i (sb_transfer_buffer_length sb) s (sb_data sb) in
  (match r with
   | UOk data => Val (usbip_ret_submit_success (reply_header (sb_header sb) USBIP_RET_SUBMIT) 0 0 data [])
   | UErr _ => Val (usbip_ret_submit_fail (reply_header (sb_header sb) USBIP_RET_SUBMIT))
   | UPanic p => Panic p
   end, mkC (cs_server st) w' (cs_current st)).
Proof.
  intros Hm HL Hd Ha Hs. cbn [serve]. rewrite (imported_current _ _ Hd). cbn [serve_submit].
  rewrite real_ep_byte, (proj2 (find_ep_some _ _ _ _) Ha), (setup_of_parse _ _ _ _ Hm HL Hs).
  destruct (handle_urb _ _ _ _ _ _ _ _) as [[| |] w']; reflexivity.
Qed.

Lemma ok_total dbg h data : (dbg = false \/ h_direction h = 1 \/ len data mod 4294967296 = 0) -> exists b,
  response_to_bytes dbg (usbip_ret_submit_success (reply_header h USBIP_RET_SUBMIT) 0 0 data []) = Val b.
Proof.
  intros Hok. apply response_total. intros ->. cbn. split; [done|].
  destruct Hok as [|[-> |Hz]]; [done|done|]. unfold as_u32. rewrite Hz. by destruct (_ =? 1).
Qed.

Lemma urb_replies {H} dbg (st : cstate H) m sb d e i s r w' :
  all_u8 m = true -> cmd_layout dbg m (CmdSubmit sb) -> imported st d ->
  addressed d (ep_byte (sb_header sb)) e i -> setup_of (sb_setup sb) s ->
  handle_urb dbg (cs_world st) d e i (sb_transfer_buffer_length sb) s (sb_data sb) = (r, w') ->
  match r with
  | UOk data => (dbg = false \/ h_direction (sb_header sb) = 1 \/ len data mod 4294967296 = 0) ->
                replies dbg st m sb data (mkC (cs_server st) w' (cs_current st))
  | UErr _ => replies_error dbg st m sb (mkC (cs_server st) w' (cs_current st))
  | UPanic p => aborts dbg st m p (mkC (cs_server st) w' (cs_current st))
  end.
Proof.
  intros Hm HL Hd Ha Hs Hu. pose proof (urb_serve dbg st m sb d e i s Hm HL Hd Ha Hs) as Es.
  rewrite Hu in Es. pose proof (layout_u32 _ _ _ HL) as H32. cbn in H32. destruct r as [data|x|p].
  - intros Hok inp fin. destruct (ok_total dbg (sb_header sb) data Hok) as [b Hb]. exists b.
    split; [eapply ok_reply; eassumption|]. intros. eapply connection_step; [exact HL|exact Es|exact Hb|done].
  - intros inp fin. destruct (fail_reply_total dbg (sb_header sb)) as [b Hb]. exists b.
    split; [eapply fail_reply; eassumption|]. intros. eapply connection_step; [exact HL|exact Es|exact Hb|done].
  - intros inp fin. eapply connection_panic; [exact HL|exact Es|reflexivity].
Qed.

Lemma addressed_byte d a e i : addressed d a e i -> ep_address e = a.
Proof. destruct 1; done. Qed.
Lemma ep_byte_in h : h_direction h = 1 -> 128 <= ep_byte h < 256.
Proof. intros Hd. unfold ep_byte. rewrite Hd. cbn [N.eqb]. lia. Qed.
Lemma ep_byte_in' h : h_direction h <> 0 -> 128 <= ep_byte h < 256.
Proof. intros Hd. unfold ep_byte. destruct (N.eqb_spec (h_direction h) 0); [done|]. lia. Qed.

Lemma same_state {H} (st : cstate H) : mkC (cs_server st) (cs_world st) (cs_current st) = st.
Proof. by destruct st. Qed.

(** A GET_DESCRIPTOR request is answered by [get_descriptor]. *)
Lemma get_desc_urb {H} dbg (w : world H) d e i tbl s req ty ix :
  ep_attributes e = 0 -> in_ep e -> get_desc s ty ix ->
  handle_urb dbg w d e i tbl s req = (get_descriptor dbg d s, w).
Proof.
  intros Ha Hi (Hr & Hq & _). unfold handle_urb. rewrite Ha. cbn [ep_attr_of].
  rewrite (proj2 (ep_direction_spec e) Hi), Hr, N.eqb_refl, (proj2 (std_get_descriptor _) Hq). done.
Qed.

Lemma control_in_desc {H} dbg (st : cstate H) m sb d s ty ix :
  control_in dbg st m sb d s -> get_desc s ty ix ->
  match get_descriptor dbg d s with
  | UOk data => replies dbg st m sb data st
  | UErr _ => replies_error dbg st m sb st
  | UPanic p => aborts dbg st m p st
  end.
Proof.
  intros [Hm HL Hd Hdir Hs (e & i & Ha & Hc)] Hg.
  assert (Hi : in_ep e).
  { unfold in_ep. rewrite (addressed_byte _ _ _ _ Ha). pose proof (ep_byte_in _ Hdir). lia. }
  pose proof (urb_replies dbg st m sb d e i s _ _ Hm HL Hd Ha Hs
    (get_desc_urb dbg (cs_world st) d e i _ s (sb_data sb) ty ix Hc Hi Hg)) as R.
  rewrite same_state in R. destruct (get_descriptor dbg d s); auto.
Qed.

(** ** wLength *)
Lemma limit_take wl desc : len desc < 65536 -> limit_to wl desc = take (N.to_nat wl) desc.
Proof.
  intros Hl. unfold limit_to. rewrite as_u16_small by done.
  destruct (N.ltb_spec wl (len desc)).
  - by rewrite vec_resize_short by lia.
  - rewrite take_ge; [done|]. unfold len in *. lia.
Qed.
Lemma limit_full desc : limit_to 65535 desc = desc.
Proof.
  unfold limit_to. destruct (N.ltb_spec 65535 (as_u16 (len desc))) as [Hl|]; [|done].
  unfold as_u16 in Hl. lia.
Qed.

Lemma desc_type_ix s ty ix : get_desc s ty ix -> N.shiftr (s_value s) 8 = ty /\ as_u8 (s_value s) = ix.
Proof. intros (_ & _ & -> & Hx). rewrite shiftr_8. unfold as_u8. lia. Qed.

Lemma le16_at pre v post : v < 65536 ->
  u16le_at (pre ++ as_u8 v :: as_u8 (N.shiftr v 8) :: post) (length pre) v.
Proof.
  intros Hv. exists (as_u8 v), (as_u8 (N.shiftr v 8)).
  rewrite lookup_app_r, Nat.sub_diag by lia. rewrite lookup_app_r by lia.
  replace (length pre + 1 - length pre)%nat with 1%nat by lia.
  rewrite shiftr_8. unfold as_u8. cbn. split_and!; try done; lia.
Qed.

Lemma device_descriptor_layout d : typed_device d -> device_desc_layout (device_descriptor d) d.
Proof.
  intros Ht. unfold typed_device, u16 in Ht. destruct_and!. unfold device_desc_layout, device_descriptor.
  split_and!; try done.
  - match goal with |- u16le_at ?b 8 ?v => exact (le16_at (take 8 b) v (drop 10 b) ltac:(assumption)) end.
  - match goal with |- u16le_at ?b 10 ?v => exact (le16_at (take 10 b) v (drop 12 b) ltac:(assumption)) end.
Qed.

Lemma qualifier_descriptor_layout d : qualifier_layout (qualifier_descriptor d) d.
Proof. unfold qualifier_layout, qualifier_descriptor. split_and!; done. Qed.

Lemma device_desc_reply {H} dbg (st : cstate H) m sb d s ix :
  control_in dbg st m sb d s -> typed_device d -> get_desc s 1 ix ->
  exists desc, device_desc_layout desc d /\ replies dbg st m sb (take (N.to_nat (s_length s)) desc) st.
Proof.
  intros Hc Ht Hg. exists (device_descriptor d). split; [by apply device_descriptor_layout|].
  pose proof (control_in_desc _ _ _ _ _ _ _ _ Hc Hg) as R.
  unfold get_descriptor in R. rewrite (proj1 (desc_type_ix _ _ _ Hg)) in R. cbn [desc_type_of] in R.
  rewrite limit_take in R by (unfold len; cbn; lia). exact R.
Qed.

Lemma qualifier_reply {H} dbg (st : cstate H) m sb d s ix :
  control_in dbg st m sb d s -> get_desc s 6 ix ->
  exists desc, qualifier_layout desc d /\ replies dbg st m sb (take (N.to_nat (s_length s)) desc) st.
Proof.
  intros Hc Hg. exists (qualifier_descriptor d). split; [by apply qualifier_descriptor_layout|].
  pose proof (control_in_desc _ _ _ _ _ _ _ _ Hc Hg) as R.
  unfold get_descriptor in R. rewrite (proj1 (desc_type_ix _ _ _ Hg)) in R. cbn [desc_type_of] in R.
  rewrite limit_take in R by (unfold len; cbn; lia). exact R.
Qed.
(** An empty BOS descriptor. *)
Lemma bos_reply {H} dbg (st : cstate H) m sb d s ix :
  control_in dbg st m sb d s -> get_desc s 15 ix ->
  replies dbg st m sb (take (N.to_nat (s_length s)) [5; 15; 5; 0; 0]) st.
Proof.
  intros Hc Hg. pose proof (control_in_desc _ _ _ _ _ _ _ _ Hc Hg) as R.
  unfold get_descriptor in R. rewrite (proj1 (desc_type_ix _ _ _ Hg)) in R. cbn [desc_type_of] in R.
  rewrite limit_take in R by (unfold len; cbn; lia). exact R.
Qed.

(** ** Configuration descriptor *)
Lemma blocks_app a la b lb : blocks a la -> blocks b lb -> blocks (a ++ b) (la ++ lb).
Proof.
  induction 1 as [|n ty body rest l Hn _ IH]; intros Hb; [done|].
  cbn. rewrite <- app_assoc. constructor; auto.
Qed.
Lemma block_one n ty body : n = 2 + len body -> blocks (n :: ty :: body) [n :: ty :: body].
Proof. intros Hn. rewrite <- (app_nil_r body) at 1. by constructor; [|constructor]. Qed.
Lemma blocks_det b l1 l2 : blocks b l1 -> blocks b l2 -> l1 = l2.
Proof.
  intros H. revert l2. induction H as [|n ty body rest l Hn _ IH]; intros l2 H2; [by inversion H2|].
  inversion H2 as [|n' ty' body' rest' l' Hn' Hb' Eb]; subst.
  assert (length body = length body') by (unfold len in *; lia).
  match goal with E : body' ++ rest' = body ++ rest |- _ => apply app_inj_1 in E as [-> ->]; [|lia] end.
  by rewrite (IH _ Hb').
Qed.
Lemma join_cons (x : list N) l : mjoin (x :: l) = x ++ mjoin l.
Proof. reflexivity. Qed.
Lemma blocks_concat b l : blocks b l -> mjoin l = b.
Proof. induction 1 as [|n ty body rest l Hn _ IH]; [done|]. rewrite join_cons, IH. done. Qed.

Lemma ep_block e : blocks (endpoint_descriptor e) [endpoint_descriptor e].
Proof. apply block_one. done. Qed.
Lemma ep_blocks es : blocks (mjoin (endpoint_descriptor <$> es)) (endpoint_descriptor <$> es).
Proof.
  induction es as [|e es IH]; [constructor|].
  change (blocks (endpoint_descriptor e ++ mjoin (endpoint_descriptor <$> es)) ([endpoint_descriptor e] ++ (endpoint_descriptor <$> es))).
  apply blocks_app; [apply ep_block|exact IH].
Qed.

Definition intf_head (n : N) (f : interface) : list N :=
  [ 9; 4; as_u8 n; 0; as_u8 (len (if_endpoints f)); if_class f; if_subclass f; if_protocol f; if_string f ].

Lemma group_no_intf bs rest pre is : Forall (fun x => block_type x <> 4) bs ->
  host_group rest = (pre, is) -> host_group (bs ++ rest) = (bs ++ pre, is).
Proof.
  intros Hf Hr. induction Hf as [|b bs Hb _ IH]; [done|]. cbn. rewrite IH.
  destruct (N.eqb_spec (block_type b) 4); [done|]. done.
Qed.

Lemma filter_all {A} (P : A -> Prop) `{forall x, Decision (P x)} l : Forall P l -> filter P l = l.
Proof. induction 1 as [|x l Hx _ IH]; [done|]. by rewrite filter_cons_True, IH. Qed.
Lemma filter_none {A} (P : A -> Prop) `{forall x, Decision (P x)} l :
  Forall (fun x => ~ P x) l -> filter P l = [].
Proof. induction 1 as [|x l Hx _ IH]; [done|]. by rewrite filter_cons_False, IH. Qed.

Lemma host_ep_back e : typed_endpoint e ->
  host_ep (endpoint_descriptor e) = (ep_address e, ep_attributes e, ep_max_packet_size e, ep_interval e).
Proof.
  intros (? & ? & Hm & ?). unfold u16 in Hm. unfold host_ep, endpoint_descriptor, at8. cbn [nth].
  rewrite shiftr_8. unfold as_u8. do 2 f_equal. f_equal. lia.
Qed.

Lemma intf_back n f cs : n < 256 -> typed_interface f -> len (if_endpoints f) <= 255 ->
  blocks (if_class_specific f) cs ->
  Forall (fun x => block_type x <> 4 /\ block_type x <> 5) cs ->
  host_interface (intf_head n f) (cs ++ (endpoint_descriptor <$> if_endpoints f)) = intf_view n f.
Proof.
  intros Hn (_ & _ & _ & _ & Hte & _) He Hb Hf. unfold host_interface, intf_view, intf_head, at8. cbn [nth].
  assert (Hep : Forall (fun x => block_type x = 5) (endpoint_descriptor <$> if_endpoints f)).
  { apply Forall_fmap, Forall_true. done. }
  rewrite !as_u8_small by lia. f_equal.
  - rewrite filter_app, filter_all, filter_none, app_nil_r; [by apply blocks_concat| |].
    + eapply Forall_impl; [exact Hep|]. intros x Hx Hx'. by apply Hx'.
    + eapply Forall_impl; [exact Hf|]. by intros x [_ Hx].
  - rewrite filter_app, filter_none, filter_all; [|exact Hep|].
    + cbn. rewrite <- list_fmap_compose. apply Forall_fmap_ext. eapply Forall_impl; [exact Hte|].
      intros e. apply host_ep_back.
    + eapply Forall_impl; [exact Hf|]. by intros x [_ Hx].
Qed.

Lemma interfaces_back fs n : n + len fs <= 256 -> Forall typed_interface fs ->
  Forall (fun f => len (if_endpoints f) <= 255 /\ csd_ok (if_class_specific f)) fs ->
  exists bs, blocks (interface_descriptors n fs) bs /\
    host_group bs = ([], imap (fun k f => intf_view (n + N.of_nat k) f) fs).
Proof.
  revert n. induction fs as [|f fs IH]; intros n Hn Ht Hl.
  - exists []. split; [constructor|done].
  - rewrite len_cons in Hn. apply Forall_cons in Ht as [Htf Ht]. apply Forall_cons in Hl as [(He & cs & Hcs & Hok) Hl].
    destruct (IH (n + 1) ltac:(lia) Ht Hl) as (bs & Hb & Hg).
    exists (([intf_head n f] ++ cs ++ (endpoint_descriptor <$> if_endpoints f)) ++ bs). split.
    + cbn [interface_descriptors]. apply blocks_app; [|exact Hb]. unfold interface_descriptor.
      apply blocks_app; [by apply block_one|]. apply blocks_app; [exact Hcs|apply ep_blocks].
    + rewrite <- app_assoc. cbn [app].
      assert (Hfol : host_group ((cs ++ (endpoint_descriptor <$> if_endpoints f)) ++ bs) =
        ((cs ++ (endpoint_descriptor <$> if_endpoints f)) ++ [],
         imap (fun k f => intf_view (n + 1 + N.of_nat k) f) fs)).
      { apply group_no_intf; [|exact Hg]. apply Forall_app. split.
        - eapply Forall_impl; [exact Hok|]. by intros x [? _].
        - apply Forall_fmap, Forall_true. done. }
      change (([intf_head n f] ++ cs ++ (endpoint_descriptor <$> if_endpoints f)) ++ bs)
        with (intf_head n f :: ((cs ++ (endpoint_descriptor <$> if_endpoints f)) ++ bs)) || idtac.
      cbn [host_group]. rewrite Hfol. cbn [block_type intf_head nth N.eqb].
      change (block_type (intf_head n f) =? 4) with true. cbv iota.
      rewrite app_nil_r, (intf_back n f cs) by (try assumption; lia).
      f_equal. cbn [imap]. f_equal.
      * by rewrite N.add_0_r.
      * apply imap_ext. intros k x _. cbn. f_equal. lia.
Qed.

Lemma interfaces_len fs n : len (interface_descriptors n fs) + 9 =
  fold_right (fun f n => 9 + len (if_class_specific f) + 7 * len (if_endpoints f) + n) 9 fs.
Proof.
  revert n. induction fs as [|f fs IH]; intros n; [done|]. cbn [interface_descriptors fold_right].
  rewrite <- (IH (n + 1)). unfold interface_descriptor. rewrite !len_app.
  assert (E : len (mjoin (endpoint_descriptor <$> if_endpoints f)) = 7 * len (if_endpoints f)).
  { induction (if_endpoints f) as [|e es IHe]; [done|].
    change (mjoin (endpoint_descriptor <$> e :: es)) with (endpoint_descriptor e ++ mjoin (endpoint_descriptor <$> es)).
    rewrite len_app, len_cons, IHe. change (len (endpoint_descriptor e)) with 7. lia. }
  rewrite E. change (len [_; _; _; _; _; _; _; _; _]) with 9. lia.
Qed.

Lemma configuration_len d : len (configuration_descriptor d) = config_size d.
Proof.
  unfold configuration_descriptor, config_size. rewrite <- (interfaces_len _ 0), len_app.
  change (len [_; _; _; _; _; _; _; _; _]) with 9. lia.
Qed.

Lemma configuration_back d : typed_device d -> config_limits d -> config_size d < 65536 ->
  reads_as_config (configuration_descriptor d) (config_view d (config_size d)).
Proof.
  intros Ht [Hn Hl] Hs. assert (Hti : Forall typed_interface (d_interfaces d)) by (unfold typed_device in Ht; by destruct_and!).
  destruct (interfaces_back (d_interfaces d) 0 ltac:(lia) Hti Hl) as (bs & Hb & Hg).
  rewrite <- configuration_len in *. unfold reads_as_config, configuration_descriptor in *. cbv zeta in *.
  rewrite len_app in *. change (len [_; _; _; _; _; _; _; _; _]) with 9 in *.
  set (tot := 9 + len (interface_descriptors 0 (d_interfaces d))) in *.
  eexists. split; [apply (blocks_cons _ _ [_; _; _; _; _; _; _]); [done|exact Hb]|].
  cbn [host_config_of block_type nth N.eqb]. unfold block_type. cbn [nth]. change (2 =? 2) with true. cbv iota.
  rewrite Hg. unfold config_view, at8. cbn [nth snd]. rewrite as_u16_small by done.
  f_equal. f_equal.
  - rewrite shiftr_8. unfold as_u8. lia.
  - apply as_u8_small. lia.
Qed.

Lemma config_desc_reply {H} dbg (st : cstate H) m sb d s ix :
  control_in dbg st m sb d s -> typed_device d -> get_desc s 2 ix ->
  config_limits d -> config_size d < 65536 ->
  exists desc, len desc = config_size d /\ reads_as_config desc (config_view d (len desc)) /\
    (forall c, reads_as_config desc c -> c = config_view d (len desc)) /\
    replies dbg st m sb (take (N.to_nat (s_length s)) desc) st.
Proof.
  intros Hc Ht Hg Hl Hs. exists (configuration_descriptor d).
  pose proof (configuration_back d Ht Hl Hs) as Hb.
  split; [apply configuration_len|]. rewrite configuration_len. split; [exact Hb|]. split.
  - intros c (bs & Hbs & Hcf). destruct Hb as (bs' & Hbs' & Hcf').
    rewrite (blocks_det _ _ _ Hbs Hbs') in Hcf. congruence.
  - pose proof (control_in_desc _ _ _ _ _ _ _ _ Hc Hg) as R.
    unfold get_descriptor in R. rewrite (proj1 (desc_type_ix _ _ _ Hg)) in R. cbn [desc_type_of] in R.
    rewrite limit_take in R by (rewrite configuration_len; lia). exact R.
Qed.

(** ** Strings *)
Definition units_le (us : list N) : list N :=
  mjoin ((fun u => [as_u8 u; as_u8 (N.shiftr u 8)]) <$> us).
Lemma units_le_len us : len (units_le us) = 2 * len us.
Proof.
  induction us as [|u us IH]; [done|].
  change (units_le (u :: us)) with ([as_u8 u; as_u8 (N.shiftr u 8)] ++ units_le us).
  rewrite len_app, IH, !len_cons, len_nil. lia.
Qed.

Lemma string_descriptor_ok dbg str : len (utf16 str) <= 126 ->
  string_descriptor dbg str = Val (2 + 2 * len (utf16 str) :: 3 :: units_le (utf16 str)).
Proof.
  intros Hl. unfold string_descriptor, string_blength, as_u8. rewrite (N.mod_small (len (utf16 str))) by lia.
  replace (len (utf16 str) * 2) with (2 * len (utf16 str)) by lia.
  rewrite (N.mod_small (2 * len (utf16 str))) by lia. rewrite (N.mod_small (2 + 2 * len (utf16 str))) by lia.
  destruct (N.leb_spec 256 (2 * len (utf16 str))); [lia|].
  destruct (N.leb_spec 256 (2 + 2 * len (utf16 str))); [lia|]. rewrite !andb_false_r. done.
Qed.

Lemma string_desc_reply {H} dbg (st : cstate H) m sb d s ix str :
  control_in dbg st m sb d s -> get_desc s 3 ix -> ix <> 0 ->
  d_string_pool d !! ix = Some str -> is_rstring str = true -> len (utf16 str) <= 126 ->
  exists desc, string_desc_layout desc str /\ len desc < 256 /\
    replies dbg st m sb (take (N.to_nat (s_length s)) desc) st.
Proof.
  intros Hc Hg Hix Hp Hr Hl.
  set (desc := 2 + 2 * len (utf16 str) :: 3 :: units_le (utf16 str)).
  assert (Hlen : len desc = 2 + 2 * len (utf16 str)).
  { unfold desc. rewrite !len_cons, units_le_len. lia. }
  exists desc. split; [|split; [lia|]].
  - exists (units_le (utf16 str)). rewrite Hlen. split; [done|].
    unfold utf16le_decode, units_le. rewrite le16_units_spec by (by apply utf16_u16).
    by apply utf16_roundtrip.
  - pose proof (control_in_desc _ _ _ _ _ _ _ _ Hc Hg) as R.
    unfold get_descriptor in R. rewrite (proj1 (desc_type_ix _ _ _ Hg)), (proj2 (desc_type_ix _ _ _ Hg)) in R.
    cbn [desc_type_of] in R. destruct (N.eqb_spec ix 0); [done|]. rewrite Hp, string_descriptor_ok in R by done.
    fold desc in R. rewrite limit_take in R by lia. exact R.
Qed.
Lemma language_reply {H} dbg (st : cstate H) m sb d s :
  control_in dbg st m sb d s -> get_desc s 3 0 ->
  replies dbg st m sb (take (N.to_nat (s_length s)) [4; 3; 0x09; 0x04]) st.
Proof.
  intros Hc Hg. pose proof (control_in_desc _ _ _ _ _ _ _ _ Hc Hg) as R.
  unfold get_descriptor in R. rewrite (proj1 (desc_type_ix _ _ _ Hg)), (proj2 (desc_type_ix _ _ _ Hg)) in R.
  cbn [desc_type_of] in R. change (0 =? 0) with true in R. cbv iota in R.
  rewrite limit_take in R by (unfold len; cbn; lia). exact R.
Qed.
Lemma no_string_reply {H} dbg (st : cstate H) m sb d s ix :
  control_in dbg st m sb d s -> get_desc s 3 ix -> ix <> 0 -> d_string_pool d !! ix = None ->
  replies_error dbg st m sb st.
Proof.
  intros Hc Hg Hix Hp. pose proof (control_in_desc _ _ _ _ _ _ _ _ Hc Hg) as R.
  unfold get_descriptor in R. rewrite (proj1 (desc_type_ix _ _ _ Hg)), (proj2 (desc_type_ix _ _ _ Hg)) in R.
  cbn [desc_type_of] in R. destruct (N.eqb_spec ix 0); [done|]. rewrite Hp in R. exact R.
Qed.

(** Long strings. *)
Lemma string_descriptor_long str : 127 <= len (utf16 str) ->
  string_descriptor true str =
    (if 127 <=? len (utf16 str) mod 256 then Panic POverflow
     else Val (2 + 2 * (len (utf16 str) mod 256) :: 3 :: units_le (utf16 str))) /\
  exists b0, string_descriptor false str = Val (b0 :: 3 :: units_le (utf16 str)) /\ b0 < 256 /\
    b0 <> len (b0 :: 3 :: units_le (utf16 str)).
Proof.
  intros Hl. unfold string_descriptor, string_blength, as_u8. cbn [andb].
  set (k := len (utf16 str)) in *. split.
  - destruct (N.leb_spec 127 (k mod 256)) as [Hk|Hk].
    + destruct (N.leb_spec 256 (k mod 256 * 2)); [done|].
      destruct (N.leb_spec 256 (2 + (k mod 256 * 2) mod 256)); [done|]. lia.
    + destruct (N.leb_spec 256 (k mod 256 * 2)); [lia|].
      destruct (N.leb_spec 256 (2 + (k mod 256 * 2) mod 256)); [lia|]. cbn [obind].
      do 2 f_equal. lia.
  - eexists. split; [reflexivity|]. split; [lia|]. rewrite !len_cons.
    pose proof (units_le_len (utf16 str)) as E. unfold units_le in *. rewrite E. fold k. lia.
Qed.

(** ** Prefixes *)
Definition with_length (s : setup_packet) (wl : N) : setup_packet :=
  mkSetup (s_request_type s) (s_request s) (s_value s) (s_index s) wl.

Lemma get_descriptor_prefix dbg d s wl full : get_descriptor dbg d (with_length s 65535) = UOk full ->
  len full < 65536 -> get_descriptor dbg d (with_length s wl) = UOk (take (N.to_nat wl) full).
Proof.
  unfold get_descriptor. cbn [with_length s_value s_length].
  destruct (desc_type_of _) as [[]|]; try (intros [= <-] _; by rewrite take_nil);
    try (intros E Hf; rewrite limit_full in E; injection E as <-; by rewrite limit_take).
  destruct (as_u8 (s_value s) =? 0);
    [intros E Hf; rewrite limit_full in E; injection E as <-; by rewrite limit_take|].
  destruct (d_string_pool d !! _); [|done]. destruct (string_descriptor dbg _); try done.
  intros E Hf; rewrite limit_full in E; injection E as <-; by rewrite limit_take.
Qed.
Lemma limit_exact wl desc : wl < 65536 ->
  (limit_to wl desc = take (N.to_nat wl) desc <-> len desc <= wl \/ wl < len desc mod 65536) /\
  (limit_to wl desc = take (N.to_nat wl) desc \/ limit_to wl desc = desc).
Proof.
  intros Hw. unfold limit_to, as_u16. destruct (N.ltb_spec wl (len desc mod 65536)) as [Hl|Hl].
  - assert (wl < len desc) by lia. rewrite vec_resize_short by lia. split; [|by left]. split; [by right|done].
  - split; [|by right]. split.
    + intros E. left. rewrite E. unfold len. rewrite take_length. lia.
    + intros [Hle|]; [|lia]. rewrite take_ge; [done|]. unfold len in *. lia.
Qed.
Lemma get_descriptor_limited dbg d s wl full : get_descriptor dbg d (with_length s 65535) = UOk full ->
  get_descriptor dbg d (with_length s wl) = UOk (limit_to wl full).
Proof.
  unfold get_descriptor. cbn [with_length s_value s_length].
  assert (Z : forall x, limit_to x [] = []) by (intros x; unfold limit_to; by destruct x).
  destruct (desc_type_of _) as [[]|]; try (intros [= <-]; by rewrite Z);
    try (intros E; rewrite limit_full in E; by injection E as <-).
  destruct (as_u8 (s_value s) =? 0); [intros E; rewrite limit_full in E; by injection E as <-|].
  destruct (d_string_pool d !! _) as [str|]; [|done]. destruct (string_descriptor dbg str); try done.
  intros E; rewrite limit_full in E; by injection E as <-.
Qed.
Lemma get_descriptor_fails dbg d s wl :
  (forall x, get_descriptor dbg d (with_length s 65535) = UErr x -> get_descriptor dbg d (with_length s wl) = UErr x)
  /\ (forall p, get_descriptor dbg d (with_length s 65535) = UPanic p -> get_descriptor dbg d (with_length s wl) = UPanic p).
Proof.
  unfold get_descriptor. cbn [with_length s_value s_length].
  destruct (desc_type_of _) as [[]|]; try done.
  destruct (as_u8 (s_value s) =? 0); [done|].
  destruct (d_string_pool d !! _); [|done]. destruct (string_descriptor dbg _); done.
Qed.
