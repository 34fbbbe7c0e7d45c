(** * Lemmas about sharing host devices *)
From Verif Require Export SpecHost TransferProofs HandlerProofs PoolProofs TextProofs.
From Coq Require Strings.String.
Import Strings.String.StringSyntax.

(** ** Transfers *)
Lemma land_128 a : a < 256 -> (N.land a 128 =? 0) = (a <? 128).
Proof.
  intros Ha. assert (Hx : forallb (fun n => Bool.eqb (N.land (N.of_nat n) 128 =? 0) (N.of_nat n <? 128)) (seq 0 256) = true)
    by (vm_compute; reflexivity).
  rewrite forallb_forall in Hx. specialize (Hx (N.to_nat a)). rewrite N2Nat.id in Hx.
  apply Bool.eqb_prop, Hx. apply in_seq. lia.
Qed.

Lemma host_read_ok h c n : respects_buffer h -> reading c = Some n ->
  exists out, performs h c (host_read h c n) out /\ (host_answers h c = None -> out = []) /\
    (host_answers h c <> None -> yields h c out).
Proof.
  intros Hb Hr. unfold host_read, do_call, performs, yields, host_answers. rewrite Hr.
  destruct (hd_oracle h (hd_log h) c) as [data|] eqn:E; cbn.
  - pose proof (Hb _ _ _ _ Hr E) as Hl. destruct (N.ltb_spec n (len data)); [lia|].
    exists data. split; [done|]. split; [done|]. intros _. exists data. done.
  - exists []. done.
Qed.
Lemma host_write_ok h c : reading c = None ->
  exists out, performs h c (host_write h c) out /\ (host_answers h c = None -> out = []) /\
    (host_answers h c <> None -> yields h c out).
Proof. intros Hr. exists []. unfold yields. by rewrite Hr. Qed.

Lemma rusb_intf_performs h f e tbl s req c : respects_buffer h -> libusb_transfer e tbl s req c ->
  exists out, performs h c (rusb_intf_handle_urb h f e tbl s req) out /\ (host_answers h c = None -> out = []) /\
    (host_answers h c <> None -> yields h c out).
Proof.
  intros Hb Ht. unfold rusb_intf_handle_urb.
  destruct Ht as [Ha Hd|Ha Hd|Ha Hd|Ha Hd|Ha Hd|Ha Hd]; rewrite Ha; cbn [ep_attr_val N.eqb Pos.eqb];
    first [rewrite (proj2 (ep_direction_spec e) Hd)|rewrite (proj2 (ep_direction_out e) Hd)];
    first [by apply host_read_ok|by apply host_write_ok].
Qed.
Lemma rusb_intf_iso h f e tbl s req : ep_attributes e = 1 -> rusb_intf_handle_urb h f e tbl s req = CallOk h [].
Proof. intros Ha. unfold rusb_intf_handle_urb. by rewrite Ha. Qed.
Lemma libusb_total e tbl s req : ep_attributes e < 4 -> ep_attributes e = 1 \/ exists c, libusb_transfer e tbl s req c.
Proof.
  intros Ha. assert (in_ep e \/ ~ in_ep e) as Hd by (unfold in_ep; lia).
  assert (ep_attributes e = 0 \/ ep_attributes e = 1 \/ ep_attributes e = 2 \/ ep_attributes e = 3)
    as [E|[E|[E|E]]] by lia; [right|by left|right|right]; destruct Hd; eexists; by constructor.
Qed.
Lemma libusb_unique e tbl s req c1 c2 : libusb_transfer e tbl s req c1 -> libusb_transfer e tbl s req c2 -> c1 = c2.
Proof. intros [] []; try done; lia. Qed.

Lemma rusb_dev_performs h tbl s req c : respects_buffer h -> s_request_type s < 256 -> device_transfer tbl s req c ->
  exists out, performs h c (rusb_dev_handle_urb h tbl s req) out /\ (host_answers h c = None -> out = []) /\
    (host_answers h c <> None -> yields h c out).
Proof.
  intros Hb Hu Ht. unfold rusb_dev_handle_urb. rewrite (land_128 _ Hu).
  destruct Ht as [Hd|Hd]; rewrite N.mod_small in Hd by done.
  - destruct (N.ltb_spec (s_request_type s) 128); [lia|]. by apply host_read_ok.
  - destruct (N.ltb_spec (s_request_type s) 128); [|lia]. by apply host_write_ok.
Qed.

Lemma nusb_type_of_spec rt t : nusb_type_of rt = Some t <-> rt / 32 mod 4 = type_number t.
Proof.
  unfold nusb_type_of. rewrite N.shiftr_div_pow2. change 3 with (N.ones 2). rewrite N.land_ones.
  change (2 ^ 5) with 32. change (2 ^ 2) with 4. pose proof (N.mod_lt (rt / 32) 4 ltac:(done)) as Hl.
  destruct (rt / 32 mod 4) as [|[[|[]|]|[|[]|]|]]; destruct t; cbn; split; intros E; try done; try lia.
Qed.
Lemma nusb_recipient_of_spec rt r : nusb_recipient_of rt = Some r <-> rt mod 32 = recipient_number r.
Proof.
  unfold nusb_recipient_of. change 31 with (N.ones 5). rewrite N.land_ones. change (2 ^ 5) with 32.
  destruct (rt mod 32) as [|[[|[]|]|[|[]|]|]]; destruct r; cbn; split; intros E; try done; try lia.
Qed.
Lemma nusb_request_dec rt : (exists t r, nusb_type_of rt = Some t /\ nusb_recipient_of rt = Some r /\ nusb_request rt t r) \/
  ((forall t r, ~ nusb_request rt t r) /\ (nusb_type_of rt = None \/ nusb_recipient_of rt = None)).
Proof.
  destruct (nusb_type_of rt) as [t|] eqn:Et; [destruct (nusb_recipient_of rt) as [r|] eqn:Er|].
  - left. exists t, r. split_and!; try done. split; [by apply nusb_type_of_spec|by apply nusb_recipient_of_spec].
  - right. split; [|by right]. intros t' r' [_ E]. apply nusb_recipient_of_spec in E. congruence.
  - right. split; [|by left]. intros t' r' [E _]. apply nusb_type_of_spec in E. congruence.
Qed.
Lemma nusb_request_of rt t r : nusb_request rt t r -> nusb_type_of rt = Some t /\ nusb_recipient_of rt = Some r.
Proof. intros [A B]. split; [by apply nusb_type_of_spec|by apply nusb_recipient_of_spec]. Qed.

Definition is_in_ep (e : endpoint) : bool := 128 <=? ep_address e mod 256.
Lemma is_in_ep_spec e : is_in_ep e = true <-> in_ep e.
Proof. unfold is_in_ep, in_ep. apply N.leb_le. Qed.

Lemma nusb_intf_performs h f e tbl s req isin c : respects_buffer h -> ep_attributes e = 0 ->
  (isin = true <-> in_ep e) -> nusb_transfer isin tbl s req c ->
  exists out, performs h c (nusb_intf_handle_urb h f e tbl s req) out /\ (host_answers h c = None -> out = []) /\
    (host_answers h c <> None -> yields h c out).
Proof.
  intros Hb Ha Hi Ht. unfold nusb_intf_handle_urb.
  destruct Ht as [t r -> Hr|t r -> Hr]; apply nusb_request_of in Hr as [-> ->]; rewrite Ha; cbn [ep_attr_val N.eqb].
  - rewrite (proj2 (ep_direction_spec e)) by tauto. by apply host_read_ok.
  - rewrite (proj2 (ep_direction_out e)) by (intros Hx; apply Hi in Hx; done). by apply host_write_ok.
Qed.
Lemma nusb_dev_performs h tbl s req isin c : respects_buffer h -> s_request_type s < 256 ->
  (isin = true <-> 128 <= s_request_type s) -> nusb_transfer isin tbl s req c ->
  exists out, performs h c (nusb_dev_handle_urb h tbl s req) out /\ (host_answers h c = None -> out = []) /\
    (host_answers h c <> None -> yields h c out).
Proof.
  intros Hb Hu Hi Ht. unfold nusb_dev_handle_urb. rewrite (land_128 _ Hu).
  destruct Ht as [t r -> Hr|t r -> Hr]; apply nusb_request_of in Hr as [-> ->].
  - destruct (N.ltb_spec (s_request_type s) 128); [lia|]. by apply host_read_ok.
  - destruct (N.ltb_spec (s_request_type s) 128).
    + by apply host_write_ok.
    + exfalso. assert (false = true) by (apply Hi; lia). done.
Qed.

(** ** Decimal numerals *)
Lemma numeral_value_app s c : numeral_value (s ++ [c]) = 10 * numeral_value s + (c - 48).
Proof. unfold numeral_value. by rewrite fold_left_app. Qed.
Lemma fmt_fuel_numeral fuel n : n < 2 ^ N.of_nat fuel -> fuel <> O -> numeral (fmt_dec_fuel fuel n) n.
Proof.
  revert n. induction fuel as [|fuel IH]; intros n Hn Hf; [done|]. cbn [fmt_dec_fuel].
  destruct (N.ltb_spec n 10).
  - split; [done|]. split; [|unfold numeral_value; cbn; lia]. repeat constructor; lia.
  - assert (Hq : n / 10 < 2 ^ N.of_nat fuel).
    { rewrite Nat2N.inj_succ, N.pow_succ_r' in Hn. lia. }
    destruct fuel as [|fuel]; [cbn in Hq; lia|].
    destruct (IH (n / 10) Hq ltac:(done)) as (Hne & Hd & Hv). split; [by destruct (fmt_dec_fuel _ _)|].
    split; [apply Forall_app; split; [done|]; constructor; [|done]; unfold digit; lia|].
    rewrite numeral_value_app, Hv. lia.
Qed.
Lemma size_nat_bound n : n < 2 ^ N.of_nat (S (N.size_nat n)).
Proof.
  destruct n as [|p]; [done|]. rewrite Nat2N.inj_succ, N.pow_succ_r'.
  assert (Hx : N.of_nat (N.size_nat (N.pos p)) = N.size (N.pos p)).
  { cbn. induction p; cbn; lia. }
  rewrite Hx. pose proof (N.size_gt (N.pos p)). lia.
Qed.
Lemma fmt_dec_numeral n : numeral (fmt_dec n) n.
Proof. apply fmt_fuel_numeral; [apply size_nat_bound|done]. Qed.
Lemma fmt_dec_short n : n < 256 -> (length (fmt_dec n) <= 3)%nat.
Proof.
  intros Hn. assert (Hx : forallb (fun k => Nat.leb (length (fmt_dec (N.of_nat k))) 3) (seq 0 256) = true)
    by (vm_compute; reflexivity).
  rewrite forallb_forall in Hx. specialize (Hx (N.to_nat n)). rewrite N2Nat.id in Hx.
  apply Nat.leb_le, Hx. apply in_seq. lia.
Qed.
Lemma bus_id_ok a b c : bus_id_text (host_bus_id a b c) a b c.
Proof. exists (fmt_dec a), (fmt_dec b), (fmt_dec c). split_and!; try apply fmt_dec_numeral. done. Qed.

Lemma digits_split (a a' r r' : rstring) : Forall digit a -> Forall digit a' ->
  a ++ 45 :: r = a' ++ 45 :: r' -> a = a' /\ r = r'.
Proof.
  intros Ha. revert a'. induction Ha as [|x a Hx _ IH]; intros [|x' a'] Ha' E; cbn in E.
  - by injection E.
  - apply Forall_cons in Ha' as [Hx _]. injection E as <- _. unfold digit in Hx. lia.
  - injection E as -> _. unfold digit in Hx. lia.
  - apply Forall_cons in Ha' as [_ Ha']. injection E as <- E. destruct (IH _ Ha' E) as [-> ->]. done.
Qed.
Lemma bus_id_inj id bus address port bus' address' port' :
  bus_id_text id bus address port -> bus_id_text id bus' address' port' ->
  bus = bus' /\ address = address' /\ port = port'.
Proof.
  intros (a & b & c & (_ & Da & <-) & (_ & Db & <-) & (_ & Dc & <-) & ->)
    (a' & b' & c' & (_ & Da' & <-) & (_ & Db' & <-) & (_ & Dc' & <-) & E). cbn in E.
  destruct (digits_split _ _ _ _ Da Da' E) as [-> E2].
  destruct (digits_split _ _ _ _ Db Db' E2) as [-> ->]. done.
Qed.

Definition ascii_only (s : rstring) : Prop := Forall (fun c => 0 < c < 128) s.
Lemma utf8_ascii s : ascii_only s -> utf8 s = s.
Proof.
  induction 1 as [|c s Hc _ IH]; [done|]. change (utf8 (c :: s)) with (utf8_char c ++ utf8 s). rewrite IH. unfold utf8_char.
  destruct (N.ltb_spec c 128); [done|lia].
Qed.
Lemma numeral_ascii s n : numeral s n -> ascii_only s.
Proof. intros (_ & Hd & _). eapply Forall_impl; [exact Hd|]. unfold digit. intros x. cbn. lia. Qed.
Lemma bus_id_ascii a b c : ascii_only (host_bus_id a b c).
Proof.
  unfold host_bus_id, ascii_only. rewrite !Forall_app.
  split_and!; try (eapply numeral_ascii, fmt_dec_numeral); repeat constructor; lia.
Qed.
Lemma path_ascii a b c : ascii_only (host_path a b c).
Proof.
  unfold host_path, ascii_only. rewrite !Forall_app.
  split_and!; try (eapply numeral_ascii, fmt_dec_numeral); repeat constructor; lia.
Qed.
Lemma ascii_no_nul s : ascii_only s -> 0 ∉ s.
Proof. intros Hs Hin. unfold ascii_only in Hs. rewrite Forall_forall in Hs. specialize (Hs _ Hin). cbn in Hs. lia. Qed.
Lemma bus_id_requestable a b c : a < 256 -> b < 256 -> c < 256 -> requestable (host_bus_id a b c).
Proof.
  intros Ha Hb Hc. unfold requestable. rewrite utf8_ascii by apply bus_id_ascii.
  split; [|apply ascii_no_nul, bus_id_ascii]. unfold host_bus_id, len. rewrite !app_length.
  pose proof (fmt_dec_short a Ha). pose proof (fmt_dec_short b Hb). pose proof (fmt_dec_short c Hc).
  change (length (lit "-")) with 1%nat. lia.
Qed.
Lemma path_fits a b c : a < 256 -> b < 256 -> c < 256 -> len (utf8 (host_path a b c)) < 256 /\ 0 ∉ utf8 (host_path a b c).
Proof.
  intros Ha Hb Hc. rewrite utf8_ascii by apply path_ascii.
  split; [|apply ascii_no_nul, path_ascii]. unfold host_path, len. rewrite !app_length.
  pose proof (fmt_dec_short a Ha). pose proof (fmt_dec_short b Hb). pose proof (fmt_dec_short c Hc).
  change (length (lit "/sys/bus/")) with 9%nat. change (length (lit "/")) with 1%nat. lia.
Qed.

(** ** Strings *)
Lemma pool_inv_empty : pool_inv [(0, None)] ∅.
Proof. split; [by repeat constructor|]. split; [constructor|]. cbn. by rewrite dom_empty_L. Qed.

(** Add up to three names to a device with an empty pool. *)
Definition add_name (dbg : bool) (o : option rstring) (d : device) : outcome (N * device) :=
  match o with None => Val (0, d) | Some s => new_string dbg d s end.
Lemma used_short l : (length (used l) <= length l)%nat.
Proof. unfold used. induction l as [|[? []] l IH]; cbn in *; unfold slot in *; lia. Qed.
Lemma add_name_ok dbg o d l : pool_inv l (d_string_pool d) -> (length l < 200)%nat ->
  exists i d', add_name dbg o d = Val (i, d') /\ pool_inv ((i, o) :: l) (d_string_pool d') /\
    d' = with_pool d (d_string_pool d').
Proof.
  intros Hi Hl. destruct o as [s|]; cbn.
  - apply inv_none in Hi. destruct (new_string_ok dbg d l s Hi) as (i & E & Hi').
    + pose proof (used_short l). lia.
    + eexists _, _. split; [exact E|]. split; [exact Hi'|]. done.
  - exists 0, d. split; [done|]. split; [by apply inv_none|]. by destruct d.
Qed.

Lemma three_names dbg d0 m p s : d_string_pool d0 = ∅ ->
  exists im d1 ip d2 is d3, add_name dbg m d0 = Val (im, d1) /\ add_name dbg p d1 = Val (ip, d2) /\
    add_name dbg s d2 = Val (is, d3) /\ d3 = with_pool d0 (d_string_pool d3) /\
    Forall (slot_ok (d_string_pool d3)) [(is, s); (ip, p); (im, m)].
Proof.
  intros H0. pose proof pool_inv_empty as Hi. rewrite <- H0 in Hi.
  destruct (add_name_ok dbg m d0 _ Hi) as (im & d1 & E1 & I1 & X1); [cbn; lia|].
  destruct (add_name_ok dbg p d1 _ I1) as (ip & d2 & E2 & I2 & X2); [cbn; lia|].
  destruct (add_name_ok dbg s d2 _ I2) as (is & d3 & E3 & I3 & X3); [cbn; lia|].
  exists im, d1, ip, d2, is, d3. split_and!; try done.
  - rewrite X3, X2, X1. done.
  - destruct I3 as [Hf _]. rewrite !Forall_cons in Hf |- *. split_and!; try apply Hf. done.
Qed.

(** ** Enumeration *)
Lemma rusb_eps_ok l : Forall ep_sane l -> Forall2 ep_reported l (rusb_endpoint <$> l).
Proof.
  induction 1 as [|o l [Ht Hm] _ IH]; cbn; constructor; [|done]. unfold ep_reported, rusb_endpoint, as_u8; cbn.
  rewrite N.mod_small by lia. done.
Qed.
Lemma nusb_eps_ok l : Forall ep_sane l -> Forall2 ep_reported l (nusb_endpoint <$> l).
Proof.
  induction 1 as [|o l [Ht Hm] _ IH]; cbn; constructor; [|done]. unfold ep_reported, nusb_endpoint, as_u8, as_u16; cbn.
  rewrite !N.mod_small by lia. done.
Qed.

Lemma rusb_interfaces_ok next is : Forall (fun o => o <> None) is ->
  Forall (fun o => forall a, o = Some a -> Forall ep_sane (ha_endpoints a)) is ->
  exists fs, rusb_interfaces next is = Val fs /\
    Forall2 (fun o f => exists a, o = Some a /\ intf_reported a f /\ if_class_specific f = ha_extra a) is fs.
Proof.
  intros H1 H2. revert next. induction is as [|o is IH]; intros next; [by exists []|].
  apply Forall_cons in H1 as [Ho H1], H2 as [Hs H2]. destruct o as [a|]; [|done]. cbn [rusb_interfaces].
  destruct (IH H1 H2 (next + 1)) as (fs & -> & HF). cbn. eexists. split; [done|]. constructor; [|done].
  exists a. split; [done|]. split; [|done]. unfold intf_reported; cbn. split_and!; try done. apply rusb_eps_ok. by apply Hs.
Qed.
Lemma rusb_interfaces_bad next is : Exists (fun o => o = None) is -> rusb_interfaces next is = Panic PUnwrapNone.
Proof.
  intros H. revert next. induction H as [o is ->|o is _ IH]; intros next; [done|].
  destruct o; [|done]. cbn. by rewrite IH.
Qed.

Lemma rusb_add_string_eq dbg h idx d : name_readable h idx ->
  rusb_add_string dbg h idx d = add_name dbg (rusb_name h idx) d.
Proof.
  intros Hr. destruct idx as [i|]; [|done]. cbn. destruct (rh_string h i) eqn:E; [done|]. by destruct (Hr i).
Qed.

Lemma rusb_device_ok dbg h desc cfg next dh : rusb_sane h -> rh_desc h = Some desc -> rh_cfg h = Some cfg ->
  rusb_complete h desc cfg ->
  exists d, rusb_device dbg h desc cfg next dh = Val d /\ rusb_reported h desc cfg d /\
    d_bus_id d = host_bus_id (rh_bus h) (rh_address h) (rh_port h) /\
    d_path d = host_path (rh_bus h) (rh_address h) (rh_port h) /\ d_speed d = rusb_speed_val (rh_speed h).
Proof.
  intros (Hb & Ha & Hp & Hd & Hc) E1 E2 (Hi & Nm & Np & Ns).
  destruct (rusb_interfaces_ok next _ Hi (Hc _ E2)) as (fs & Ef & HF).
  unfold rusb_device. rewrite Ef. cbn [obind].
  match goal with |- context [rusb_add_string dbg h (rd_manufacturer_index desc) ?d] => set (d0 := d) end.
  destruct (three_names dbg d0 (rusb_name h (rd_manufacturer_index desc)) (rusb_name h (rd_product_index desc))
    (rusb_name h (rd_serial_index desc)) eq_refl) as (im & d1 & ip & d2 & i3 & d3 & F1 & F2 & F3 & X & S).
  rewrite rusb_add_string_eq, F1 by done. cbn [obind].
  rewrite rusb_add_string_eq, F2 by done. cbn [obind].
  rewrite rusb_add_string_eq, F3 by done. cbn [obind].
  eexists. split; [reflexivity|]. rewrite X. split; [|split_and!; reflexivity].
  apply Forall_cons in S as [S1 S]. apply Forall_cons in S as [S2 S]. apply Forall_cons in S as [S3 _].
  split; try (cbn; done).
  - apply bus_id_ok.
  - cbn. unfold rusb_superspeed. destruct (rh_speed h); naive_solver.
  - cbn. split; [by destruct (rd_device_version desc) as [[? ?] ?]|by destruct (rd_usb_version desc) as [[? ?] ?]].
  - assert (as_u16 (rd_max_packet_size desc) = rd_max_packet_size desc) as Hz.
    { unfold as_u16. apply N.mod_small. specialize (Hd _ E1). lia. }
    split; cbn; rewrite ?Hz; done.
Qed.

Lemma rusb_device_bad dbg h desc cfg next dh : ~ rusb_complete h desc cfg ->
  exists p, rusb_device dbg h desc cfg next dh = Panic p.
Proof.
  intros Hn. unfold rusb_device.
  assert (Hdec : Forall (fun o => o <> None) (rc_interfaces cfg) \/ Exists (fun o : option os_alt => o = None) (rc_interfaces cfg)).
  { induction (rc_interfaces cfg) as [|[a|] l IH]; [by left| |right; by left].
    destruct IH; [left; by constructor|right; by right]. }
  destruct Hdec as [Hi|Hi]; [|exists PUnwrapNone; by rewrite rusb_interfaces_bad].
  assert (Hs : exists fs, rusb_interfaces next (rc_interfaces cfg) = Val fs).
  { clear -Hi. revert next. induction Hi as [|[a|] l Ha _ IH]; intros next; [by eexists| |done].
    cbn. destruct (IH (next + 1)) as (fs & ->). cbn. by eexists. }
  destruct Hs as (fs & ->). cbn [obind].
  match goal with |- context [rusb_add_string dbg h (rd_manufacturer_index desc) ?d] => set (d0 := d) end.
  destruct (three_names dbg d0 (rusb_name h (rd_manufacturer_index desc)) (rusb_name h (rd_product_index desc))
    (rusb_name h (rd_serial_index desc)) eq_refl) as (im & d1 & ip & d2 & i3 & d3 & F1 & F2 & F3 & _).
  assert (Hr : forall idx d, name_readable h idx \/ (rusb_add_string dbg h idx d = Panic PUnwrapErr)).
  { intros [i|] d; [|left; by intros i]. cbn. destruct (rh_string h i) eqn:E; [left|by right].
    intros j [= <-]. congruence. }
  destruct (Hr (rd_manufacturer_index desc) d0) as [N1| -> ]; [|by exists PUnwrapErr].
  rewrite rusb_add_string_eq, F1 by done. cbn [obind].
  destruct (Hr (rd_product_index desc) d1) as [N2| -> ]; [|by exists PUnwrapErr].
  rewrite rusb_add_string_eq, F2 by done. cbn [obind].
  destruct (Hr (rd_serial_index desc) d2) as [N3| -> ]; [|by exists PUnwrapErr].
  destruct Hn. done.
Qed.

Lemma rusb_handles_ok dbg hs next dh : Forall rusb_sane hs ->
  Forall (fun x => rusb_complete x.1.1 x.1.2 x.2) (omap rusb_described hs) ->
  exists ds, with_rusb_device_handles dbg hs next dh = Val ds /\
    Forall2 (fun x d => rusb_reported x.1.1 x.1.2 x.2 d /\
      d_bus_id d = host_bus_id (rh_bus x.1.1) (rh_address x.1.1) (rh_port x.1.1) /\
      d_path d = host_path (rh_bus x.1.1) (rh_address x.1.1) (rh_port x.1.1) /\
      d_speed d = rusb_speed_val (rh_speed x.1.1)) (omap rusb_described hs) ds.
Proof.
  intros Hs. revert next dh. induction Hs as [|h hs Hh _ IH]; intros next dh Hc; [exists []; split; [done|constructor]|].
  cbn [with_rusb_device_handles]. cbn [omap list_omap] in Hc |- *. unfold rusb_described at 1 in Hc. unfold rusb_described at 1.
  destruct (rh_desc h) as [desc|] eqn:E1; [destruct (rh_cfg h) as [cfg|] eqn:E2|]; try (by apply IH).
  apply Forall_cons in Hc as [Hc0 Hc].
  destruct (rusb_device_ok dbg h desc cfg next dh Hh E1 E2 Hc0) as (d & -> & Hd). cbn [obind].
  destruct (IH (next + len (rc_interfaces cfg)) (dh + 1) Hc) as (ds & -> & HF). cbn [obind].
  eexists. split; [done|]. by constructor.
Qed.
Lemma rusb_handles_bad dbg hs next dh :
  Exists (fun x => ~ rusb_complete x.1.1 x.1.2 x.2) (omap rusb_described hs) ->
  exists p, with_rusb_device_handles dbg hs next dh = Panic p.
Proof.
  revert next dh. induction hs as [|h hs IH]; intros next dh Hc; [by apply Exists_nil in Hc|].
  cbn [with_rusb_device_handles]. cbn [omap list_omap] in Hc. unfold rusb_described at 1 in Hc.
  destruct (rh_desc h) as [desc|] eqn:E1; [destruct (rh_cfg h) as [cfg|] eqn:E2|]; try (by apply IH).
  destruct (rusb_device dbg h desc cfg next dh) as [d|p|] eqn:Ed; cbn [obind].
  - apply Exists_cons in Hc as [Hc|Hc].
    + destruct (rusb_device_bad dbg h desc cfg next dh Hc) as [p Ep]. congruence.
    + destruct (IH (next + len (rc_interfaces cfg)) (dh + 1) Hc) as [p ->]. by exists p.
  - by exists p.
  - exfalso. clear -Ed. unfold rusb_device in Ed.
    assert (forall n l, rusb_interfaces n l <> Diverge) as Hi.
    { intros n l. revert n. induction l as [|[a|] l IH]; intros n; cbn; try done.
      specialize (IH (n + 1)). destruct (rusb_interfaces (n + 1) l); cbn; congruence. }
    destruct (rusb_interfaces next (rc_interfaces cfg)) eqn:Ei; cbn [obind] in Ed; try done; [|by apply Hi in Ei].
    match type of Ed with context [rusb_add_string dbg h (rd_manufacturer_index desc) ?d] => set (d0 := d) in Ed end.
    destruct (three_names dbg d0 (rusb_name h (rd_manufacturer_index desc)) (rusb_name h (rd_product_index desc))
      (rusb_name h (rd_serial_index desc)) eq_refl) as (im & d1 & ip & d2 & i3 & d3 & F1 & F2 & F3 & _).
    assert (Hr : forall idx d, rusb_add_string dbg h idx d = add_name dbg (rusb_name h idx) d \/ (rusb_add_string dbg h idx d = Panic PUnwrapErr)).
    { intros [i|] d; [|by left]. cbn. destruct (rh_string h i) eqn:E; [by left|by right]. }
    destruct (Hr (rd_manufacturer_index desc) d0) as [Q|Q]; rewrite Q in Ed; [|done]. rewrite F1 in Ed. cbn [obind] in Ed.
    destruct (Hr (rd_product_index desc) d1) as [Q1|Q1]; rewrite Q1 in Ed; [|done]. rewrite F2 in Ed. cbn [obind] in Ed.
    destruct (Hr (rd_serial_index desc) d2) as [Q2|Q2]; rewrite Q2 in Ed; [|done]. rewrite F3 in Ed. done.
Qed.

(** nusb *)
Lemma nusb_interfaces_ok next is : Forall (fun o => exists a, o = Some (Some a)) is ->
  Forall (fun x => forall a, x = Some (Some a) -> Forall ep_sane (ha_endpoints a)) is ->
  exists fs, nusb_interfaces next is = Val fs /\
    Forall2 (fun o f => exists a, o = Some (Some a) /\ intf_reported a f) is fs /\
    Forall (fun f => if_class_specific f = []) fs.
Proof.
  intros H1 H2. revert next. induction is as [|o is IH]; intros next; [exists []; split_and!; [done|constructor|constructor]|].
  apply Forall_cons in H1 as [Ho H1]. apply Forall_cons in H2 as [Hs H2]. destruct Ho as [a Ho]. subst o. cbn [nusb_interfaces].
  destruct (IH H1 H2 (next + 1)) as (fs & -> & HF & HE). cbn. eexists. split; [done|]. split; [|by constructor]. constructor; [|done].
  exists a. split; [done|]. unfold intf_reported; cbn. split_and!; try done. apply nusb_eps_ok. by apply Hs.
Qed.
Lemma nusb_interfaces_cases next is : (Forall (fun o => exists a, o = Some (Some a)) is /\ exists fs, nusb_interfaces next is = Val fs) \/
  (~ Forall (fun o => exists a, o = Some (Some a)) is /\ exists p, nusb_interfaces next is = Panic p).
Proof.
  revert next. induction is as [|o is IH]; intros next; [left; split; [done|by eexists]|].
  destruct o as [[a|]|]; cbn.
  - destruct (IH (next + 1)) as [(Hf & fs & ->)|(Hf & p & ->)]; cbn.
    + left. split; [|by eexists]. constructor; [by eexists|done].
    + right. split; [|by eexists]. intros Hx. apply Forall_cons in Hx as [_ Hx]. done.
  - right. split; [|by eexists]. intros Hx. apply Forall_cons in Hx as [[? ?] _]. done.
  - right. split; [|by eexists]. intros Hx. apply Forall_cons in Hx as [[? ?] _]. done.
Qed.
Lemma nusb_device_ok dbg i o cfg next dh : nusb_sane i -> ni_open i = Some o -> no_cfg o = Some cfg ->
  nusb_complete i cfg ->
  exists d, nusb_device dbg i o cfg next dh = Val d /\ nusb_reported i o cfg d /\ nusb_lost d /\
    d_bus_id d = host_bus_id (ni_bus i) (ni_address i) 0 /\ d_path d = host_path (ni_bus i) (ni_address i) 0 /\
    Some (d_speed d) = nusb_speed_val <$> ni_speed i.
Proof.
  intros (Hb & Ha & Hs) E1 E2 (Hi & Hsp). destruct (Hs _ _ E1 E2) as [Hn He].
  destruct (nusb_interfaces_ok next _ Hi He) as (fs & Ef & HF & HE).
  unfold nusb_device. rewrite Ef. cbn [obind]. destruct (ni_speed i) as [speed|] eqn:Es; [|done].
  match goal with |- context [nusb_add_string dbg (ni_manufacturer i) ?d] => set (d0 := d) end.
  destruct (three_names dbg d0 (ni_manufacturer i) (ni_product_string i) (ni_serial i) eq_refl)
    as (im & d1 & ip & d2 & i3 & d3 & F1 & F2 & F3 & X & S).
  change nusb_add_string with add_name. rewrite F1. cbn [obind]. rewrite F2. cbn [obind]. rewrite F3. cbn [obind].
  eexists. split; [reflexivity|]. rewrite X. split; [|split; [by split; try (by split)|split_and!; reflexivity]].
  apply Forall_cons in S as [S1 S]. apply Forall_cons in S as [S2 S]. apply Forall_cons in S as [S3 _].
  split; try (cbn; done).
  - apply bus_id_ok.
  - intros Hv. cbn. unfold as_u8. rewrite !N.shiftr_div_pow2. change 15 with (N.ones 4). rewrite !N.land_ones.
    change (2 ^ 8) with 256. change (2 ^ 4) with 16. split_and!; lia.
  - cbn. unfold as_u8. split; [done|]. by apply N.mod_small.
Qed.
Lemma nusb_device_bad dbg i o cfg next dh : ~ nusb_complete i cfg -> exists p, nusb_device dbg i o cfg next dh = Panic p.
Proof.
  intros Hn. unfold nusb_device. destruct (nusb_interfaces_cases next (nc_interfaces cfg)) as [(Hf & fs & ->)|(_ & p & ->)]; cbn [obind].
  - destruct (ni_speed i) eqn:Es; [|by eexists]. destruct Hn. split; [done|]. by rewrite Es.
  - by exists p.
Qed.
Lemma nusb_device_val dbg i o cfg next dh : nusb_complete i cfg -> exists d, nusb_device dbg i o cfg next dh = Val d.
Proof.
  intros [Hi Hs]. unfold nusb_device. destruct (nusb_interfaces_cases next (nc_interfaces cfg)) as [(_ & fs & ->)|(Hf & _)]; [|done]; cbn [obind].
  destruct (ni_speed i) as [speed|]; [|done].
  match goal with |- context [nusb_add_string dbg (ni_manufacturer i) ?d] => set (d0 := d) end.
  destruct (three_names dbg d0 (ni_manufacturer i) (ni_product_string i) (ni_serial i) eq_refl)
    as (im & d1 & ip & d2 & i3 & d3 & F1 & F2 & F3 & _).
  change nusb_add_string with add_name. rewrite F1. cbn [obind]. rewrite F2. cbn [obind]. rewrite F3. by eexists.
Qed.
Lemma nusb_complete_dec i cfg : nusb_complete i cfg \/ ~ nusb_complete i cfg.
Proof.
  destruct (nusb_interfaces_cases 0 (nc_interfaces cfg)) as [(Hf & _)|(Hf & _)].
  - destruct (ni_speed i) eqn:E; [left|right]; unfold nusb_complete; rewrite E; [done|]. intros [_ Hx]. done.
  - right. by intros [Hx _].
Qed.
Lemma nusb_list_ok dbg is next dh : Forall nusb_sane is ->
  Forall (fun x => nusb_complete x.1.1 x.2) (nusb_usable is) ->
  exists ds, with_nusb_devices dbg is next dh = Val ds /\
    Forall2 (fun x d => nusb_reported x.1.1 x.1.2 x.2 d /\ nusb_lost d /\
      d_bus_id d = host_bus_id (ni_bus x.1.1) (ni_address x.1.1) 0 /\
      d_path d = host_path (ni_bus x.1.1) (ni_address x.1.1) 0 /\
      Some (d_speed d) = nusb_speed_val <$> ni_speed x.1.1) (nusb_usable is) ds.
Proof.
  unfold nusb_usable. intros Hs. revert next dh. induction Hs as [|i is Hh _ IH]; intros next dh Hc; [exists []; split; [done|constructor]|].
  cbn [with_nusb_devices]. cbn [omap list_omap] in Hc |- *. unfold nusb_described at 1 in Hc. unfold nusb_described at 1.
  destruct (ni_open i) as [o|] eqn:E1; [destruct (no_cfg o) as [cfg|] eqn:E2|]; try (by apply IH).
  apply Forall_cons in Hc as [Hc0 Hc].
  destruct (nusb_device_ok dbg i o cfg next dh Hh E1 E2 Hc0) as (d & -> & Hd). cbn [obind].
  destruct (IH (next + len (nc_interfaces cfg)) (dh + 1) Hc) as (ds & -> & HF). cbn [obind].
  eexists. split; [done|]. by constructor.
Qed.
Lemma nusb_list_bad dbg is next dh :
  Exists (fun x => ~ nusb_complete x.1.1 x.2) (nusb_usable is) ->
  exists p, with_nusb_devices dbg is next dh = Panic p.
Proof.
  unfold nusb_usable. revert next dh. induction is as [|i is IH]; intros next dh Hc; [by apply Exists_nil in Hc|].
  cbn [with_nusb_devices]. cbn [omap list_omap] in Hc. unfold nusb_described at 1 in Hc.
  destruct (ni_open i) as [o|] eqn:E1; [destruct (no_cfg o) as [cfg|] eqn:E2|]; try (by apply IH).
  destruct (nusb_complete_dec i cfg) as [Hg|Hg].
  - destruct (nusb_device_val dbg i o cfg next dh Hg) as [d ->]. cbn [obind].
    apply Exists_cons in Hc as [Hc|Hc]; [done|]. destruct (IH (next + len (nc_interfaces cfg)) (dh + 1) Hc) as [p ->]. by exists p.
  - destruct (nusb_device_bad dbg i o cfg next dh Hg) as [p ->]. by exists p.
Qed.

(** ** Handlers *)
Definition fresh_handlers (next upto : N) (fs : list interface) : Prop :=
  NoDup (if_handler <$> fs) /\ Forall (fun r => next <= r < upto) (if_handler <$> fs).
Lemma fresh_cons next upto f fs : if_handler f = next -> next < upto -> fresh_handlers (next + 1) upto fs ->
  fresh_handlers next upto (f :: fs).
Proof.
  intros E Hu [Hn Hf]. unfold fresh_handlers. rewrite fmap_cons, E. rewrite Forall_forall in Hf. split.
  - apply NoDup_cons. split; [|done]. intros Hin. specialize (Hf _ Hin). lia.
  - constructor; [lia|]. apply Forall_forall. intros r Hr. specialize (Hf _ Hr). lia.
Qed.
Lemma fresh_app next mid upto fs gs : next <= mid <= upto -> fresh_handlers next mid fs -> fresh_handlers mid upto gs ->
  fresh_handlers next upto (fs ++ gs).
Proof.
  intros Hm [Hn1 Hf1] [Hn2 Hf2]. unfold fresh_handlers. rewrite fmap_app. rewrite Forall_forall in Hf1, Hf2. split.
  - apply NoDup_app. split; [done|]. split; [|done]. intros r H1 H2. specialize (Hf1 _ H1). specialize (Hf2 _ H2). lia.
  - apply Forall_forall. intros r [Hr|Hr]%elem_of_app; [specialize (Hf1 _ Hr)|specialize (Hf2 _ Hr)]; lia.
Qed.
Lemma rusb_interfaces_fresh is : forall next fs, rusb_interfaces next is = Val fs ->
  fresh_handlers next (next + len is) fs.
Proof.
  induction is as [|[a|] is IH]; intros next fs E; cbn in E; try done.
  - injection E as <-. split; constructor.
  - apply obind_val in E as (r & E & E'). apply val_inj in E' as <-. apply IH in E. rewrite len_cons.
    apply fresh_cons; [done|lia|]. replace (next + (1 + len is)) with (next + 1 + len is) by lia. exact E.
Qed.
Lemma nusb_interfaces_fresh is : forall next fs, nusb_interfaces next is = Val fs ->
  fresh_handlers next (next + len is) fs.
Proof.
  induction is as [|[[a|]|] is IH]; intros next fs E; cbn in E; try done.
  - injection E as <-. split; constructor.
  - apply obind_val in E as (r & E & E'). apply val_inj in E' as <-. apply IH in E. rewrite len_cons.
    apply fresh_cons; [done|lia|]. replace (next + (1 + len is)) with (next + 1 + len is) by lia. exact E.
Qed.
Lemma new_string_parts dbg d s i d' : new_string dbg d s = Val (i, d') ->
  d_interfaces d' = d_interfaces d /\ d_handler d' = d_handler d.
Proof. unfold new_string. intros E. apply obind_val in E as (? & _ & E). repeat case_match; try done; by injection E as <- <-. Qed.
Lemma rusb_device_handlers dbg h desc cfg next dh d : rusb_device dbg h desc cfg next dh = Val d ->
  fresh_handlers next (next + len (rc_interfaces cfg)) (d_interfaces d) /\ d_handler d = Some dh.
Proof.
  unfold rusb_device. intros E. apply obind_val in E as (fs & Ef & E). apply rusb_interfaces_fresh in Ef.
  assert (Ha : forall idx d0 i d1, rusb_add_string dbg h idx d0 = Val (i, d1) ->
    d_interfaces d1 = d_interfaces d0 /\ d_handler d1 = d_handler d0).
  { intros [j|] d0 i d1 E1; cbn in E1; [|by injection E1 as <- <-]. destruct (rh_string h j); [|done]. by eapply new_string_parts. }
  apply obind_val in E as ([i1 d1] & E1 & E). apply obind_val in E as ([i2 d2] & E2 & E).
  apply obind_val in E as ([i3 d3] & E3 & E). apply val_inj in E as <-.
  apply Ha in E1 as [A1 B1]. apply Ha in E2 as [A2 B2]. apply Ha in E3 as [A3 B3].
  cbn. rewrite A3, A2, A1, B3, B2, B1. done.
Qed.
Lemma nusb_device_handlers dbg i o cfg next dh d : nusb_device dbg i o cfg next dh = Val d ->
  fresh_handlers next (next + len (nc_interfaces cfg)) (d_interfaces d) /\ d_handler d = Some dh.
Proof.
  unfold nusb_device. intros E. apply obind_val in E as (fs & Ef & E). apply nusb_interfaces_fresh in Ef.
  assert (Ha : forall s d0 j d1, nusb_add_string dbg s d0 = Val (j, d1) ->
    d_interfaces d1 = d_interfaces d0 /\ d_handler d1 = d_handler d0).
  { intros [s|] d0 j d1 E1; cbn in E1; [|by injection E1 as <- <-]. by eapply new_string_parts. }
  destruct (ni_speed i); [|done].
  apply obind_val in E as ([i1 d1] & E1 & E). apply obind_val in E as ([i2 d2] & E2 & E).
  apply obind_val in E as ([i3 d3] & E3 & E). apply val_inj in E as <-.
  apply Ha in E1 as [A1 B1]. apply Ha in E2 as [A2 B2]. apply Ha in E3 as [A3 B3].
  cbn. rewrite A3, A2, A1, B3, B2, B1. done.
Qed.
Definition all_fresh (next dh : N) (ds : list device) : Prop :=
  (exists upto, next <= upto /\ fresh_handlers next upto (concat (d_interfaces <$> ds))) /\
  exists rs, d_handler <$> ds = Some <$> rs /\ NoDup rs /\ Forall (fun r => dh <= r) rs.
Lemma all_fresh_nil next dh : all_fresh next dh [].
Proof. split; [exists next; split; [lia|split; constructor]|exists []; split; [done|]; split; constructor]. Qed.
Lemma all_fresh_cons next mid dh d ds : next <= mid -> fresh_handlers next mid (d_interfaces d) -> d_handler d = Some dh ->
  all_fresh mid (dh + 1) ds -> all_fresh next dh (d :: ds).
Proof.
  intros Hm Hf Hd [(upto & Hu & Hfs) (rs & Er & Hn & Hr)]. rewrite Forall_forall in Hr. split.
  - exists upto. split; [lia|]. rewrite fmap_cons. cbn [concat]. apply (fresh_app next mid); [lia|done|done].
  - exists (dh :: rs). rewrite !fmap_cons, Hd, Er. split; [done|]. split.
    + apply NoDup_cons. split; [|done]. intros Hin. specialize (Hr _ Hin). lia.
    + constructor; [lia|]. apply Forall_forall. intros r Hin. specialize (Hr _ Hin). lia.
Qed.
Lemma all_fresh_separate next dh ds : all_fresh next dh ds -> separate_handlers ds.
Proof. intros [(upto & _ & Hn & _) (rs & Er & Hr & _)]. split; [done|]. by exists rs. Qed.
Lemma rusb_handles_fresh dbg hs : forall next dh ds, with_rusb_device_handles dbg hs next dh = Val ds ->
  all_fresh next dh ds.
Proof.
  induction hs as [|h hs IH]; intros next dh ds E; cbn in E.
  - injection E as <-. apply all_fresh_nil.
  - destruct (rh_desc h) as [desc|]; [|by apply IH]. destruct (rh_cfg h) as [cfg|]; [|by apply IH].
    apply obind_val in E as (d & Ed & E). apply obind_val in E as (ds' & Es & E). apply val_inj in E as <-.
    apply rusb_device_handlers in Ed as [Hf Hd]. apply (all_fresh_cons _ (next + len (rc_interfaces cfg))); [lia|done|done|].
    by apply IH.
Qed.
Lemma nusb_list_fresh dbg is : forall next dh ds, with_nusb_devices dbg is next dh = Val ds -> all_fresh next dh ds.
Proof.
  induction is as [|i is IH]; intros next dh ds E; cbn in E.
  - injection E as <-. apply all_fresh_nil.
  - destruct (ni_open i) as [o|]; [|by apply IH]. destruct (no_cfg o) as [cfg|]; [|by apply IH].
    apply obind_val in E as (d & Ed & E). apply obind_val in E as (ds' & Es & E). apply val_inj in E as <-.
    apply nusb_device_handlers in Ed as [Hf Hd]. apply (all_fresh_cons _ (next + len (nc_interfaces cfg))); [lia|done|done|].
    by apply IH.
Qed.

(** ** Importing an enumerated device *)
Lemma take_first_found p ds d : d ∈ ds -> p d = true -> (forall d', d' ∈ ds -> p d' = true -> d' = d) ->
  exists rest, take_first p ds = Some (d, rest).
Proof.
  induction ds as [|x ds IH]; intros Hin Hp Hu; [by apply elem_of_nil in Hin|]. cbn.
  destruct (p x) eqn:E.
  - exists ds. by rewrite (Hu x) by (done || left).
  - destruct IH as [rest ->]; [|done| |by eexists].
    + apply elem_of_cons in Hin as [->|]; [congruence|done].
    + intros d' Hd. apply Hu. by right.
Qed.
Lemma until_nul_pad l n : 0 ∉ l -> until_nul (l ++ replicate n 0) = l.
Proof.
  induction l as [|x l IH]; intros Hn; cbn; [by destruct n|].
  destruct (N.eqb_spec x 0) as [->|]; [destruct Hn; left|]. f_equal. apply IH. intros Hx. apply Hn. by right.
Qed.
Lemma importable_one ds d : d ∈ ds -> NoDup (d_bus_id <$> ds) -> requestable (d_bus_id d) ->
  Forall (fun x => ascii_only (d_bus_id x)) ds ->
  exists busid, length busid = 32%nat /\ (import_device (new_simulated ds) busid).2 = Some d.
Proof.
  intros Hin Hnd [Hl H0] Ha. exists (utf8 (d_bus_id d) ++ replicate (32 - length (utf8 (d_bus_id d))) 0).
  split; [rewrite app_length, replicate_length; unfold len in Hl; lia|].
  unfold import_device. rewrite until_nul_pad by done. cbn [sv_available new_simulated].
  destruct (take_first_found (fun d0 => bool_decide (utf8 (d_bus_id d) = utf8 (d_bus_id d0))) ds d) as [rest ->]; [done| | |done].
  - by apply bool_decide_eq_true.
  - intros d' Hd' Hb. apply bool_decide_eq_true in Hb. rewrite Forall_forall in Ha.
    rewrite !utf8_ascii in Hb by (by apply Ha).
    apply elem_of_list_lookup in Hin as [i Hi], Hd' as [j Hj].
    assert (i = j) as ->; [|congruence].
    eapply NoDup_lookup; [exact Hnd|rewrite list_lookup_fmap, Hi; done|rewrite list_lookup_fmap, Hj; cbn; by rewrite Hb].
Qed.

(** ** On the wire *)
Definition host_result {i d} (w : world (host_h i d)) e tbl s req (t : target) : call_result hostdev :=
  match t with TIntf f => i (host_of w t) f e tbl s req | TDev _ => d (host_of w t) tbl s req end.

Lemma host_wire {is ds} dbg (st : cstate (host_h is ds)) m sb d e i s t c out :
  delivered dbg st m sb d e i s t ->
  performs (host_of (cs_world st) t) c
    (host_result (cs_world st) e (sb_transfer_buffer_length sb) s (sb_data sb) t) out ->
  dbg = false \/ h_direction (sb_header sb) = 1 \/ out = [] ->
  exists st1, replies dbg st m sb out st1 /\ forwarded (cs_world st) (cs_world st1) t c /\ cs_server st1 = cs_server st /\
    cs_current st1 = cs_current st.
Proof.
  intros HD HP Hdir. destruct (delivered_step _ _ _ _ _ _ _ _ _ HD) as (w' & Hi & Hr).
  assert (Ho : handler_answer (cs_world st) e (sb_transfer_buffer_length sb) s (sb_data sb) t = HOk out).
  { unfold performs, host_result in HP. destruct t; unfold handler_answer; cbn [host_h i_step d_step]; unfold host_of in HP; cbn in HP |- *; rewrite HP; done. }
  rewrite Ho in Hr, Hi. destruct Hr as [Hr _]. eexists. split; [apply Hr; destruct Hdir as [|[| -> ]]; auto|].
  cbn [cs_world cs_server cs_current]. split; [|done]. unfold performs, host_result, host_of in HP. unfold forwarded, host_of, usable.
  inversion Hi as [f st0 r w1 Hc Hs Hc' Hoi Hod|r st0 c0 w1 Hc Hs Hc' Hod Hoi]; subst.
  - rewrite Hc in HP. cbn in HP. rewrite Hc'. cbn [host_h i_step c_state] in *. rewrite HP, Hc. cbn. split_and!; auto.
    intros r Hx. apply Hoi. intros ->. by apply (Hx f).
  - rewrite Hc in HP. cbn in HP. rewrite Hc'. cbn [host_h d_step c_state] in *. rewrite HP, Hc. cbn. split_and!; auto.
    intros r' Hx. apply Hod. intros ->. done.
Qed.
Lemma host_wire_panic {is ds} dbg (st : cstate (host_h is ds)) m sb d e i s t p :
  delivered dbg st m sb d e i s t ->
  host_result (cs_world st) e (sb_transfer_buffer_length sb) s (sb_data sb) t = CallPanic (host_of (cs_world st) t) p ->
  exists st1, aborts dbg st m p st1 /\ untouched (cs_world st) (cs_world st1).
Proof.
  intros HD HP. destruct (delivered_step _ _ _ _ _ _ _ _ _ HD) as (w' & Hi & Hr).
  assert (Ho : handler_answer (cs_world st) e (sb_transfer_buffer_length sb) s (sb_data sb) t = HPanic p).
  { unfold host_result in HP. destruct t; unfold handler_answer; cbn [host_h i_step d_step]; unfold host_of in HP; cbn in HP |- *; rewrite HP; done. }
  rewrite Ho in Hr, Hi. eexists. split; [exact Hr|]. cbn [cs_world].
  inversion Hi as [f st0 r w1 Hc Hs Hc' Hoi Hod|r st0 c0 w1 Hc Hs Hc' Hod Hoi]; subst.
  - split; [|intros r; by rewrite Hod]. intros r. destruct (N.eq_dec r (if_handler f)) as [->|Hn]; [|by rewrite Hoi].
    rewrite Hc'. unfold host_result, host_of in HP. rewrite Hc in HP |- *. cbn in *. by rewrite HP.
  - split; [intros r'; by rewrite Hoi|]. intros r'. destruct (N.eq_dec r' r) as [->|Hn]; [|by rewrite Hod].
    rewrite Hc'. unfold host_result, host_of in HP. rewrite Hc in HP |- *. cbn in *. by rewrite HP.
Qed.
Lemma host_wire_quiet {is ds} dbg (st : cstate (host_h is ds)) m sb d e i s t :
  delivered dbg st m sb d e i s t ->
  host_result (cs_world st) e (sb_transfer_buffer_length sb) s (sb_data sb) t = CallOk (host_of (cs_world st) t) [] ->
  exists st1, replies dbg st m sb [] st1 /\ untouched (cs_world st) (cs_world st1).
Proof.
  intros HD HP. destruct (delivered_step _ _ _ _ _ _ _ _ _ HD) as (w' & Hi & Hr).
  assert (Ho : handler_answer (cs_world st) e (sb_transfer_buffer_length sb) s (sb_data sb) t = HOk []).
  { unfold host_result in HP. destruct t; unfold handler_answer; cbn [host_h i_step d_step]; unfold host_of in HP; cbn in HP |- *; rewrite HP; done. }
  rewrite Ho in Hr, Hi. destruct Hr as [Hr _]. eexists. split; [apply Hr; auto|]. cbn [cs_world].
  inversion Hi as [f st0 r w1 Hc Hs Hc' Hoi Hod|r st0 c0 w1 Hc Hs Hc' Hod Hoi]; subst.
  - split; [|intros r; by rewrite Hod]. intros r. destruct (N.eq_dec r (if_handler f)) as [->|Hn]; [|by rewrite Hoi].
    rewrite Hc'. unfold host_result, host_of in HP. rewrite Hc in HP |- *. cbn in *. by rewrite HP.
  - split; [intros r'; by rewrite Hoi|]. intros r'. destruct (N.eq_dec r' r) as [->|Hn]; [|by rewrite Hod].
    rewrite Hc'. unfold host_result, host_of in HP. rewrite Hc in HP |- *. cbn in *. by rewrite HP.
Qed.
Lemma setup_u8 dbg m sb s : all_u8 m = true -> cmd_layout dbg m (CmdSubmit sb) -> setup_of (sb_setup sb) s ->
  s_request_type s < 256.
Proof.
  intros Hm HL (b0 & b1 & b2 & b3 & b4 & b5 & b6 & b7 & Es & ->). cbn. inversion HL; subst; cbn in Es; subst.
  match goal with Hx : bytes_at m 40 _ |- _ => unfold bytes_at in Hx; assert (Hl : m !! 40%nat = Some b0) end.
  { match goal with Hx : take _ (drop 40 m) = _ |- _ => apply (f_equal (fun l => l !! 0%nat)) in Hx; cbn in Hx;
      rewrite lookup_take in Hx by (cbn; lia); rewrite lookup_drop in Hx; exact Hx end. }
  exact (all_u8_lookup _ _ _ Hm Hl).
Qed.
Lemma rusb_complete_dec h desc cfg : rusb_complete h desc cfg \/ ~ rusb_complete h desc cfg.
Proof.
  assert (Hr : forall idx, name_readable h idx \/ ~ name_readable h idx).
  { intros [i|]; [|left; by intros i]. destruct (rh_string h i) eqn:E; [left; intros j [= <-]; congruence|right].
    intros Hx. by apply (Hx i). }
  assert (Hi : Forall (fun o => o <> None) (rc_interfaces cfg) \/ ~ Forall (fun o : option os_alt => o <> None) (rc_interfaces cfg)).
  { induction (rc_interfaces cfg) as [|[a|] l IH]; [by left| |].
    - destruct IH as [IH|IH]; [left; by constructor|right]. intros Hx. apply Forall_cons in Hx as [_ Hx]. done.
    - right. intros Hx. apply Forall_cons in Hx as [Hx _]. done. }
  unfold rusb_complete. destruct Hi, (Hr (rd_manufacturer_index desc)), (Hr (rd_product_index desc)), (Hr (rd_serial_index desc)); tauto.
Qed.
Lemma rusb_val_complete dbg hs next dh ds : with_rusb_device_handles dbg hs next dh = Val ds ->
  Forall (fun x => rusb_complete x.1.1 x.1.2 x.2) (omap rusb_described hs).
Proof.
  intros E. apply Forall_forall. intros [[h desc] cfg] Hx. cbn.
  destruct (rusb_complete_dec h desc cfg) as [|Hd]; [done|]. destruct (rusb_handles_bad dbg hs next dh) as [p Ep]; [|congruence].
  apply Exists_exists. exists (h, desc, cfg). done.
Qed.
Lemma nusb_val_complete dbg is next dh ds : with_nusb_devices dbg is next dh = Val ds ->
  Forall (fun x => nusb_complete x.1.1 x.2) (nusb_usable is).
Proof.
  intros E. apply Forall_forall. intros [[i o] cfg] Hx. cbn.
  destruct (nusb_complete_dec i cfg) as [|Hd]; [done|]. destruct (nusb_list_bad dbg is next dh) as [p Ep]; [|congruence].
  apply Exists_exists. exists (i, o, cfg). done.
Qed.
