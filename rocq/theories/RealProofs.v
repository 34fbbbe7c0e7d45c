(** * Lemmas: descriptors of shared host devices *)
From Verif Require Import SpecReal HostProofs DescProofs.

(** ** Bytes *)
Lemma lohi_inj a b : lohi a = lohi b -> a = b.
Proof. unfold lohi. intros E. injection E as E1 E2. lia. Qed.
Lemma lohi_u8 n : n < 65536 -> lohi n = [as_u8 n; as_u8 (N.shiftr n 8)].
Proof. intros Hn. unfold lohi. rewrite shiftr_8. unfold as_u8. f_equal. f_equal. lia. Qed.
Lemma app_same_len {A} (a b c d : list A) : length a = length c -> a ++ b = c ++ d -> a = c /\ b = d.
Proof. intros Hl E. by apply app_inj_1. Qed.

(** ** Two descriptors compared *)
Section seen.
  Context (packet : N -> N) (extra : list N -> list N).
  Context (Hx : forall x, extra x = [] \/ extra x = x).
  Notation sep := (seen_ep packet).
  Notation salt := (seen_alt packet extra).

  Lemma eps_len es : (length (concat (real_ep_bytes <$> (sep <$> es))) <= length (concat (real_ep_bytes <$> es)))%nat.
  Proof. induction es as [|e es IH]; [done|]. cbn [fmap list_fmap concat] in *. rewrite !app_length. cbn. lia. Qed.
  Lemma eps_eq es : concat (real_ep_bytes <$> (sep <$> es)) = concat (real_ep_bytes <$> es) <->
    Forall (fun e => plain_ep e /\ packet (re_packet e) = re_packet e) es.
  Proof.
    induction es as [|e es IH]; [split; [constructor|done]|]. rewrite Forall_cons, <- IH.
    pose proof (eps_len es) as Hl. cbn [fmap list_fmap concat] in *. split.
    - intros E. pose proof (f_equal length E) as El. rewrite !app_length in El. cbn in El.
      assert (Ex : re_extra e = []) by (apply nil_length_inv; lia).
      apply app_same_len in E as [E1 E2]; [|cbn; rewrite Ex; done]. split; [|done].
      unfold real_ep_bytes, seen_ep in E1. cbn in E1. injection E1 as E3 E4 E5. unfold plain_ep.
      split; [split; [lia|done]|]. apply lohi_inj. unfold lohi. congruence.
    - intros [[[Ha Ex] Hp] ->]. f_equal. unfold real_ep_bytes, seen_ep. cbn [re_address re_attributes re_packet re_interval re_extra].
      rewrite Hp, Ex, N.mod_small by done. done.
  Qed.
  Lemma alt_len n a : (length (real_alt_bytes (salt n a)) <= length (real_alt_bytes a))%nat.
  Proof.
    unfold real_alt_bytes, seen_alt. cbn [ra_eps ra_extra]. rewrite !app_length. pose proof (eps_len (ra_eps a)) as He.
    assert (length (extra (ra_extra a)) <= length (ra_extra a))%nat by (destruct (Hx (ra_extra a)) as [-> | ->]; cbn; lia). cbn. lia.
  Qed.
  Definition same_alt n a := ra_number a = n /\ ra_setting a = 0 /\ extra (ra_extra a) = ra_extra a /\
    Forall (fun e => plain_ep e /\ packet (re_packet e) = re_packet e) (ra_eps a).
  Lemma alt_eq n a : real_alt_bytes (salt n a) = real_alt_bytes a <-> same_alt n a.
  Proof.
    unfold same_alt. rewrite <- eps_eq. unfold real_alt_bytes, seen_alt. cbn [ra_number ra_setting ra_class ra_subclass ra_protocol ra_string ra_eps ra_extra].
    assert (Hf : len (sep <$> ra_eps a) = len (ra_eps a)) by (unfold len; by rewrite fmap_length). split.
    - intros E. cbn in E. injection E as E1 E2 E3 E4. split; [done|]. split; [done|].
      pose proof (f_equal length E4) as El. rewrite !app_length in El. pose proof (eps_len (ra_eps a)) as He.
      apply app_same_len in E4; [done|]. destruct (Hx (ra_extra a)) as [Ee|Ee]; rewrite Ee in *; cbn in *; lia.
    - intros (-> & -> & -> & ->). by rewrite Hf.
  Qed.

  Definition seen_from (k : nat) (l : list (list real_alt)) : list (list real_alt) :=
    imap (fun n alts => salt (N.of_nat (k + n)) <$> take 1 alts) l.
  Notation body l := (concat (real_alt_bytes <$> concat l)).
  Lemma seen_from_cons k a more l : body (seen_from k ((a :: more) :: l)) = real_alt_bytes (salt (N.of_nat k) a) ++ body (seen_from (S k) l).
  Proof.
    unfold seen_from. cbn [imap concat fmap list_fmap take app]. rewrite Nat.add_0_r.
    change (take 0 more) with (@nil real_alt). cbn [fmap list_fmap app]. do 4 f_equal. apply imap_ext. intros i x _. cbn. by rewrite Nat.add_succ_r.
  Qed.
  Lemma body_cons a more l : body ((a :: more) :: l) = real_alt_bytes a ++ concat (real_alt_bytes <$> more) ++ body l.
  Proof. cbn [concat app fmap list_fmap]. by rewrite fmap_app, concat_app. Qed.
  Lemma body_len k l : Forall (fun alts => alts <> []) l -> (length (body (seen_from k l)) <= length (body l))%nat.
  Proof.
    revert k. induction l as [|alts l IH]; intros k Hl; [done|]. apply Forall_cons in Hl as [Ha Hl]. destruct alts as [|a more]; [done|].
    rewrite seen_from_cons, body_cons, !app_length. specialize (IH (S k) Hl). pose proof (alt_len (N.of_nat k) a). lia.
  Qed.
  Lemma body_eq k l : Forall (fun alts => alts <> []) l ->
    body (seen_from k l) = body l <-> (forall n alts, l !! n = Some alts -> exists a, alts = [a] /\ same_alt (N.of_nat (k + n)) a).
  Proof.
    revert k. induction l as [|alts l IH]; intros k Hl; [done|]. apply Forall_cons in Hl as [Ha Hl]. destruct alts as [|a more]; [done|].
    rewrite seen_from_cons, body_cons. pose proof (body_len (S k) l Hl) as Hb. pose proof (alt_len (N.of_nat k) a) as Hla. split.
    - intros E. pose proof (f_equal length E) as El. rewrite !app_length in El.
      assert (more = []) as ->.
      { destruct more as [|m more]; [done|]. exfalso. cbn [fmap list_fmap concat] in El. rewrite app_length in El.
        change (length (real_alt_bytes m)) with (9 + length (ra_extra m ++ concat (real_ep_bytes <$> ra_eps m)))%nat in El. lia. }
      apply app_same_len in E as [E1 E2]; [|cbn [fmap list_fmap concat length] in El; lia].
      intros [|n] alts Hn; cbn in Hn.
      + injection Hn as <-. exists a. split; [done|]. rewrite Nat.add_0_r. by apply alt_eq.
      + rewrite Nat.add_succ_r. by apply (proj1 (IH (S k) Hl) E2 n).
    - intros E. destruct (E 0%nat _ eq_refl) as (a' & Ea & Hs). injection Ea as -> ->. rewrite Nat.add_0_r in Hs.
      apply alt_eq in Hs as ->. cbn [fmap list_fmap concat app]. f_equal. apply (IH (S k) Hl). intros n alts Hn.
      destruct (E (S n) alts Hn) as (x & Hx1 & Hx2). rewrite Nat.add_succ_r in Hx2. by exists x.
  Qed.

  Lemma seen_config_eq c : typed_real_config c ->
    real_config_bytes (seen_config packet extra c) = real_config_bytes c <->
    plain_config c /\ Forall (fun a => extra (ra_extra a) = ra_extra a /\ Forall (fun e => packet (re_packet e) = re_packet e) (ra_eps a)) (concat (rq_interfaces c)).
  Proof.
    intros (_ & _ & Hl & _). pose proof (body_len 0 (rq_interfaces c) Hl) as Hb. pose proof (body_eq 0 (rq_interfaces c) Hl) as He.
    assert (Hn : len (rq_interfaces (seen_config packet extra c)) = len (rq_interfaces c)) by (unfold len; cbn; by rewrite imap_length).
    assert (Hs : real_body (seen_config packet extra c) = body (seen_from 0 (rq_interfaces c))) by done.
    assert (HP : plain_config c /\ Forall (fun a => extra (ra_extra a) = ra_extra a /\ Forall (fun e => packet (re_packet e) = re_packet e) (ra_eps a)) (concat (rq_interfaces c))
      <-> (rq_string c = 0 /\ rq_attributes c = 128 /\ rq_power c = 50 /\ rq_extra c = []) /\
        (forall n alts, rq_interfaces c !! n = Some alts -> exists a, alts = [a] /\ same_alt (N.of_nat (0 + n)) a)).
    { unfold plain_config, same_alt. cbn [Nat.add]. split.
      - intros [(? & ? & ? & ? & F) G]. split; [done|]. intros n alts Ha. destruct (F n alts Ha) as (a & -> & A1 & A2 & A3). exists a.
        split; [done|]. rewrite Forall_forall in G. destruct (G a) as [G1 G2].
        { apply elem_of_list_In, in_concat. exists [a]. split; [|by left]. apply elem_of_list_In. by eapply elem_of_list_lookup_2. }
        split_and!; try done. rewrite Forall_forall in *. intros e Hin. by split; [apply A3|apply G2].
      - intros [(? & ? & ? & ?) F]. split.
        + split_and!; try done. intros n alts Ha. destruct (F n alts Ha) as (a & -> & A1 & A2 & A3 & A4). exists a. split_and!; try done.
          eapply Forall_impl; [exact A4|]. by intros e [? _].
        + rewrite Forall_forall. intros a Hin. apply elem_of_list_In, in_concat in Hin as (alts & Ha & Hin).
          apply elem_of_list_In, elem_of_list_lookup in Ha as [n Ha]. destruct (F n alts Ha) as (a' & -> & _ & _ & A3 & A4).
          destruct Hin as [<-|[]]. split; [done|]. eapply Forall_impl; [exact A4|]. by intros e [_ ?]. }
    rewrite HP, <- He. unfold real_config_bytes. rewrite Hn, Hs. cbn [seen_config rq_value rq_string rq_attributes rq_power]. split.
    - intros E. assert (Ex : rq_extra c = []).
      { apply (f_equal length) in E. rewrite !app_length in E. cbn [length lohi] in E.
        unfold real_body in E. rewrite app_length in E. apply nil_length_inv. lia. }
      unfold real_body in E. rewrite Ex in E. cbn in E. injection E as _ _ E1 E2 E3 E4. done.
    - intros [(E1 & E2 & E3 & E4) E5]. unfold real_body. by rewrite E1, E2, E3, E4, E5.
  Qed.
End seen.

(** ** The library's descriptors *)
Lemma ep_bytes_shown ep packet e : (forall e, ep e = mkHostEp (re_address e) (re_attributes e mod 4) (packet (re_packet e)) (re_interval e)) ->
  packet (re_packet e) < 65536 ->
  endpoint_descriptor (rusb_endpoint (ep e)) = real_ep_bytes (seen_ep packet e) /\ endpoint_descriptor (nusb_endpoint (ep e)) = real_ep_bytes (seen_ep packet e).
Proof.
  intros He Hp. rewrite He. unfold real_ep_bytes, seen_ep, endpoint_descriptor, rusb_endpoint, nusb_endpoint.
  cbn [re_address re_attributes re_packet re_interval re_extra he_address he_transfer_type he_max_packet_size he_interval ep_address ep_attributes ep_max_packet_size ep_interval].
  rewrite (lohi_u8 (packet _)) by done. rewrite as_u16_small by done. rewrite as_u8_small by lia. done.
Qed.
Lemma index_default i : default 0 (maybe_index i) = i.
Proof. unfold maybe_index. destruct (N.eqb_spec i 0); [by subst|done]. Qed.
Lemma intf_shown packet extra (ep : usb_ep -> endpoint) n a h : n < 256 -> len (ra_eps a) < 256 ->
  Forall (fun e => endpoint_descriptor (ep e) = real_ep_bytes (seen_ep packet e)) (ra_eps a) ->
  interface_descriptor n (mkInterface (ra_class a) (ra_subclass a) (ra_protocol a) (ep <$> ra_eps a)
    (default 0 (maybe_index (ra_string a))) (extra (ra_extra a)) h) = real_alt_bytes (seen_alt packet extra n a).
Proof.
  intros Hn Hl He. unfold interface_descriptor, real_alt_bytes, seen_alt.
  cbn [if_class if_subclass if_protocol if_endpoints if_string if_class_specific ra_number ra_setting ra_class ra_subclass ra_protocol ra_string ra_extra ra_eps].
  rewrite index_default. assert (H1 : len (ep <$> ra_eps a) = len (ra_eps a)) by (unfold len; by rewrite fmap_length).
  assert (H2 : len (seen_ep packet <$> ra_eps a) = len (ra_eps a)) by (unfold len; by rewrite fmap_length).
  rewrite H1, H2, !as_u8_small by done. do 3 f_equal. induction He as [|e es E _ IH]; [done|].
  assert (len es < 256) by (unfold len in *; cbn in Hl; lia).
  cbn [fmap list_fmap concat mjoin list_join]. rewrite E. f_equal. apply IH; [done| |]; unfold len; by rewrite fmap_length.
Qed.
Lemma rusb_intfs_shown l next fs k : (k + length l <= 256)%nat ->
  Forall (fun a => len (ra_eps a) < 256 /\ Forall typed_real_ep (ra_eps a)) (concat l) ->
  rusb_interfaces next ((fun alts => shows_alt rusb_shows_ep <$> head alts) <$> l) = Val fs ->
  interface_descriptors (N.of_nat k) fs = concat (real_alt_bytes <$> concat (seen_from (fun n => n) (fun x => x) k l)) /\ length fs = length l.
Proof.
  revert next fs k. induction l as [|alts l IH]; intros next fs k Hk Ht E.
  - cbn in E. apply Val_inj in E. by subst fs.
  - cbn [fmap list_fmap rusb_interfaces] in E. destruct alts as [|a more]; [done|]. cbn [head fmap option_fmap option_map] in E.
    apply obind_val in E as (fs' & E & Ef). apply Val_inj in Ef. subst fs. cbn [concat] in Ht. apply Forall_app in Ht as [Ha Ht].
    apply Forall_cons in Ha as [[Hl Ha] _]. cbn in Hk. destruct (IH (next + 1) fs' (S k)) as [IH1 IH2]; [lia|done..|].
    split; [|cbn; by rewrite IH2]. rewrite seen_from_cons. cbn [interface_descriptors].
    cbn [shows_alt ha_class ha_subclass ha_protocol ha_endpoints ha_string_index ha_extra]. rewrite <- list_fmap_compose.
    f_equal.
    + apply (intf_shown (fun n => n) (fun x => x)); [lia|done|]. eapply Forall_impl; [exact Ha|]. intros e He.
      by apply (proj1 (ep_bytes_shown rusb_shows_ep (fun n => n) e ltac:(done) He)).
    + rewrite <- IH1. f_equal. lia.
Qed.
Lemma nusb_intfs_shown l ns next fs k : (k + length l <= 256)%nat ->
  Forall (fun a => len (ra_eps a) < 256 /\ Forall typed_real_ep (ra_eps a)) (concat l) ->
  Forall2 (fun alts x => forall y, x = Some y -> y = shows_alt nusb_shows_ep <$> head alts) l ns ->
  nusb_interfaces next ns = Val fs ->
  interface_descriptors (N.of_nat k) fs = concat (real_alt_bytes <$> concat (seen_from (fun n => n mod 2048) (fun _ => []) k l)) /\ length fs = length l.
Proof.
  intros Hk Ht HF. revert next fs k Hk Ht. induction HF as [|alts x l ns Hx HF IH]; intros next fs k Hk Ht E.
  - cbn in E. apply Val_inj in E. by subst fs.
  - cbn [nusb_interfaces] in E. destruct x as [[a'|]|]; [|done|done]. specialize (Hx _ eq_refl). destruct alts as [|a more]; [done|].
    cbn [head fmap option_fmap option_map] in Hx. injection Hx as ->.
    apply obind_val in E as (fs' & E & Ef). apply Val_inj in Ef. subst fs. cbn [concat] in Ht. apply Forall_app in Ht as [Ha Ht].
    apply Forall_cons in Ha as [[Hl Ha] _]. cbn in Hk. destruct (IH (next + 1) fs' (S k)) as [IH1 IH2]; [lia|done..|].
    split; [|cbn; by rewrite IH2]. rewrite seen_from_cons. cbn [interface_descriptors].
    cbn [shows_alt ha_class ha_subclass ha_protocol ha_endpoints ha_string_index ha_extra]. rewrite <- list_fmap_compose.
    f_equal.
    + apply (intf_shown (fun n => n mod 2048) (fun _ => [])); [lia|done|]. eapply Forall_impl; [exact Ha|]. intros e He.
      refine (proj2 (ep_bytes_shown nusb_shows_ep (fun n => n mod 2048) e ltac:(done) _)). cbv beta. lia.
    + rewrite <- IH1. f_equal. lia.
Qed.

(** The whole configuration descriptor of a device with these interfaces. *)
Lemma config_shown packet extra c d : (forall x, extra x = [] \/ extra x = x) -> typed_real_config c ->
  interface_descriptors 0 (d_interfaces d) = concat (real_alt_bytes <$> concat (seen_from packet extra 0 (rq_interfaces c))) ->
  length (d_interfaces d) = length (rq_interfaces c) -> d_configuration_value d = rq_value c -> d_string_configuration d = 0 ->
  configuration_descriptor d = real_config_bytes (seen_config packet extra c) /\ len (configuration_descriptor d) < 65536.
Proof.
  intros Hx (Ht & Hn & Hl & _) Hb Hi Hv Hs. pose proof (body_len packet extra Hx 0 (rq_interfaces c) Hl) as Hle.
  assert (Hlt : 9 + len (interface_descriptors 0 (d_interfaces d)) < 65536).
  { rewrite Hb. unfold len, real_body in *. rewrite app_length in Ht. lia. }
  split.
  - unfold configuration_descriptor, real_config_bytes. cbv zeta. rewrite as_u16_small by done.
    change (real_body (seen_config packet extra c)) with (concat (real_alt_bytes <$> concat (seen_from packet extra 0 (rq_interfaces c)))).
    rewrite <- Hb, lohi_u8 by done. cbn [seen_config rq_interfaces rq_value rq_string rq_attributes rq_power]. rewrite Hv, Hs.
    assert (Hz : len (d_interfaces d) = len (rq_interfaces c)) by (unfold len; by rewrite Hi).
    rewrite Hz, (as_u8_small (len (rq_interfaces c))) by done.
    assert (Hm : forall f : nat -> list real_alt -> list real_alt, len (imap f (rq_interfaces c)) = len (rq_interfaces c)) by (intros f; unfold len; by rewrite imap_length).
    rewrite Hm. done.
  - rewrite configuration_len. unfold config_size. rewrite <- (interfaces_len _ 0). lia.
Qed.

(** ** The numbers of the names *)
Definition filled (p : gmap N rstring) (k : N) : Prop := forall i, 1 <= i -> is_Some (p !! i) <-> i <= k.
Lemma vacant_filled dbg p k : k <= 2 -> filled p k -> find_vacant dbg p 1 256 = Val (k + 1).
Proof.
  intros Hk Hf. assert (Hv : forall i, 1 <= i -> k < i -> p !! i = None).
  { intros i H1 H2. apply eq_None_not_Some. rewrite (Hf i H1). lia. }
  assert (Hs : forall i, 1 <= i -> i <= k -> exists s, p !! i = Some s) by (intros i H1 H2; by apply Hf).
  assert (k = 0 \/ k = 1 \/ k = 2) as [-> |[-> | ->]] by lia.
  - cbn [find_vacant]. rewrite andb_false_r, Hv by lia. done.
  - destruct (Hs 1 ltac:(lia) ltac:(lia)) as [s1 E1]. cbn [find_vacant]. rewrite andb_false_r, E1.
    change ((1 + 1) mod 256) with 2. change (2 =? 255) with false. rewrite andb_false_r, Hv by lia. done.
  - destruct (Hs 1 ltac:(lia) ltac:(lia)) as [s1 E1]. destruct (Hs 2 ltac:(lia) ltac:(lia)) as [s2 E2].
    cbn [find_vacant]. rewrite andb_false_r, E1. change ((1 + 1) mod 256) with 2. change (2 =? 255) with false.
    rewrite andb_false_r, E2. change ((2 + 1) mod 256) with 3. change (3 =? 255) with false. rewrite andb_false_r, Hv by lia. done.
Qed.
Definition one_more (o : option rstring) (k : N) : N := match o with Some _ => k + 1 | None => k end.
Definition number (o : option rstring) (k : N) : N := match o with Some _ => k + 1 | None => 0 end.
Lemma add_name_numbered dbg o d k : k <= 2 -> filled (d_string_pool d) k ->
  exists p, add_name dbg o d = Val (number o k, with_pool d p) /\ filled p (one_more o k).
Proof.
  intros Hk Hf. destruct o as [s|]; cbn.
  - unfold new_string. rewrite (vacant_filled dbg _ k) by done. eexists. split; [reflexivity|]. intros i Hi.
    destruct (N.eq_dec i (k + 1)) as [-> |Hne]; [rewrite lookup_insert; split; [lia|by eexists]|].
    rewrite lookup_insert_ne by done. rewrite (Hf i Hi). lia.
  - exists (d_string_pool d). split; [by destruct d|done].
Qed.
Lemma three_numbered dbg d0 m p s : d_string_pool d0 = ∅ ->
  exists d1 d2 pool, add_name dbg m d0 = Val (number m 0, d1) /\ add_name dbg p d1 = Val (number p (one_more m 0), d2) /\
    add_name dbg s d2 = Val (number s (one_more p (one_more m 0)), with_pool d0 pool).
Proof.
  intros H0. assert (Hf : filled (d_string_pool d0) 0).
  { intros i Hi. rewrite H0, lookup_empty. split; [by intros [? [=]]|lia]. }
  assert (B : forall o k, one_more o k <= k + 1) by (intros [] k; cbn; lia).
  destruct (add_name_numbered dbg m d0 0 ltac:(lia) Hf) as (p1 & E1 & F1). pose proof (B m 0).
  destruct (add_name_numbered dbg p (with_pool d0 p1) (one_more m 0) ltac:(lia) F1) as (p2 & E2 & F2). pose proof (B p (one_more m 0)).
  destruct (add_name_numbered dbg s (with_pool d0 p2) (one_more p (one_more m 0)) ltac:(lia) F2) as (p3 & E3 & F3).
  exists (with_pool d0 p1), (with_pool d0 p2), p3. done.
Qed.
Lemma numbered_of i o k : (o = None <-> i = 0) -> number o k = numbered i k /\ one_more o k = k + present i.
Proof. intros Hi. unfold numbered, present. destruct o, (N.eqb_spec i 0); cbn; intuition (try discriminate; try lia; try congruence). Qed.

(** ** Devices *)
Lemma version_bytes n a b : a < 256 -> b < 256 -> n = 256 * a + b -> lohi n = [b; a].
Proof. intros Ha Hb ->. unfold lohi. f_equal; [lia|]. f_equal. lia. Qed.
Lemma rusb_version_bytes n : n < 65536 -> lohi (rusb_version n) = [n / 16 mod 16; 10 * (n / 4096) + n / 256 mod 16].
Proof. intros Hn. apply version_bytes; [lia|lia|done]. Qed.
Lemma nusb_version_bytes n : n < 65536 -> lohi (nusb_version n) = [n / 16 mod 16; n / 256].
Proof. intros Hn. apply version_bytes; [lia|lia|done]. Qed.

Lemma rusb_shown dbg h next dh d r c : typed_real r -> typed_real_config c ->
  rusb_device dbg h (rusb_shows r) (rusb_shows_config c) next dh = Val d ->
  device_descriptor d = real_device_bytes (rusb_seen r) /\
  configuration_descriptor d = real_config_bytes (rusb_seen_config c) /\ len (configuration_descriptor d) < 65536.
Proof.
  intros (T1 & T2 & T3 & T4 & T5 & T6) Tc E. unfold rusb_device in E. apply obind_val in E as (fs & Ef & E).
  match type of E with context [rusb_add_string dbg h (rd_manufacturer_index _) ?d] => set (d0 := d) in E end.
  assert (Hr : forall i d x, rusb_add_string dbg h (maybe_index i) d = Val x -> exists o, (o = None <-> i = 0) /\ rusb_add_string dbg h (maybe_index i) d = add_name dbg o d).
  { intros i d' x. unfold maybe_index. destruct (N.eqb_spec i 0); cbn; [intros _; by exists None|].
    destruct (rh_string h i) as [s|]; [|done]. intros _. by exists (Some s). }
  apply obind_val in E as ([im d1] & E1 & E). apply obind_val in E as ([ip d2] & E2 & E). apply obind_val in E as ([is d3] & E3 & E).
  apply Val_inj in E. cbn [rusb_shows rd_manufacturer_index rd_product_index rd_serial_index] in E1, E2, E3.
  destruct (Hr _ _ _ E1) as (om & Hm & Em). destruct (Hr _ _ _ E2) as (op & Hp & Ep). destruct (Hr _ _ _ E3) as (os & Hs & Es).
  rewrite Em in E1. rewrite Ep in E2. rewrite Es in E3.
  destruct (three_numbered dbg d0 om op os eq_refl) as (d1' & d2' & pool & F1 & F2 & F3).
  rewrite F1 in E1. injection E1 as <- <-. rewrite F2 in E2. injection E2 as <- <-. rewrite F3 in E3. injection E3 as <- <-.
  destruct (numbered_of _ _ 0 Hm) as [N1 P1]. destruct (numbered_of _ _ (one_more om 0) Hp) as [N2 P2].
  destruct (numbered_of _ _ (one_more op (one_more om 0)) Hs) as [N3 _]. rewrite P2, P1 in N3. rewrite P1 in N2. rewrite N.add_0_l in *.
  subst d. rewrite P2, P1, N1, N2, N3. destruct Tc as (Tc1 & Tc2 & Tc3 & Tc4).
  destruct (rusb_intfs_shown (rq_interfaces c) next fs 0) as [Hb Hl]; [unfold len in Tc2; lia|done..|].
  split; [|apply (config_shown (fun n => n) (fun x => x)); [by right|done|exact Hb|exact Hl|done|done]].
  unfold device_descriptor, real_device_bytes, rusb_seen, with_versions, renumbered. cbn [rv_usb rv_class rv_subclass rv_protocol rv_packet rv_vendor rv_product rv_bcd rv_man rv_prod rv_serial rv_configs].
  rewrite !rusb_version_bytes by done.
  rewrite (lohi_u8 (rv_vendor r)), (lohi_u8 (rv_product r)) by done. subst d0. cbn. rewrite as_u16_small, as_u8_small by lia. done.
Qed.
Lemma nusb_shown dbg i o n next dh d r c : typed_real r -> typed_real_config c -> nusb_shows r i o -> nusb_shows_config c n ->
  nusb_device dbg i o n next dh = Val d ->
  device_descriptor d = real_device_bytes (nusb_seen r) /\
  configuration_descriptor d = real_config_bytes (nusb_seen_config c) /\ len (configuration_descriptor d) < 65536.
Proof.
  intros (T1 & T2 & T3 & T4 & T5 & T6) Tc (S1 & S2 & S3 & S4 & S5 & S6 & Hm & Hp & Hs & S7) [C1 C2] E. unfold nusb_device in E.
  apply obind_val in E as (fs & Ef & E). destruct (ni_speed i) as [sp|]; [|done].
  match type of E with context [nusb_add_string dbg (ni_manufacturer i) ?d] => set (d0 := d) in E end.
  change (nusb_add_string dbg) with (add_name dbg) in E.
  destruct (three_numbered dbg d0 (ni_manufacturer i) (ni_product_string i) (ni_serial i) eq_refl) as (d1' & d2' & pool & F1 & F2 & F3).
  rewrite F1 in E. cbn [obind] in E. rewrite F2 in E. cbn [obind] in E. rewrite F3 in E. cbn [obind] in E. apply Val_inj in E.
  destruct (numbered_of _ _ 0 Hm) as [N1 P1]. destruct (numbered_of _ _ (one_more (ni_manufacturer i) 0) Hp) as [N2 P2].
  destruct (numbered_of _ _ (one_more (ni_product_string i) (one_more (ni_manufacturer i) 0)) Hs) as [N3 _]. rewrite P2, P1 in N3. rewrite P1 in N2. rewrite N.add_0_l in *.
  subst d. rewrite P2, P1, N1, N2, N3. destruct Tc as (Tc1 & Tc2 & Tc3 & Tc4).
  destruct (nusb_intfs_shown (rq_interfaces c) (nc_interfaces n) next fs 0) as [Hb Hl]; [unfold len in Tc2; lia|done..|].
  split; [|apply (config_shown (fun n => n mod 2048) (fun _ => [])); [by left|done|exact Hb|exact Hl|done|done]].
  unfold device_descriptor, real_device_bytes, nusb_seen, with_versions, renumbered. cbn [rv_usb rv_class rv_subclass rv_protocol rv_packet rv_vendor rv_product rv_bcd rv_man rv_prod rv_serial rv_configs].
  rewrite nusb_version_bytes by done.
  rewrite (lohi_u8 (rv_vendor r)), (lohi_u8 (rv_product r)) by done. subst d0. cbn -[N.land N.div N.modulo N.shiftr as_u8].
  rewrite S1, S2, S3, S4, S5, S6, S7. rewrite (as_u8_small (rv_configs r)) by done.
  assert (Ev : as_u8 (N.land (N.shiftr (rv_bcd r) 4) 15) = rv_bcd r / 16 mod 16).
  { change 15 with (N.ones 4). rewrite N.land_ones, N.shiftr_div_pow2. change (2 ^ 4) with 16. apply as_u8_small. lia. }
  rewrite Ev, !shiftr_8, (as_u8_small (rv_bcd r / 256)) by lia. done.
Qed.
