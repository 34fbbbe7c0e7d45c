(** * Sessions of one client *)
From Verif Require Export SpecSession IsoProofs UrbProofs.

(** ** Fields of a submit that do not matter *)
Lemma same_urb_serve {H} dbg (w : world H) cur sb1 sb2 : same_urb sb1 sb2 ->
  (exists p w', serve_submit dbg w cur sb1 = (Panic p, w') /\ serve_submit dbg w cur sb2 = (Panic p, w')) \/
  (exists a n buf w', (forall sb, sb ∈ [sb1; sb2] -> serve_submit dbg w cur sb =
     (Val (RetSubmit (mkRetSubmit (reply_header (sb_header sb) USBIP_RET_SUBMIT) a n 0 0 0 buf [])), w'))).
Proof.
  intros (Ed & Ee & Et & Es & Edt). unfold serve_submit. destruct cur as [d|]; [|left; by exists PUnwrapNone, w].
  assert (Er : forall sb, sb ∈ [sb1; sb2] -> real_ep (sb_header sb) = real_ep (sb_header sb1)).
  { intros sb [-> |[-> |[]%elem_of_nil]%elem_of_cons]%elem_of_cons; [done|]. unfold real_ep. by rewrite Ed, Ee. }
  assert (Ex : forall sb, sb ∈ [sb1; sb2] -> sb_transfer_buffer_length sb = sb_transfer_buffer_length sb1 /\
    sb_setup sb = sb_setup sb1 /\ sb_data sb = sb_data sb1).
  { intros sb [-> |[-> |[]%elem_of_nil]%elem_of_cons]%elem_of_cons; done. }
  destruct (find_ep d (as_u8 (real_ep (sb_header sb1)))) as [[e i]|] eqn:Ef.
  - destruct (handle_urb dbg w d e i (sb_transfer_buffer_length sb1) (setup_parse (sb_setup sb1)) (sb_data sb1)) as [r w'] eqn:Eu.
    destruct r as [data|x|p].
    + right. exists 0, (as_u32 (len data)), data, w'. intros sb Hsb. rewrite (Er _ Hsb), Ef.
      destruct (Ex _ Hsb) as (-> & -> & ->). by rewrite Eu.
    + right. exists 1, 0, [], w'. intros sb Hsb. rewrite (Er _ Hsb), Ef. destruct (Ex _ Hsb) as (-> & -> & ->). by rewrite Eu.
    + left. exists p, w'. split; [done|]. rewrite (Er sb2), Ef by (right; left). destruct (Ex sb2) as (-> & -> & ->); [right; left|]. by rewrite Eu.
  - right. exists 1, 0, [], w. intros sb Hsb. by rewrite (Er _ Hsb), Ef.
Qed.

Lemma same_urb_bytes dbg h1 h2 a n buf : h_direction h1 = h_direction h2 ->
  (response_to_bytes dbg (RetSubmit (mkRetSubmit (reply_header h1 USBIP_RET_SUBMIT) a n 0 0 0 buf [])) = Panic PDebugAssert /\
   response_to_bytes dbg (RetSubmit (mkRetSubmit (reply_header h2 USBIP_RET_SUBMIT) a n 0 0 0 buf [])) = Panic PDebugAssert) \/
  exists tl, forall h, h ∈ [h1; h2] ->
   response_to_bytes dbg (RetSubmit (mkRetSubmit (reply_header h USBIP_RET_SUBMIT) a n 0 0 0 buf [])) =
     Val (header_to_bytes (reply_header h USBIP_RET_SUBMIT) ++ tl).
Proof.
  intros Ed. unfold response_to_bytes, debug_assert. cbn -[be32 header_to_bytes N.eqb].
  rewrite N.eqb_refl. cbn [negb andb]. rewrite <- Ed.
  destruct (dbg && negb (if h_direction h1 =? DIR_IN then n =? as_u32 (len buf) else n =? 0)) eqn:Ex; [left|right].
  - by rewrite andb_false_r.
  - eexists. intros h [-> |[-> |[]%elem_of_nil]%elem_of_cons]%elem_of_cons; rewrite ?andb_false_r, <- ?Ed, Ex; reflexivity.
Qed.

Lemma header_bytes_length h : length (header_to_bytes h) = 20%nat.
Proof. reflexivity. Qed.

Lemma same_urb_connection {H} dbg (st : cstate H) m1 m2 sb1 sb2 :
  cmd_layout dbg m1 (CmdSubmit sb1) -> cmd_layout dbg m2 (CmdSubmit sb2) -> same_urb sb1 sb2 ->
  (exists p st1, forall m inp fin, m ∈ [m1; m2] -> connection dbg st (m ++ inp) fin None = ([], EndPanic p, st1)) \/
  (exists b1 b2 st1, answers (CmdSubmit sb1) b1 /\ answers (CmdSubmit sb2) b2 /\ drop 20 b1 = drop 20 b2 /\
     forall inp fin out en st', connection dbg st1 inp fin None = (out, en, st') ->
       connection dbg st (m1 ++ inp) fin None = (b1 ++ out, en, st') /\
       connection dbg st (m2 ++ inp) fin None = (b2 ++ out, en, st')).
Proof.
  intros L1 L2 Su.
  destruct (same_urb_serve dbg (cs_world st) (current_device (cs_server st) (cs_current st)) sb1 sb2 Su)
    as [(p & w' & E1 & E2)|(a & n & buf & w' & E)].
  - left. exists p, (mkC (cs_server st) w' (cs_current st)).
    intros m inp fin [-> |[-> |[]%elem_of_nil]%elem_of_cons]%elem_of_cons; eapply connection_panic; try eassumption.
    1,3: cbn [serve]; rewrite ?E1, ?E2; reflexivity. all: reflexivity.
  - assert (S : forall sb, sb ∈ [sb1; sb2] -> serve dbg st (CmdSubmit sb) =
      (Val (RetSubmit (mkRetSubmit (reply_header (sb_header sb) USBIP_RET_SUBMIT) a n 0 0 0 buf [])), mkC (cs_server st) w' (cs_current st))).
    { intros sb Hsb. cbn [serve]. by rewrite (E _ Hsb). }
    pose proof (S sb1 ltac:(left)) as S1. pose proof (S sb2 ltac:(right; left)) as S2.
    destruct (same_urb_bytes dbg (sb_header sb1) (sb_header sb2) a n buf (proj1 Su)) as [[P1 P2]|[tl B]].
    + left. exists PDebugAssert, (mkC (cs_server st) w' (cs_current st)).
      intros m inp fin [-> |[-> |[]%elem_of_nil]%elem_of_cons]%elem_of_cons; eapply connection_panic; eassumption.
    + right. pose proof (B (sb_header sb1) ltac:(left)) as B1. pose proof (B (sb_header sb2) ltac:(right; left)) as B2.
      eexists _, _, _. split_and!.
      * apply (serve_answers dbg st); [exact (layout_u32 _ _ _ L1)|]. rewrite S1. exact B1.
      * apply (serve_answers dbg st); [exact (layout_u32 _ _ _ L2)|]. rewrite S2. exact B2.
      * rewrite !drop_app_alt; [done|by rewrite header_bytes_length..].
      * intros inp fin out en st' Ec. split; eapply connection_step; eassumption.
Qed.

(** ** Device records *)
Lemma devices_app dbg ds1 ds2 b : devices_to_bytes dbg (ds1 ++ ds2) = Val b ->
  exists b1 b2, devices_to_bytes dbg ds1 = Val b1 /\ devices_to_bytes dbg ds2 = Val b2 /\ b = b1 ++ b2.
Proof.
  revert b. induction ds1 as [|d ds1 IH]; intros b; cbn [app devices_to_bytes].
  - intros E. by exists [], b.
  - intros E. apply obind_val in E as (x & Ex & E). apply obind_val in E as (y & Ey & E). apply Val_inj in E; subst b.
    destruct (IH _ Ey) as (b1 & b2 & E1 & E2 & ->). exists (x ++ b1), b2. rewrite Ex, E1, E2. cbn. by rewrite app_assoc.
Qed.
Lemma join4 {A} (g : A -> list N) l : (forall x, length (g x) = 4%nat) -> length (mjoin (g <$> l)) = (4 * length l)%nat.
Proof.
  intros Hg. induction l as [|x l IH]; [done|]. change (mjoin (g <$> x :: l)) with (g x ++ mjoin (g <$> l)).
  rewrite app_length, IH, Hg. cbn. lia.
Qed.
Lemma devices_length dbg ds b : devices_to_bytes dbg ds = Val b ->
  (12 + length b)%nat = record_offset ds.
Proof.
  unfold record_offset. revert b. induction ds as [|d ds IH]; intros b; cbn [devices_to_bytes].
  - intros E. apply Val_inj in E; subst b. done.
  - intros E. apply obind_val in E as (x & Ex & E). apply obind_val in E as (y & Ey & E). apply Val_inj in E; subst b.
    specialize (IH _ Ey). apply obind_val in Ex as (z & Ez & Ex). apply Val_inj in Ex; subst x.
    apply device_bytes_length in Ez. rewrite !app_length, Ez. cbn [fmap list_fmap sum_list].
    rewrite (join4 (fun i => [if_class i; if_subclass i; if_protocol i; 0])) by done. cbn -[Nat.mul Nat.add] in *. lia.
Qed.

Lemma first_such_app {A} P (l : list A) d l1 l2 : first_such P l d l1 l2 -> l = l1 ++ d :: l2.
Proof. by intros (-> & _). Qed.

Lemma records_agree {H} dbg (st : cstate H) m1 m2 n1 n2 f d l1 l2 :
  cmd_layout dbg m1 (OpReqDevlist n1) -> cmd_layout dbg m2 (OpReqImport n2 f) ->
  first_such (fun d => field_names f (d_bus_id d)) (sv_available (cs_server st)) d l1 l2 ->
  Forall fits (sv_available (cs_server st)) ->
  exists b1 b2 rc, length rc = 312%nat /\ length b2 = 320%nat /\ bytes_at b2 8 rc /\ bytes_at b1 (record_offset l1) rc /\
    answers (OpReqDevlist n1) b1 /\ answers (OpReqImport n2 f) b2 /\
    forall inp fin out en st',
      connection dbg (mkC (mkServer (l1 ++ l2) (<[d_bus_id d := d]> (sv_used (cs_server st)))) (cs_world st) (Some (d_bus_id d)))
        inp fin None = (out, en, st') ->
      connection dbg st (m1 ++ m2 ++ inp) fin None = (b1 ++ b2 ++ out, en, st').
Proof.
  intros L1 L2 Hf Hfit.
  destruct (proj2 (response_total dbg (op_rep_devlist (sv_available (cs_server st))))) as [b1 Hb1]; [by intros _|].
  assert (Ei : import_device (cs_server st) f = (mkServer (l1 ++ l2) (<[d_bus_id d := d]> (sv_used (cs_server st))), Some d)).
  { apply import_iff. by exists l1, l2. }
  destruct (proj2 (response_total dbg (op_rep_import_success d))) as [b2 Hb2].
  { intros _. cbn. destruct Hf as (Ea & _). rewrite Ea in Hfit. apply Forall_app in Hfit as [_ Hx%Forall_cons]. apply Hx. }
  assert (Hs2 : serve dbg st (OpReqImport n2 f) =
    (Val (op_rep_import_success d), mkC (mkServer (l1 ++ l2) (<[d_bus_id d := d]> (sv_used (cs_server st)))) (cs_world st) (Some (d_bus_id d)))).
  { cbn [serve]. by rewrite Ei. }
  assert (A1 : answers (OpReqDevlist n1) b1) by (apply (serve_answers dbg st); [done|exact Hb1]).
  assert (A2 : answers (OpReqImport n2 f) b2) by (apply (serve_answers dbg st); [done|rewrite Hs2; exact Hb2]).
  pose proof Hb1 as C1. pose proof Hb2 as C2. cbn [op_rep_devlist op_rep_import_success response_to_bytes] in C1, C2.
  apply obind_val in C1 as (x1 & E1 & C1). apply Val_inj in C1. apply obind_val in C2 as (rc & E2 & C2). apply Val_inj in C2.
  rewrite (first_such_app _ _ _ _ _ Hf) in E1. apply devices_app in E1 as (y1 & y2 & E1 & E3 & ->).
  cbn [devices_to_bytes] in E3. apply obind_val in E3 as (z & E3 & E4). apply obind_val in E4 as (z2 & _ & E4).
  apply Val_inj in E4. unfold device_to_bytes_with_interfaces in E3. rewrite E2 in E3. cbn [obind] in E3. apply Val_inj in E3.
  pose proof (device_bytes_length _ _ _ E2) as Hl. pose proof (devices_length _ _ _ E1) as Ho.
  exists b1, b2, rc. split_and!; [done| | | |done|done|].
  - subst b2. rewrite !app_length. cbn. lia.
  - subst b2. unfold bytes_at. rewrite drop_app_ge by (cbn; lia). rewrite drop_app_ge by (cbn; lia).
    rewrite drop_app_ge by (cbn; lia). cbn -[take]. by rewrite drop_0, take_ge by lia.
  - subst b1. rewrite <- Ho. unfold bytes_at.
    replace (be16 USBIP_VERSION ++ be16 OP_REP_DEVLIST ++ be32 0 ++ be32 (as_u32 (len (sv_available (cs_server st)))) ++ y1 ++ y2)
      with ((be16 USBIP_VERSION ++ be16 OP_REP_DEVLIST ++ be32 0 ++ be32 (as_u32 (len (sv_available (cs_server st)))) ++ y1) ++ y2)
      by (by rewrite <- !app_assoc).
    rewrite drop_app_alt by (rewrite !app_length; cbn; lia).
    rewrite <- E4, <- E3, <- !app_assoc. by rewrite take_app.
  - intros inp fin out en st' Ec. eapply connection_step; [exact L1|reflexivity|exact Hb1|].
    eapply connection_step; [exact L2|exact Hs2|exact Hb2|exact Ec].
Qed.

(** ** Enumeration *)
Lemma enum_one {H} dbg (st : cstate H) d m sb s : enumerable d -> imported st d ->
  all_u8 m = true -> cmd_layout dbg m (CmdSubmit sb) -> setup_of (sb_setup sb) s -> enum_request d (sb_header sb) s ->
  exists data, enum_reply d s data /\ replies dbg st m sb data st.
Proof.
  intros (Ht & Hfit & Hin & Hia & Hout & Hoa & Hcl & Hcs & Hst) Hd Hm HL Hs [(Hdir & Hep & ty & ix & Hg & Hty)|(Hdir & Hep & R1 & R2 & R3)].
  - assert (HC : control_in dbg st m sb d s).
    { split; try assumption. exists (d_ep0_in d), None. split; [|done]. apply addr_ep0_in. rewrite Hin. unfold ep_byte. by rewrite Hdir, Hep. }
    destruct Hty as [-> |[-> |[-> |[-> Hix]]]].
    + destruct (device_desc_reply dbg st m sb d s ix HC Ht Hg) as (desc & Hl & Hr). eexists. split; [by eapply er_device|done].
    + destruct (config_desc_reply dbg st m sb d s ix HC Ht Hg Hcl Hcs) as (desc & Hl & Hv & Hu & Hr). eexists. split; [by eapply er_config|done].
    + destruct (qualifier_reply dbg st m sb d s ix HC Hg) as (desc & Hl & Hr). eexists. split; [by eapply er_qualifier|done].
    + destruct (decide (ix = 0)) as [-> |H0].
      * eexists. split; [by apply er_languages|]. by apply language_reply with (d := d).
      * destruct Hix as [?|[str Hp]]; [done|].
        assert (Hv : is_rstring str = true).
        { unfold typed_device in Ht. destruct_and! Ht. match goal with M : map_Forall _ _ |- _ => by destruct (M _ _ Hp) end. }
        destruct (string_desc_reply dbg st m sb d s ix str HC Hg H0 Hp Hv (Hst _ _ Hp)) as (desc & Hl & _ & Hr).
        eexists. split; [by eapply er_string|done].
  - exists []. split; [by apply er_set_configuration|].
    assert (Ha : addressed d (ep_byte (sb_header sb)) (d_ep0_out d) None).
    { unfold ep_byte. rewrite Hdir, Hep. cbn. apply addr_ep0_out; [by rewrite Hin|done]. }
    assert (Eu : handle_urb dbg (cs_world st) d (d_ep0_out d) None (sb_transfer_buffer_length sb) s (sb_data sb) = (UOk [], cs_world st)).
    { unfold handle_urb. rewrite Hoa. unfold ep_direction. rewrite Hout. cbn -[limit_to]. rewrite R1, R2, R3. reflexivity. }
    pose proof (urb_replies dbg st m sb d _ _ s _ _ Hm HL Hd Ha Hs Eu) as R. rewrite same_state in R. apply R. right; right. reflexivity.
Qed.

Lemma enum_all {H} dbg (st : cstate H) d inp l : enumerable d -> imported st d -> enumeration dbg d inp l ->
  forall rest fin, exists bs, Forall2 (fun '(sb, s) b => exists data, enum_reply d s data /\ submit_ok_reply (sb_header sb) data b) l bs /\
  forall out en st', connection dbg st rest fin None = (out, en, st') ->
    connection dbg st (inp ++ rest) fin None = (mjoin bs ++ out, en, st').
Proof.
  intros He Hd. induction 1 as [|m sb s inp l Hm HL Hs Hr _ IH]; intros rest fin.
  - exists []. split; [constructor|done].
  - destruct (IH rest fin) as (bs & F & C). destruct (enum_one dbg st d m sb s He Hd Hm HL Hs Hr) as (data & Hdata & R).
    destruct (R (inp ++ rest) fin) as (b & Hb & Cb). exists (b :: bs). split; [constructor; [by exists data|done]|].
    intros out en st' Ec. cbn. rewrite <- !app_assoc. apply Cb. by apply C.
Qed.

Lemma import_step {H} dbg (st : cstate H) m n f d l1 l2 : cmd_layout dbg m (OpReqImport n f) ->
  first_such (fun d => field_names f (d_bus_id d)) (sv_available (cs_server st)) d l1 l2 -> fits d -> typed_device d ->
  exists b, (length b = 320%nat /\ u16_at b 0 0x111 /\ u16_at b 2 3 /\ u32_at b 4 0 /\ dev_record_at b 8 (record_of d)) /\
    forall inp fin out en st',
      connection dbg (mkC (mkServer (l1 ++ l2) (<[d_bus_id d := d]> (sv_used (cs_server st)))) (cs_world st) (Some (d_bus_id d)))
        inp fin None = (out, en, st') ->
      connection dbg st (m ++ inp) fin None = (b ++ out, en, st').
Proof.
  intros HL Hf Hfit Ht. destruct (proj2 (response_total dbg (op_rep_import_success d))) as [b Hb]; [done|].
  exists b. split; [exact (import_ok_bytes dbg d b Ht Hb)|]. intros inp fin out en st' Ec.
  eapply (connection_step dbg st m _ _ _ (Val (op_rep_import_success d))); [exact HL| |exact Hb|exact Ec]. cbn [serve].
  by rewrite (proj2 (import_iff _ _ _ _) (ex_intro _ l1 (ex_intro _ l2 (conj Hf eq_refl)))).
Qed.

(** ** Isochronous replies *)
Lemma u32_at_inj b o v v' : u32_at b o v -> u32_at b o v' -> v = v'.
Proof. intros (a1 & a2 & a3 & a4 & ?) (c1 & c2 & c3 & c4 & ?). destruct_and!. congruence. Qed.
Lemma reply_packets {H} dbg (st : cstate H) m sb inp fin out en st' :
  cmd_layout dbg m (CmdSubmit sb) -> connection dbg st (m ++ inp) fin None = (out, en, st') ->
  (out = [] /\ exists p, en = EndPanic p) \/
  (exists b out' n, out = b ++ out' /\ answers (CmdSubmit sb) b /\ u32_at b 24 (n mod 4294967296) /\ length b = (48 + N.to_nat n)%nat /\
     (u32_at b 32 (sb_number_of_packets sb) <-> sb_number_of_packets sb = 0)).
Proof.
  intros HL E.
  destruct (same_urb_connection dbg st m m sb sb HL HL) as [(p & st1 & C)|(b & b' & st1 & A & _ & _ & C)]; [done| |].
  - rewrite (C m) in E by left. injection E as <- <- <-. left. eauto.
  - destruct (connection dbg st1 inp fin None) as [[o e] s'] eqn:Ec. destruct (C _ _ _ _ _ Ec) as [C1 _].
    rewrite C1 in E. injection E as <- <- <-. right. exists b, o.
    assert (X : exists n, u32_at b 24 (n mod 4294967296) /\ length b = (48 + N.to_nat n)%nat /\ u32_at b 32 0).
    { destruct A as [(data & Hd)|Hd]; unfold submit_ok_reply, submit_fail_reply, ret_submit_layout in Hd; cbn in Hd; destruct_and! Hd.
      - exists (len data). split_and!; [done| |done]. unfold len. lia.
      - exists 0. split_and!; done. }
    destruct X as (n & X1 & X2 & X3). exists n. split_and!; try done. split; intros Hn; [|by rewrite Hn].
    by eapply u32_at_inj.
Qed.
