(** * A Linux client stays in step: proofs *)
From Verif Require Import TransferProofs DevProofs SysFacts NetLive.
From Verif Require Export SpecLinux WireProofs SpecTransfer.

(** ** Words of a message *)
Lemma u32_word b i v : u32_at b (4 * i) v -> word b i = v.
Proof.
  intros (x & y & z & u & L1 & L2 & L3 & L4 & _ & _ & _ & _ & ->). unfold word.
  assert (E : take 4 (drop (4 * i) b) = [x; y; z; u]); [|by rewrite E].
  rewrite (drop_S _ _ _ L1). cbn [take]. f_equal.
  rewrite Nat.add_1_r in L2. rewrite (drop_S _ _ _ L2). cbn [take]. f_equal.
  replace (4 * i + 2)%nat with (S (S (4 * i))) in L3 by lia. rewrite (drop_S _ _ _ L3). cbn [take]. f_equal.
  replace (4 * i + 3)%nat with (S (S (S (4 * i)))) in L4 by lia. rewrite (drop_S _ _ _ L4). cbn [take]. done.
Qed.
Lemma word_prefix a x i : (4 * i + 4 <= length a)%nat -> word (a ++ x) i = word a i.
Proof.
  intros Hl. unfold word. rewrite drop_app_le by lia. rewrite take_app_le; [done|]. rewrite drop_length. lia.
Qed.
Lemma u32_word_app b x i v : u32_at b (4 * i) v -> word (b ++ x) i = v.
Proof. intros U. apply u32_word. by apply u32_at_app. Qed.
(** Of a beginning of the message that is long enough. *)
Lemma u32_word_cut b a x i v : b = a ++ x -> (4 * i + 4 <= length a)%nat -> u32_at b (4 * i) v -> word a i = v.
Proof. intros -> Hl U. rewrite <- (word_prefix a x i Hl). by apply u32_word. Qed.

(** ** The tables of the driver *)
Definition vhci_of (cs : list command) : vhci := mkVhci (omap note_urb cs) (omap note_unlink cs).
Fixpoint pend_ok (l : list command) : Prop :=
  match l with
  | [] => True
  | c :: r => pend_ok r /\
      match c with
      | CmdSubmit s => h_seqnum (sb_header s) ∉ (u_seq <$> omap note_urb r)
      | CmdUnlink h us => h_seqnum h ∉ (omap note_unlink r).*1 /\ us ∉ (u_seq <$> omap note_urb r)
      | _ => False
      end
  end.
Lemma remember_of cs c : remember (vhci_of cs) c = vhci_of (cs ++ [c]).
Proof. unfold remember, vhci_of. cbn [v_urbs v_unlinks]. rewrite !omap_app. f_equal; f_equal; cbn; by destruct c. Qed.
Lemma pend_ok_snoc cs c : pend_ok cs -> fresh_seq (vhci_of cs) c -> pend_ok (cs ++ [c]).
Proof.
  unfold vhci_of. induction cs as [|x cs IH]; intros P F.
  - cbn. split; [done|]. destruct c; cbn in F |- *; try done; repeat split; apply not_elem_of_nil.
  - destruct P as [P Px]. cbn [app pend_ok].
    assert (F' : fresh_seq (vhci_of cs) c).
    { destruct c as [| |s|h us]; cbn [fresh_seq vhci_of v_urbs v_unlinks] in F |- *; try done.
      - destruct F as [F1 F2]. split.
        + intros Hx. apply F1. destruct x; cbn [omap list_omap note_urb]; try done. cbn [fmap list_fmap]. by right.
        + intros Hx. apply F2. destruct x; cbn [omap list_omap note_unlink]; try done. cbn [fmap list_fmap]. by right.
      - intros Hx. apply F. destruct x; cbn [omap list_omap note_unlink]; try done. cbn [fmap list_fmap]. by right. }
    split; [by apply IH|]. destruct x as [| |sx|hx ux]; try done.
    + rewrite omap_app, fmap_app. intros [Hx|Hx]%elem_of_app; [done|].
      destruct c as [| |s|h us]; cbn in Hx; try (by apply elem_of_nil in Hx).
      apply elem_of_list_singleton in Hx. destruct F as [F _]. apply F. cbn. rewrite Hx. left.
    + rewrite !omap_app, !fmap_app. destruct Px as [P1 P2]. split.
      * intros [Hx|Hx]%elem_of_app; [done|]. destruct c as [| |s|h us]; cbn in Hx; try (by apply elem_of_nil in Hx).
        apply elem_of_list_singleton in Hx. apply F. cbn. rewrite Hx. left.
      * intros [Hx|Hx]%elem_of_app; [done|]. destruct c as [| |s|h us]; cbn in Hx; try (by apply elem_of_nil in Hx).
        apply elem_of_list_singleton in Hx. destruct F as [_ F]. apply F. cbn. rewrite Hx. left.
Qed.
Lemma find_head (s : N) u us : u_seq u = s -> find (fun x => u_seq x =? s) (u :: us) = Some u.
Proof. intros <-. cbn. by rewrite N.eqb_refl. Qed.
Lemma filter_urbs (s : N) us : s ∉ (u_seq <$> us) -> List.filter (fun x => negb (u_seq x =? s)) us = us.
Proof.
  induction us as [|u us IH]; intros Hn; [done|]. cbn in Hn |- *. apply not_elem_of_cons in Hn as [H1 H2].
  destruct (N.eqb_spec (u_seq u) s); [congruence|]. cbn. f_equal. by apply IH.
Qed.
Lemma filter_unlinks (s : N) (us : list (N * N)) : s ∉ us.*1 -> List.filter (fun x => negb (x.1 =? s)) us = us.
Proof.
  induction us as [|u us IH]; intros Hn; [done|]. cbn in Hn |- *. apply not_elem_of_cons in Hn as [H1 H2].
  destruct (N.eqb_spec u.1 s); [congruence|]. cbn. f_equal. by apply IH.
Qed.
Lemma find_none_urbs (s : N) us : s ∉ (u_seq <$> us) -> find (fun x => u_seq x =? s) us = None.
Proof.
  induction us as [|u us IH]; intros Hn; [done|]. cbn in Hn |- *. apply not_elem_of_cons in Hn as [H1 H2].
  destruct (N.eqb_spec (u_seq u) s); [congruence|]. by apply IH.
Qed.

(** ** One message *)
Lemma reply_words h st al np data b : ret_submit_layout b (mkRetSubmit (echo 3 h) st al 0 np 0 data []) ->
  length b = (48 + length data)%nat /\ u32_at b (4 * 0) 3 /\ u32_at b (4 * 1) (h_seqnum h) /\ u32_at b (4 * 5) st /\
  u32_at b (4 * 6) al /\ u32_at b (4 * 8) np /\ drop 48 b = data.
Proof.
  intros (Hl & (H0 & H1 & _) & Hs & Ha & _ & Hn & _ & _ & Hd & _). cbn in *. split_and!; auto; [lia|].
  unfold bytes_at in Hd. rewrite take_ge in Hd; [done|]. rewrite drop_length. lia.
Qed.

(** The driver's reading of the reply to the URB at the head of its list. *)
Definition rx_reads (v : vhci) (c : command) (b : list N) (v' : vhci) (ns : list l_note) : Prop :=
  (forall x, rx_pdu v (b ++ x) = Understood v' ns (length b)) /\
  (forall a x, b = a ++ x -> x <> [] -> rx_pdu v a = NeedMore).

Lemma rx_reads_submit sb rest b : answers (CmdSubmit sb) b -> takes_up sb b ->
  h_seqnum (sb_header sb) ∉ (u_seq <$> omap note_urb rest) ->
  exists n, told (CmdSubmit sb, b) n /\ rx_reads (vhci_of (CmdSubmit sb :: rest)) (CmdSubmit sb) b (vhci_of rest) [n].
Proof.
  intros A T Hn.
  assert (X : forall st data, ret_submit_layout b (mkRetSubmit (echo 3 (sb_header sb)) st (len data mod 4294967296) 0 0 0 data []) ->
    rx_reads (vhci_of (CmdSubmit sb :: rest)) (CmdSubmit sb) b (vhci_of rest) [GivenBack (h_seqnum (sb_header sb)) st data]).
  { intros st data L. destruct (reply_words _ _ _ _ _ _ L) as (Hl & W0 & W1 & W5 & W6 & W8 & Hd). clear L A.
    assert (Hlb : len b = 48 + len data) by (unfold len; lia).
    set (u := mkLurb (h_seqnum (sb_header sb)) (h_direction (sb_header sb) =? 0) (sb_transfer_buffer_length sb)
                (negb (sb_number_of_packets sb =? 0) && negb (sb_number_of_packets sb =? 4294967295))).
    assert (Eu : v_urbs (vhci_of (CmdSubmit sb :: rest)) = u :: omap note_urb rest) by done.
    assert (Ef : List.filter (fun x => negb (u_seq x =? h_seqnum (sb_header sb))) (u :: omap note_urb rest) = omap note_urb rest).
    { cbn. rewrite N.eqb_refl. cbn. by apply filter_urbs. }
    assert (Hsize : (if u_out u || (2147483648 <=? len data mod 4294967296) then 0 else len data mod 4294967296) = len data
                    /\ len data <= u_len u).
    { unfold takes_up in T. cbn [u_out u_len u]. destruct (N.eqb_spec (h_direction (sb_header sb)) 0) as [Hd0|Hd0].
      - assert (Z : len data = 0) by (unfold len in *; lia). rewrite Z. cbn. lia.
      - cbn [orb]. rewrite N.mod_small by lia. destruct (N.leb_spec 2147483648 (len data)); lia. }
    destruct Hsize as [Hs1 Hs2]. split.
    - intros x. unfold rx_pdu. rewrite app_length. destruct (Nat.ltb_spec (length b + length x) 48); [lia|].
      rewrite (u32_word_app _ _ _ _ W0). cbn [N.eqb Pos.eqb]. unfold rx_submit. rewrite (u32_word_app _ _ _ _ W1), Eu.
      rewrite find_head by done. rewrite (u32_word_app _ _ _ _ W6), (u32_word_app _ _ _ _ W8), (u32_word_app _ _ _ _ W5), Hs1.
      destruct (N.ltb_spec (u_len u) (len data)); [lia|].
      replace (if u_iso u then 0 else 0) with 0 by (by destruct (u_iso u)). cbn zeta.
      rewrite app_length. destruct (Nat.ltb_spec (length b + length x) (48 + N.to_nat (len data) + 16 * N.to_nat 0)); [unfold len in *; lia|].
      cbn [N.eqb negb andb]. rewrite Ef.
      assert (Hlb' : (48 + N.to_nat (len data) + 16 * N.to_nat 0)%nat = length b) by (unfold len; lia). rewrite Hlb'.
      rewrite drop_app_le by lia. rewrite Hd. rewrite take_app_alt by (unfold len; lia). done.
    - intros a x E Hx. unfold rx_pdu. destruct (Nat.ltb_spec (length a) 48) as [|H48]; [done|].
      rewrite (u32_word_cut _ _ _ 0%nat _ E ltac:(lia) W0). cbn [N.eqb Pos.eqb]. unfold rx_submit.
      rewrite (u32_word_cut _ _ _ 1%nat _ E ltac:(lia) W1), Eu, find_head by done.
      rewrite (u32_word_cut _ _ _ 6%nat _ E ltac:(lia) W6), (u32_word_cut _ _ _ 8%nat _ E ltac:(lia) W8), Hs1.
      destruct (N.ltb_spec (u_len u) (len data)); [lia|].
      replace (if u_iso u then 0 else 0) with 0 by (by destruct (u_iso u)). cbn zeta.
      destruct (Nat.ltb_spec (length a) (48 + N.to_nat (len data) + 16 * N.to_nat 0)) as [|Hge]; [done|].
      exfalso. assert (length x <> 0%nat) by (by destruct x). rewrite E, app_length in Hl. unfold len in *. lia. }
  destruct A as [(data & L)|L].
  - eexists. split; [left; eauto|]. by apply X.
  - eexists. split; [right; eauto|]. by apply (X 1 []).
Qed.
Lemma rx_reads_unlink h us rest b : answers (CmdUnlink h us) b ->
  h_seqnum h ∉ (omap note_unlink rest).*1 -> us ∉ (u_seq <$> omap note_urb rest) ->
  exists n, told (CmdUnlink h us, b) n /\ rx_reads (vhci_of (CmdUnlink h us :: rest)) (CmdUnlink h us) b (vhci_of rest) [n].
Proof.
  intros (Hl & (W0 & W1 & _) & W5 & _) Hn1 Hn2. cbn [echo h_command h_seqnum] in *.
  change 0%nat with (4 * 0)%nat in W0. change 4%nat with (4 * 1)%nat in W1. change 20%nat with (4 * 5)%nat in W5.
  exists (Unlinked (h_seqnum h) 0). split; [done|]. split.
  - intros x. unfold rx_pdu. rewrite app_length. destruct (Nat.ltb_spec (length b + length x) 48); [lia|].
    rewrite (u32_word_app _ _ _ _ W0). cbn [N.eqb Pos.eqb]. unfold rx_unlink. rewrite (u32_word_app _ _ _ _ W1), (u32_word_app _ _ _ _ W5).
    change (v_unlinks (vhci_of (CmdUnlink h us :: rest))) with ((h_seqnum h, us) :: omap note_unlink rest).
    change (v_urbs (vhci_of (CmdUnlink h us :: rest))) with (omap note_urb rest). cbn [find fst List.filter].
    rewrite N.eqb_refl. cbn [negb]. rewrite find_none_urbs, filter_unlinks by done. by rewrite Hl.
  - intros a x E Hx. unfold rx_pdu. destruct (Nat.ltb_spec (length a) 48); [done|]. exfalso.
    assert (length x <> 0%nat) by (by destruct x). rewrite E, app_length in Hl. lia.
Qed.
Lemma rx_reads_pend c rest b : pend_ok (c :: rest) -> answers c b -> (forall sb, c = CmdSubmit sb -> takes_up sb b) ->
  exists n, told (c, b) n /\ rx_reads (vhci_of (c :: rest)) c b (vhci_of rest) [n].
Proof.
  intros [_ P] A T. destruct c as [| |s|h us]; try done.
  - apply rx_reads_submit; auto.
  - destruct P. by apply rx_reads_unlink.
Qed.
Lemma answers_length c b : answers c b -> (0 < length b)%nat.
Proof.
  destruct c as [| |s|h us]; cbn.
  - intros ((x & y & L & _) & _). apply lookup_lt_Some in L. lia.
  - intros (_ & _ & [[-> _]|[-> _]]); lia.
  - intros [(data & L)|L]; apply reply_words in L as [L _]; lia.
  - intros (L & _). lia.
Qed.

(** ** Everything that has arrived *)
Definition good_reply (cb : command * list N) : Prop :=
  answers cb.1 cb.2 /\ forall sb, cb.1 = CmdSubmit sb -> takes_up sb cb.2.

Lemma prefix_app_cases {A} (x b y : list A) : x `prefix_of` b ++ y ->
  (exists x', x = b ++ x' /\ x' `prefix_of` y) \/ (exists z, z <> [] /\ b = x ++ z).
Proof.
  intros (z & E). apply app_eq_inv in E as [(k & E1 & E2)|(k & E1 & E2)].
  - destruct k as [|a k].
    + left. exists []. rewrite app_nil_r in E1. rewrite app_nil_r. split; [done|apply prefix_nil].
    + right. exists (a :: k). done.
  - left. exists k. split; [done|]. by exists z.
Qed.

Lemma settle_attached L : forall rest x notes fuel,
  Forall good_reply L -> pend_ok (L.*1 ++ rest) -> x `prefix_of` mjoin L.*2 -> (length x <= fuel)%nat ->
  exists D L' x' ns, L = D ++ L' /\ x = mjoin D.*2 ++ x' /\ Forall2 told D ns /\
    l_settle fuel (mkClient (Attached (vhci_of (L.*1 ++ rest))) x notes) =
      mkClient (Attached (vhci_of (L'.*1 ++ rest))) x' (notes ++ ns) /\
    match L' with [] => x' = [] | cb :: _ => (length x' < length cb.2)%nat end.
Proof.
  induction L as [|[c b] L IH]; intros rest x notes fuel G P X Hf.
  - apply prefix_nil_inv in X. subst x. exists [], [], [], []. split; [done|]. split; [done|]. split; [constructor|].
    rewrite app_nil_r. split; [by destruct fuel|done].
  - cbn [fmap list_fmap fst snd mjoin list_join] in X. apply Forall_cons_1 in G as [[A T] G].
    cbn [fmap list_fmap fst snd app] in P, A, T.
    destruct (rx_reads_pend c (L.*1 ++ rest) b P A T) as (n & Tn & R1 & R2).
    apply prefix_app_cases in X as [(x' & -> & X)|(z & Hz & Eb)].
    + pose proof (answers_length _ _ A) as Hb. rewrite app_length in Hf. destruct fuel as [|fuel]; [lia|].
      destruct (IH rest x' (notes ++ [n]) fuel G (proj1 P) X ltac:(lia)) as (D & L' & x2 & ns & -> & -> & F & E & Hs).
      exists ((c, b) :: D), L', x2, (n :: ns). split; [done|]. split; [|split; [|split; [|done]]].
      * cbn [fmap list_fmap snd mjoin list_join]. by rewrite app_assoc.
      * by constructor.
      * cbn [l_settle]. unfold l_step at 1. cbn [l_st l_unread l_notes fmap list_fmap fst app].
        rewrite (R1 (mjoin D.*2 ++ x2)). rewrite drop_app. rewrite E. by rewrite <- app_assoc.
    + exists [], ((c, b) :: L), x, []. split; [done|]. split; [done|]. split; [constructor|]. rewrite app_nil_r.
      assert (El : l_step (mkClient (Attached (vhci_of (((c, b) :: L).*1 ++ rest))) x notes) = None).
      { unfold l_step. cbn [l_st l_unread]. change (((c, b) :: L).*1 ++ rest) with (c :: L.*1 ++ rest).
        by rewrite (R2 x z Eb Hz). }
      split; [destruct fuel; [done|]; cbn [l_settle]; by rewrite El|].
      cbn [snd]. rewrite Eb, app_length. destruct z; [done|]. cbn. lia.
Qed.

Lemma settle_attaching b x notes fuel n f : answers (OpReqImport n f) b -> x `prefix_of` b -> (length x <= fuel)%nat ->
  (length x < length b)%nat /\ l_settle fuel (mkClient Attaching x notes) = mkClient Attaching x notes \/
  x = b /\ length b = 8%nat /\ l_settle fuel (mkClient Attaching x notes) = mkClient Refused [] notes \/
  x = b /\ length b = 320%nat /\ l_settle fuel (mkClient Attaching x notes) = mkClient (Attached (vhci_of [])) [] notes.
Proof.
  intros (W0 & W1 & Hb) (z & Ez) Hf.
  assert (Hw : (4 <= length x)%nat -> word x 0 = 0x01110003).
  { intros Hx. destruct W0 as (x0 & x1 & L0 & L1 & _ & _ & E01), W1 as (x2 & x3 & L2 & L3 & _ & _ & E23).
    rewrite <- (word_prefix x z 0), <- Ez by lia.
    cbn [Nat.add] in *. unfold word. cbn [Nat.mul]. rewrite drop_0.
    destruct b as [|y0 [|y1 [|y2 [|y3 b]]]]; try discriminate. cbn in L0, L1, L2, L3. cbn [take firstn].
    injection L0 as ->. injection L1 as ->. injection L2 as ->. injection L3 as ->. rewrite take_0. lia. }
  assert (Hn : l_step (mkClient Attaching x notes) = None -> l_settle fuel (mkClient Attaching x notes) = mkClient Attaching x notes).
  { intros E. destruct fuel; [done|]. cbn [l_settle]. by rewrite E. }
  assert (Hlen : length b = (length x + length z)%nat) by (rewrite Ez; apply app_length).
  destruct (Nat.ltb_spec (length x) 8) as [H8|H8].
  { left. split; [destruct Hb as [[Hl _]|[Hl _]]; lia|]. apply Hn. unfold l_step. cbn [l_st l_unread].
    by destruct (Nat.ltb_spec (length x) 8); [|lia]. }
  specialize (Hw ltac:(lia)).
  destruct fuel as [|fuel]; [lia|].
  destruct Hb as [[Hl W]|[Hl W]]; (assert (W2 : word x 1 = _) by (eapply (u32_word_cut b x z 1); [done|lia|exact W])).
  - destruct (Nat.ltb_spec (length x) 320) as [Hs|Hs].
    + left. split; [lia|]. apply Hn. unfold l_step. cbn [l_st l_unread]. destruct (Nat.ltb_spec (length x) 8); [lia|].
      rewrite Hw, W2. cbn [N.eqb Pos.eqb negb]. destruct (Nat.ltb_spec (length x) 320); [done|lia].
    + right. right. assert (z = []) as -> by (apply nil_length_inv; lia). rewrite app_nil_r in Ez. subst x. split_and!; auto.
      cbn [l_settle]. unfold l_step at 1. cbn [l_st l_unread l_notes]. destruct (Nat.ltb_spec (length b) 8); [lia|].
      rewrite Hw, W2. cbn [N.eqb Pos.eqb negb]. destruct (Nat.ltb_spec (length b) 320); [lia|].
      rewrite drop_ge by lia. by destruct fuel.
  - right. left. assert (z = []) as -> by (apply nil_length_inv; lia). rewrite app_nil_r in Ez. subst x. split_and!; auto.
    cbn [l_settle]. unfold l_step at 1. cbn [l_st l_unread l_notes]. destruct (Nat.ltb_spec (length b) 8); [lia|].
    rewrite Hw, W2. cbn [N.eqb Pos.eqb negb]. by destruct fuel.
Qed.

(** ** The session *)
Lemma layout_weaken m c : cmd_layout true m c -> forall dbg, cmd_layout dbg m c.
Proof. intros L dbg. destruct L; econstructor; eauto. Qed.
Lemma layout_nonempty dbg m c : cmd_layout dbg m c -> m <> [].
Proof. intros L ->. destruct L; cbn in *; lia. Qed.
Lemma messages_prefix dbg a cs r : messages dbg a cs r -> forall z cs', messages dbg (a ++ z) cs' [] -> cs `prefix_of` cs'.
Proof.
  induction 1 as [rest|m c inp cs rest L _ IH]; intros z cs' M'; [apply prefix_nil|].
  remember ((m ++ inp) ++ z) as x eqn:Ex. remember (@nil N) as y eqn:Ey.
  destruct M' as [r'|m' c' inp' cs' r' L' M'']; subst.
  - symmetry in Ex. apply app_eq_nil in Ex as [Er _]. apply app_eq_nil in Er as [Er _]. by apply layout_nonempty in L.
  - rewrite <- app_assoc in Ex. destruct (layout_deterministic _ _ _ _ _ _ _ L' L Ex) as (_ & -> & ->).
    apply prefix_cons. by eapply IH.
Qed.

Lemma sent_grows {H} dbg (n n' : net H) evs l ev t k : wtalks dbg n evs -> nstep dbg n l = Some (n', ev) ->
  n_socks n !! t = Some k -> exists k', n_socks n' !! t = Some k' /\ k_sent k `prefix_of` k_sent k'.
Proof.
  intros T E Ht.
  assert (X : forall l n0, n_socks n0 !! t = Some k -> sys_step dbg n0 l = Some (n', ev) ->
    exists k', n_socks n' !! t = Some k' /\ k_sent k `prefix_of` k_sent k').
  { intros l' n0 H0 E'. apply sys_step_move in E' as (_ & Es & _). rewrite Es. eauto. }
  assert (Y : forall u k1 k2, n_socks n !! u = Some k1 -> n_socks n' = <[u := k2]> (n_socks n) -> k_sent k1 `prefix_of` k_sent k2 ->
    exists k', n_socks n' !! t = Some k' /\ k_sent k `prefix_of` k_sent k').
  { intros u k1 k2 Hu -> Hp. destruct (decide (u = t)) as [->|Hn].
    - rewrite lookup_insert. rewrite Hu in Ht. injection Ht as ->. eauto.
    - rewrite lookup_insert_ne by done. eauto. }
  destruct l as [l|u c|u f|u|u m|u|u e]; cbn [nstep] in E.
  - destruct (socket_label l); [discriminate|]. destruct l; try (by eapply X).
    apply sys_step_move in E as (M & Es & _). cbn [n_sys set_sock] in M. rewrite Es. cbn [n_socks set_sock].
    destruct (decide (t0 = t)) as [->|Hn]; [|rewrite lookup_insert_ne by done; eauto].
    destruct (proj2 T t k Ht) as (p & cur & Et & _). inversion M; subst. cbn in *. congruence.
  - destruct (n_socks n !! u) as [[i [?|] r b p g s]|] eqn:Ek; try discriminate. destruct c; [discriminate|].
    injection E as <- <-. eapply Y; [exact Ek|reflexivity|done].
  - destruct (n_socks n !! u) as [[i [?|] r b p g s]|] eqn:Ek; try discriminate. injection E as <- <-. eapply Y; [exact Ek|reflexivity|done].
  - destruct (n_socks n !! u) as [k1|] eqn:Ek; [|discriminate].
    destruct (y_tasks (n_sys n) !! u) as [[[] cur]|]; try discriminate. destruct (polled u k1); [by eapply X|].
    destruct (poll k1) as [k2|] eqn:Ep; [|discriminate]. injection E as <- <-. eapply Y; [exact Ek|reflexivity|].
    unfold poll in Ep. destruct (k_rd k1); try discriminate; [|by injection Ep as <-].
    destruct (_ <=? _); [by injection Ep as <-|]. destruct (k_in k1); [discriminate|by injection Ep as <-].
  - destruct (n_socks n !! u) as [[i f r b p g s]|] eqn:Ek; [|discriminate].
    destruct (y_tasks (n_sys n) !! u) as [[[] cur]|]; try discriminate. destruct (_ && _); [|discriminate].
    injection E as <- <-. eapply Y; [exact Ek|reflexivity|]. cbn. by eexists.
  - destruct (n_socks n !! u) as [[i f r b p g s]|] eqn:Ek; [|discriminate].
    destruct (y_tasks (n_sys n) !! u) as [[[] cur]|]; try discriminate. destruct (_ =? _); [|discriminate].
    apply sys_step_move in E as (_ & Es & _). eapply Y; [exact Ek|exact Es|done].
  - destruct (n_socks n !! u) as [k1|] eqn:Ek; [|discriminate]. by eapply X.
Qed.

Lemma session_facts {H} dbg t ds (w : world H) n evs c said cmds heard :
  linux_session dbg t ds w n evs c said cmds heard ->
  wtalks dbg n evs /\ all_u8 said = true /\ messages dbg said cmds [] /\
  (n_socks n !! t = None -> heard = []) /\
  (forall k, n_socks n !! t = Some k -> k_got k `prefix_of` said /\ heard `prefix_of` k_sent k).
Proof.
  induction 1 as [|n evs c said cmds heard l n' ev S (W & U & M & N0 & N1) E Hg
                  |n evs c heard m f S (W & U & M & N0 & N1) Hm L
                  |n evs v unread notes said cmds heard m cmd S (W & U & M & N0 & N1) Hm L F
                  |n evs c said cmds heard b k S (W & U & M & N0 & N1) Hk Hp].
  - split_and!; auto; [apply wtalks_init|constructor|]. intros k Hk. cbn in Hk. by rewrite lookup_empty in Hk.
  - split; [by eapply wtalks_step|]. split; [done|]. split; [done|].
    destruct (n_socks n !! t) as [k|] eqn:Ek.
    + destruct (sent_grows _ _ _ _ _ _ _ _ W E Ek) as (k' & Ek' & Hp). split; [congruence|].
      intros k2 Hk2. split; [by apply Hg|]. rewrite Ek' in Hk2. injection Hk2 as <-. etrans; [|exact Hp]. by apply N1.
    + rewrite N0 by done. split; [done|]. intros k2 Hk2. split; [by apply Hg|apply prefix_nil].
  - split_and!; auto.
    + rewrite <- (app_nil_r m). constructor; [by apply layout_weaken|constructor].
    + intros k Hk. destruct (N1 k Hk) as [G S1]. apply prefix_nil_inv in G. rewrite G. split; [apply prefix_nil|done].
  - split_and!; auto.
    + apply all_u8_app. done.
    + apply messages_snoc; [done|by apply layout_weaken].
    + intros k Hk. destruct (N1 k Hk) as [G S1]. split; [by apply prefix_app_r|done].
  - split_and!; auto; [congruence|]. intros k' Hk'. rewrite Hk in Hk'. injection Hk' as <-. split; [by apply N1|done].
Qed.

Lemma carried_split dbg l sent : carried dbg l sent ->
  exists l1 l2 bs, l = l1 ++ l2 /\ Forall2 (carries dbg) l1 bs /\ sent `prefix_of` mjoin bs.
Proof.
  intros (bs & part & -> & [[F -> ]|(l' & cr & -> & F & [-> |(b & C & P)])]).
  - exists l, [], bs. rewrite !app_nil_r. done.
  - exists l', [cr], bs. rewrite !app_nil_r. done.
  - exists (l' ++ [cr]), [], (bs ++ [b]). rewrite app_nil_r. split; [done|]. split; [apply Forall2_app; auto|].
    rewrite join_app. cbn. rewrite app_nil_r. by apply prefix_app.
Qed.
Lemma carries_fun dbg cr b b' : carries dbg cr b -> carries dbg cr b' -> b = b'.
Proof. intros (_ & x & E1 & E2) (_ & x' & E1' & E2'). congruence. Qed.
Lemma takes_up_dec sb b : takes_up sb b \/ ~ takes_up sb b.
Proof. unfold takes_up. destruct (_ =? _); [destruct (decide (length b = 48%nat))|destruct (decide (len b <= 48 + N.min (sb_transfer_buffer_length sb) 2147483647))]; auto. Qed.
Lemma good_or_bad dbg t evs l bs : Forall2 (carries dbg) l bs -> (forall x, x ∈ l -> x ∈ served t evs) ->
  answered_badly dbg t evs \/ Forall good_reply (zip l.*1 bs).
Proof.
  induction 1 as [|[c r] b l bs C F IH]; intros Hs; [right; constructor|].
  assert (Hs' : forall x, x ∈ l -> x ∈ served t evs) by (intros x Hx; apply Hs; by right).
  destruct (IH Hs') as [?|G]; [by left|].
  assert (D : answered_badly dbg t evs \/ good_reply (c, b)).
  { destruct C as [A C]. destruct c as [| |sb|]; try (by right; split).
    destruct (takes_up_dec sb b) as [T|T].
    - right. split; [exact A|]. intros sb' [= <-]. done.
    - left. exists sb, r, b. split; [apply Hs; left|]. done. }
  destruct D; [by left|]. right. by constructor.
Qed.
Lemma badly_app dbg t a b : answered_badly dbg t a -> answered_badly dbg t (a ++ b).
Proof.
  intros (sb & r & x & Hx & C & T). exists sb, r, x. split; [|done]. rewrite served_app. apply elem_of_app. by left.
Qed.
(** Two readings of the same replies. *)
Lemma carries_align dbg l1 l2 l1' l2' bs bs' x : l1 ++ l2 = l1' ++ l2' ->
  Forall2 (carries dbg) l1 bs -> Forall2 (carries dbg) l1' bs' -> mjoin bs ++ x `prefix_of` mjoin bs' ->
  exists l bt, l1' = l1 ++ l /\ bs' = bs ++ bt /\ Forall2 (carries dbg) l bt /\ x `prefix_of` mjoin bt /\ l2 = l ++ l2'.
Proof.
  intros E F. revert l1' bs' E. induction F as [|cr b l1 bs C F IH]; intros l1' bs' E F' P.
  - cbn in *. subst l2. exists l1', bs'. done.
  - destruct F' as [|cr' b' l1' bs' C' F'].
    { cbn in P. exfalso. apply prefix_nil_inv in P. apply app_eq_nil in P as [P _]. apply app_eq_nil in P as [P _].
      destruct C as [C _]. apply answers_length in C. subst b. cbn in C. lia. }
    cbn in E. injection E as <- E. pose proof (carries_fun _ _ _ _ C C') as <-. cbn in P.
    rewrite <- app_assoc in P. apply prefix_app_inv in P.
    destruct (IH _ _ E F' P) as (l & bt & -> & -> & F2 & P2 & ->). exists l, bt. done.
Qed.

(** What has arrived of the next reply is not all of it. *)
Definition waits (dbg : bool) (x : list N) (later : list (command * outcome response)) : Prop :=
  match later with [] => x = [] | cr :: _ => forall b, carries dbg cr b -> (length x < length b)%nat end.
Lemma waits_nil dbg l : waits dbg [] l.
Proof. destruct l as [|cr l]; [done|]. intros b [A _]. by apply answers_length in A. Qed.
Lemma waits_app dbg x l bs l2 : Forall2 (carries dbg) l bs ->
  match bs with [] => x = [] | b :: _ => (length x < length b)%nat end -> waits dbg x (l ++ l2).
Proof.
  intros F Hx. destruct F as [|cr b l bs C F]; [subst; apply waits_nil|]. intros b' C'. by rewrite (carries_fun _ _ _ _ C' C).
Qed.

Definition stepping (dbg : bool) (t : tid) (evs : list event) (c : client) (cmds : list command) (heard : list N) : Prop :=
  exists (dn : list (command * list N)) pending l1 later,
    cmds = dn.*1 ++ pending /\ heard = mjoin dn.*2 ++ l_unread c /\
    served t evs = l1 ++ later /\ l1.*1 = dn.*1 /\ Forall2 (carries dbg) l1 dn.*2 /\
    waits dbg (l_unread c) later /\
    match dn with
    | [] => l_st c = Attaching /\ l_notes c = [] /\ (pending = [] \/ exists f, pending = [OpReqImport 0 f])
    | (c0, b) :: urbs => exists f, c0 = OpReqImport 0 f /\
        ((length b = 8%nat /\ l_st c = Refused /\ l_notes c = [] /\ pending = [] /\ urbs = []) \/
         (length b = 320%nat /\ l_st c = Attached (vhci_of pending) /\ pend_ok pending /\ Forall2 told urbs (l_notes c)))
    end.

Lemma stepping_hear {H} dbg t ds (w : world H) n evs c said cmds heard b k :
  linux_session dbg t ds w n evs c said cmds heard -> n_socks n !! t = Some k -> heard ++ b `prefix_of` k_sent k ->
  stepping dbg t evs c cmds heard -> answered_badly dbg t evs \/ stepping dbg t evs (l_hear c b) cmds (heard ++ b).
Proof.
  intros S Hk Hp (dn & pending & l1 & later & Ec & Eh & Es & E1 & F & Wl & St).
  destruct (session_facts _ _ _ _ _ _ _ _ _ _ S) as (W & U & M & _ & N1). destruct (N1 k Hk) as [Hg _].
  destruct (proj2 W t k Hk) as (p & cur & _ & Tk).
  destruct (wtalk_wire _ _ _ _ Tk) as ((rest & Mk) & Ck).
  { destruct Hg as (z & ->). by apply all_u8_app in U as [U _]. }
  assert (Hc : (served t evs).*1 `prefix_of` cmds). { destruct Hg as (z & ->). by eapply messages_prefix. }
  apply carried_split in Ck as (h1 & h2 & bs & Eserved & Fh & Ph).
  assert (Hs' : forall x, x ∈ h1 -> x ∈ served t evs) by (intros x Hx; rewrite Eserved; apply elem_of_app; by left).
  destruct (good_or_bad dbg t evs h1 bs Fh Hs') as [?|G]; [by left|].
  right.
  assert (Pb : heard ++ b `prefix_of` mjoin bs) by (by etrans).
  rewrite Es in Eserved. rewrite Eh in Pb. rewrite <- app_assoc in Pb.
  destruct (carries_align _ _ _ _ _ _ _ _ Eserved F Fh Pb) as (l & bt & -> & -> & Fl & Pl & ->).
  assert (Hpend : l.*1 `prefix_of` pending).
  { rewrite Es, Ec, !fmap_app, E1 in Hc. apply prefix_app_inv in Hc. etrans; [|exact Hc]. by eexists. }
  assert (Gl : Forall good_reply (zip l.*1 bt)).
  { rewrite fmap_app, zip_with_app in G by (apply Forall2_length in F; by rewrite fmap_length). by apply Forall_app in G as [_ G]. }
  assert (Lz : length l.*1 = length bt) by (rewrite fmap_length; by eapply Forall2_length).
  set (L := zip l.*1 bt) in *.
  assert (L1 : L.*1 = l.*1) by (apply fst_zip; lia). assert (L2 : L.*2 = bt) by (apply snd_zip; lia).
  clearbody L. destruct c as [st un notes]. cbn [l_unread l_st l_notes] in *.
  destruct dn as [|[c0 b0] urbs].
  - destruct St as (-> & -> & Hpn). unfold l_hear. cbn [l_unread l_st l_notes].
    destruct L as [|[c1 b1] L].
    { cbn in L1, L2. subst bt. cbn in Pl. apply prefix_nil_inv in Pl. rewrite Pl. cbn [length l_settle].
      exists [], pending, [], (l ++ h2). cbn [l_unread l_st l_notes fmap list_fmap app]. destruct l1; [|discriminate].
      apply app_eq_nil in Pl as [-> ->]. rewrite Eh. split_and!; auto. }
    destruct Hpn as [-> |[f -> ]]. { apply prefix_nil_inv in Hpend. rewrite Hpend in L1. discriminate. }
    rewrite <- L1 in Hpend. destruct Hpend as (z & Ez). cbn in Ez. injection Ez as <- Ez.
    symmetry in Ez. apply app_eq_nil in Ez as [Ez ->]. destruct L; [|discriminate]. clear Ez.
    cbn in L2. subst bt. cbn in Pl. rewrite app_nil_r in Pl. apply Forall_cons_1 in Gl as [[A _] _]. cbn [fst snd] in A.
    destruct l as [|cr [|? l]]; try discriminate. apply Forall2_cons_1 in Fl as [Cr _].
    assert (Xd : forall st', un ++ b = b1 -> (length b1 = 8%nat /\ st' = Refused) \/ (length b1 = 320%nat /\ st' = Attached (vhci_of [])) ->
      stepping dbg t evs (mkClient st' [] []) cmds (heard ++ b)).
    { intros st' Eb Hd. exists [(OpReqImport 0 f, b1)], [], [cr], h2. destruct l1; [|discriminate]. cbn in Ec, Eh, Es, L1.
      injection L1 as L1. subst cmds heard. cbn. rewrite <- L1, Eb, !app_nil_r. split; [done|]. split; [done|]. split; [done|]. split; [done|]. split; [constructor; [exact Cr|constructor]|]. split; [apply waits_nil|].
      exists f. split; [done|]. destruct Hd as [[? ->]|[? ->]]; [left|right]; split_and!; auto; constructor. }
    destruct (settle_attaching b1 (un ++ b) [] (length (un ++ b)) 0 f A Pl ltac:(lia)) as [[Hl ->]|[(Eb & Hl & ->)|(Eb & Hl & ->)]].
    + exists [], [OpReqImport 0 f], [], ([cr] ++ h2). destruct l1; [|discriminate]. cbn in Ec |- *. cbn in Eh. subst. split_and!; eauto.
      intros b' Cb. by rewrite (carries_fun _ _ _ _ Cb Cr).
    + apply Xd; auto.
    + apply Xd; auto.
  - destruct St as (f & -> & [(Hl & -> & -> & -> & ->)|(Hl & -> & Pk & Tn)]); unfold l_hear; cbn [l_unread l_st l_notes].
    + exists [(OpReqImport 0 f, b0)], [], l1, (l ++ h2).
      assert (Er : forall fu x, l_settle fu (mkClient Refused x []) = mkClient Refused x []) by (by intros []).
      assert (bt = []) as ->.
      { apply prefix_nil_inv in Hpend. rewrite Hpend in Lz. by destruct bt. }
      apply Forall2_nil_inv_r in Fl as ->. apply prefix_nil_inv in Pl.
      rewrite Er. cbn [l_unread]. rewrite Pl. split_and!; auto.
      * rewrite Eh. by rewrite <- app_assoc, Pl.
      * apply waits_nil.
      * exists f. split; [done|]. left. done.
    + rewrite <- L1 in Hpend. destruct Hpend as (rest' & ->). rewrite <- L2 in Pl.
      destruct (settle_attached L rest' (un ++ b) notes (length (un ++ b)) Gl Pk Pl ltac:(lia)) as (D & L' & x' & ns & -> & Ex & Fd & -> & Hs).
      rewrite (fmap_app fst) in L1; rewrite (fmap_app snd) in L2. subst bt.
      apply Forall2_app_inv_r in Fl as (la & lb & Fa & Fb & ->).
      assert (Ea : la.*1 = D.*1).
      { rewrite fmap_app in L1. apply app_inj_1 in L1 as [L1 _]; [done|]. rewrite !fmap_length.
        apply Forall2_length in Fa. by rewrite fmap_length in Fa. }
      exists ((OpReqImport 0 f, b0) :: urbs ++ D), (L'.*1 ++ rest'), (l1 ++ la), (lb ++ h2).
      assert (Ed : (OpReqImport 0 f, b0) :: urbs ++ D = ((OpReqImport 0 f, b0) :: urbs) ++ D) by done.
      split; [|split; [|split; [|split; [|split; [|split]]]]].
      * rewrite Ec, Ed, !fmap_app, <- !app_assoc. done.
      * rewrite Ed, Eh. cbn [l_unread]. rewrite <- app_assoc, Ex, (fmap_app snd), join_app, <- app_assoc. done.
      * rewrite Es, <- !app_assoc. done.
      * rewrite Ed, !(fmap_app fst), E1, Ea. done.
      * rewrite Ed, (fmap_app snd). by apply Forall2_app.
      * cbn [l_unread]. eapply waits_app; [exact Fb|]. by destruct L' as [|[? ?] L'].
      * exists f. split; [done|]. right. cbn [l_st l_notes]. split_and!; auto; [|by apply Forall2_app].
        rewrite fmap_app, <- app_assoc in Pk. clear -Pk. induction D.*1 as [|x l IH]; [done|]. apply IH, Pk.
Qed.

Lemma session_step {H} dbg t ds (w : world H) n evs c said cmds heard :
  linux_session dbg t ds w n evs c said cmds heard -> answered_badly dbg t evs \/ stepping dbg t evs c cmds heard.
Proof.
  induction 1 as [|n evs c said cmds heard l n' ev S IH E Hg
                  |n evs c heard m f S IH Hm L
                  |n evs v unread notes said cmds heard m cmd S IH Hm L F
                  |n evs c said cmds heard b k S IH Hk Hp].
  - right. exists [], [], [], []. cbn. split_and!; auto.
  - destruct IH as [IH|IH]; [left; by apply badly_app|right].
    destruct IH as (dn & pending & l1 & later & Ec & Eh & Es & E1 & F & Wl & St).
    exists dn, pending, l1, (later ++ served t ev). split_and!; auto; [by rewrite served_app, Es, app_assoc|].
    destruct later; [|done]. rewrite Wl. apply waits_nil.
  - destruct IH as [IH|IH]; [by left|right]. destruct IH as (dn & pending & l1 & later & Ec & Eh & Es & E1 & F & Wl & St).
    symmetry in Ec. apply app_eq_nil in Ec as [Ed ->]. destruct dn; [|discriminate].
    exists [], [OpReqImport 0 f], l1, later. destruct St as (? & ? & _). split_and!; eauto.
  - destruct IH as [IH|IH]; [by left|right]. destruct IH as (dn & pending & l1 & later & Ec & Eh & Es & E1 & F' & Wl & St).
    cbn [l_unread l_st l_notes] in *. exists dn, (pending ++ [cmd]), l1, later. cbn [l_unread l_st l_notes].
    split_and!; auto. { by rewrite Ec, app_assoc. }
    destruct dn as [|[c0 b] urbs]; [by destruct St|]. destruct St as (f & -> & [(_ & ? & _)|(Hl & Ev & P & Tn)]); [done|].
    injection Ev as ->. exists f. split; [done|]. right. split_and!; auto; [by rewrite remember_of|by apply pend_ok_snoc].
  - destruct IH as [IH|IH]; [by left|]. by eapply stepping_hear.
Qed.

(** When the server has nothing left to read and the client nothing left to hear. *)
Lemma messages_all dbg a cs r : messages dbg a cs r -> (forall m r' c, r = m ++ r' -> ~ cmd_layout dbg m c) ->
  forall cs', messages dbg a cs' [] -> cs = cs'.
Proof.
  induction 1 as [rest|m c inp cs rest L _ IH]; intros Hn cs' M'.
  - remember (@nil N) as y eqn:Ey. destruct M' as [r'|m' c' inp' cs' r' L' M'']; [done|]. exfalso. by eapply Hn.
  - remember (m ++ inp) as x eqn:Ex. remember (@nil N) as y eqn:Ey.
    destruct M' as [r'|m' c' inp' cs' r' L' M'']; subst.
    + symmetry in Ex. apply app_eq_nil in Ex as [Er _]. by apply layout_nonempty in L.
    + destruct (layout_deterministic _ _ _ _ _ _ _ L' L Ex) as (_ & -> & ->). f_equal. by eapply IH.
Qed.
Lemma caught_up {H} dbg t ds (w : world H) n evs c said cmds heard k cur :
  linux_session dbg t ds w n evs c said cmds heard -> n_socks n !! t = Some k ->
  y_tasks (n_sys n) !! t = Some (mkTask PRead cur) -> nstep dbg n (NPoll t) = None ->
  k_got k = said -> k_sent k = heard ->
  answered_badly dbg t evs \/ (stepping dbg t evs c cmds heard /\ l_unread c = [] /\ cmds = (served t evs).*1).
Proof.
  intros S Hk Ht Hs Hg Hh. destruct (session_step _ _ _ _ _ _ _ _ _ _ S) as [?|St]; [by left|right]. split; [done|].
  destruct (session_facts _ _ _ _ _ _ _ _ _ _ S) as (W & U & M & _).
  destruct (wstuck dbg n evs t k cur) as (_ & rest & bs & Mk & F & Sk & Hn); auto. { by rewrite Hg. }
  rewrite Hg in Mk. pose proof (messages_all _ _ _ _ Mk Hn _ M) as Ec. split; [|done].
  destruct St as (dn & pending & l1 & later & _ & Eh & Es & _ & F1 & Wl & _).
  rewrite Hh, Eh in Sk. rewrite Es in F. apply Forall2_app_inv_l in F as (b1 & b2 & Fa & Fb & ->).
  assert (b1 = dn.*2) as ->.
  { clear -F1 Fa. revert Fa F1. generalize dn.*2. clear dn. intros x Fa. revert x.
    induction Fa as [|cr b l1 b1 C F IH]; intros x F1.
    - by apply Forall2_nil_inv_l in F1.
    - apply Forall2_cons_inv_l in F1 as (b' & x' & C' & F' & ->). by rewrite (carries_fun _ _ _ _ C C'), (IH _ F'). }
  rewrite join_app in Sk. apply app_inv_head in Sk. destruct Fb as [|cr b l b2 C F]; [done|].
  cbn in Wl. specialize (Wl b C). rewrite Sk in Wl. cbn in Wl. rewrite app_length in Wl. lia.
Qed.

(** ** Answers that the driver can take *)
Lemma nstep_move {H} dbg (n n' : net H) l ev : nstep dbg n l = Some (n', ev) ->
  (ev = [] /\ n_sys n' = n_sys n) \/ exists l', move dbg (n_sys n) l' (n_sys n') ev.
Proof.
  intros E. assert (X : forall n0 l', n_sys n0 = n_sys n -> sys_step dbg n0 l' = Some (n', ev) ->
    (ev = [] /\ n_sys n' = n_sys n) \/ exists l', move dbg (n_sys n) l' (n_sys n') ev).
  { intros n0 l' <- E'. apply sys_step_move in E' as (M & _). eauto. }
  destruct l as [l|u c|u f|u|u m|u|u e]; cbn [nstep] in E.
  - destruct (socket_label l); [discriminate|]. destruct l; (eapply X; [|exact E]; done).
  - destruct (n_socks n !! u) as [[i [?|] r b p g s]|] eqn:Ek; try discriminate. destruct c; [discriminate|].
    injection E as <- <-. by left.
  - destruct (n_socks n !! u) as [[i [?|] r b p g s]|] eqn:Ek; try discriminate. injection E as <- <-. by left.
  - destruct (n_socks n !! u) as [k1|] eqn:Ek; [|discriminate].
    destruct (y_tasks (n_sys n) !! u) as [[[] cur]|]; try discriminate.
    destruct (polled u k1); [eapply X; [|exact E]; done|].
    destruct (poll k1) as [k2|] eqn:Ep; [|discriminate]. injection E as <- <-. by left.
  - destruct (n_socks n !! u) as [[i f r b p g s]|] eqn:Ek; [|discriminate].
    destruct (y_tasks (n_sys n) !! u) as [[[] cur]|]; try discriminate. destruct (_ && _); [|discriminate].
    injection E as <- <-. by left.
  - destruct (n_socks n !! u) as [[i f r b p g s]|] eqn:Ek; [|discriminate].
    destruct (y_tasks (n_sys n) !! u) as [[[] cur]|]; try discriminate. destruct (_ =? _); [|discriminate].
    eapply X; [|exact E]; done.
  - destruct (n_socks n !! u) as [k1|] eqn:Ek; [|discriminate]. eapply X; [|exact E]; done.
Qed.

Definition origin (ds : list device) (evs : list event) (sv : server) : Prop :=
  forall d, d ∈ sv_available sv \/ (exists id, sv_used sv !! id = Some d) -> ever_exported ds evs d.
Lemma origin_more ds evs ev sv : origin ds evs sv -> origin ds (evs ++ ev) sv.
Proof.
  intros O d Hd. destruct (O d Hd) as [?|(t & Ht)]; [by left|]. right. exists t. apply elem_of_app. by left.
Qed.
Lemma origin_move {H} dbg ds (s s' : sys H) l ev evs : move dbg s l s' ev -> origin ds evs (y_server s) ->
  origin ds (evs ++ ev) (y_server s').
Proof.
  intros M O. pose proof (origin_more ds evs ev _ O) as O'.
  destruct M; cbn [y_server set_task set_used set_avail set_world set_server want_used want_avail drop_guards]; try exact O';
    try (match goal with A : answered _ _ _ _ _ _ _ _ |- _ => apply answered_server in A as [A _]; rewrite A; exact O' end).
  - match goal with A : answered _ _ _ _ _ _ _ _ |- _ => apply answered_server in A as [A _]; rewrite A end.
    cbn [y_server set_server]. destruct r as [d|].
    + match goal with I : import_device _ _ = _ |- _ => apply import_some in I as (l1 & l2 & (El & _) & ->) end.
      intros x [Hx|(id & Hx)]; cbn in Hx; apply O'.
      * left. rewrite El. apply elem_of_app in Hx as [Hx|Hx]; apply elem_of_app; [by left|right; by right].
      * apply lookup_insert_Some in Hx as [[_ <-]|[_ Hx]]; [|eauto]. left. rewrite El. apply elem_of_app. right. left.
    + match goal with I : import_device _ _ = _ |- _ => apply import_none in I as [-> _] end. exact O'.
  - match goal with I : release_device _ _ = _ |- _ => unfold release_device in I end.
    destruct (sv_used (y_server s) !! id) as [d|] eqn:Ed; [|discriminate].
    match goal with I : Val _ = Val _ |- _ => apply Val_inj in I; subst sv' end.
    intros x [Hx|(id' & Hx)]; cbn in Hx; apply O'.
    + apply elem_of_app in Hx as [Hx|Hx]; [by left|]. apply elem_of_list_singleton in Hx as ->. eauto.
    + apply lookup_delete_Some in Hx as [_ Hx]. eauto.
  - intros x [Hx|(id' & Hx)]; cbn in Hx; [|apply O'; eauto].
    apply elem_of_app in Hx as [Hx|Hx]; [apply O'; by left|]. apply elem_of_list_singleton in Hx as ->.
    right. exists t. apply elem_of_app. right. left.
  - match goal with I : remove_available _ _ = _ |- _ => apply remove_available_some in I as (d & l1 & l2 & (El & _) & ->) end.
    intros x [Hx|(id' & Hx)]; cbn in Hx; apply O'; [|eauto].
    left. rewrite El. apply elem_of_app in Hx as [Hx|Hx]; apply elem_of_app; [by left|right; by right].
Qed.

Lemma served_in t evs c r : (c, r) ∈ served t evs -> EvServe t c r ∈ evs.
Proof.
  intros (e & He & E)%elem_of_list_omap. destruct e as [u c' r'|u|u|u|u|u]; try discriminate.
  destruct (N.eqb_spec u t); [|discriminate]. injection E as <- <-. by subst u.
Qed.
Lemma session_submits {H} dbg t ds (w : world H) n evs c said cmds heard :
  linux_session dbg t ds w n evs c said cmds heard ->
  covered n /\ origin ds evs (y_server (n_sys n)) /\
  forall sb r, (CmdSubmit sb, r) ∈ served t evs -> is_Some (n_socks n !! t) /\
    exists (w1 : world H) od (w2 : world H), serve_submit dbg w1 od sb = (r, w2) /\ forall d, od = Some d -> ever_exported ds evs d.
Proof.
  induction 1 as [|n evs c said cmds heard l n' ev S (C & O & Sb) E Hg
                  |n evs c heard m f S IH Hm L
                  |n evs v unread notes said cmds heard m cmd S IH Hm L F
                  |n evs c said cmds heard b k S IH Hk Hp]; [| |exact IH|exact IH|exact IH].
  - split; [|split].
    + intros t' p cur Ht. cbn in Ht. by rewrite lookup_empty in Ht.
    + intros d [Hd|(id & Hd)]; cbn in Hd; [by left|]. by rewrite lookup_empty in Hd.
    + intros sb r Hx. by apply elem_of_nil in Hx.
  - destruct (session_facts _ _ _ _ _ _ _ _ _ _ S) as (W & _).
    assert (Hgrow : is_Some (n_socks n !! t) -> is_Some (n_socks n' !! t)).
    { intros [k Hk]. destruct (sent_grows _ _ _ _ _ _ _ _ W E Hk) as (k' & -> & _). eauto. }
    split; [by eapply covered_step|]. pose proof (nstep_move _ _ _ _ _ E) as M.
    split. { destruct M as [[-> ->]|(l' & M)]; [by rewrite app_nil_r|by eapply origin_move]. }
    intros sb r Hx. rewrite served_app in Hx. apply elem_of_app in Hx as [Hx|Hx].
    + destruct (Sb _ _ Hx) as (Hk & w1 & od & w2 & Es & Ho). split; [by apply Hgrow|]. exists w1, od, w2. split; [done|].
      intros d Hd. destruct (Ho d Hd) as [?|(u & Hu)]; [by left|]. right. exists u. apply elem_of_app. by left.
    + apply served_in in Hx. destruct M as [[-> _]|(l' & M)]; [by apply elem_of_nil in Hx|].
      destruct (ev_submit _ _ _ _ _ _ _ _ M Hx) as (cur & _ & Ht & Es & _). split; [apply Hgrow; by eapply C|].
      eexists _, _, _. split; [exact Es|]. intros d Hd. unfold current_device in Hd. destruct cur as [id|]; [|discriminate].
      destruct (O d) as [?|(u & Hu)]; [eauto|by left|]. right. exists u. apply elem_of_app. by left.
Qed.

Lemma connection_silent {H} dbg (st : cstate H) fin out en st' : connection dbg st [] fin None = (out, en, st') -> out = [].
Proof.
  rewrite connection_unfold. destruct (run_rd (read_from_socket dbg) [] fin) as [c rest|x|p] eqn:Er.
  - apply reader_shrinks in Er. cbn in Er. lia.
  - destruct (finish st x). congruence.
  - congruence.
Qed.
Lemma kernel_takes_up_at {H} dbg (w1 w2 : world H) od sb r b m : quiet H ->
  (forall d e i s t data, od = Some d -> addressed d (ep_byte (sb_header sb)) e i -> setup_of (sb_setup sb) s ->
     h_direction (sb_header sb) = 1 -> routed d e i s t ->
     handler_answer w1 e (sb_transfer_buffer_length sb) s (sb_data sb) t = HOk data -> len data <= sb_transfer_buffer_length sb) ->
  (forall d, od = Some d -> descriptors_fit d) -> all_u8 m = true -> cmd_layout dbg m (CmdSubmit sb) ->
  kernel_urb (CmdSubmit sb) -> serve_submit dbg w1 od sb = (r, w2) -> carries dbg (CmdSubmit sb, r) b -> takes_up sb b.
Proof.
  intros Q Hh Hfit Hm HL K Es [A (x & Er & Eb)]. cbn [fst snd] in *. subst r.
  destruct od as [d|]; [|discriminate]. destruct (K sb eq_refl) as (s & Hs & Hk).
  set (st := mkC (mkServer [] {[ [] := d ]}) w1 (Some [])).
  assert (Es' : serve dbg st (CmdSubmit sb) = (Val x, mkC (cs_server st) w2 (Some []))).
  { cbn [serve st cs_world cs_server cs_current current_device sv_used]. by rewrite lookup_singleton, Es. }
  destruct (connection dbg (mkC (cs_server st) w2 (Some [])) [] SEof None) as [[out en] st'] eqn:Ec.
  pose proof (connection_silent _ _ _ _ _ _ Ec) as ->.
  pose proof (connection_step dbg st m _ [] SEof _ _ HL Es' b Eb _ _ _ Ec) as E. rewrite (app_nil_r b) in E.
  pose proof (answers_length _ _ A) as Hb. unfold takes_up. destruct Hk as [(Hd & Hep & Hrt & Hsc)|(Hd & Hl & Ht)].
  - destruct (out_quiet dbg st m sb s [] SEof b en st' Q Hm HL Hs Hd) as [[-> _]|(b' & out' & st1 & Eo & Hlen & Ec')]; auto.
    + rewrite N.mod_small; lia.
    + cbn in Hb. lia.
    + apply connection_silent in Ec' as ->. rewrite app_nil_r in Eo. subst b'. rewrite Hd. done.
  - assert (Hloc : forall d0 e i t data, imported st d0 -> addressed d0 (ep_byte (sb_header sb)) e i -> routed d0 e i s t ->
      handler_answer (cs_world st) e (sb_transfer_buffer_length sb) s (sb_data sb) t = HOk data -> len data <= sb_transfer_buffer_length sb).
    { intros d0 e i t data (id & Hid & Hu) Ha Hr Hans. cbn in Hid, Hu. apply lookup_singleton_Some in Hu as [_ <-].
      eapply (Hh d e i s t data); auto. }
    destruct (reply_bounded_at dbg st m sb s [] SEof b en st' Hloc Hm HL Hs) as [[-> _]|(b' & out' & st1 & n & Eo & _ & _ & Hlen & Ec')]; auto.
    + intros d' (id & Hid & Hu). cbn in Hid, Hu. apply lookup_singleton_Some in Hu as [_ <-]. by apply Hfit.
    + rewrite Hd. done.
    + cbn in Hb. lia.
    + apply connection_silent in Ec' as ->. rewrite app_nil_r in Eo. subst b'. rewrite Hd. cbn [N.eqb]. lia.
Qed.
Lemma kernel_takes_up {H} dbg (w1 w2 : world H) od sb r b m : quiet H -> honours_length H ->
  (forall d, od = Some d -> descriptors_fit d) -> all_u8 m = true -> cmd_layout dbg m (CmdSubmit sb) ->
  kernel_urb (CmdSubmit sb) -> serve_submit dbg w1 od sb = (r, w2) -> carries dbg (CmdSubmit sb, r) b -> takes_up sb b.
Proof.
  intros Q [Qi Qd]. apply kernel_takes_up_at; [done|]. intros d e i s t data _ _ _ _ _ Hans. destruct t as [f|u]; cbn in Hans.
  - destruct (i_step H _ f e _ s _) eqn:Ei; cbn in Hans; try discriminate. assert (data0 = data) as <- by congruence. eapply Qi; eassumption.
  - destruct (d_step H _ _ s _) eqn:Ei; cbn in Hans; try discriminate. assert (data0 = data) as <- by congruence. eapply Qd; eassumption.
Qed.

Lemma messages_layout dbg inp cs rest : messages dbg inp cs rest -> all_u8 inp = true ->
  forall c, c ∈ cs -> exists m, all_u8 m = true /\ cmd_layout dbg m c.
Proof.
  induction 1 as [|m c inp cs rest L _ IH]; intros U c' Hc; [by apply elem_of_nil in Hc|].
  apply all_u8_app in U as [U1 U2]. apply elem_of_cons in Hc as [->|Hc]; eauto.
Qed.
Lemma served_layout {H} dbg t ds (w : world H) n evs c said cmds heard sb r :
  linux_session dbg t ds w n evs c said cmds heard -> (CmdSubmit sb, r) ∈ served t evs ->
  CmdSubmit sb ∈ cmds /\ exists m, all_u8 m = true /\ cmd_layout dbg m (CmdSubmit sb).
Proof.
  intros S Hin.
  destruct (session_submits _ _ _ _ _ _ _ _ _ _ S) as (_ & _ & Sb). destruct (Sb _ _ Hin) as ([k Hk] & _).
  destruct (session_facts _ _ _ _ _ _ _ _ _ _ S) as (W & U & M & _ & N1). destruct (N1 k Hk) as [Hg _].
  destruct (proj2 W t k Hk) as (p & cur & _ & Tk).
  destruct (wtalk_wire _ _ _ _ Tk) as ((rest & Mk) & _).
  { destruct Hg as (z & ->). by apply all_u8_app in U as [U _]. }
  assert (Hc : CmdSubmit sb ∈ cmds).
  { assert (Hp : (served t evs).*1 `prefix_of` cmds). { destruct Hg as (z & ->). by eapply messages_prefix. }
    destruct Hp as (z & ->). apply elem_of_app. left. apply elem_of_list_fmap. by exists (CmdSubmit sb, r). }
  split; [done|]. exact (messages_layout _ _ _ _ M U _ Hc).
Qed.
Lemma never_badly {H} dbg t ds (w : world H) n evs c said cmds heard :
  linux_session dbg t ds w n evs c said cmds heard -> quiet H -> honours_length H ->
  (forall d, ever_exported ds evs d -> descriptors_fit d) -> Forall kernel_urb cmds -> ~ answered_badly dbg t evs.
Proof.
  intros S Q Hh Hf K (sb & r & b & Hin & C & T). apply T. clear T.
  destruct (session_submits _ _ _ _ _ _ _ _ _ _ S) as (_ & _ & Sb). destruct (Sb _ _ Hin) as (_ & w1 & od & w2 & Es & Ho).
  destruct (served_layout _ _ _ _ _ _ _ _ _ _ _ _ S Hin) as (Hc & m & Hm & HL).
  eapply kernel_takes_up; eauto. rewrite Forall_forall in K. by apply K.
Qed.

Lemma stepping_in_step dbg t evs c cmds heard : stepping dbg t evs c cmds heard -> in_step dbg t evs c cmds heard.
Proof.
  intros (dn & pending & l1 & later & Ec & Eh & Es & E1 & F & Wl & St). exists dn, pending, l1, later. split_and!; auto.
  destruct dn as [|[c0 b] urbs]; [by destruct St as (? & ? & _)|].
  destruct St as (f & _ & [(? & ? & ? & ? & ?)|(? & ? & _ & ?)]); [left|right]; done.
Qed.
