(** * Proofs about one connection *)
From Verif Require Export SpecConn ReplyProofs.

Lemma reader_shrinks dbg inp fin c rest :
  run_rd (read_from_socket dbg) inp fin = ROk c rest -> (length rest < length inp)%nat.
Proof.
  intros R. destruct (run_consumes _ _ _ _ _ R) as (msg & -> & R2).
  destruct msg as [|x msg]; [|rewrite app_length; cbn; lia].
  unfold read_from_socket, read_u16 in R2. cbn [run_rd] in R2. discriminate.
Qed.

Lemma loop_fuel {H} dbg fin n m inp (st : cstate H) bud :
  (length inp < n)%nat -> (length inp < m)%nat ->
  conn_loop n dbg st inp fin bud = conn_loop m dbg st inp fin bud.
Proof.
  revert m inp st bud. induction n as [|n IH]; intros m inp st bud Hn Hm; [lia|].
  destruct m as [|m]; [lia|]. cbn [conn_loop].
  destruct (run_rd (read_from_socket dbg) inp fin) as [c rest| |] eqn:R; [|done..].
  apply reader_shrinks in R. destruct (serve dbg st c) as [r st1].
  destruct (obind r (response_to_bytes dbg)); [|done..].
  destruct (write_all bud a) as [sent [bud'|]]; [|done]. rewrite (IH m); [done|lia..].
Qed.

(** One iteration. *)
Lemma connection_unfold {H} dbg (st : cstate H) inp fin bud :
  connection dbg st inp fin bud =
  match run_rd (read_from_socket dbg) inp fin with
  | RErr e => let '(r, st') := finish st e in ([], r, st')
  | RPan p => ([], EndPanic p, st)
  | ROk c rest =>
      let '(r, st1) := serve dbg st c in
      match obind r (response_to_bytes dbg) with
      | Panic p => ([], EndPanic p, st1)
      | Diverge => ([], EndDiverge, st1)
      | Val b =>
          match write_all bud b with
          | (sent, inl bud') =>
              let '(out, e, st') := connection dbg st1 rest fin bud' in (sent ++ out, e, st')
          | (sent, inr e) => (sent, EndErr e, st1)
          end
      end
  end.
Proof.
  unfold connection at 1. cbn [conn_loop].
  destruct (run_rd (read_from_socket dbg) inp fin) as [c rest| |] eqn:R; [|done..].
  apply reader_shrinks in R. destruct (serve dbg st c) as [r st1].
  destruct (obind r (response_to_bytes dbg)); [|done..].
  destruct (write_all bud a) as [sent [bud'|]]; [|done].
  unfold connection. rewrite (loop_fuel _ _ (length inp) (S (length rest))); [done|lia..].
Qed.

(** ** serve *)
Lemma serve_never_diverges {H} dbg (st : cstate H) c : (serve dbg st c).1 <> Diverge.
Proof.
  destruct c; cbn; try done.
  - destruct (import_device _ _). done.
  - unfold serve_submit. destruct (current_device _ _) as [d|]; [|done].
    destruct (find_ep _ _) as [[e i]|]; [|done].
    destruct (handle_urb _ _ _ _ _ _ _ _) as [[| |] w]; done.
Qed.
Lemma encode_never_diverges dbg r : response_to_bytes dbg r <> Diverge.
Proof. destruct (response_cases dbg r) as [[b ->]| ->]; done. Qed.
Lemma step_never_diverges {H} dbg (st : cstate H) c :
  obind (serve dbg st c).1 (response_to_bytes dbg) <> Diverge.
Proof.
  pose proof (serve_never_diverges dbg st c).
  destruct (serve dbg st c).1 as [r| |]; cbn; [apply encode_never_diverges|done..].
Qed.

Definition u32_header (h : header) : Prop :=
  u32 (h_seqnum h) /\ u32 (h_devid h) /\ u32 (h_direction h) /\ u32 (h_ep h).
Definition u32_command (c : command) : Prop :=
  match c with CmdSubmit s => u32_header (sb_header s) | CmdUnlink h _ => u32_header h | _ => True end.
Lemma layout_u32 dbg m c : cmd_layout dbg m c -> u32_command c.
Proof.
  destruct 1 as [| |? ? ? ? ? ? ? ? ? ? ? ? ? ? ? Hh|? ? ? ? ? ? ? ? Hh]; cbn; try done;
    destruct Hh as (?%u32_at_lt & ?%u32_at_lt & ?%u32_at_lt & ?%u32_at_lt); done.
Qed.

Lemma ok_reply dbg h data b : u32_header h ->
  response_to_bytes dbg (usbip_ret_submit_success (reply_header h USBIP_RET_SUBMIT) 0 0 data []) = Val b ->
  submit_ok_reply h data b.
Proof.
  intros (? & ? & ? & ?) E. apply (ret_submit_bytes _ _ _ E); cbn; try assumption; unfold u32, as_u32; try reflexivity. lia.
Qed.
Lemma fail_reply dbg h b : u32_header h ->
  response_to_bytes dbg (usbip_ret_submit_fail (reply_header h USBIP_RET_SUBMIT)) = Val b ->
  submit_fail_reply h b.
Proof.
  intros (? & ? & ? & ?) E. apply (ret_submit_bytes _ _ _ E); cbn; try assumption; reflexivity.
Qed.
(** A failure reply can always be sent. *)
Lemma fail_reply_total dbg h : exists b,
  response_to_bytes dbg (usbip_ret_submit_fail (reply_header h USBIP_RET_SUBMIT)) = Val b.
Proof. apply response_total. intros _. cbn. split; [done|]. destruct (_ =? 1); reflexivity. Qed.

Lemma serve_answers {H} dbg (st : cstate H) c b : u32_command c ->
  obind (serve dbg st c).1 (response_to_bytes dbg) = Val b -> answers c b.
Proof.
  intros Hu E. destruct c as [sta|sta busid|s|h us]; cbn [serve answers] in *.
  - cbn [fst obind op_rep_devlist response_to_bytes] in E. apply obind_val in E as (bs & _ & E).
    apply Val_inj in E; subst b. split_and!; [u16_lit|u16_lit|u32_lit].
  - destruct (import_device _ _) as [sv' r]. cbn [fst obind] in E.
    destruct r as [d|]; cbn [import_response op_rep_import_success op_rep_import_fail response_to_bytes] in E.
    + apply obind_val in E as (bs & Hd & E). apply Val_inj in E; subst b.
      apply device_bytes_length in Hd. split_and!; [u16_lit|u16_lit|]. left. split; [|u32_lit].
      rewrite !app_length, Hd. done.
    + cbn [obind] in E. apply Val_inj in E; subst b. split_and!; [u16_lit|u16_lit|]. right. split; [done|u32_lit].
  - destruct (serve_submit _ _ _ _) as [r w'] eqn:Es. cbn [fst] in E. unfold serve_submit in Es.
    destruct (current_device _ _) as [d|]; [|injection Es as <- _; discriminate].
    destruct (find_ep _ _) as [[ep i]|].
    2:{ injection Es as <- _. right. eapply fail_reply; eassumption. }
    destruct (handle_urb _ _ _ _ _ _ _ _) as [[data|x|p] w2]; injection Es as <- _.
    + left. exists data. eapply ok_reply; eassumption.
    + right. eapply fail_reply; eassumption.
    + discriminate.
  - destruct Hu as (? & ? & ? & ?). apply (ret_unlink_bytes _ _ _ _ E); cbn; try assumption; reflexivity.
Qed.

(** ** The shape of every run: C13 and C21 *)
Inductive ends {H} (dbg : bool) (fin : stream_end) : bytes -> cstate H -> conn_end -> cstate H -> Prop :=
| ends_read rest st e :
    run_rd (read_from_socket dbg) rest fin = RErr e -> ends dbg fin rest st (finish st e).1 (finish st e).2
| ends_read_panic rest st p :
    run_rd (read_from_socket dbg) rest fin = RPan p -> ends dbg fin rest st (EndPanic p) st
| ends_serve_panic rest c rest' st p :
    run_rd (read_from_socket dbg) rest fin = ROk c rest' ->
    obind (serve dbg st c).1 (response_to_bytes dbg) = Panic p ->
    ends dbg fin rest st (EndPanic p) (serve dbg st c).2.

Inductive steps {H} (dbg : bool) (fin : stream_end)
  : cstate H -> bytes -> list (command * bytes) -> cstate H -> bytes -> Prop :=
| steps_nil st inp : steps dbg fin st inp [] st inp
| steps_cons st inp c rest b l st' rest' :
    run_rd (read_from_socket dbg) inp fin = ROk c rest ->
    obind (serve dbg st c).1 (response_to_bytes dbg) = Val b ->
    steps dbg fin (serve dbg st c).2 rest l st' rest' ->
    steps dbg fin st inp ((c, b) :: l) st' rest'.

Definition bud_after (bud : budget) (n : N) : budget :=
  match bud with None => None | Some (k, e) => Some (k - n, e) end.
Definition bud_ok (bud : budget) (n : N) : Prop :=
  match bud with None => True | Some (k, _) => n <= k end.

Lemma write_all_cases bud b :
  (bud_ok bud (len b) /\ write_all bud b = (b, inl (bud_after bud (len b)))) \/
  (exists n e, bud = Some (n, e) /\ n < len b /\ write_all bud b = (take (N.to_nat n) b, inr e)).
Proof.
  destruct bud as [[n e]|]; cbn; [|auto].
  destruct (N.leb_spec (len b) n); [left; auto|right; eauto].
Qed.

Lemma bud_ok_app bud n m : bud_ok bud n -> bud_ok (bud_after bud n) m -> bud_ok bud (n + m).
Proof. destruct bud as [[k e]|]; cbn; lia. Qed.

Lemma connection_shape {H} dbg (st : cstate H) inp fin bud out e st' :
  connection dbg st inp fin bud = (out, e, st') ->
  exists l st1 rest, steps dbg fin st inp l st1 rest /\ bud_ok bud (len (mjoin l.*2)) /\
  ((out = mjoin l.*2 /\ ends dbg fin rest st1 e st') \/
   (exists c rest' b n er, bud = Some (n, er) /\ e = EndErr er /\ len out = n /\
      run_rd (read_from_socket dbg) rest fin = ROk c rest' /\
      obind (serve dbg st1 c).1 (response_to_bytes dbg) = Val b /\
      st' = (serve dbg st1 c).2 /\
      exists part more, b = part ++ more /\ more <> [] /\ out = mjoin l.*2 ++ part)).
Proof.
  remember (length inp) as n eqn:En. revert inp En st bud out e st'.
  induction (lt_wf n) as [n _ IH]. intros inp -> st bud out e st'.
  rewrite connection_unfold.
  destruct (run_rd (read_from_socket dbg) inp fin) as [c rest|er|p] eqn:R.
  - destruct (serve dbg st c) as [r st1] eqn:Es. pose proof (step_never_diverges dbg st c) as Hnd.
    rewrite Es in Hnd. cbn [fst] in Hnd.
    destruct (obind r (response_to_bytes dbg)) as [b|p|] eqn:Er; [|intros [= <- <- <-]|done].
    2:{ exists [], st, inp. split; [constructor|]. split; [destruct bud as [[]|]; [apply N.le_0_l|done]|]. left.
        split; [done|]. replace st1 with (serve dbg st c).2 by (rewrite Es; done).
        eapply ends_serve_panic; [exact R|]. rewrite Es. exact Er. }
    destruct (write_all_cases bud b) as [[Hok ->]|(k & er & -> & Hk & ->)].
    + destruct (connection dbg st1 rest fin _) as [[out2 e2] st2] eqn:E2. intros [= <- <- <-].
      pose proof (reader_shrinks _ _ _ _ _ R) as Hs.
      destruct (IH _ Hs rest eq_refl st1 _ _ _ _ E2) as (l & st3 & rest3 & Hst & Hbo & Hcase).
      exists ((c, b) :: l), st3, rest3. split; [|split].
      * eapply steps_cons; [exact R|rewrite Es; exact Er|rewrite Es; exact Hst].
      * cbn. rewrite len_app. apply bud_ok_app; assumption.
      * destruct Hcase as [(-> & He)|(c2 & r2 & b2 & k & er & Hb & -> & Hlen & R2 & Es2 & -> & part & more & -> & Hm & ->)].
        -- left. split; [done|exact He].
        -- right. destruct bud as [[n0 e0]|]; [|done]. cbn in Hb. injection Hb as <- <-.
           exists c2, r2, (part ++ more), n0, e0. split; [done|]. split; [done|].
           split; [rewrite len_app; cbn in Hok; lia|]. split; [done|]. split; [done|]. split; [done|].
           exists part, more. split; [done|]. split; [done|]. cbn. by rewrite <- app_assoc.
    + intros [= <- <- <-]. exists [], st, inp. split; [constructor|]. split; [apply N.le_0_l|]. right.
      exists c, rest, b, k, er. split; [done|]. split; [done|].
      split; [unfold len in *; rewrite take_length; lia|].
      split; [done|]. split; [rewrite Es; exact Er|]. split; [rewrite Es; done|].
      exists (take (N.to_nat k) b), (drop (N.to_nat k) b). split; [symmetry; apply take_drop|].
      split; [|done]. intros E%(f_equal length). rewrite drop_length in E. unfold len in Hk. cbn in E. lia.
  - destruct (finish st er) as [r st1] eqn:Ef. intros [= <- <- <-]. exists [], st, inp.
    split; [constructor|]. split; [destruct bud as [[]|]; [apply N.le_0_l|done]|]. left. split; [done|].
    replace r with (finish st er).1 by (rewrite Ef; done).
    replace st1 with (finish st er).2 by (rewrite Ef; done). by apply ends_read.
  - intros [= <- <- <-]. exists [], st, inp. split; [constructor|].
    split; [destruct bud as [[]|]; [apply N.le_0_l|done]|]. left. split; [done|]. by apply ends_read_panic.
Qed.

Lemma steps_messages {H} dbg fin (st : cstate H) inp l st' rest : all_u8 inp = true ->
  steps dbg fin st inp l st' rest ->
  messages dbg inp l.*1 rest /\ Forall (fun cb => answers cb.1 cb.2) l /\ all_u8 rest = true.
Proof.
  intros Hb. induction 1 as [|st inp c rest b l st' rest' R Eb _ IH]; [split; [constructor|]; auto|].
  destruct (reader_sound _ _ _ _ _ Hb R) as (m & -> & HL). apply all_u8_app in Hb as [Hm Hr].
  destruct (IH Hr) as (H1 & H2 & H3). split; [constructor; assumption|]. split; [|assumption].
  constructor; [|assumption]. cbn. eapply serve_answers; [|exact Eb]. by eapply layout_u32.
Qed.
