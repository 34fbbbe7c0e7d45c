(** * More proofs about reading commands: completeness, truncation, segmentation,
    rejection, allocation *)
From Verif Require Export CodecProofs.

Lemma bytes_at_app b r o l : (o + length l <= length b)%nat ->
  bytes_at b o l -> bytes_at (b ++ r) o l.
Proof.
  unfold bytes_at. intros Hl Hb.
  rewrite drop_app_le by lia. rewrite take_app_le; [exact Hb|].
  rewrite drop_length. lia.
Qed.

Lemma bytes_at_take b o l n : bytes_at b o l -> n = length l -> take n (drop o b) = l.
Proof. intros Hb ->. exact Hb. Qed.

Ltac go k :=
  lazymatch goal with
  | |- run_rd (read_u16 _) _ _ = _ => unfold read_u16 at 1
  | |- run_rd (read_u32 _) _ _ = _ => unfold read_u32 at 1
  | _ => idtac end;
  rewrite (run_read_go _ _ _ _ k); [|reflexivity|lia]; cbn beta.

Ltac be_field :=
  match goal with
  | Hf : u32_at ?b ?o ?v |- context [of_be (take (N.to_nat 4) (drop ?o ?b))] =>
      change (N.to_nat 4) with 4%nat; rewrite (of_be_u32_at b o v Hf)
  | Hf : u16_at ?b ?o ?v |- context [of_be (take (N.to_nat 2) (drop ?o ?b))] =>
      change (N.to_nat 2) with 2%nat; rewrite (of_be_u16_at b o v Hf)
  end.

Lemma reader_complete dbg msg c rest fin : cmd_layout dbg msg c ->
  run_rd (read_from_socket dbg) (msg ++ rest) fin = ROk c rest.
Proof.
  intros HL. remember (msg ++ rest) as inp eqn:Ei.
  assert (Hil : length inp = (length msg + length rest)%nat) by (subst; apply app_length).
  assert (Hrest : rest = drop (length msg) inp) by (subst; rewrite drop_app; done).
  rewrite <- (drop_0 inp) at 1. unfold read_from_socket.
  assert (F32 : forall o v, u32_at msg o v -> u32_at inp o v)
    by (intros; subst; apply u32_at_app; assumption).
  assert (F16 : forall o v, u16_at msg o v -> u16_at inp o v)
    by (intros; subst; apply u16_at_app; assumption).
  destruct HL as [v st Hlen Hver Hv Hc Hst Hd
                 |v st busid Hlen Hver Hv Hc Hst Hbl Hb Hd
                 |v h tf tbl sf np iv setup data iso Hlen Hver Hv Hc Hh Hhd Htf Htbl Hsf Hnp Hiv
                    Hsl Hs Hdl Hdt Hisl His Hd
                 |v h us Hlen Hver Hv Hc Hh Hhd Hus Hd];
    apply F16 in Hv, Hc; apply version_test in Hver.
  - apply F32 in Hst.
    go 2%nat. be_field. rewrite Hver. go 4%nat. be_field.
    rewrite N.eqb_refl. go 8%nat. be_field.
    rewrite run_assert_go by (intros Hs; rewrite (Hd Hs); reflexivity).
    cbn [run_rd]. rewrite Hrest, Hlen. done.
  - apply F32 in Hst.
    go 2%nat. be_field. rewrite Hver. go 4%nat. be_field.
    change (32771 =? OP_REQ_DEVLIST) with false. rewrite N.eqb_refl. go 8%nat. be_field.
    rewrite run_assert_go by (intros Hs; rewrite (Hd Hs); reflexivity).
    go 40%nat. cbn [run_rd]. rewrite Hrest, Hlen.
    rewrite (bytes_at_take inp 8 busid); [done| |rewrite Hbl; done].
    subst inp. apply bytes_at_app; [lia|assumption].
  - destruct Hhd as (H4 & H8 & H12 & H16).
    apply F32 in H4, H8, H12, H16, Htf, Htbl, Hsf, Hnp, Hiv.
    go 2%nat. be_field. rewrite Hver. go 4%nat. be_field.
    change (1 =? OP_REQ_DEVLIST) with false. change (1 =? OP_REQ_IMPORT) with false.
    rewrite N.eqb_refl. unfold read_header.
    go 8%nat. be_field. go 12%nat. be_field. go 16%nat. be_field.
    rewrite run_assert_go by (intros Hs2; apply direction_test; auto).
    go 20%nat. be_field. go 24%nat. be_field. go 28%nat. be_field.
    go 32%nat. be_field. go 36%nat. be_field. go 40%nat. be_field. go 48%nat.
    rewrite (bytes_at_take inp 40 setup); [| |rewrite Hsl; done].
    2:{ subst inp. apply bytes_at_app; [lia|assumption]. }
    replace (mkHeader USBIP_CMD_SUBMIT (h_seqnum h) (h_devid h) (h_direction h) (h_ep h)) with h
      by (destruct h; cbn in *; subst; reflexivity).
    assert (Hfin : forall data', data' = data ->
      run_rd
        (if negb (np =? 0) && negb (np =? 4294967295)
         then RAlloc (16 * np) (RRead (16 * np) (fun iso0 : list N =>
                RRet (CmdSubmit (mkSubmit h tf tbl sf np iv setup data' iso0))))
         else RRet (CmdSubmit (mkSubmit h tf tbl sf np iv setup data' [])))
        (drop (48 + length data) inp) fin
      = ROk (CmdSubmit (mkSubmit h tf tbl sf np iv setup data iso)) rest).
    { intros ? ->. rewrite iso_test. unfold iso_len in Hisl.
      destruct ((np =? 0) || (np =? 0xFFFFFFFF)); cbn [negb].
      - apply len_0 in Hisl. subst iso. cbn [run_rd length] in *.
        rewrite Nat.add_0_r in Hlen. rewrite Hrest, Hlen. done.
      - unfold len in Hisl. cbn [run_rd]. unfold len. rewrite drop_length.
        destruct (N.ltb_spec (N.of_nat (length inp - (48 + length data))) (16 * np)); [lia|].
        rewrite drop_drop, (bytes_at_take inp (48 + length data) iso); [|subst inp; apply bytes_at_app; [lia|assumption]|lia].
        rewrite Hrest, Hlen. do 2 f_equal. lia. }
    unfold payload_len in Hdl. change DIR_IN with 1.
    destruct (h_direction h =? 1).
    + apply len_0 in Hdl. subst data. cbn [length] in *. apply Hfin. done.
    + unfold len in Hdl. cbn [run_rd].
      unfold len. rewrite drop_length.
      destruct (N.ltb_spec (N.of_nat (length inp - 48)) tbl); [lia|].
      rewrite drop_drop. replace (N.to_nat tbl) with (length data) by lia.
      apply Hfin. apply bytes_at_take; [|done].
      subst inp. apply bytes_at_app; [lia|assumption].
  - destruct Hhd as (H4 & H8 & H12 & H16).
    apply F32 in H4, H8, H12, H16, Hus.
    go 2%nat. be_field. rewrite Hver. go 4%nat. be_field.
    change (2 =? OP_REQ_DEVLIST) with false. change (2 =? OP_REQ_IMPORT) with false.
    change (2 =? USBIP_CMD_SUBMIT) with false.
    rewrite N.eqb_refl. unfold read_header.
    go 8%nat. be_field. go 12%nat. be_field. go 16%nat. be_field.
    rewrite run_assert_go by (intros Hs2; apply direction_test; auto).
    go 20%nat. be_field. go 24%nat. be_field. go 48%nat. cbn [run_rd].
    rewrite Hrest, Hlen. do 2 f_equal. destruct h; cbn in *; subst; reflexivity.
Qed.

(** ** Truncation, for any reader *)
Lemma run_truncated {A} (p : rd A) (msg : bytes) fin a :
  run_rd p msg fin = ROk a [] ->
  forall pre suf fin', msg = pre ++ suf -> suf <> [] ->
  run_rd p pre fin' = RErr (end_error fin').
Proof.
  revert msg. induction p as [x|e|q|n k IH|n k IH]; intros msg H pre suf fin' -> Hs; cbn [run_rd] in *.
  - injection H as _ He. destruct suf; [done|]. destruct pre; discriminate.
  - discriminate.
  - discriminate.
  - destruct (N.ltb_spec (len (pre ++ suf)) n); [discriminate|].
    destruct (N.ltb_spec (len pre) n) as [|Hp]; [done|].
    unfold len in Hp. rewrite take_app_le, drop_app_le in H by lia.
    eapply IH; [exact H|reflexivity|exact Hs].
  - eapply IH; eauto.
Qed.

(** ** Reading never looks beyond the end of a successful read *)
Lemma run_extend {A} (p : rd A) inp fin a rest :
  run_rd p inp fin = ROk a rest -> forall more fin', run_rd p (inp ++ more) fin' = ROk a (rest ++ more).
Proof.
  revert inp. induction p as [x|e|q|n k IH|n k IH]; intros inp H more fin'; cbn [run_rd] in *;
    try discriminate.
  - injection H as -> ->. done.
  - rewrite len_app. destruct (N.ltb_spec (len inp) n); [discriminate|].
    destruct (N.ltb_spec (len inp + len more) n); [lia|]. unfold len in *.
    rewrite take_app_le, drop_app_le by lia. apply IH. exact H.
  - apply IH. exact H.
Qed.

Lemma run_consumes {A} (p : rd A) inp fin a rest :
  run_rd p inp fin = ROk a rest -> exists msg, inp = msg ++ rest /\ run_rd p msg fin = ROk a [].
Proof.
  revert inp. induction p as [x|e|q|n k IH|n k IH]; intros inp H; cbn [run_rd] in *; try discriminate.
  - injection H as -> ->. exists []. done.
  - destruct (N.ltb_spec (len inp) n) as [|Hn]; [discriminate|].
    destruct (IH _ _ H) as (m & Hm & Hr). unfold len in Hn.
    exists (take (N.to_nat n) inp ++ m). split.
    + rewrite <- app_assoc, <- Hm. symmetry. apply take_drop.
    + rewrite len_app. unfold len. rewrite take_length.
      destruct (N.ltb_spec (N.of_nat (N.to_nat n `min` length inp) + N.of_nat (length m)) n); [lia|].
      rewrite take_app_alt, drop_app_alt by (rewrite take_length; lia). exact Hr.
  - apply IH. exact H.
Qed.

(** ** Segmentation *)
Lemma read_chunks_spec n cs :
  match read_chunks n cs with
  | Some (b, cs') => (n <= length (mjoin cs))%nat /\ b = take n (mjoin cs)
                     /\ mjoin cs' = drop n (mjoin cs)
  | None => (length (mjoin cs) < n)%nat
  end.
Proof.
  revert n. induction cs as [|c cs IH]; intros [|n]; cbn [read_chunks].
  - cbn. repeat split; lia.
  - cbn. lia.
  - cbn. repeat split; lia.
  - change (mjoin (c :: cs)) with (c ++ mjoin cs).
    destruct (Nat.leb_spec (length c) (S n)).
    + specialize (IH (S n - length c)%nat).
      destruct (read_chunks (S n - length c) cs) as [[b cs']|].
      * destruct IH as (? & -> & ->). rewrite app_length. repeat split; [lia| |].
        -- rewrite take_app_ge by lia. done.
        -- rewrite drop_app_ge by lia. done.
      * rewrite app_length. lia.
    + rewrite app_length. repeat split; [lia| |].
      * rewrite take_app_le by lia. done.
      * change (mjoin (drop (S n) c :: cs)) with (drop (S n) c ++ mjoin cs).
        rewrite drop_app_le by lia. done.
Qed.

Definition flatten_rres {A} (r : rres A (list (list N))) : rres A (list N) :=
  match r with ROk a cs => ROk a (mjoin cs) | RErr e => RErr e | RPan p => RPan p end.

Lemma run_chunks {A} (p : rd A) cs fin :
  flatten_rres (run_rd_chunks p cs fin) = run_rd p (mjoin cs) fin.
Proof.
  revert cs. induction p as [x|e|q|n k IH|n k IH]; intros cs; cbn [run_rd run_rd_chunks flatten_rres];
    try done.
  - pose proof (read_chunks_spec (N.to_nat n) cs) as Hr.
    destruct (read_chunks (N.to_nat n) cs) as [[b cs']|]; unfold len.
    + destruct Hr as (Hn & -> & Hr). rewrite IH, Hr.
      destruct (N.ltb_spec (N.of_nat (length (mjoin cs))) n); [lia|done].
    + destruct (N.ltb_spec (N.of_nat (length (mjoin cs))) n); [done|lia].
Qed.

(** ** Rejection *)
Lemma run_end_error {A} n (k : bytes -> rd A) inp fin : len inp < n ->
  run_rd (RRead n k) inp fin = RErr (end_error fin).
Proof. intros. cbn. destruct (N.ltb_spec (len inp) n); [done|lia]. Qed.

(** Errors a reader can produce by itself. *)
Fixpoint own_errors {A} (P : io_error -> Prop) (p : rd A) : Prop :=
  match p with
  | RRet _ | RPanic _ => True
  | RFail e => P e
  | RAlloc _ k => own_errors P k
  | RRead _ k => forall b, own_errors P (k b)
  end.

Lemma run_errors {A} P (p : rd A) inp fin e :
  own_errors P p -> run_rd p inp fin = RErr e -> e = end_error fin \/ P e.
Proof.
  revert inp. induction p as [x|e'|q|n k IH|n k IH]; intros inp Ho H; cbn [run_rd own_errors] in *;
    try discriminate.
  - injection H as <-. auto.
  - destruct (len inp <? n).
    + injection H as <-. auto.
    + eapply IH; eauto.
  - eapply IH; eauto.
Qed.

Lemma assert_own {A} P dbg b (k : rd A) : own_errors P k -> own_errors P (rd_debug_assert dbg b k).
Proof. unfold rd_debug_assert. destruct (dbg && negb b); cbn; auto. Qed.

Ltac own_tac :=
  repeat (first
    [ progress intros
    | progress cbn [own_errors]
    | progress cbv zeta
    | apply assert_own
    | match goal with |- own_errors _ (if ?c then _ else _) => destruct c end
    | exact I ]).

Lemma u16_at_head b v : u16_at b 0 v -> (2 <= length b)%nat.
Proof. intros (x & y & _ & Hy & _). apply lookup_lt_Some in Hy. lia. Qed.
Lemma u16_at_head2 b v : u16_at b 2 v -> (4 <= length b)%nat.
Proof. intros (x & y & _ & Hy & _). apply lookup_lt_Some in Hy. lia. Qed.

Lemma reject_version dbg inp fin v : u16_at inp 0 v -> ~ version_ok v ->
  run_rd (read_from_socket dbg) inp fin = RErr (EUnknownVersion v).
Proof.
  intros Hv Hn. pose proof (u16_at_head _ _ Hv). rewrite <- (drop_0 inp) at 1.
  unfold read_from_socket. go 2%nat. be_field.
  destruct (negb (v =? 0) && negb (v =? USBIP_VERSION)) eqn:E; [done|].
  apply version_test in E. done.
Qed.

Lemma reject_command dbg inp fin v c : u16_at inp 0 v -> version_ok v -> u16_at inp 2 c ->
  ~ known_code c -> run_rd (read_from_socket dbg) inp fin = RErr (EUnknownCommand c).
Proof.
  intros Hv Hok Hc Hn. pose proof (u16_at_head2 _ _ Hc). rewrite <- (drop_0 inp) at 1.
  unfold read_from_socket. go 2%nat. be_field. apply version_test in Hok. rewrite Hok.
  go 4%nat. be_field. unfold known_code in Hn.
  unfold OP_REQ_DEVLIST, OP_REQ_IMPORT, USBIP_CMD_SUBMIT, USBIP_CMD_UNLINK.
  destruct (N.eqb_spec c 32773); [tauto|]. destruct (N.eqb_spec c 32771); [tauto|].
  destruct (N.eqb_spec c 1); [tauto|]. destruct (N.eqb_spec c 2); [tauto|]. done.
Qed.

(** The only errors are: the stream ended, unknown version, unknown command; the
    latter two exactly for the offending half-words. *)
Lemma reader_errors dbg inp fin e : all_u8 inp = true ->
  run_rd (read_from_socket dbg) inp fin = RErr e ->
  e = end_error fin
  \/ (exists v, e = EUnknownVersion v /\ u16_at inp 0 v /\ ~ version_ok v)
  \/ (exists v c, e = EUnknownCommand c /\ u16_at inp 0 v /\ version_ok v /\ u16_at inp 2 c
        /\ ~ known_code c).
Proof.
  intros Hb H. rewrite <- (drop_0 inp) in H at 1. unfold read_from_socket in H.
  unfold read_u16 at 1 in H. rewrite run_read_at in H by lia.
  change (0 + N.to_nat 2)%nat with 2%nat in H. change (N.to_nat 2) with 2%nat in H.
  destruct (Nat.ltb_spec (length inp) 2); [injection H as <-; auto|]. cbn beta in H.
  pose proof (u16_at_of_be inp 0 Hb ltac:(lia)) as Hv. cbn beta in Hv.
  set (v := of_be (take 2 (drop 0 inp))) in *.
  destruct (negb (v =? 0) && negb (v =? USBIP_VERSION)) eqn:Ev.
  { cbn in H. injection H as <-. right. left. exists v. repeat split; [assumption|].
    intros Hok. apply version_test in Hok. congruence. }
  apply version_test in Ev.
  unfold read_u16 at 1 in H. rewrite run_read_at in H by lia.
  change (2 + N.to_nat 2)%nat with 4%nat in H. change (N.to_nat 2) with 2%nat in H.
  destruct (Nat.ltb_spec (length inp) 4); [injection H as <-; auto|]. cbn beta in H.
  pose proof (u16_at_of_be inp 2 Hb ltac:(lia)) as Hc. cbn beta in Hc.
  set (c := of_be (take 2 (drop 2 inp))) in *.
  unfold OP_REQ_DEVLIST, OP_REQ_IMPORT, USBIP_CMD_SUBMIT, USBIP_CMD_UNLINK in H.
  destruct (N.eqb_spec c 32773).
  { left. eapply (run_errors (fun _ => False)) in H; [tauto|]. unfold read_u32. own_tac. }
  destruct (N.eqb_spec c 32771).
  { left. eapply (run_errors (fun _ => False)) in H; [tauto|]. unfold read_u32. own_tac. }
  destruct (N.eqb_spec c 1).
  { left. eapply (run_errors (fun _ => False)) in H; [tauto|]. unfold read_header, read_u32. own_tac. }
  destruct (N.eqb_spec c 2).
  { left. eapply (run_errors (fun _ => False)) in H; [tauto|]. unfold read_header, read_u32. own_tac. }
  cbn in H. injection H as <-. right. right. exists v, c. repeat split; try assumption.
  unfold known_code. lia.
Qed.

(** ** Encoding *)
Lemma be32_at v b1 b2 b3 b4 : u32 v -> be32 v = [b1; b2; b3; b4] ->
  b1 < 256 /\ b2 < 256 /\ b3 < 256 /\ b4 < 256 /\ v = b1 * 16777216 + b2 * 65536 + b3 * 256 + b4.
Proof. unfold u32, be32. intros ? [= <- <- <- <-]. lia. Qed.

Lemma u32_at_be32 p v q : u32 v -> u32_at (p ++ be32 v ++ q) (length p) v.
Proof.
  intros Hv. replace (length p) with (length p + 0)%nat by lia. apply u32_at_shift.
  unfold be32, u32 in *. eexists _, _, _, _. cbn. repeat split; lia.
Qed.
Lemma u16_at_be16 p v q : v < 65536 -> u16_at (p ++ be16 v ++ q) (length p) v.
Proof.
  intros Hv. replace (length p) with (length p + 0)%nat by lia. apply u16_at_shift.
  unfold be16 in *. eexists _, _. cbn. repeat split; lia.
Qed.

Lemma be16_length v : length (be16 v) = 2%nat. Proof. done. Qed.
Lemma be32_length v : length (be32 v) = 4%nat. Proof. done. Qed.

(** Solve [u32_at (be32 a ++ be32 b ++ ..) o v] where [o] is a literal. *)
Ltac u32_lit := unfold u32_at, be32, be16, u32 in *;
  eexists _, _, _, _; cbn; repeat split; lia.
Ltac u16_lit := unfold u16_at, be32, be16, u32 in *;
  eexists _, _; cbn; repeat split; lia.

Lemma bytes_at_mid p l q : bytes_at (p ++ l ++ q) (length p) l.
Proof. unfold bytes_at. rewrite drop_app, take_app. done. Qed.
Lemma bytes_at_mid' p l q o : o = length p -> bytes_at (p ++ l ++ q) o l.
Proof. intros ->. apply bytes_at_mid. Qed.
Lemma bytes_at_end p l o : o = length p -> bytes_at (p ++ l) o l.
Proof. intros ->. rewrite <- (app_nil_r l) at 1. apply bytes_at_mid. Qed.

Lemma header_to_bytes_length h : length (header_to_bytes h) = 20%nat.
Proof. done. Qed.


Lemma Val_inj {A} (x y : A) : Val x = Val y -> x = y.
Proof. congruence. Qed.

Lemma encode_layout dbg c b : wf_command dbg c -> command_to_bytes dbg c = Val b ->
  cmd_layout dbg b c.
Proof.
  destruct c as [st|st busid|s|h us]; cbn [wf_command command_to_bytes].
  - intros [Hst Hd] [= <-]. apply cl_devlist with 0x111; auto.
    + right. done.
    + u16_lit.
    + u16_lit.
    + u32_lit.
  - intros (Hst & Hd & Hl & Hb) [= <-]. apply cl_import with 0x111; auto.
    + cbn [length app be16 be32]. rewrite Hl. done.
    + right. done.
    + u16_lit.
    + u16_lit.
    + u32_lit.
    + unfold bytes_at. cbn [drop]. apply firstn_all.
  - destruct s as [h tf tbl sf np iv setup data iso];
    cbn [sb_header sb_transfer_flags sb_transfer_buffer_length sb_start_frame
         sb_number_of_packets sb_interval sb_setup sb_data sb_iso].
    unfold wf_header, byte_list.
    intros ((Hc & H1 & H2 & H3 & H4 & Hd) & H5 & H6 & H7 & H8 & H9 & [Hsl Hsb] & Hdb & Hib & Hdl & Hil) H.
    unfold debug_assert in H. destruct (dbg && _); [discriminate|]. apply Val_inj in H. subst b.
    destruct h as [cm sq di dr ep]; cbn [h_command h_seqnum h_devid h_direction h_ep] in *. subst cm.
    set (hd := header_to_bytes _).
    apply cl_submit with 0; auto.
    + rewrite !app_length. cbn. rewrite Hsl. lia.
    + left. done.
    + unfold hd, header_to_bytes. cbn [h_command]. u16_lit.
    + unfold hd, header_to_bytes. cbn [h_command]. u16_lit.
    + unfold hd, header_to_bytes, header_at. cbn [h_seqnum h_devid h_direction h_ep].
      repeat split; u32_lit.
    + unfold hd, header_to_bytes. u32_lit.
    + unfold hd, header_to_bytes. u32_lit.
    + unfold hd, header_to_bytes. u32_lit.
    + unfold hd, header_to_bytes. u32_lit.
    + unfold hd, header_to_bytes. u32_lit.
    + rewrite !app_assoc. rewrite <- (app_assoc _ data iso), <- (app_assoc _ setup).
      apply bytes_at_mid'. done.
    + rewrite !app_assoc. rewrite <- (app_assoc _ data iso).
      apply bytes_at_mid'. rewrite !app_length. cbn. rewrite Hsl. done.
    + rewrite !app_assoc. apply bytes_at_end. rewrite !app_length. cbn. rewrite Hsl. done.
  - intros [(Hc & H1 & H2 & H3 & H4 & Hd) Hus] [= <-].
    destruct h as [cm sq di dr ep]; cbn [h_command h_seqnum h_devid h_direction h_ep] in *. subst cm.
    apply cl_unlink with 0; auto.
    + left. done.
    + unfold header_to_bytes. cbn [h_command]. u16_lit.
    + unfold header_to_bytes. cbn [h_command]. u16_lit.
    + unfold header_to_bytes, header_at. cbn [h_seqnum h_devid h_direction h_ep].
      repeat split; u32_lit.
    + unfold header_to_bytes. u32_lit.
Qed.

Lemma encode_total dbg c : wf_command dbg c -> exists b, command_to_bytes dbg c = Val b.
Proof.
  destruct c as [st|st busid|s|h us]; cbn [wf_command command_to_bytes]; eauto.
  intros ((Hc & H1 & H2 & H3 & H4 & Hd) & H5 & H6 & H7 & H8 & H9 & Hs & Hdb & Hib & Hdl & Hil).
  unfold debug_assert. destruct dbg; cbn [andb]; eauto.
  assert ((negb (h_direction (sb_header s) =? DIR_OUT)
     || (sb_transfer_buffer_length s =? as_u32 (len (sb_data s)))) = true) as ->; [|cbn; eauto].
  destruct (Hd eq_refl) as [E|E]; rewrite E; cbn; [|done].
  rewrite E in Hdl. unfold payload_len in Hdl. cbn in Hdl. unfold u32 in *.
  unfold as_u32. rewrite Hdl. lia.
Qed.

Lemma encode_u8 dbg c b : wf_command dbg c -> command_to_bytes dbg c = Val b -> all_u8 b = true.
Proof.
  assert (HU : forall l, Forall (fun x => x < 256) l -> all_u8 l = true) by (intros; by apply all_u8_spec).
  destruct c as [st|st busid|s|h us]; cbn [wf_command command_to_bytes].
  - intros _ E; apply Val_inj in E; subst b. rewrite !all_u8_app, !be16_u8, be32_u8. done.
  - intros (? & ? & ? & ?) E; apply Val_inj in E; subst b. rewrite !all_u8_app, !be16_u8, be32_u8. auto.
  - intros (? & ? & ? & ? & ? & ? & [? ?] & ? & ? & ? & ?) E.
    unfold debug_assert in E. destruct (dbg && _); [discriminate|]. apply Val_inj in E. subst b.
    unfold header_to_bytes. rewrite !all_u8_app, !be32_u8. auto 20.
  - intros _ E; apply Val_inj in E; subst b. unfold header_to_bytes. rewrite !all_u8_app, !be32_u8.
    repeat split; auto.
Qed.

Lemma roundtrip dbg c b rest fin : wf_command dbg c -> command_to_bytes dbg c = Val b ->
  run_rd (read_from_socket dbg) (b ++ rest) fin = ROk c rest.
Proof. intros. apply reader_complete. eapply encode_layout; eauto. Qed.

(** A layout is never a prefix of another: messages are self-delimiting. *)
Lemma layout_deterministic dbg m1 m2 c1 c2 r1 r2 :
  cmd_layout dbg m1 c1 -> cmd_layout dbg m2 c2 -> m1 ++ r1 = m2 ++ r2 ->
  m1 = m2 /\ c1 = c2 /\ r1 = r2.
Proof.
  intros H1 H2 E. pose proof (reader_complete dbg m1 c1 r1 SEof H1) as R1.
  pose proof (reader_complete dbg m2 c2 r2 SEof H2) as R2. rewrite E, R2 in R1.
  injection R1 as -> ->. split; [|done]. eapply app_inv_tail. exact E.
Qed.

(** ** Sequences *)
Lemma reads_det dbg fin inp cs e : reads dbg fin inp cs e ->
  forall cs' e', reads dbg fin inp cs' e' -> cs' = cs /\ e' = e.
Proof.
  induction 1 as [inp e H|inp c rest cs e H Hr IH]; intros cs' e' H'; destruct H' as [? ? H'|? c' ? ? ? H' Hr'].
  - rewrite H in H'. injection H' as <-. done.
  - congruence.
  - congruence.
  - rewrite H in H'. injection H' as <- <-. destruct (IH _ _ Hr') as [-> ->]. done.
Qed.

Lemma reads_pipeline dbg fin cs bs tail e :
  Forall2 (fun c b => wf_command dbg c /\ command_to_bytes dbg c = Val b) cs bs ->
  run_rd (read_from_socket dbg) tail fin = RErr e ->
  reads dbg fin (mjoin bs ++ tail) cs e.
Proof.
  induction 1 as [|c b cs bs [Hw Hb] _ IH]; intros Ht.
  - apply reads_end. exact Ht.
  - apply reads_cons with (mjoin bs ++ tail); [|auto].
    change (mjoin (b :: bs)) with (b ++ mjoin bs). rewrite <- app_assoc.
    apply roundtrip; assumption.
Qed.

