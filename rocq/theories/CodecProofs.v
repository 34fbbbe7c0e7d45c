(** * Proofs about reading commands *)
From Verif Require Export Lemmas SpecWire.

(** ** of_be *)
Lemma of_be_2 a b : of_be [a; b] = a * 256 + b.
Proof. unfold of_be. cbn [fold_left]. lia. Qed.
Lemma of_be_4 a b c d : of_be [a; b; c; d] = a * 16777216 + b * 65536 + c * 256 + d.
Proof. unfold of_be. cbn [fold_left]. lia. Qed.

Lemma of_be_be16 n : n < 65536 -> of_be (be16 n) = n.
Proof. intros. unfold be16. rewrite of_be_2. lia. Qed.
Lemma of_be_be32 n : n < 4294967296 -> of_be (be32 n) = n.
Proof. intros. unfold be32. rewrite of_be_4. lia. Qed.

(** ** Fields and [of_be] of a slice *)
Lemma u32_at_of_be b o : all_u8 b = true -> (o + 4 <= length b)%nat ->
  u32_at b o (of_be (take 4 (drop o b))).
Proof.
  intros Hb Hl. destruct (take_4 (drop o b)) as (x & y & z & w & Hx & Hy & Hz & Hw & ->).
  { rewrite drop_length. lia. }
  rewrite lookup_drop in Hx, Hy, Hz, Hw.
  exists x, y, z, w. rewrite of_be_4. rewrite Nat.add_0_r in Hx.
  repeat split; try assumption; eapply all_u8_lookup; eassumption.
Qed.

Lemma u16_at_of_be b o : all_u8 b = true -> (o + 2 <= length b)%nat ->
  u16_at b o (of_be (take 2 (drop o b))).
Proof.
  intros Hb Hl. destruct (take_2 (drop o b)) as (x & y & Hx & Hy & ->).
  { rewrite drop_length. lia. }
  rewrite lookup_drop in Hx, Hy.
  exists x, y. rewrite of_be_2. rewrite Nat.add_0_r in Hx.
  repeat split; try assumption; eapply all_u8_lookup; eassumption.
Qed.

Lemma of_be_u32_at b o v : u32_at b o v -> of_be (take 4 (drop o b)) = v.
Proof.
  intros (x & y & z & w & Hx & Hy & Hz & Hw & _ & _ & _ & _ & ->).
  destruct (take_4 (drop o b)) as (x' & y' & z' & w' & Hx' & Hy' & Hz' & Hw' & ->).
  { rewrite drop_length. apply lookup_lt_Some in Hw. lia. }
  rewrite lookup_drop in Hx', Hy', Hz', Hw'. rewrite Nat.add_0_r in Hx'.
  rewrite of_be_4. simplify_eq. done.
Qed.

Lemma of_be_u16_at b o v : u16_at b o v -> of_be (take 2 (drop o b)) = v.
Proof.
  intros (x & y & Hx & Hy & _ & _ & ->).
  destruct (take_2 (drop o b)) as (x' & y' & Hx' & Hy' & ->).
  { rewrite drop_length. apply lookup_lt_Some in Hy. lia. }
  rewrite lookup_drop in Hx', Hy'. rewrite Nat.add_0_r in Hx'.
  rewrite of_be_2. simplify_eq. done.
Qed.

Lemma u32_at_fun b o v v' : u32_at b o v -> u32_at b o v' -> v = v'.
Proof. intros Ha Hb. apply of_be_u32_at in Ha, Hb. congruence. Qed.
Lemma u16_at_fun b o v v' : u16_at b o v -> u16_at b o v' -> v = v'.
Proof. intros Ha Hb. apply of_be_u16_at in Ha, Hb. congruence. Qed.
Lemma u32_at_lt b o v : u32_at b o v -> v < 4294967296.
Proof. intros (x & y & z & w & ? & ? & ? & ? & ? & ? & ? & ? & ->). lia. Qed.
Lemma u16_at_lt b o v : u16_at b o v -> v < 65536.
Proof. intros (x & y & ? & ? & ? & ? & ->). lia. Qed.

Lemma u32_at_app b b' o v : u32_at b o v -> u32_at (b ++ b') o v.
Proof.
  intros (x & y & z & w & ? & ? & ? & ? & ? & ? & ? & ? & ->).
  exists x, y, z, w. repeat split; try assumption; apply lookup_app_l_Some; assumption.
Qed.
Lemma u16_at_app b b' o v : u16_at b o v -> u16_at (b ++ b') o v.
Proof.
  intros (x & y & ? & ? & ? & ? & ->).
  exists x, y. repeat split; try assumption; apply lookup_app_l_Some; assumption.
Qed.

Lemma u32_at_shift p b o v : u32_at b o v -> u32_at (p ++ b) (length p + o) v.
Proof.
  intros (x & y & z & w & ? & ? & ? & ? & ? & ? & ? & ? & ->).
  exists x, y, z, w. repeat split; try assumption;
    rewrite lookup_app_r by lia;
    match goal with Hx : _ !! ?i = ?r |- _ !! ?j = ?r => replace j with i by lia; exact Hx end.
Qed.
Lemma u16_at_shift p b o v : u16_at b o v -> u16_at (p ++ b) (length p + o) v.
Proof.
  intros (x & y & ? & ? & ? & ? & ->).
  exists x, y. repeat split; try assumption;
    rewrite lookup_app_r by lia;
    match goal with Hx : _ !! ?i = ?r |- _ !! ?j = ?r => replace j with i by lia; exact Hx end.
Qed.

(** ** Reading at a cursor *)
Lemma run_read_at {A} n (k : bytes -> rd A) inp o fin : (o <= length inp)%nat ->
  run_rd (RRead n k) (drop o inp) fin =
  if (length inp <? o + N.to_nat n)%nat then RErr (end_error fin)
  else run_rd (k (take (N.to_nat n) (drop o inp))) (drop (o + N.to_nat n) inp) fin.
Proof.
  intros Ho. cbn [run_rd]. unfold len. rewrite drop_length, drop_drop.
  destruct (Nat.ltb_spec (length inp) (o + N.to_nat n)), (N.ltb_spec (N.of_nat (length inp - o)) n);
    try lia; done.
Qed.

(** One step of a successful run: the read fits. *)
Lemma run_read_ok {A} n (k : bytes -> rd A) inp o fin a rest : (o <= length inp)%nat ->
  run_rd (RRead n k) (drop o inp) fin = ROk a rest ->
  (o + N.to_nat n <= length inp)%nat /\
  run_rd (k (take (N.to_nat n) (drop o inp))) (drop (o + N.to_nat n) inp) fin = ROk a rest.
Proof.
  intros Ho. rewrite run_read_at by exact Ho.
  destruct (Nat.ltb_spec (length inp) (o + N.to_nat n)); [done|]. intros; split; [lia|done].
Qed.

Lemma run_read_go {A} n (k : bytes -> rd A) inp o o' fin :
  o' = (o + N.to_nat n)%nat -> (o' <= length inp)%nat ->
  run_rd (RRead n k) (drop o inp) fin =
  run_rd (k (take (N.to_nat n) (drop o inp))) (drop o' inp) fin.
Proof.
  intros -> Ho. rewrite run_read_at by lia.
  destruct (Nat.ltb_spec (length inp) (o + N.to_nat n)); [lia|done].
Qed.

Lemma run_assert_ok {A} dbg b (k : rd A) inp fin a rest :
  run_rd (rd_debug_assert dbg b k) inp fin = ROk a rest ->
  (dbg = true -> b = true) /\ run_rd k inp fin = ROk a rest.
Proof. unfold rd_debug_assert. destruct dbg, b; cbn; intros; split; intros; try done. Qed.

Lemma run_assert_go {A} dbg b (k : rd A) inp fin :
  (dbg = true -> b = true) -> run_rd (rd_debug_assert dbg b k) inp fin = run_rd k inp fin.
Proof. unfold rd_debug_assert. destruct dbg, b; cbn; intros Hb; try done. by specialize (Hb eq_refl). Qed.

Lemma version_test v :
  negb (v =? 0) && negb (v =? USBIP_VERSION) = false <-> version_ok v.
Proof.
  unfold version_ok, USBIP_VERSION. destruct (N.eqb_spec v 0), (N.eqb_spec v 273); cbn; split; intros; try done; auto.
  destruct H; lia.
Qed.

Lemma direction_test d : (N.land d 1 =? d) = true <-> d = 0 \/ d = 1.
Proof. rewrite land_1, N.eqb_eq. lia. Qed.

(** ** Soundness *)
Ltac rd_step H :=
  apply run_read_ok in H; [|lia];
  let Hl := fresh "Hl" in destruct H as [Hl H]; cbn beta in H.

Lemma bytes_at_slice b o n m l : (o + n <= length l)%nat -> (o + n <= m)%nat ->
  b = take m l ->
  bytes_at b o (take n (drop o l)).
Proof.
  intros Hl Hm ->. unfold bytes_at. rewrite take_length, drop_length.
  rewrite Nat.min_l by lia.
  rewrite skipn_firstn_comm, take_take. f_equal. lia.
Qed.

Lemma u32_slice inp o m : all_u8 inp = true -> (o + 4 <= length inp)%nat -> (o + 4 <= m)%nat ->
  u32_at (take m inp) o (of_be (take (N.to_nat 4) (drop o inp))).
Proof.
  intros Hb Hl Hm. change (N.to_nat 4) with 4%nat.
  replace (take 4 (drop o inp)) with (take 4 (drop o (take m inp))).
  - apply u32_at_of_be; [by apply all_u8_take|]. rewrite take_length. lia.
  - rewrite skipn_firstn_comm, take_take. f_equal. lia.
Qed.
Lemma u16_slice inp o m : all_u8 inp = true -> (o + 2 <= length inp)%nat -> (o + 2 <= m)%nat ->
  u16_at (take m inp) o (of_be (take (N.to_nat 2) (drop o inp))).
Proof.
  intros Hb Hl Hm. change (N.to_nat 2) with 2%nat.
  replace (take 2 (drop o inp)) with (take 2 (drop o (take m inp))).
  - apply u16_at_of_be; [by apply all_u8_take|]. rewrite take_length. lia.
  - rewrite skipn_firstn_comm, take_take. f_equal. lia.
Qed.

Lemma slice_length {A} n o (l : list A) : (o + n <= length l)%nat -> length (take n (drop o l)) = n.
Proof. intros. rewrite take_length, drop_length. lia. Qed.

Ltac side := rewrite ?slice_length, ?take_length, ?drop_length in *; try lia.

Lemma iso_test np : negb (np =? 0) && negb (np =? 4294967295) =
  negb ((np =? 0) || (np =? 0xFFFFFFFF)).
Proof. rewrite negb_orb. reflexivity. Qed.

Ltac rd_norm H o2 :=
  match type of H with
  | context [ drop (?a + N.to_nat ?n) _ ] =>
      change (a + N.to_nat n)%nat with o2 in H
  end.
Lemma payload_len_in : forall tbl, payload_len 1 tbl = 0.
Proof. reflexivity. Qed.

Lemma reader_sound dbg inp fin c rest : all_u8 inp = true ->
  run_rd (read_from_socket dbg) inp fin = ROk c rest ->
  exists msg, inp = msg ++ rest /\ cmd_layout dbg msg c.
Proof.
  intros Hb H. rewrite <- (drop_0 inp) in H. unfold read_from_socket in H.
  unfold read_u16 at 1 in H. rd_step H. rd_norm H 2%nat.
  set (v := of_be (take (N.to_nat 2) (drop 0 inp))) in *.
  destruct (negb (v =? 0) && negb (v =? USBIP_VERSION)) eqn:Hv; [cbn in H; discriminate|].
  apply version_test in Hv.
  unfold read_u16 at 1 in H. rd_step H. rd_norm H 4%nat.
  set (code := of_be (take (N.to_nat 2) (drop 2 inp))) in *.
  assert (Hver : forall m, (2 <= m)%nat -> u16_at (take m inp) 0 v).
  { intros. apply u16_slice; [assumption|lia|lia]. }
  assert (Hcode : forall m, (4 <= m)%nat -> u16_at (take m inp) 2 code).
  { intros. apply u16_slice; [assumption|lia|lia]. }
  destruct (N.eqb_spec code OP_REQ_DEVLIST) as [Ec|_].
  { unfold read_u32 at 1 in H. rd_step H. rd_norm H 8%nat.
    apply run_assert_ok in H as [Hd H]. cbn in H. injection H as <- <-.
    exists (take 8 inp). split; [symmetry; apply take_drop|].
    apply cl_devlist with v; auto.
    - rewrite take_length. lia.
    - apply Hver. lia.
    - change 0x8005 with OP_REQ_DEVLIST. rewrite <- Ec. apply Hcode. lia.
    - apply u32_slice; [assumption|lia|lia].
    - intros Hs. specialize (Hd Hs). apply N.eqb_eq in Hd. exact Hd. }
  destruct (N.eqb_spec code OP_REQ_IMPORT) as [Ec|_].
  { unfold read_u32 at 1 in H. rd_step H. rd_norm H 8%nat.
    apply run_assert_ok in H as [Hd H]. rd_step H. rd_norm H 40%nat. cbn in H. injection H as <- <-.
    exists (take 40 inp). split; [symmetry; apply take_drop|].
    apply cl_import with v; auto.
    - rewrite take_length. lia.
    - apply Hver. lia.
    - change 0x8003 with OP_REQ_IMPORT. rewrite <- Ec. apply Hcode. lia.
    - apply u32_slice; [assumption|lia|lia].
    - apply slice_length. lia.
    - apply bytes_at_slice with 40%nat; [lia|lia|reflexivity].
    - intros Hs. specialize (Hd Hs). apply N.eqb_eq in Hd. exact Hd. }
  destruct (N.eqb_spec code USBIP_CMD_SUBMIT) as [Ec|_].
  { unfold read_header, read_u32 at 1 2 3 in H.
    rd_step H. rd_norm H 8%nat. rd_step H. rd_norm H 12%nat. rd_step H. rd_norm H 16%nat.
    apply run_assert_ok in H as [Hd H].
    unfold read_u32 in H. rd_step H. rd_norm H 20%nat. rd_step H. rd_norm H 24%nat.
    rd_step H. rd_norm H 28%nat. rd_step H. rd_norm H 32%nat. rd_step H. rd_norm H 36%nat.
    rd_step H. rd_norm H 40%nat. rd_step H. rd_norm H 48%nat.
    rename Hl9 into H48. change (40 + N.to_nat 8)%nat with 48%nat in H48.
    set (dir := of_be (take (N.to_nat 4) (drop 12 inp))) in *.
    set (tbl := of_be (take (N.to_nat 4) (drop 24 inp))) in *.
    set (np := of_be (take (N.to_nat 4) (drop 32 inp))) in *.
    cbn [h_direction] in H.
    (* both branches: data of the announced length, then iso *)
    assert (Hdata : exists data, len data = payload_len dir tbl /\
      (48 + length data <= length inp)%nat /\ data = take (length data) (drop 48 inp) /\
      run_rd
       (if negb (np =? 0) && negb (np =? 4294967295)
        then RAlloc (16 * np) (RRead (16 * np) (fun iso : list N =>
             RRet (CmdSubmit (mkSubmit
                  {| h_command := USBIP_CMD_SUBMIT;
                     h_seqnum := of_be (take (N.to_nat 4) (drop 4 inp));
                     h_devid := of_be (take (N.to_nat 4) (drop 8 inp));
                     h_direction := dir;
                     h_ep := of_be (take (N.to_nat 4) (drop 16 inp)) |}
                  (of_be (take (N.to_nat 4) (drop 20 inp))) tbl
                  (of_be (take (N.to_nat 4) (drop 28 inp))) np
                  (of_be (take (N.to_nat 4) (drop 36 inp)))
                  (take (N.to_nat 8) (drop 40 inp)) data iso))))
        else RRet (CmdSubmit (mkSubmit
                  {| h_command := USBIP_CMD_SUBMIT;
                     h_seqnum := of_be (take (N.to_nat 4) (drop 4 inp));
                     h_devid := of_be (take (N.to_nat 4) (drop 8 inp));
                     h_direction := dir;
                     h_ep := of_be (take (N.to_nat 4) (drop 16 inp)) |}
                  (of_be (take (N.to_nat 4) (drop 20 inp))) tbl
                  (of_be (take (N.to_nat 4) (drop 28 inp))) np
                  (of_be (take (N.to_nat 4) (drop 36 inp)))
                  (take (N.to_nat 8) (drop 40 inp)) data []))) (drop (48 + length data) inp) fin
      = ROk c rest).
    { unfold payload_len. destruct (dir =? DIR_IN) eqn:Edir.
      - exists []. change DIR_IN with 1 in Edir. rewrite Edir. cbn [length take].
        rewrite Nat.add_0_r. repeat split; [lia|exact H].
      - change DIR_IN with 1 in Edir. rewrite Edir.
        cbn [run_rd] in H.
        rewrite drop_drop in H. unfold len in H at 1. rewrite drop_length in H.
        destruct (N.ltb_spec (N.of_nat (length inp - 48)) tbl) as [?|Hlt]; [discriminate|].
        exists (take (N.to_nat tbl) (drop 48 inp)).
        rewrite slice_length by lia. unfold len. rewrite slice_length by lia.
        repeat split; [lia|lia|exact H]. }
    clear H. destruct Hdata as (data & Hdl & Hdl2 & Hdeq & H).
    assert (Hiso : exists iso, len iso = iso_len np /\
      (48 + length data + length iso <= length inp)%nat /\
      iso = take (length iso) (drop (48 + length data) inp) /\
      rest = drop (48 + length data + length iso) inp /\
      c = CmdSubmit (mkSubmit
                  {| h_command := USBIP_CMD_SUBMIT;
                     h_seqnum := of_be (take (N.to_nat 4) (drop 4 inp));
                     h_devid := of_be (take (N.to_nat 4) (drop 8 inp));
                     h_direction := dir;
                     h_ep := of_be (take (N.to_nat 4) (drop 16 inp)) |}
                  (of_be (take (N.to_nat 4) (drop 20 inp))) tbl
                  (of_be (take (N.to_nat 4) (drop 28 inp))) np
                  (of_be (take (N.to_nat 4) (drop 36 inp)))
                  (take (N.to_nat 8) (drop 40 inp)) data iso)).
    { unfold iso_len. rewrite iso_test in H.
      destruct ((np =? 0) || (np =? 0xFFFFFFFF)) eqn:Enp; cbn [negb] in H.
      - cbn in H. injection H as <- <-. exists []. cbn [length take].
        rewrite Nat.add_0_r. repeat split; lia.
      - cbn [run_rd] in H. rewrite drop_drop in H. unfold len in H at 1. rewrite drop_length in H.
        destruct (N.ltb_spec (N.of_nat (length inp - (48 + length data))) (16 * np)) as [?|Hlt]; [discriminate|].
        injection H as <- <-.
        exists (take (N.to_nat (16 * np)) (drop (48 + length data) inp)).
        unfold len. rewrite slice_length by lia.
        repeat split; lia. }
    clear H. destruct Hiso as (iso & Hil & Hil2 & Hieq & -> & ->).
    set (total := (48 + length data + length iso)%nat) in *.
    exists (take total inp). split; [symmetry; apply take_drop|].
    assert (Htot : (48 <= total)%nat) by (unfold total; lia).
    apply cl_submit with v; auto.
    - rewrite take_length. unfold total. lia.
    - apply Hver. lia.
    - change 1 with USBIP_CMD_SUBMIT. rewrite <- Ec. apply Hcode. lia.
    - unfold header_at. cbn. repeat split; apply u32_slice; try assumption; lia.
    - apply u32_slice; [assumption|lia|lia].
    - apply u32_slice; [assumption|lia|lia].
    - apply u32_slice; [assumption|lia|lia].
    - apply u32_slice; [assumption|lia|lia].
    - apply u32_slice; [assumption|lia|lia].
    - apply slice_length. lia.
    - apply bytes_at_slice with total; [lia|lia|reflexivity].
    - rewrite Hdeq. apply bytes_at_slice with total; [lia|unfold total; lia|reflexivity].
    - rewrite Hieq. apply bytes_at_slice with total; [lia|unfold total; lia|reflexivity].
    - intros Hs. specialize (Hd Hs). apply direction_test in Hd. exact Hd. }
  destruct (N.eqb_spec code USBIP_CMD_UNLINK) as [Ec|_]; [|cbn in H; discriminate].
  unfold read_header, read_u32 at 1 2 3 in H.
  rd_step H. rd_norm H 8%nat. rd_step H. rd_norm H 12%nat. rd_step H. rd_norm H 16%nat.
  apply run_assert_ok in H as [Hd H].
  unfold read_u32 in H. rd_step H. rd_norm H 20%nat. rd_step H. rd_norm H 24%nat.
  rd_step H. rd_norm H 48%nat. cbn in H. injection H as <- <-.
  exists (take 48 inp). split; [symmetry; apply take_drop|].
  apply cl_unlink with v; auto.
  - rewrite take_length. lia.
  - apply Hver. lia.
  - change 2 with USBIP_CMD_UNLINK. rewrite <- Ec. apply Hcode. lia.
  - unfold header_at. cbn. repeat split; apply u32_slice; try assumption; lia.
  - apply u32_slice; [assumption|lia|lia].
  - intros Hs. specialize (Hd Hs). apply direction_test in Hd. exact Hd.
Qed.
