(** * General lemmas *)
From Verif Require Export Protocol.
From Coq Require Export ZifyBool ZifyNat ZifyN.
Ltac Zify.zify_post_hook ::= Z.div_mod_to_equations.

Global Arguments N.mul : simpl never.
Global Arguments N.add : simpl never.
Global Arguments N.sub : simpl never.
Global Arguments N.div : simpl never.
Global Arguments N.modulo : simpl never.
Global Arguments N.ltb : simpl never.
Global Arguments N.leb : simpl never.
Global Arguments N.shiftr : simpl never.
Global Arguments N.shiftl : simpl never.
Global Arguments N.land : simpl never.
Global Arguments N.lor : simpl never.
Global Arguments N.to_nat : simpl never.
Global Arguments N.of_nat : simpl never.

Lemma len_length {A} (l : list A) : len l = N.of_nat (length l).
Proof. reflexivity. Qed.

Lemma len_app {A} (a b : list A) : len (a ++ b) = len a + len b.
Proof. unfold len. rewrite app_length. lia. Qed.

Lemma len_nil {A} : len (@nil A) = 0.
Proof. reflexivity. Qed.

Lemma len_cons {A} (x : A) l : len (x :: l) = 1 + len l.
Proof. unfold len. cbn [length]. lia. Qed.

Lemma len_0 {A} (l : list A) : len l = 0 -> l = [].
Proof. destruct l; [done|]. rewrite len_cons. lia. Qed.

(** ** Ranges *)
Lemma all_u8_spec l : all_u8 l = true <-> Forall (fun x => x < 256) l.
Proof.
  unfold all_u8, is_u8. induction l as [|x l IH]; cbn [forallb].
  - split; auto.
  - rewrite andb_true_iff, IH, Forall_cons, N.ltb_lt. done.
Qed.

Lemma all_u8_app a b : all_u8 (a ++ b) = true <-> all_u8 a = true /\ all_u8 b = true.
Proof. rewrite !all_u8_spec. apply Forall_app. Qed.

Lemma all_u8_take n l : all_u8 l = true -> all_u8 (take n l) = true.
Proof. rewrite !all_u8_spec. apply Forall_take. Qed.

Lemma all_u8_drop n l : all_u8 l = true -> all_u8 (drop n l) = true.
Proof. rewrite !all_u8_spec. apply Forall_drop. Qed.

Lemma all_u8_lookup l i x : all_u8 l = true -> l !! i = Some x -> x < 256.
Proof. rewrite all_u8_spec. intros Hl Hx. exact (Forall_lookup_1 _ _ _ _ Hl Hx). Qed.

Lemma all_u8_replicate n x : x < 256 -> all_u8 (replicate n x) = true.
Proof. intros. rewrite all_u8_spec. apply Forall_replicate. done. Qed.

Lemma be16_u8 n : all_u8 (be16 n) = true.
Proof. apply all_u8_spec. repeat constructor; lia. Qed.
Lemma be32_u8 n : all_u8 (be32 n) = true.
Proof. apply all_u8_spec. repeat constructor; lia. Qed.

(** ** Bit operations as arithmetic *)
Lemma land_mask a k : N.land a (N.ones k) = a mod 2 ^ k.
Proof. apply N.land_ones. Qed.
Lemma land_1 a : N.land a 1 = a mod 2.
Proof. change 1 with (N.ones 1). apply N.land_ones. Qed.
Lemma land_15 a : N.land a 15 = a mod 16.
Proof. change 15 with (N.ones 4). apply N.land_ones. Qed.
Lemma land_31 a : N.land a 31 = a mod 32.
Proof. change 31 with (N.ones 5). apply N.land_ones. Qed.
Lemma land_127 a : N.land a 127 = a mod 128.
Proof. change 127 with (N.ones 7). apply N.land_ones. Qed.
Lemma land_255 a : N.land a 255 = a mod 256.
Proof. change 255 with (N.ones 8). apply N.land_ones. Qed.
Lemma land_3 a : N.land a 3 = a mod 4.
Proof. change 3 with (N.ones 2). apply N.land_ones. Qed.
Lemma shiftr_4 a : N.shiftr a 4 = a / 16.
Proof. rewrite N.shiftr_div_pow2. reflexivity. Qed.
Lemma shiftr_5 a : N.shiftr a 5 = a / 32.
Proof. rewrite N.shiftr_div_pow2. reflexivity. Qed.
Lemma shiftr_8 a : N.shiftr a 8 = a / 256.
Proof. rewrite N.shiftr_div_pow2. reflexivity. Qed.
Lemma shiftl_8 a : N.shiftl a 8 = a * 256.
Proof. rewrite N.shiftl_mul_pow2. reflexivity. Qed.

(** Disjoint [lor] is addition. *)
Lemma lor_disjoint a b k : b < 2 ^ k -> N.lor (a * 2 ^ k) b = a * 2 ^ k + b.
Proof.
  intros Hb. rewrite <- N.shiftl_mul_pow2.
  assert (Hl : N.land (N.shiftl a k) b = 0).
  { apply N.bits_inj. intros i. rewrite N.land_spec, N.bits_0.
    destruct (N.ltb_spec i k).
    - rewrite N.shiftl_spec_low by assumption. reflexivity.
    - destruct (N.eq_dec b 0) as [->|Hb0].
      { rewrite N.bits_0. apply andb_false_r. }
      rewrite (N.bits_above_log2 b); [apply andb_false_r|].
      apply N.log2_lt_pow2; [lia|].
      eapply N.lt_le_trans; [exact Hb|]. apply N.pow_le_mono_r; lia. }
  rewrite (N.add_nocarry_lxor _ _ Hl). symmetry. apply N.lxor_lor. exact Hl.
Qed.

Lemma lor_8 a b : b < 256 -> N.lor (a * 256) b = a * 256 + b.
Proof. intros. change 256 with (2 ^ 8). apply lor_disjoint. assumption. Qed.

(** Bit 7. *)
Lemma land_128 a : N.land a 128 = (a / 128) mod 2 * 128.
Proof.
  change (a / 128) with (a / 2 ^ 7). rewrite <- N.shiftr_div_pow2, <- land_1.
  change 128 with (2 ^ 7) at 2. rewrite <- N.shiftl_mul_pow2, N.shiftl_land.
  change (N.shiftl 1 7) with 128.
  apply N.bits_inj. intros i. rewrite !N.land_spec.
  change 128 with (2 ^ 7). rewrite N.pow2_bits_eqb.
  destruct (N.eqb_spec 7 i) as [<-|Hn]; [|rewrite !andb_false_r; done].
  rewrite !andb_true_r. rewrite N.shiftl_spec_high', N.shiftr_spec' by lia.
  f_equal.
Qed.

Lemma lor_128 a : a < 256 -> N.lor a 128 = if a <? 128 then a + 128 else a.
Proof.
  intros Ha.
  assert (Hall : forallb (fun a => N.lor a 128 =? (if a <? 128 then a + 128 else a))
                   (map N.of_nat (seq 0 256)) = true) by (vm_compute; reflexivity).
  rewrite forallb_forall in Hall.
  apply N.eqb_eq. apply Hall. apply in_map_iff. exists (N.to_nat a).
  split; [lia|]. apply in_seq. lia.
Qed.

(** Lift a boolean check over all 256 byte values. *)
Lemma u8_sweep (P : N -> bool) :
  forallb P (map N.of_nat (seq 0 256)) = true -> forall a, a < 256 -> P a = true.
Proof.
  intros Hall a Ha. rewrite forallb_forall in Hall. apply Hall.
  apply in_map_iff. exists (N.to_nat a). split; [lia|]. apply in_seq. lia.
Qed.

(** ** vec_resize *)
Lemma vec_resize_length n l : length (vec_resize n l) = N.to_nat n.
Proof. unfold vec_resize. rewrite app_length, take_length, replicate_length. lia. Qed.

Lemma vec_resize_short n l : n <= len l -> vec_resize n l = take (N.to_nat n) l.
Proof.
  unfold vec_resize, len. intros. replace (N.to_nat n - length l)%nat with 0%nat by lia.
  cbn. apply app_nil_r.
Qed.

Lemma vec_resize_long n l : len l <= n ->
  vec_resize n l = l ++ replicate (N.to_nat n - length l) 0.
Proof. unfold vec_resize, len. intros. rewrite take_ge by lia. done. Qed.

Lemma as_u8_small n : n < 256 -> as_u8 n = n.
Proof. unfold as_u8. lia. Qed.
Lemma as_u16_small n : n < 65536 -> as_u16 n = n.
Proof. unfold as_u16. lia. Qed.
Lemma as_u32_small n : n < 4294967296 -> as_u32 n = n.
Proof. unfold as_u32. lia. Qed.

(** ** obind *)
Lemma obind_val {A B} (x : outcome A) (f : A -> outcome B) b :
  obind x f = Val b <-> exists a, x = Val a /\ f a = Val b.
Proof.
  destruct x as [a| |]; cbn; split.
  - eauto.
  - intros (a0 & [= ->] & Hf). exact Hf.
  - discriminate.
  - intros (? & ? & ?). discriminate.
  - discriminate.
  - intros (? & ? & ?). discriminate.
Qed.

Lemma list_lookup_cons_0 {A} (x : A) l : (x :: l) !! 0%nat = Some x.
Proof. reflexivity. Qed.

Lemma take_4 {A} (l : list A) : (4 <= length l)%nat -> exists a b c d,
  l !! 0%nat = Some a /\ l !! 1%nat = Some b /\ l !! 2%nat = Some c /\ l !! 3%nat = Some d
  /\ take 4 l = [a; b; c; d].
Proof. intros. destruct l as [|a [|b [|c [|d l]]]]; cbn in *; try lia. eauto 10. Qed.
Lemma take_2 {A} (l : list A) : (2 <= length l)%nat -> exists a b,
  l !! 0%nat = Some a /\ l !! 1%nat = Some b /\ take 2 l = [a; b].
Proof. intros. destruct l as [|a [|b l]]; cbn in *; try lia. eauto 10. Qed.
