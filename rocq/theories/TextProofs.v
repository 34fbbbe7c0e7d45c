(** * UTF-8 / UTF-16 proofs *)
From Verif Require Export Lemmas SpecText.

Ltac cmp := repeat match goal with
  | |- context [?a <? ?b] => destruct (N.ltb_spec a b); try lia
  | |- context [?a <=? ?b] => destruct (N.leb_spec a b); try lia
  end; cbn [andb orb].

Lemma utf8_char_decode c r : c < 1114112 ->
  utf8_decode (utf8_char c ++ r) = cons c <$> utf8_decode r.
Proof.
  intros Hc. unfold utf8_char.
  destruct (N.ltb_spec c 128).
  { cbn [app utf8_decode]. cmp. done. }
  destruct (N.ltb_spec c 2048).
  { cbn [app utf8_decode]. unfold cont. cmp. f_equal. f_equal. lia. }
  destruct (N.ltb_spec c 65536).
  { cbn [app utf8_decode]. unfold cont. cmp. f_equal. f_equal. lia. }
  cbn [app utf8_decode]. unfold cont. cmp. f_equal. f_equal. lia.
Qed.

Lemma is_scalar_lt c : is_scalar c = true -> c < 1114112.
Proof. unfold is_scalar. lia. Qed.

Lemma utf8_roundtrip s : is_rstring s = true -> utf8_decode (utf8 s) = Some s.
Proof.
  unfold is_rstring. induction s as [|c s IH]; cbn [forallb]; [done|].
  intros [Hc Hs]%andb_true_iff. change (utf8 (c :: s)) with (utf8_char c ++ utf8 s).
  rewrite utf8_char_decode by (by apply is_scalar_lt). rewrite IH by assumption. done.
Qed.

Lemma utf8_inj s t : is_rstring s = true -> is_rstring t = true -> utf8 s = utf8 t -> s = t.
Proof.
  intros Hs Ht E. apply utf8_roundtrip in Hs, Ht. rewrite E in Hs. congruence.
Qed.

Lemma utf8_char_u8 c : c < 1114112 -> Forall (fun x => x < 256) (utf8_char c).
Proof. intros. unfold utf8_char. cmp; repeat constructor; lia. Qed.
Lemma utf8_u8 s : is_rstring s = true -> Forall (fun x => x < 256) (utf8 s).
Proof.
  unfold is_rstring. induction s as [|c s IH]; cbn [forallb]; [constructor|].
  intros [Hc Hs]%andb_true_iff. change (utf8 (c :: s)) with (utf8_char c ++ utf8 s).
  apply Forall_app. split; [by apply utf8_char_u8, is_scalar_lt|auto].
Qed.

(** A NUL byte in the encoding comes from a NUL character only. *)
Lemma utf8_char_nul c : 0 ∈ utf8_char c <-> c = 0.
Proof.
  unfold utf8_char. cmp; rewrite ?elem_of_cons, elem_of_nil; lia.
Qed.
Lemma utf8_nul s : 0 ∈ utf8 s <-> 0 ∈ s.
Proof.
  induction s as [|c s IH]; [done|]. change (utf8 (c :: s)) with (utf8_char c ++ utf8 s).
  rewrite elem_of_app, elem_of_cons, IH, utf8_char_nul. intuition congruence.
Qed.

Lemma c_string_pad l n : 0 ∉ l -> c_string (l ++ replicate n 0) = l.
Proof.
  induction l as [|x l IH]; intros Hn; cbn [app c_string].
  - destruct n; done.
  - rewrite elem_of_cons in Hn. destruct (N.eqb_spec x 0); [exfalso; apply Hn; auto|].
    rewrite IH by tauto. done.
Qed.
Lemma until_nul_no l : 0 ∉ c_string l.
Proof.
  induction l as [|x l IH]; cbn [c_string]; [apply not_elem_of_nil|].
  destruct (N.eqb_spec x 0); [apply not_elem_of_nil|]. rewrite elem_of_cons. intuition congruence.
Qed.

Lemma utf16_char_decode c r : is_scalar c = true ->
  utf16_decode (utf16_char c ++ r) = cons c <$> utf16_decode r.
Proof.
  unfold is_scalar, utf16_char. intros Hc.
  destruct (N.ltb_spec c 65536).
  - cbn [app utf16_decode]. cmp; done.
  - cbn [app utf16_decode]. cmp. f_equal. f_equal. lia.
Qed.

Lemma utf16_roundtrip s : is_rstring s = true -> utf16_decode (utf16 s) = Some s.
Proof.
  unfold is_rstring. induction s as [|c s IH]; cbn [forallb]; [done|].
  intros [Hc Hs]%andb_true_iff. change (utf16 (c :: s)) with (utf16_char c ++ utf16 s).
  rewrite utf16_char_decode by assumption. rewrite IH by assumption. done.
Qed.

Lemma utf16_u16 s : is_rstring s = true -> Forall (fun u => u < 65536) (utf16 s).
Proof.
  unfold is_rstring. induction s as [|c s IH]; cbn [forallb]; [constructor|].
  intros [Hc Hs]%andb_true_iff. change (utf16 (c :: s)) with (utf16_char c ++ utf16 s).
  apply Forall_app. split; [|auto]. apply is_scalar_lt in Hc. unfold utf16_char.
  cmp; repeat constructor; lia.
Qed.

Lemma le16_units_spec us : Forall (fun u => u < 65536) us ->
  le16_units (mjoin ((fun u => [as_u8 u; as_u8 (N.shiftr u 8)]) <$> us)) = Some us.
Proof.
  induction 1 as [|u us Hu _ IH]; [done|].
  change (mjoin ((fun u => [as_u8 u; as_u8 (N.shiftr u 8)]) <$> u :: us))
    with (as_u8 u :: as_u8 (N.shiftr u 8) :: mjoin ((fun u => [as_u8 u; as_u8 (N.shiftr u 8)]) <$> us)).
  cbn [le16_units]. rewrite IH. cbn. f_equal. f_equal. unfold as_u8. rewrite shiftr_8. lia.
Qed.
