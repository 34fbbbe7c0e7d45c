(** * verify_descriptor (src/util.rs:2-8) *)
From Verif Require Export Base.

(** The [while offset < desc.len() { offset += desc[offset] as usize }] loop.  The
    fuel counts iterations; UrbProofs shows that [Diverge] is returned exactly
    when the loop really never ends. *)
Fixpoint verify_loop (desc : bytes) (offset : N) (fuel : nat) : outcome N :=
  match fuel with
  | O => Diverge
  | S fuel' =>
      if offset <? len desc
      then verify_loop desc (offset + nth (N.to_nat offset) desc 0) fuel'
      else Val offset
  end.

(** [assert_eq!(offset, desc.len())] *)
Definition verify_descriptor (desc : bytes) : outcome unit :=
  obind (verify_loop desc 0 (S (length desc))) (fun offset =>
  if offset =? len desc then Val tt else Panic PAssert).
