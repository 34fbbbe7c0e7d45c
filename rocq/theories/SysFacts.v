(** * What each kind of event says about the step that produced it *)
From Verif Require Export DevProofs.

Ltac ev_in E :=
  repeat (apply elem_of_cons in E as [E|E]; [try discriminate E|]); try (by apply elem_of_nil in E).

(** An event of a run comes from one of its steps. *)
Lemma run_event {H} dbg (s0 : sys H) ls s evs a e b : run dbg s0 ls = Some (s, evs) -> evs = a ++ e :: b ->
  exists ls1 l ls2 s1 s2 a1 p q b1,
    ls = ls1 ++ l :: ls2 /\ run dbg s0 ls1 = Some (s1, a1) /\ step dbg s1 l = Some (s2, p ++ e :: q) /\
    run dbg s2 ls2 = Some (s, b1) /\ a = a1 ++ p /\ b = q ++ b1.
Proof.
  revert s0 a evs. induction ls as [|l ls IH]; intros s0 a evs E Ee; cbn in E.
  - injection E as <- <-. by destruct a.
  - destruct (step dbg s0 l) as [[s1 e1]|] eqn:Es; [|done].
    destruct (run dbg s1 ls) as [[s2 e2]|] eqn:Er; [|done]. injection E as <- <-.
    destruct (decide (length a < length e1)%nat) as [Hlt|Hge].
    + exists [], l, ls, s0, s1, [], a, (drop (S (length a)) e1), e2.
      assert (Ed : e1 = a ++ e :: drop (S (length a)) e1).
      { rewrite <- (take_drop (length a) e1) at 1.
        assert (Ht : take (length a) e1 = a).
        { rewrite <- (take_app_le e1 e2) by lia. rewrite Ee. by rewrite take_app. }
        rewrite Ht. f_equal.
        destruct (e1 !! length a) as [x|] eqn:Ex; [|apply lookup_ge_None_1 in Ex; lia].
        rewrite (drop_S e1 x) by done. f_equal.
        assert (Hx : (e1 ++ e2) !! length a = Some e) by (rewrite Ee; by apply list_lookup_middle).
        rewrite lookup_app_l in Hx by done. congruence. }
      split; [done|]. split; [done|]. rewrite <- Ed. split; [done|]. split; [done|]. split; [done|].
      rewrite Ed, <- app_assoc in Ee. apply app_inv_head in Ee. cbn in Ee. injection Ee as Ee.
      symmetry. done.
    + assert (Ha : a = e1 ++ drop (length e1) a).
      { rewrite <- (take_drop (length e1) a) at 1. f_equal.
        assert (take (length e1) (e1 ++ e2) = take (length e1) (a ++ e :: b)) as Ht by (by rewrite Ee).
        rewrite take_app in Ht. rewrite take_app_le in Ht by lia. done. }
      rewrite Ha, <- app_assoc in Ee. apply app_inv_head in Ee.
      destruct (IH s1 _ _ Er Ee) as (ls1 & l' & ls2 & s3 & s4 & a1 & p & q & b1 & -> & H1 & H2 & H3 & H4 & ->).
      exists (l :: ls1), l', ls2, s3, s4, (e1 ++ a1), p, q, b1. split; [done|]. cbn. rewrite Es, H1.
      split; [done|]. split; [done|]. split; [done|]. split; [|done]. by rewrite Ha, H4, app_assoc.
Qed.
Lemma run_app_intro {H} dbg (s s1 s2 : sys H) l1 l2 e1 e2 :
  run dbg s l1 = Some (s1, e1) -> run dbg s1 l2 = Some (s2, e2) -> run dbg s (l1 ++ l2) = Some (s2, e1 ++ e2).
Proof. intros E1 E2. by rewrite run_app, E1, E2. Qed.
Lemma run_step {H} dbg (s s1 s2 : sys H) l1 l e1 e2 :
  run dbg s l1 = Some (s1, e1) -> step dbg s1 l = Some (s2, e2) -> run dbg s (l1 ++ [l]) = Some (s2, e1 ++ e2).
Proof. intros E1 E2. rewrite run_app, E1. cbn. by rewrite E2, app_nil_r. Qed.

(** ** remove_device found nothing available, whatever the bus ids *)
Definition rem_ok {H} (s : sys H) : Prop :=
  forall t id cur, y_tasks s !! t = Some (mkTask (PRemUsedR id) cur) -> remove_available (y_server s) id = None.

Lemma rem_same {H} (s s' : sys H) t k : rem_ok s -> y_tasks s' = <[t := k]> (y_tasks s) ->
  (y_server s' = y_server s \/ (locks_ok s /\ (t, MWrite) ∈ lk_holders (y_avail s))) ->
  (forall id, t_pc k = PRemUsedR id -> remove_available (y_server s') id = None) -> rem_ok s'.
Proof.
  intros HR Et Hs Hk u id cur. rewrite Et. destruct (decide (u = t)) as [->|Nu].
  - rewrite lookup_insert. intros [= ->]. by apply Hk.
  - rewrite lookup_insert_ne by congruence. intros E. destruct Hs as [->|[HL Hh]]; [by eapply HR|].
    by eapply (no_removing s t u).
Qed.
Lemma rem_answered {H} dbg (s s0 s' : sys H) t cur c r ev : rem_ok s -> y_tasks s0 = y_tasks s ->
  (y_server s0 = y_server s \/ (locks_ok s /\ (t, MWrite) ∈ lk_holders (y_avail s))) ->
  answered dbg s0 t cur c r s' ev -> rem_ok s'.
Proof.
  intros HR Et Hs [b E|e E _ _].
  - eapply (rem_same s); [done|cbn; by rewrite Et|done|done].
  - eapply (rem_same s); [done|cbn; by rewrite Et|done|done].
Qed.
Lemma rem_move {H} dbg (s : sys H) l s' ev : move dbg s l s' ev -> locks_ok s -> rem_ok s -> rem_ok s'.
Proof.
  intros M HL HR.
  destruct M;
    try match goal with E : lk_holds _ _ _ = true |- _ => apply lk_holds_in in E as Hh end;
    try (eapply (rem_same s); [done|reflexivity|by left|done]);
    try (eapply (rem_same s); [done|reflexivity|right; split; done|done]); try done.
  - eapply (rem_answered dbg s (set_world s w')); [done|done|by left|eassumption].
  - eapply (rem_answered dbg s s); [done|done|by left|eassumption].
  - eapply (rem_answered dbg s s); [done|done|by left|eassumption].
  - eapply (rem_answered dbg s (set_server s sv')); [done|done|by right|eassumption].
  - eapply (rem_same s); [done|reflexivity|by left|]. cbn. by intros id' [= <-].
Qed.
Lemma rem_run {H} dbg ds (w : world H) ls s evs : run dbg (init_sys ds w) ls = Some (s, evs) -> locks_ok s /\ rem_ok s.
Proof.
  intros E. split; [eapply locks_run; [exact E|apply locks_init]|]. revert ls s evs E.
  apply (run_ind dbg (init_sys ds w) (fun _ s _ => rem_ok s)).
  - intros t id cur. cbn. by rewrite lookup_empty.
  - intros ls s ev l s' ev' Hr IH Hs. eapply rem_move; [by apply step_move| |done].
    eapply locks_run; [exact Hr|apply locks_init].
Qed.

(** ** Inversion, by event *)
Lemma answered_server {H} dbg (s s' : sys H) t cur c r ev : answered dbg s t cur c r s' ev ->
  y_server s' = y_server s /\ y_world s' = y_world s /\
  exists k, y_tasks s' = <[t := k]> (y_tasks s) /\ t_cur k = cur /\
    ((exists b, t_pc k = PWrite b) \/ (exists e, t_pc k = PEnd e)).
Proof. intros [b E|e E _ _]; (split; [done|]); (split; [done|]); eexists; (split; [reflexivity|]); cbn; eauto. Qed.

(** Import. *)
Lemma ev_import {H} dbg (s s' : sys H) l ev t n f r : move dbg s l s' ev -> EvServe t (OpReqImport n f) r ∈ ev ->
  exists cur x, l = LRun t /\ y_tasks s !! t = Some (mkTask (PImpAvailW n f) cur) /\
    (t, MWrite) ∈ lk_holders (y_avail s) /\
    import_device (y_server s) f = (y_server s', x) /\ r = Val (import_response x) /\
    y_world s' = y_world s /\
    answered dbg (set_server s (y_server s')) t (d_bus_id <$> x) (OpReqImport n f) r s' ev.
Proof.
  intros M E. destruct M; try (by ev_in E);
    match goal with A : answered _ _ _ _ _ _ _ _ |- _ =>
      pose proof A as A'; apply answered_server in A' as (Es & Ew & _);
      destruct A as [b Eb|e' Eb He Hp]; ev_in E; try discriminate E end.
  - injection E as <- <- <- ->. exists cur, r0. split; [done|]. split; [done|].
    split; [by apply lk_holds_in|]. split; [done|]. split; [done|]. split; [done|]. by constructor.
  - injection E as <- <- <- ->. exists cur, r0. split; [done|]. split; [done|].
    split; [by apply lk_holds_in|]. split; [done|]. split; [done|]. split; [done|]. by constructor.
Qed.

(** Listing. *)
Lemma ev_devlist {H} dbg (s s' : sys H) l ev t n r : move dbg s l s' ev -> EvServe t (OpReqDevlist n) r ∈ ev ->
  exists cur, l = LRun t /\ y_tasks s !! t = Some (mkTask (PDevAvailR n) cur) /\
    r = Val (op_rep_devlist (sv_available (y_server s))) /\
    y_server s' = y_server s /\ y_world s' = y_world s /\
    answered dbg s t cur (OpReqDevlist n) r s' ev.
Proof.
  intros M E. destruct M; try (by ev_in E);
    match goal with A : answered _ _ _ _ _ _ _ _ |- _ =>
      destruct A as [b Eb|e' Eb He Hp]; ev_in E; try discriminate E end;
    injection E as <- <- ->; exists cur; repeat (split; [done|]); by constructor.
Qed.
(** Submitting. *)
Lemma ev_submit {H} dbg (s s' : sys H) l ev t sb r : move dbg s l s' ev -> EvServe t (CmdSubmit sb) r ∈ ev ->
  exists cur, l = LRun t /\ y_tasks s !! t = Some (mkTask (PUsedR (CmdSubmit sb)) cur) /\
    serve_submit dbg (y_world s) (current_device (y_server s) cur) sb = (r, y_world s') /\
    y_server s' = y_server s /\
    answered dbg (set_world s (y_world s')) t cur (CmdSubmit sb) r s' ev.
Proof.
  intros M E. destruct M; try (by ev_in E);
    match goal with A : answered _ _ _ _ _ _ _ _ |- _ =>
      destruct A as [b Eb|e' Eb He Hp]; ev_in E; try discriminate E end;
    injection E as <- <- ->; exists cur; repeat (split; [done|]); by constructor.
Qed.
Lemma ev_unlink {H} dbg (s s' : sys H) l ev t h n r : move dbg s l s' ev -> EvServe t (CmdUnlink h n) r ∈ ev ->
  exists cur, l = LRun t /\ y_tasks s !! t = Some (mkTask (PUsedR (CmdUnlink h n)) cur) /\
    r = Val (serve_unlink h) /\ y_server s' = y_server s /\ y_world s' = y_world s /\
    answered dbg s t cur (CmdUnlink h n) r s' ev.
Proof.
  intros M E. destruct M; try (by ev_in E);
    match goal with A : answered _ _ _ _ _ _ _ _ |- _ =>
      destruct A as [b Eb|e' Eb He Hp]; ev_in E; try discriminate E end;
    injection E as <- <- <- ->; exists cur; repeat (split; [done|]); by constructor.
Qed.
(** Release. *)
Lemma ev_release {H} dbg (s s' : sys H) l ev t id : move dbg s l s' ev -> EvRelease t id ∈ ev ->
  exists e, l = LRun t /\ y_tasks s !! t = Some (mkTask (PRelAvailW e) (Some id)) /\
    release_device (y_server s) id = Val (y_server s') /\ y_world s' = y_world s /\
    y_tasks s' = <[t := mkTask (PEnd (read_end e)) (Some id)]> (y_tasks s) /\
    ev = [EvRelease t id; EvEnd t (read_end e)].
Proof.
  intros M E. destruct M; try (by ev_in E);
    try match goal with A : answered _ _ _ _ _ _ _ _ |- _ =>
      destruct A as [b Eb|e' Eb He Hp]; ev_in E; try discriminate E end.
  ev_in E. injection E as <- <-. by exists e.
Qed.
(** add_device. *)
Lemma ev_add {H} dbg (s s' : sys H) l ev t d : move dbg s l s' ev -> EvAdd t d ∈ ev ->
  l = LRun t /\ y_server s' = add_device (y_server s) d /\ y_world s' = y_world s /\
  (exists cur, y_tasks s !! t = Some (mkTask (PAddAvailW d) cur)) /\
  (exists k, y_tasks s' = <[t := k]> (y_tasks s)) /\ ev = [EvAdd t d].
Proof.
  intros M E. destruct M; try (by ev_in E);
    try match goal with A : answered _ _ _ _ _ _ _ _ |- _ =>
      destruct A as [b Eb|e' Eb He Hp]; ev_in E; try discriminate E end.
  ev_in E. injection E as <- <-. repeat (split; [done|]). split; [by eexists|]. split; [by eexists|done].
Qed.
(** remove_device. *)
Lemma ev_remove {H} dbg (s s' : sys H) l ev t id r : move dbg s l s' ev -> EvRemove t id r ∈ ev ->
  l = LRun t /\ y_world s' = y_world s /\ ev = [EvRemove t id r] /\
  (exists k, y_tasks s' = <[t := k]> (y_tasks s)) /\
  ((exists cur, y_tasks s !! t = Some (mkTask (PRemAvailW id) cur)) /\
   remove_available (y_server s) id = Some (y_server s') /\ r = IOk tt \/
   (exists cur, y_tasks s !! t = Some (mkTask (PRemUsedR id) cur)) /\ y_server s' = y_server s /\
     r = IErr (remove_missing (y_server s) id)).
Proof.
  intros M E. destruct M; try (by ev_in E);
    try match goal with A : answered _ _ _ _ _ _ _ _ |- _ =>
      destruct A as [b Eb|e' Eb He Hp]; ev_in E; try discriminate E end.
  - ev_in E. injection E as <- <- ->. repeat (split; [done|]). split; [by eexists|]. left. split; [by eexists|]. done.
  - ev_in E. injection E as <- <- ->. repeat (split; [done|]). split; [by eexists|]. right. split; [by eexists|]. done.
Qed.
(** The end of a connection. *)
Inductive end_cause {H} (dbg : bool) (s s' : sys H) (t : tid) : label H -> list event -> conn_end -> Prop :=
| ec_read e : y_tasks s !! t = Some (mkTask PRead None) -> y_server s' = y_server s ->
    end_cause dbg s s' t (LReadErr t e) [EvEnd t (read_end e)] (read_end e)
| ec_released e id : y_tasks s !! t = Some (mkTask (PRelAvailW e) (Some id)) ->
    release_device (y_server s) id = Val (y_server s') ->
    end_cause dbg s s' t (LRun t) [EvRelease t id; EvEnd t (read_end e)] (read_end e)
| ec_lost e id p : y_tasks s !! t = Some (mkTask (PRelAvailW e) (Some id)) ->
    release_device (y_server s) id = Panic p -> y_server s' = y_server s ->
    end_cause dbg s s' t (LRun t) [EvEnd t (EndPanic p)] (EndPanic p)
| ec_read_panic : dbg = true -> y_server s' = y_server s ->
    (exists cur, y_tasks s !! t = Some (mkTask PRead cur)) ->
    end_cause dbg s s' t (LReadPanic t) [EvEnd t (EndPanic PDebugAssert)] (EndPanic PDebugAssert)
| ec_write e : (exists b cur, y_tasks s !! t = Some (mkTask (PWrite b) cur)) -> y_server s' = y_server s ->
    end_cause dbg s s' t (LSendErr t e) [EvEnd t (EndErr e)] (EndErr e)
| ec_serve c r e : (forall b, obind r (response_to_bytes dbg) <> Val b) ->
    (e = EndDiverge \/ exists p, e = EndPanic p) ->
    (forall n f, c <> OpReqImport n f) -> y_server s' = y_server s ->
    end_cause dbg s s' t (LRun t) [EvServe t c r; EvEnd t e] e
| ec_import n f x e : (forall b, response_to_bytes dbg (import_response x) <> Val b) ->
    (e = EndDiverge \/ exists p, e = EndPanic p) ->
    import_device (y_server s) f = (y_server s', x) ->
    end_cause dbg s s' t (LRun t) [EvServe t (OpReqImport n f) (Val (import_response x)); EvEnd t e] e.
Lemma ev_end {H} dbg (s s' : sys H) l ev t r : move dbg s l s' ev -> EvEnd t r ∈ ev ->
  end_cause dbg s s' t l ev r /\ (exists cur, y_tasks s' = <[t := mkTask (PEnd r) cur]> (y_tasks s)).
Proof.
  intros M E. destruct M; try (by ev_in E);
    try match goal with A : answered _ _ _ _ _ _ _ _ |- _ =>
      destruct A as [b Eb|e' Eb He Hp]; ev_in E; try discriminate E end;
    ev_in E; injection E as <- ->; (split; [|by eexists]).
  - by constructor.
  - constructor; [done|done|by eexists].
  - constructor; [by do 2 eexists|done].
  - by constructor.
  - by constructor.
  - by constructor.
  - by apply ec_import.
  - by apply ec_released.
  - by eapply ec_lost.
Qed.

(** Every step changes at most one task, and grants change none. *)
Lemma move_tasks {H} dbg (s s' : sys H) l ev : move dbg s l s' ev ->
  y_tasks s' = y_tasks s \/ exists t k, y_tasks s' = <[t := k]> (y_tasks s).
Proof.
  intros M. destruct M; try (right; eexists _, _; reflexivity); try (by left);
    match goal with A : answered _ _ _ _ _ _ _ _ |- _ => destruct A; right; eexists _, _; reflexivity end.
Qed.
