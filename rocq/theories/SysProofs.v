(** * Case analysis of the concurrent model's steps, and runs *)
From Verif Require Export Sys Lemmas.

(** The ways a computed response leaves a task: it starts writing, or it is gone. *)
Inductive answered {H} (dbg : bool) (s : sys H) (t : tid) (cur : option rstring) (c : command)
    (r : outcome response) : sys H -> list event -> Prop :=
| an_write b : obind r (response_to_bytes dbg) = Val b ->
    answered dbg s t cur c r (set_task s t (mkTask (PWrite b) cur)) [EvServe t c r]
| an_end e : (forall b, obind r (response_to_bytes dbg) <> Val b) ->
    (e = EndDiverge \/ exists p, e = EndPanic p) ->
    (forall p, obind r (response_to_bytes dbg) = Panic p -> e = EndPanic p) ->
    answered dbg s t cur c r (set_task (drop_guards s t) t (mkTask (PEnd e) cur))
      [EvServe t c r; EvEnd t e].

Lemma respond_answered {H} dbg (s : sys H) t cur c r s' ev :
  respond dbg s t cur c r = (s', ev) -> answered dbg s t cur c r s' ev.
Proof.
  unfold respond. destruct (obind r (response_to_bytes dbg)) as [b|p|] eqn:E; intros [= <- <-].
  - by constructor.
  - apply an_end; [congruence|eauto|congruence].
  - apply an_end; [congruence|eauto|congruence].
Qed.

(** Every step, with what it requires and what it does. *)
Inductive move {H} (dbg : bool) (s : sys H) : label H -> sys H -> list event -> Prop :=
| mv_connect t : y_tasks s !! t = None ->
    move dbg s (LConnect t) (set_task s t (mkTask PRead None)) []
| mv_recv t c cur : y_tasks s !! t = Some (mkTask PRead cur) ->
    move dbg s (LRecv t c) (set_task (want_used s t MRead) t (mkTask (PUsedR c) cur)) []
| mv_eof t e : y_tasks s !! t = Some (mkTask PRead None) ->
    move dbg s (LReadErr t e) (set_task s t (mkTask (PEnd (read_end e)) None)) [EvEnd t (read_end e)]
| mv_eof_holding t e id : y_tasks s !! t = Some (mkTask PRead (Some id)) ->
    move dbg s (LReadErr t e) (set_task (want_used s t MWrite) t (mkTask (PRelUsedW e) (Some id))) []
| mv_read_panic t cur : dbg = true -> y_tasks s !! t = Some (mkTask PRead cur) ->
    move dbg s (LReadPanic t) (set_task s t (mkTask (PEnd (EndPanic PDebugAssert)) cur))
      [EvEnd t (EndPanic PDebugAssert)]
| mv_sent t b cur : y_tasks s !! t = Some (mkTask (PWrite b) cur) ->
    move dbg s (LSent t) (set_task (drop_guards s t) t (mkTask PRead cur)) [EvSent t b]
| mv_send_err t b e cur : y_tasks s !! t = Some (mkTask (PWrite b) cur) ->
    move dbg s (LSendErr t e) (set_task (drop_guards s t) t (mkTask (PEnd (EndErr e)) cur))
      [EvEnd t (EndErr e)]
| mv_add t d : y_tasks s !! t = None ->
    move dbg s (LAdd t d) (set_task (want_avail s t MWrite) t (mkTask (PAddAvailW d) None)) []
| mv_remove t id : y_tasks s !! t = None ->
    move dbg s (LRemove t id) (set_task (want_avail s t MWrite) t (mkTask (PRemAvailW id) None)) []
| mv_app r f : c_poisoned (w_intf (y_world s) r) = false ->
    move dbg s (LApp r f)
      (set_world s (set_intf (y_world s) r (mkCell false (f (c_state (w_intf (y_world s) r)))))) []
| mv_grant_used l : lk_grant (y_used s) = Some l -> move dbg s LGrantUsed (set_used s l) []
| mv_grant_avail l : lk_grant (y_avail s) = Some l -> move dbg s LGrantAvail (set_avail s l) []
| mv_devlist t n cur : y_tasks s !! t = Some (mkTask (PUsedR (OpReqDevlist n)) cur) ->
    lk_holds t MRead (y_used s) = true ->
    move dbg s (LRun t) (set_task (want_avail s t MRead) t (mkTask (PDevAvailR n) cur)) []
| mv_import t n busid cur : y_tasks s !! t = Some (mkTask (PUsedR (OpReqImport n busid)) cur) ->
    lk_holds t MRead (y_used s) = true ->
    move dbg s (LRun t)
      (set_task (set_used s (lk_release t (y_used s))) t (mkTask (PImpStart n busid) None)) []
| mv_import1 t n busid cur : y_tasks s !! t = Some (mkTask (PImpStart n busid) cur) ->
    move dbg s (LRun t) (set_task (want_used s t MWrite) t (mkTask (PImpUsedW n busid) cur)) []
| mv_submit t sb cur s' ev r w' : y_tasks s !! t = Some (mkTask (PUsedR (CmdSubmit sb)) cur) ->
    lk_holds t MRead (y_used s) = true ->
    serve_submit dbg (y_world s) (current_device (y_server s) cur) sb = (r, w') ->
    answered dbg (set_world s w') t cur (CmdSubmit sb) r s' ev ->
    move dbg s (LRun t) s' ev
| mv_unlink t h n cur s' ev : y_tasks s !! t = Some (mkTask (PUsedR (CmdUnlink h n)) cur) ->
    lk_holds t MRead (y_used s) = true ->
    answered dbg s t cur (CmdUnlink h n) (Val (serve_unlink h)) s' ev ->
    move dbg s (LRun t) s' ev
| mv_list t n cur s' ev : y_tasks s !! t = Some (mkTask (PDevAvailR n) cur) ->
    lk_holds t MRead (y_avail s) = true ->
    answered dbg s t cur (OpReqDevlist n) (Val (op_rep_devlist (sv_available (y_server s)))) s' ev ->
    move dbg s (LRun t) s' ev
| mv_import2 t n busid cur : y_tasks s !! t = Some (mkTask (PImpUsedW n busid) cur) ->
    lk_holds t MWrite (y_used s) = true ->
    move dbg s (LRun t) (set_task (want_avail s t MWrite) t (mkTask (PImpAvailW n busid) cur)) []
| mv_import3 t n busid cur s' ev sv' r : y_tasks s !! t = Some (mkTask (PImpAvailW n busid) cur) ->
    lk_holds t MWrite (y_avail s) = true ->
    import_device (y_server s) busid = (sv', r) ->
    answered dbg (set_server s sv') t (d_bus_id <$> r) (OpReqImport n busid) (Val (import_response r)) s' ev ->
    move dbg s (LRun t) s' ev
| mv_release2 t e cur : y_tasks s !! t = Some (mkTask (PRelUsedW e) cur) ->
    lk_holds t MWrite (y_used s) = true ->
    move dbg s (LRun t) (set_task (want_avail s t MWrite) t (mkTask (PRelAvailW e) cur)) []
| mv_release3 t e id sv' : y_tasks s !! t = Some (mkTask (PRelAvailW e) (Some id)) ->
    lk_holds t MWrite (y_avail s) = true -> release_device (y_server s) id = Val sv' ->
    move dbg s (LRun t) (set_task (drop_guards (set_server s sv') t) t (mkTask (PEnd (read_end e)) (Some id)))
      [EvRelease t id; EvEnd t (read_end e)]
| mv_release_panic t e id p : y_tasks s !! t = Some (mkTask (PRelAvailW e) (Some id)) ->
    lk_holds t MWrite (y_avail s) = true -> release_device (y_server s) id = Panic p ->
    move dbg s (LRun t) (set_task (drop_guards s t) t (mkTask (PEnd (EndPanic p)) (Some id))) [EvEnd t (EndPanic p)]
| mv_added t d cur : y_tasks s !! t = Some (mkTask (PAddAvailW d) cur) ->
    lk_holds t MWrite (y_avail s) = true ->
    move dbg s (LRun t) (set_task (drop_guards (set_server s (add_device (y_server s) d)) t) t (mkTask PAdded cur))
      [EvAdd t d]
| mv_removed t id cur sv' : y_tasks s !! t = Some (mkTask (PRemAvailW id) cur) ->
    lk_holds t MWrite (y_avail s) = true -> remove_available (y_server s) id = Some sv' ->
    move dbg s (LRun t) (set_task (drop_guards (set_server s sv') t) t (mkTask (PRemoved (IOk tt)) cur))
      [EvRemove t id (IOk tt)]
| mv_remove2 t id cur : y_tasks s !! t = Some (mkTask (PRemAvailW id) cur) ->
    lk_holds t MWrite (y_avail s) = true -> remove_available (y_server s) id = None ->
    move dbg s (LRun t) (set_task (want_used s t MRead) t (mkTask (PRemUsedR id) cur)) []
| mv_missing t id cur : y_tasks s !! t = Some (mkTask (PRemUsedR id) cur) ->
    lk_holds t MRead (y_used s) = true ->
    move dbg s (LRun t)
      (set_task (drop_guards s t) t (mkTask (PRemoved (IErr (remove_missing (y_server s) id))) cur))
      [EvRemove t id (IErr (remove_missing (y_server s) id))].

Lemma some_pair {A B} (p : A * B) a b : Some p = Some (a, b) -> p = (a, b).
Proof. by intros [= ->]. Qed.

Lemma step_move {H} dbg (s : sys H) l s' ev : step dbg s l = Some (s', ev) -> move dbg s l s' ev.
Proof.
  intros E. destruct l; cbn [step] in E.
  - destruct (y_tasks s !! t) eqn:Et; [discriminate|]. injection E as <- <-. by constructor.
  - destruct (y_tasks s !! t) as [[pc cur]|] eqn:Et; [|discriminate]. destruct pc; try discriminate.
    injection E as <- <-. by constructor.
  - destruct (y_tasks s !! t) as [[pc cur]|] eqn:Et; [|discriminate]. destruct pc; try discriminate.
    destruct cur; injection E as <- <-; by constructor.
  - destruct (y_tasks s !! t) as [[pc cur]|] eqn:Et; [|discriminate]. destruct pc; try discriminate.
    destruct dbg; [|discriminate]. injection E as <- <-. by constructor.
  - destruct (y_tasks s !! t) as [[pc cur]|] eqn:Et; [|discriminate]. destruct pc; try discriminate.
    injection E as <- <-. by constructor.
  - destruct (y_tasks s !! t) as [[pc cur]|] eqn:Et; [|discriminate]. destruct pc; try discriminate.
    injection E as <- <-. by econstructor.
  - destruct (y_tasks s !! t) eqn:Et; [discriminate|]. injection E as <- <-. by constructor.
  - destruct (y_tasks s !! t) eqn:Et; [discriminate|]. injection E as <- <-. by constructor.
  - destruct (c_poisoned (w_intf (y_world s) r)) eqn:Ep; [discriminate|]. injection E as <- <-. by constructor.
  - destruct (lk_grant _) eqn:El; [|discriminate]. injection E as <- <-. by constructor.
  - destruct (lk_grant _) eqn:El; [|discriminate]. injection E as <- <-. by constructor.
  - destruct (y_tasks s !! t) as [[pc cur]|] eqn:Et; [|discriminate].
    destruct pc; unfold run_task in E; cbn [t_pc t_cur] in E; try discriminate;
      try (injection E as <- <-; by eapply mv_import1);
      (destruct (lk_holds _ _ _) eqn:Eh; [|discriminate]).
    + destruct c.
      * injection E as <- <-. by eapply mv_devlist.
      * injection E as <- <-. by eapply mv_import.
      * destruct (serve_submit _ _ _ _) as [r w'] eqn:Es. apply some_pair, respond_answered in E. by eapply mv_submit.
      * apply some_pair, respond_answered in E. by eapply mv_unlink.
    + apply some_pair, respond_answered in E. by eapply mv_list.
    + injection E as <- <-. by eapply mv_import2.
    + destruct (import_device _ _) as [sv' r] eqn:Ei. apply some_pair, respond_answered in E. by eapply mv_import3.
    + injection E as <- <-. by eapply mv_release2.
    + destruct cur as [id|]; [|discriminate]. destruct (release_device _ _) eqn:Er; [| |discriminate]; injection E as <- <-.
      * by eapply mv_release3.
      * by eapply mv_release_panic.
    + injection E as <- <-. by eapply mv_added.
    + destruct (remove_available _ _) eqn:Er; injection E as <- <-.
      * by eapply mv_removed.
      * by eapply mv_remove2.
    + injection E as <- <-. by eapply mv_missing.
Qed.

Lemma answered_respond {H} dbg (s : sys H) t cur c r s' ev :
  answered dbg s t cur c r s' ev -> r <> Diverge -> (forall x, response_to_bytes dbg x <> Diverge) ->
  respond dbg s t cur c r = (s', ev).
Proof.
  intros [b E|e E He Hp] Hr Hd; unfold respond.
  - by rewrite E.
  - destruct (obind r (response_to_bytes dbg)) as [b|p|] eqn:Eo; [by destruct (E b)| |].
    + by rewrite (Hp p eq_refl).
    + destruct r as [x| |]; [|discriminate|done]. by apply Hd in Eo.
Qed.

(** ** Runs *)
Lemma run_app {H} dbg (s : sys H) l1 l2 :
  run dbg s (l1 ++ l2) = match run dbg s l1 with
                         | Some (s1, e1) => match run dbg s1 l2 with
                                            | Some (s2, e2) => Some (s2, e1 ++ e2)
                                            | None => None
                                            end
                         | None => None
                         end.
Proof.
  revert s. induction l1 as [|l l1 IH]; intros s; cbn.
  - destruct (run dbg s l2) as [[? ?]|]; done.
  - destruct (step dbg s l) as [[s1 e1]|]; [|done]. rewrite IH.
    destruct (run dbg s1 l1) as [[s2 e2]|]; [|done].
    destruct (run dbg s2 l2) as [[s3 e3]|]; [|done]. by rewrite app_assoc.
Qed.
Lemma run_snoc {H} dbg (s : sys H) ls l s' ev : run dbg s (ls ++ [l]) = Some (s', ev) ->
  exists s1 e1 e2, run dbg s ls = Some (s1, e1) /\ step dbg s1 l = Some (s', e2) /\ ev = e1 ++ e2.
Proof.
  rewrite run_app. destruct (run dbg s ls) as [[s1 e1]|]; [|done]. cbn.
  destruct (step dbg s1 l) as [[s2 e2]|] eqn:E; [|done]. intros [= <- <-].
  exists s1, e1, e2. by rewrite app_nil_r.
Qed.
(** Induction over a run, one step at a time at its end. *)
Lemma run_ind {H} dbg (s0 : sys H) (P : list (label H) -> sys H -> list event -> Prop) :
  P [] s0 [] ->
  (forall ls s ev l s' ev', run dbg s0 ls = Some (s, ev) -> P ls s ev -> step dbg s l = Some (s', ev') ->
     P (ls ++ [l]) s' (ev ++ ev')) ->
  forall ls s ev, run dbg s0 ls = Some (s, ev) -> P ls s ev.
Proof.
  intros H0 HS ls. induction ls as [|l ls IH] using rev_ind; intros s ev E.
  - cbn in E. by injection E as <- <-.
  - apply run_snoc in E as (s1 & e1 & e2 & E1 & E2 & ->). eauto.
Qed.
