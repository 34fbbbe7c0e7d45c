(** * Isolation between clients (C66) *)
From Verif Require Import Examples PropsSys IsoProofs.
From Coq Require Strings.String.
Import Strings.String.StringSyntax.

(** ** C66 *)
(** The state of a handler changes only when the application changes it, or when a submit is
    served on a connection holding a device the handler belongs to. *)
Theorem C66_only_the_holder : forall H dbg ds (w : world H) ls s evs l s' ev,
  run dbg (init_sys ds w) ls = Some (s, evs) -> distinct_ids ds evs -> step dbg s l = Some (s', ev) ->
  (forall r, w_intf (y_world s') r = w_intf (y_world s) r \/ (exists f, l = LApp r f) \/
     exists t sb res d, EvServe t (CmdSubmit sb) res ∈ ev /\ held evs t = Some d /\ uses_intf d r) /\
  (forall r, w_dev (y_world s') r = w_dev (y_world s) r \/
     exists t sb res d, EvServe t (CmdSubmit sb) res ∈ ev /\ held evs t = Some d /\ uses_dev d r).
Proof.
  intros H dbg ds w ls s evs l s' ev E Hd Es. pose proof (step_move _ _ _ _ _ Es) as M.
  pose proof (dev_run _ _ _ _ _ _ E Hd) as HI.
  destruct (move_world _ _ _ _ _ M) as [[Ew _]|[(t & sb & res & He & _)|(r0 & f & -> & -> & Ew)]].
  - rewrite Ew. split; intros; by left.
  - pose proof (submit_held _ _ _ _ _ _ _ _ _ _ HI M He) as Ess. destruct (held evs t) as [d|] eqn:Hh.
    + pose proof (serve_submit_local dbg (y_world s) d sb) as [L1 L2]. rewrite Ess in L1, L2. cbn in L1, L2. split; intros r.
      * destruct (uses_intf_dec d r) as [Hr|Hr]; [|left; by apply L1]. right; right. by exists t, sb, res, d.
      * destruct (uses_dev_dec d r) as [Hr|Hr]; [|left; by apply L2]. right. by exists t, sb, res, d.
    + cbn in Ess. injection Ess as _ <-. split; intros; by left.
  - rewrite Ew. split; intros r; [|by left]. cbn. destruct (N.eqb_spec r r0) as [->|]; [|by left]. right; left. by exists f.
Qed.
Print Assumptions C66_only_the_holder.

(** As long as connection [t] holds [d], and [d] shares no handler with another device, [t] gets the
    answers, and leaves the handlers of [d] in the state, that it would if its submits were served
    alone, whatever the other clients do. *)
Theorem C66_as_if_alone : forall H dbg ds (w : world H) ls s evs t d ls' s' evs',
  run dbg (init_sys ds w) ls = Some (s, evs) -> run dbg s ls' = Some (s', evs') ->
  distinct_ids ds (evs ++ evs') -> private d ds (evs ++ evs') ->
  (forall e1 e2, evs' = e1 ++ e2 -> e2 <> [] -> held (evs ++ e1) t = Some d) -> app_leaves d ls' ->
  exists w', alone dbg d (y_world s) (own_submits t evs') w' /\ same_for d w' (y_world s').
Proof. intros H dbg ds w ls s evs t d ls' s' evs' E0 E Hd Hp Hh Ha. by eapply alone_run. Qed.
Print Assumptions C66_as_if_alone.

(** Two clients, each with its own device and handler, whose submits interleave. *)
Definition intf_c : interface :=
  mkInterface 255 0 0 [mkEndpoint 129 2 512 0; mkEndpoint 2 2 512 0] 0 [] 5.
Definition dev_c : device :=
  mkDevice (lit "/sys/bus/0/0/1") (lit "0-0-1") 0 1 3 4660 22136 (mkVersion 1 2 0) 0 0 0 1 1
    [intf_c] None (mkVersion 2 0 0) (mkEndpoint 128 0 64 0) (mkEndpoint 0 0 64 0) ∅ 1 2 3 4.
Definition sys_c : sys ex_h := init_sys [ex_dev; dev_c] ex_world.
Definition both_import : list (label ex_h) :=
  [LConnect 1; LConnect 2] ++ do_import 1 id_a ++ [LSent 1] ++ do_import 2 id_b ++ [LSent 2].
Definition both_talk : list (label ex_h) :=
  do_submit 2 (submit_cmd 0 2 1 (replicate 8 0) [9]) ++ [LSent 2] ++ do_submit 1 ex_out ++ [LSent 1] ++
  do_submit 2 ex_in ++ [LSent 2] ++ do_submit 1 (submit_cmd 1 1 9 (replicate 8 0) []).
Definition ex_all_in : submit := submit_cmd 1 1 9 (replicate 8 0) [].

Fixpoint private_b (ds : list device) (evs : list event) : bool :=
  forallb (fun d => str_eqb (d_bus_id d) id_a || forallb (fun f => negb (if_handler f =? 4)) (d_interfaces d)) ds &&
  match evs with [] => true | e :: evs' => private_b (ledger1 ds e) evs' end.
Lemma private_b_spec ds evs : private_b ds evs = true -> private ex_dev ds evs.
Proof.
  intros Hb e1. revert ds evs Hb.
  assert (Hh : forall ds, forallb (fun d => str_eqb (d_bus_id d) id_a || forallb (fun f => negb (if_handler f =? 4)) (d_interfaces d)) ds = true ->
    forall d', d' ∈ ds -> d_bus_id d' <> d_bus_id ex_dev ->
    (forall r, uses_intf ex_dev r -> ~ uses_intf d' r) /\ (forall r, uses_dev ex_dev r -> ~ uses_dev d' r)).
  { intros ds Hf d' Hin Hid. split; [|done]. intros r (f & Hf1%elem_of_list_singleton & <-) (g & Hg & Er). subst f.
    apply elem_of_list_In in Hin. pose proof (proj1 (forallb_forall _ _) Hf _ Hin) as Ho.
    apply orb_true_iff in Ho as [Ho|Ho]; [by apply bool_decide_eq_true in Ho|].
    apply elem_of_list_In in Hg. pose proof (proj1 (forallb_forall _ _) Ho _ Hg) as Hn. cbn in Er, Hn. rewrite Er in Hn. done. }
  induction e1 as [|e e1 IH]; intros ds evs Hb e2 d' E Hin Hid.
  - destruct evs; apply andb_true_iff in Hb as [Hb _]; by apply (Hh ds).
  - destruct evs as [|x evs]; [done|]. injection E as <- E. apply andb_true_iff in Hb as [_ Hb].
    by apply (IH _ _ Hb e2 d' E).
Qed.
Definition holds_b (t : tid) (evs evs' : list event) : bool :=
  forallb (fun n => match held (evs ++ take n evs') t with Some d => str_eqb (d_bus_id d) id_a | None => false end)
    (seq 0 (length evs')).
Example C66_example : exists s evs s' evs',
  run false sys_c both_import = Some (s, evs) /\ run false s both_talk = Some (s', evs') /\
  distinct_ids [ex_dev; dev_c] (evs ++ evs') /\ private ex_dev [ex_dev; dev_c] (evs ++ evs') /\ app_leaves ex_dev both_talk /\
  (forall n, (n < length evs')%nat -> d_bus_id <$> held (evs ++ take n evs') 1 = Some id_a) /\
  own_submits 1 evs' = [(ex_out, Val (usbip_ret_submit_success (reply_header (sb_header ex_out) 3) 0 0 [] []));
    (ex_all_in, Val (usbip_ret_submit_success (reply_header (sb_header ex_all_in) 3) 0 0 [65; 66; 67; 1; 2; 3] []))] /\
  length (own_submits 2 evs') = 2%nat.
Proof.
  destruct (after_run (run false sys_c both_import) (fun s evs => after (run false s both_talk) (fun s' evs' =>
    distinct_b [ex_dev; dev_c] (evs ++ evs') && private_b [ex_dev; dev_c] (evs ++ evs') && holds_b 1 evs evs' = true /\
    own_submits 1 evs' = [(ex_out, Val (usbip_ret_submit_success (reply_header (sb_header ex_out) 3) 0 0 [] []));
    (ex_all_in, Val (usbip_ret_submit_success (reply_header (sb_header ex_all_in) 3) 0 0 [65; 66; 67; 1; 2; 3] []))] /\
    length (own_submits 2 evs') = 2%nat))) as (s & evs & E & A).
  { vm_compute. split_and!; reflexivity. }
  apply after_run in A as (s' & evs' & E' & Hb & Ho & Hl). apply andb_true_iff in Hb as [Hb Hh]. apply andb_true_iff in Hb as [Hd Hp].
  exists s, evs, s', evs'. split_and!; [done|done|by apply distinct_b_spec|by apply private_b_spec| | |done|done].
  - unfold app_leaves, both_talk. repeat constructor.
  - intros n Hn. assert (Hin : In n (seq 0 (length evs'))) by (apply in_seq; lia).
    pose proof (proj1 (forallb_forall _ _) Hh _ Hin) as Hx. cbv beta in Hx. destruct (held _ 1) as [d|]; [|done].
    cbn. f_equal. by apply bool_decide_eq_true in Hx.
Qed.
