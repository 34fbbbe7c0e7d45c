(** * Proofs about the example programs *)
From Verif Require Export SpecProg SysFacts ConcProofs HandlerProofs.

(** ** Runs *)
Lemma prun_snoc {H} dbg (g : program H) p ls l p' evs : prun dbg g p (ls ++ [l]) = Some (p', evs) ->
  exists p1 e1 e2, prun dbg g p ls = Some (p1, e1) /\ pstep dbg g p1 l = Some (p', e2) /\ evs = e1 ++ e2.
Proof.
  revert p evs. induction ls as [|l1 ls IH]; intros p evs E; cbn in E.
  - destruct (pstep dbg g p l) as [[p1 e1]|] eqn:E1; [|done]. injection E as <- <-.
    exists p, [], e1. by rewrite app_nil_r.
  - destruct (pstep dbg g p l1) as [[p1 e1]|] eqn:E1; [|done].
    destruct (prun dbg g p1 (ls ++ [l])) as [[p2 e2]|] eqn:E2; [|done]. injection E as <- <-.
    apply IH in E2 as (q & f1 & f2 & E3 & E4 & ->). exists q, (e1 ++ f1), f2. cbn. rewrite E1, E3. by rewrite app_assoc.
Qed.
Lemma ticks_snoc {H} (ls : list (plabel H)) l :
  ticks (ls ++ [l]) = (ticks ls + match l with PTick => 1 | _ => 0 end)%nat.
Proof. unfold ticks. rewrite List.filter_app, app_length. by destruct l. Qed.
Lemma handed_out_app want a b : handed_out want (a ++ b) = handed_out want a ++ handed_out want b.
Proof. unfold handed_out. by rewrite omap_app. Qed.

(** ** What the steps of these programs do *)
(** No URB is served here. *)
Definition no_urb (ev : list event) : Prop := forall t sb r, EvServe t (CmdSubmit sb) r ∉ ev.
Lemma no_urb_handed want ev : no_urb ev -> handed_out want ev = [].
Proof.
  intros Hn. induction ev as [|e ev IH]; [done|]. unfold handed_out. cbn.
  assert (IH' : handed_out want ev = []) by (apply IH; intros t sb r Hin; apply (Hn t sb r); by right).
  destruct e as [t c r| | | | |]; try exact IH'. destruct c; try exact IH'. destruct (Hn t s r). left.
Qed.

(** The devices of the server, and the tasks: nobody adds a device, commands come off the wire. *)
Definition only (d : device) (sv : server) : Prop :=
  (forall x, x ∈ sv_available sv -> x = d) /\ (forall k x, sv_used sv !! k = Some x -> x = d).
Definition plain {H} (P : command -> Prop) (s : sys H) : Prop :=
  forall t k, y_tasks s !! t = Some k ->
    match t_pc k with PAddAvailW _ | PRemAvailW _ | PRemUsedR _ => False | PUsedR c => P c | _ => True end.
Record quiet {H} (P : command -> Prop) (d : device) (s : sys H) : Prop := mkQuiet {
  qu_only : only d (y_server s);
  qu_plain : plain P s }.

Lemma take_first_some p ds d rest : take_first p ds = Some (d, rest) ->
  d ∈ ds /\ forall x, x ∈ rest -> x ∈ ds.
Proof.
  revert d rest. induction ds as [|a ds IH]; intros d rest E; cbn in E; [done|].
  destruct (p a); [injection E as -> ->; split; [left|by right]|].
  destruct (take_first p ds) as [[x r]|]; [|done]. injection E as -> <-.
  destruct (IH _ _ eq_refl) as [I1 I2]. split; [by right|]. intros y [-> |Hy]%elem_of_cons; [left|right; auto].
Qed.
Lemma only_import d sv b sv' r : only d sv -> import_device sv b = (sv', r) -> only d sv'.
Proof.
  intros [A U] E. unfold import_device in E. destruct (take_first _ _) as [[x rest]|] eqn:Et; injection E as <- <-; [|done].
  apply take_first_some in Et as [I1 I2]. split; cbn; [by auto|]. intros k y Hk.
  destruct (decide (k = d_bus_id x)) as [-> |Hn].
  - rewrite lookup_insert in Hk. injection Hk as <-. auto.
  - rewrite lookup_insert_ne in Hk by done. eauto.
Qed.
Lemma only_release d sv id sv' : only d sv -> release_device sv id = Val sv' -> only d sv'.
Proof.
  intros [A U] E. unfold release_device in E. destruct (sv_used sv !! id) as [x|] eqn:Ex; [|done].
  apply Val_inj in E as <-. split; cbn.
  - intros y [Hy|Hy]%elem_of_app; [auto|]. apply elem_of_list_singleton in Hy as ->. eauto.
  - intros k y [_ Hk]%lookup_delete_Some. eauto.
Qed.
Lemma plain_set {H} P (s : sys H) t k : plain P s ->
  match t_pc k with PAddAvailW _ | PRemAvailW _ | PRemUsedR _ => False | PUsedR c => P c | _ => True end ->
  plain P (set_task s t k).
Proof.
  intros Hp Hk u k' Hu. cbn in Hu. destruct (decide (u = t)) as [-> |Hn].
  - rewrite lookup_insert in Hu. by injection Hu as <-.
  - rewrite lookup_insert_ne in Hu by done. exact (Hp u k' Hu).
Qed.
Lemma answered_world {H} dbg (s : sys H) t cur c r s' ev : answered dbg s t cur c r s' ev -> y_world s' = y_world s.
Proof. by destruct 1. Qed.
Lemma answered_quiet {H} dbg P d (s : sys H) t cur c r s' ev : answered dbg s t cur c r s' ev -> quiet P d s -> quiet P d s'.
Proof. destruct 1; intros [Q1 Q2]; (split; [exact Q1|]); by apply plain_set. Qed.
Lemma answered_ev {H} dbg (s : sys H) t cur c r s' ev : answered dbg s t cur c r s' ev ->
  ev = [EvServe t c r] \/ exists e, ev = [EvServe t c r; EvEnd t e].
Proof. destruct 1; eauto. Qed.
Lemma no_urb_nil : no_urb [].
Proof. intros t sb r. apply not_elem_of_nil. Qed.
Ltac no_urb_tac := let t := fresh in let sb := fresh in let r := fresh in let Hx := fresh in
  intros t sb r Hx; repeat (apply elem_of_cons in Hx as [Hx|Hx]; [discriminate|]); by apply elem_of_nil in Hx.

Lemma quiet_move {H} dbg (P : command -> Prop) d (s : sys H) l s' ev : move dbg s l s' ev -> quiet P d s ->
  match l with LAdd _ _ | LRemove _ _ | LApp _ _ => False | LRecv _ c => P c | _ => True end ->
  quiet P d s' /\
  ((no_urb ev /\ y_world s' = y_world s) \/
   (exists t sb cur r w', l = LRun t /\ y_tasks s !! t = Some (mkTask (PUsedR (CmdSubmit sb)) cur) /\ P (CmdSubmit sb) /\
      serve_submit dbg (y_world s) (current_device (y_server s) cur) sb = (r, w') /\ y_world s' = w' /\
      (current_device (y_server s) cur = None \/ current_device (y_server s) cur = Some d) /\
      (ev = [EvServe t (CmdSubmit sb) r] \/ exists e, ev = [EvServe t (CmdSubmit sb) r; EvEnd t e]))).
Proof.
  intros M [Qo Qp] Hl. destruct M; try done.
  (* a URB is served *)
  13: { pose proof (Qp _ _ H0) as Hk. cbn in Hk. split; [eapply answered_quiet; [eassumption|by split]|].
    right. exists t, sb, cur, r, w'. split_and!; try done.
    - by eapply answered_world in H3.
    - destruct cur as [id|]; cbn; [|by left]. destruct (sv_used (y_server s) !! id) as [x|] eqn:Ex; [|by left].
      right. f_equal. by apply (proj2 Qo id).
    - by eapply answered_ev. }
  1-12: (split; [split; [done|]; first [by apply plain_set|done]|left; split; [no_urb_tac|done]]).
  - (* unlink *) split; [eapply answered_quiet; [eassumption|by split]|]. left. split; [|by eapply answered_world].
    destruct (answered_ev _ _ _ _ _ _ _ _ H2) as [-> |[e ->]]; no_urb_tac.
  - (* device list *) split; [eapply answered_quiet; [eassumption|by split]|]. left. split; [|by eapply answered_world].
    destruct (answered_ev _ _ _ _ _ _ _ _ H2) as [-> |[e ->]]; no_urb_tac.
  - split; [split; [done|by apply plain_set]|left; split; [no_urb_tac|done]].
  - (* import *) split.
    + eapply answered_quiet; [eassumption|]. split; [by eapply only_import|done].
    + left. split; [|by apply answered_world in H3]. destruct (answered_ev _ _ _ _ _ _ _ _ H3) as [-> |[e ->]]; no_urb_tac.
  - split; [split; [done|by apply plain_set]|left; split; [no_urb_tac|done]].
  - (* release *) split; [split; [by eapply only_release|by apply plain_set]|left; split; [no_urb_tac|done]].
  - split; [split; [done|by apply plain_set]|left; split; [no_urb_tac|done]].
  - destruct (Qp _ _ H0).
  - destruct (Qp _ _ H0).
  - destruct (Qp _ _ H0).
  - destruct (Qp _ _ H0).
Qed.

(** ** The process *)
Lemma quiet_astep {H} dbg (P : command -> Prop) d (a : asys H) l a' ev : astep dbg a l = Some (a', ev) ->
  server_label l = true -> match l with ASys (LRecv _ c) => P c | _ => True end -> quiet P d (a_sys a) ->
  quiet P d (a_sys a') /\
  ((no_urb ev /\ y_world (a_sys a') = y_world (a_sys a)) \/
   (exists t sb cur r w', y_tasks (a_sys a) !! t = Some (mkTask (PUsedR (CmdSubmit sb)) cur) /\ P (CmdSubmit sb) /\
      serve_submit dbg (y_world (a_sys a)) (current_device (y_server (a_sys a)) cur) sb = (r, w') /\ y_world (a_sys a') = w' /\
      (current_device (y_server (a_sys a)) cur = None \/ current_device (y_server (a_sys a)) cur = Some d) /\
      (ev = [EvServe t (CmdSubmit sb) r] \/ exists e, ev = [EvServe t (CmdSubmit sb) r; EvEnd t e]))).
Proof.
  intros E Hl HP Q.
  assert (K : (a_sys a' = a_sys a /\ ev = []) \/ exists l', step dbg (a_sys a) l' = Some (a_sys a', ev) /\
    match l' with LAdd _ _ | LRemove _ _ | LApp _ _ => False | LRecv _ c => P c | _ => True end).
  { unfold astep in E. destruct l as [| |t| | |l], (a_listener a); try done;
      try (injection E as <- <-; by left);
      try (destruct (step dbg (a_sys a) (LConnect t)) as [[s e]|] eqn:Es; [|done]; injection E as <- <-; right;
           exists (LConnect t); done).
    all: destruct l; try done;
      match goal with E : context [step ?b ?x ?l'] |- _ => destruct (step b x l') as [[s9 e9]|] eqn:Es; [|done];
        injection E as <- <-; right; exists l'; done end. }
  destruct K as [[K1 ->]|(l' & Es & Hl')].
  - rewrite K1. split; [done|]. left. split; [apply no_urb_nil|done].
  - apply step_move in Es. destruct (quiet_move _ _ _ _ _ _ _ Es Q Hl') as [Q' [?|(t & sb & cur & r & w' & _ & K)]].
    + split; [done|by left].
    + split; [done|right]. by exists t, sb, cur, r, w'.
Qed.
Lemma pstep_tick {H} dbg (g : program H) a p ev : pstep dbg g (Running a) PTick = Some (p, ev) ->
  ev = [] /\
  let c := w_intf (y_world (a_sys a)) (g_handler g) in
  ((p = Exited /\ (c_poisoned c = true \/ forall st, g_tick g (c_state c) <> Val st)) \/
   exists st a', c_poisoned c = false /\ g_tick g (c_state c) = Val st /\ p = Running a' /\
     y_world (a_sys a') = set_intf (y_world (a_sys a)) (g_handler g) (mkCell false st) /\
     y_server (a_sys a') = y_server (a_sys a) /\ y_tasks (a_sys a') = y_tasks (a_sys a)).
Proof.
  cbn [pstep]. destruct (c_poisoned _) eqn:Ep; [intros [= <- <-]; auto|].
  destruct (g_tick g _) as [st| |] eqn:Et; [|intros [= <- <-]; split; [done|]; left; split; [done|by right]..].
  unfold astep. assert (Es : step dbg (a_sys a) (LApp (g_handler g) (fun _ => st)) =
    Some (set_world (a_sys a) (set_intf (y_world (a_sys a)) (g_handler g) (mkCell false st)), [])).
  { cbn [step]. by rewrite Ep. }
  rewrite Es. destruct (a_listener a); intros [= <- <-]; (split; [done|]); right; do 2 eexists; split_and!; try done.
Qed.

(** ** The devices *)
Record shape (d : device) (es : list endpoint) (f : interface) : Prop := mkShape {
  sh_in : ep_address (d_ep0_in d) = 128 /\ ep_attributes (d_ep0_in d) = 0;
  sh_out : ep_address (d_ep0_out d) = 0 /\ ep_attributes (d_ep0_out d) = 0;
  sh_intf : d_interfaces d = [f];
  sh_eps : if_endpoints f = es;
  sh_handler : if_handler f = 0;
  sh_dev : d_handler d = None }.
Definition shaped (o : outcome device) (es : list endpoint) : Prop :=
  match o with
  | Val d => match d_interfaces d with [f] => shape d es f | _ => False end
  | _ => False
  end.
Lemma shaped_ex o es : shaped o es -> exists d f, o = Val d /\ shape d es f.
Proof.
  destruct o as [d| |]; cbn; try done. destruct (d_interfaces d) as [|f [|]] eqn:E; try done. intros Hs. by exists d, f.
Qed.
Lemma kb_shaped dbg : shaped (g_device hid_keyboard dbg) [mkEndpoint 129 3 8 10].
Proof. destruct dbg; vm_compute; split; auto. Qed.
Lemma serial_shaped dbg : shaped (g_device cdc_acm_serial dbg) cdc_endpoints.
Proof. destruct dbg; vm_compute; split; auto. Qed.

Lemma ep_byte_lt h : ep_byte h < 256.
Proof. unfold ep_byte. destruct (_ =? _); lia. Qed.
Lemma wf_setup dbg sb : wf_command dbg (CmdSubmit sb) -> setup_of (sb_setup sb) (setup_parse (sb_setup sb)).
Proof.
  intros Hw. assert (Hb : byte_list 8 (sb_setup sb)) by (cbn in Hw; tauto). destruct Hb as [Hl Hb].
  destruct (sb_setup sb) as [|b0 [|b1 [|b2 [|b3 [|b4 [|b5 [|b6 [|b7 [|? ?]]]]]]]]] eqn:E; try discriminate.
  exists b0, b1, b2, b3, b4, b5, b6, b7. split; [done|]. apply setup_le; [done|]. by apply all_u8_spec.
Qed.

Definition reply_of (sb : submit) (u : urb_result) : outcome response :=
  let h := reply_header (sb_header sb) USBIP_RET_SUBMIT in
  match u with
  | UOk resp => Val (usbip_ret_submit_success h 0 0 resp [])
  | UErr _ => Val (usbip_ret_submit_fail h)
  | UPanic p => Panic p
  end.
(** A request to interface 0. *)
Definition to_interface (sb : submit) : Prop :=
  nth 0 (sb_setup sb) 0 mod 16 = 1 /\ s_index (setup_parse (sb_setup sb)) mod 256 = 0.
Lemma find_ep_in_addr es a e : find_ep_in es a = Some e -> ep_address e = a.
Proof. intros (es1 & es2 & _ & E & _)%find_ep_in_some. exact E. Qed.
Lemma get_descriptor_panic dbg d s : get_descriptor dbg d s <> UPanic PUnwrapNone.
Proof.
  unfold get_descriptor. destruct (desc_type_of _) as [[]|]; try done.
  destruct (_ =? 0); [done|]. destruct (_ !! _) as [str|]; [|done].
  unfold string_descriptor, string_blength.
  destruct (dbg && _); cbn; [done|]. destruct (dbg && _); done.
Qed.
Lemma shape_serve {H} dbg (w : world H) d es f sb r w' : shape d es f ->
  (forall e, e ∈ es -> 1 <= ep_attributes e <= 3) ->
  serve_submit dbg w (Some d) sb = (r, w') ->
  let a := ep_byte (sb_header sb) in
  (exists e, (a mod 128 = 0 /\ to_interface sb /\ ep_address e = a /\ ep_attributes e = 0 \/
              a mod 128 <> 0 /\ e ∈ es /\ ep_address e = a) /\
     exists u, call_intf w 0 f e (sb_transfer_buffer_length sb) (setup_parse (sb_setup sb)) (sb_data sb) = (u, w') /\
               r = reply_of sb u) \/
  (w' = w /\ (a mod 128 = 0 /\ ~ to_interface sb \/ a mod 128 <> 0 /\ (forall e, e ∈ es -> ep_address e <> a))
   /\ (nth 0 (sb_setup sb) 0 mod 16 = 1 -> forall rs, r = Val (RetSubmit rs) -> rs_transfer_buffer rs = [])
   /\ r <> Panic PUnwrapNone).
Proof.
  intros [[Ia It] [Oa Ot] Hf He Hh Hd] Hes E a. subst a. unfold serve_submit in E. rewrite real_ep_byte in E. unfold find_ep in E.
  pose proof (ep_byte_lt (sb_header sb)) as Hlt. set (a := ep_byte (sb_header sb)) in *.
  assert (Ctl : forall e i, ep_attributes e = 0 -> ep_address e = a -> a mod 128 = 0 ->
    forall u w1, handle_urb dbg w d e i (sb_transfer_buffer_length sb) (setup_parse (sb_setup sb)) (sb_data sb) = (u, w1) ->
    (to_interface sb /\ call_intf w 0 f e (sb_transfer_buffer_length sb) (setup_parse (sb_setup sb)) (sb_data sb) = (u, w1)) \/
    (w1 = w /\ ~ to_interface sb /\ (nth 0 (sb_setup sb) 0 mod 16 = 1 -> exists p, u = UPanic p) /\ u <> UPanic PUnwrapNone)).
  { intros e i Ha Hae Ha0 u w1 Eu. destruct (decide (library_request e (setup_parse (sb_setup sb)))) as [Hl|Hl].
    - right. assert (Hn : nth 0 (sb_setup sb) 0 mod 16 <> 1).
      { destruct Hl as [(_ & Hx & _)|(_ & Hx & _)]; cbn in Hx; by rewrite Hx. }
      enough (w1 = w /\ u <> UPanic PUnwrapNone) as [-> Hu] by (split_and!; [done|intros [? _]; done|done|done]).
      unfold handle_urb in Eu. rewrite Ha in Eu. cbn [ep_attr_of] in Eu.
      destruct Hl as [(Hi & Hx & Hy)|(Hi & Hx & Hy)].
      + apply ep_direction_spec in Hi. rewrite Hi, Hx, Hy in Eu. cbn [N.eqb std_request_of] in Eu.
        injection Eu as <- <-. split; [done|]. apply get_descriptor_panic.
      + apply ep_direction_out in Hi. rewrite Hi, Hx, Hy in Eu. cbn [N.eqb std_request_of] in Eu. injection Eu as <- <-. done.
    - rewrite control_not_library in Eu by done. unfold control_dispatch in Eu. rewrite land_15, land_255, Hf in Eu.
      destruct (N.eqb_spec (s_request_type (setup_parse (sb_setup sb)) mod 16) 1) as [E1|E1].
      + destruct (decide (s_index (setup_parse (sb_setup sb)) mod 256 = 0)) as [E2|E2].
        * left. split; [done|]. rewrite E2 in Eu. change ([f] !! N.to_nat 0) with (Some f) in Eu. cbv beta iota in Eu. by rewrite Hh in Eu.
        * right. rewrite (lookup_ge_None_2 [f]) in Eu by (change (length [f]) with 1%nat; lia). injection Eu as <- <-.
          split; [done|]. split; [intros [_ ?]; done|]. split; [by eauto|done].
      + right. rewrite Hd in Eu. assert (Ew : w1 = w) by (destruct (s_request_type (setup_parse (sb_setup sb)) mod 16 =? 0); congruence).
        split; [done|]. split; [intros [? _]; done|]. split; [intros Hx; by destruct E1|].
        destruct (s_request_type (setup_parse (sb_setup sb)) mod 16 =? 0); congruence. }
  destruct (N.eqb_spec a (ep_address (d_ep0_in d))) as [E1|E1]; [|destruct (N.eqb_spec a (ep_address (d_ep0_out d))) as [E2|E2]].
  - destruct (handle_urb dbg w d (d_ep0_in d) None _ _ _) as [u w1] eqn:Eu.
    assert (Er : r = reply_of sb u /\ w' = w1) by (by destruct u; injection E as <- <-). destruct Er as [-> ->]. clear E.
    destruct (Ctl _ _ It (eq_sym E1) ltac:(by rewrite E1, Ia) _ _ Eu) as [[T C]|(-> & T & C & Cn)].
    + left. exists (d_ep0_in d). split; [left; rewrite E1, Ia; by split_and!|]. by exists u.
    + right. split; [done|]. split; [left; by rewrite E1, Ia|]. split; [intros Hx; by destruct (C Hx) as [p ->]|]. destruct u as [| |[]]; done.
  - destruct (handle_urb dbg w d (d_ep0_out d) None _ _ _) as [u w1] eqn:Eu.
    assert (Er : r = reply_of sb u /\ w' = w1) by (by destruct u; injection E as <- <-). destruct Er as [-> ->]. clear E.
    destruct (Ctl _ _ Ot (eq_sym E2) ltac:(by rewrite E2, Oa) _ _ Eu) as [[T C]|(-> & T & C & Cn)].
    + left. exists (d_ep0_out d). split; [left; rewrite E2, Oa; by split_and!|]. by exists u.
    + right. split; [done|]. split; [left; by rewrite E2, Oa|]. split; [intros Hx; by destruct (C Hx) as [p ->]|]. destruct u as [| |[]]; done.
  - assert (Hm : a mod 128 <> 0) by lia. rewrite Hf in E. cbn [find_ep_intf] in E. rewrite He in E.
    destruct (find_ep_in es a) as [e|] eqn:Ef.
    + left. exists e. assert (Hin : e ∈ es).
      { apply find_ep_in_some in Ef as (es1 & es2 & -> & _). apply elem_of_app. right. left. }
      split; [right; split_and!; [done|done|by eapply find_ep_in_addr]|].
      destruct (handle_urb dbg w d e (Some f) _ _ _) as [u w1] eqn:Eu.
    assert (Er : r = reply_of sb u /\ w' = w1) by (by destruct u; injection E as <- <-). destruct Er as [-> ->]. clear E.
      exists u. split; [|done]. unfold handle_urb in Eu. rewrite Hh in Eu.
      destruct (ep_attr_cases (ep_attributes e)) as [[? _]|[[_ (x & Ex & Hc)]|[? _]]]; [specialize (Hes e Hin); lia| |specialize (Hes e Hin); lia].
      rewrite Ex in Eu. by destruct x.
    + right. injection E as <- <-. split; [done|]. split; [right; split; [done|by apply find_ep_in_none]|].
      split; [by intros _ rs [= <-]|done].
Qed.

(** ** The keyboard *)
Lemma kb_serve dbg (w : world keyboard_handlers) d f sb r w' : shape d [mkEndpoint 129 3 8 10] f ->
  serve_submit dbg w (Some d) sb = (r, w') ->
  let c := w_intf w 0 in let c' := w_intf w' 0 in
  if polls_1 sb then
    (c_poisoned c = true /\ r = Panic PPoisoned /\ c' = c) \/
    (c_poisoned c = false /\ c_poisoned c' = false /\ exists rs, r = Val (RetSubmit rs) /\
      match kb_todo (c_state c) with
      | [] => rs_transfer_buffer rs = [] /\ kb_todo (c_state c') = []
      | a :: rest => rs_transfer_buffer rs <> [] /\ shows (rs_transfer_buffer rs) a /\ kb_todo (c_state c') = rest
      end)
  else kb_todo (c_state c') = kb_todo (c_state c) /\ (c_poisoned c = true -> c_poisoned c' = true) /\
    (wf_command dbg (CmdSubmit sb) -> (c_poisoned c' = true <-> c_poisoned c = true \/ unknown_to_keyboard sb)).
Proof.
  intros Hs E. pose proof (shape_serve _ _ _ _ _ _ _ _ Hs ltac:(intros e ->%elem_of_list_singleton; cbn; lia) E) as K. cbv zeta in *.
  unfold polls_1. set (a := ep_byte (sb_header sb)) in *. set (s := setup_parse (sb_setup sb)) in *.
  assert (Hu : wf_command dbg (CmdSubmit sb) -> unknown_to_keyboard sb <-> a mod 128 = 0 /\ to_interface sb /\
    ~ (s_request_type s = 129 /\ s_request s = 6 /\ s_value s / 256 = 34) /\ ~ (s_request_type s = 33 /\ s_request s = 10)).
  { intros Hw. pose proof (wf_setup _ _ Hw) as Hp. fold s in Hp. unfold unknown_to_keyboard, to_interface. fold a s.
    split.
    - intros (A & s' & Hs' & B). assert (s' = s) as -> .
      { destruct Hp as (?&?&?&?&?&?&?&?& E1 & ->), Hs' as (?&?&?&?&?&?&?&?& E2 & ->). rewrite E1 in E2. by injection E2 as -> -> -> -> -> -> -> ->. }
      tauto.
    - intros (A & [B1 B2] & C). split; [done|]. exists s. tauto. }
  destruct K as [(e & He & u & Ec & ->)|(-> & Ha & _ & Hn)].
  - unfold call_intf in Ec. destruct (c_poisoned (w_intf w 0)) eqn:Ep.
    { injection Ec as <- <-. destruct (N.eqb_spec a 129) as [E1|E1]; [left; by split_and!|].
      split; [done|]. split; [done|]. intros _. split; auto. }
    set (k := c_state (w_intf w 0)) in *. cbn [i_step keyboard_handlers] in Ec.
    destruct (N.eqb_spec a 129) as [E1|E1].
    + right. split; [done|]. destruct He as [(He & _)|(_ & Hin & _)]; [by rewrite E1 in He|].
      apply elem_of_list_singleton in Hin as ->.
      destruct (kb_poll k f (mkEndpoint 129 3 8 10) (sb_transfer_buffer_length sb) s (sb_data sb)) as (k1 & b & E2 & Hm).
      { split; cbn; [done|]. unfold in_ep. cbn. lia. }
      rewrite E2 in Ec. injection Ec as <- <-. cbn. split; [done|]. eexists. split; [reflexivity|]. cbn. exact Hm.
    + destruct He as [(A1 & A2 & A3 & A4)|(_ & Hin & A3)];
        [|by apply elem_of_list_singleton in Hin as ->; cbn in A3; congruence].
      pose proof (kb_panics_iff k f e (sb_transfer_buffer_length sb) s (sb_data sb)) as Hpi. rewrite A3 in Hpi.
      destruct (kb_handle_urb k f e _ s _) as [k1 b|k1 x|k1 p] eqn:E2; injection Ec as <- <-; cbn.
      * apply kb_other in E2 as ->; [|intros [Hx _]; rewrite A3 in Hx; done]. split; [done|]. split; [done|].
        intros Hw. split; [done|]. intros [?|Hk]; [done|]. exfalso. apply (Hu Hw) in Hk.
        destruct (proj2 Hpi) as (? & ? & ?); [tauto|discriminate].
      * exfalso. unfold kb_handle_urb in E2. repeat case_match; discriminate.
      * split; [|split; [done|]]. { unfold kb_handle_urb in E2. repeat case_match; congruence. }
        intros Hw. split; [|done]. intros _. right. apply (Hu Hw). destruct (proj1 Hpi) as (B1 & B2 & B3); [eauto|]. tauto.
  - destruct (N.eqb_spec a 129) as [E1|E1].
    + exfalso. destruct Ha as [[Hx _]|[_ Hx]]; [by rewrite E1 in Hx|]. apply (Hx (mkEndpoint 129 3 8 10)); [left|done].
    + split; [done|]. split; [done|]. intros Hw. split; [by left|]. intros [?|Hk]; [done|]. exfalso. apply (Hu Hw) in Hk. tauto.
Qed.
Lemma kb_serve_device dbg (w : world keyboard_handlers) d f sb r w' : shape d [mkEndpoint 129 3 8 10] f ->
  serve_submit dbg w (Some d) sb = (r, w') -> r <> Panic PUnwrapNone.
Proof.
  intros Hs E. pose proof (shape_serve _ _ _ _ _ _ _ _ Hs ltac:(intros e ->%elem_of_list_singleton; cbn; lia) E) as K. cbv zeta in *.
  destruct K as [(e & _ & u & Ec & ->)|(_ & _ & _ & K)]; [|done].
  unfold call_intf in Ec. destruct (c_poisoned _); [by injection Ec as <- <-|].
  cbn [i_step keyboard_handlers] in Ec. destruct (kb_handle_urb _ _ _ _ _ _) as [k1 b|k1 x|k1 p] eqn:E2; injection Ec as <- <-; try done.
  cbn. intros [= ->]. unfold kb_handle_urb in E2. repeat case_match; discriminate.
Qed.

(** Which commands the labels deliver. *)
Definition delivers {H} (P : command -> Prop) (l : plabel H) : Prop :=
  match l with PServer (ASys (LRecv _ c)) => P c | _ => True end.
Lemma quiet_start {H} P d (w : world H) : quiet P d (a_sys (init_asys [d] w)).
Proof.
  split; cbn.
  - split; cbn; [by intros x ->%elem_of_list_singleton|]. intros k x Hk. by rewrite lookup_empty in Hk.
  - intros t k Hk. cbn in Hk. by rewrite lookup_empty in Hk.
Qed.
Lemma quiet_pstep {H} dbg P d (g : program H) a l a' ev : pstep dbg g (Running a) l = Some (Running a', ev) ->
  delivers P l -> quiet P d (a_sys a) -> quiet P d (a_sys a').
Proof.
  intros E Hl Q. destruct l as [l|].
  - cbn [pstep] in E. destruct (server_label l) eqn:Es; [|done]. destruct (astep dbg a l) as [[a1 e1]|] eqn:Ea; [|done].
    injection E as <- <-. apply (quiet_astep _ P d _ _ _ _ Ea); [done| |done]. by destruct l.
  - apply pstep_tick in E as (_ & [[? _]|(st & a1 & _ & _ & [= <-] & Ew & Esv & Et)]); [done|].
    destruct Q as [Q1 Q2]. split; [by rewrite Esv|]. intros t k Hk. rewrite Et in Hk. by apply (Q2 t).
Qed.
Lemma pserver_inv {H} dbg P d (g : program H) a l p ev : pstep dbg g (Running a) (PServer l) = Some (p, ev) ->
  delivers P (PServer l) -> quiet P d (a_sys a) ->
  exists a', p = Running a' /\
  ((no_urb ev /\ y_world (a_sys a') = y_world (a_sys a)) \/
   (exists t sb r, P (CmdSubmit sb) /\
      (ev = [EvServe t (CmdSubmit sb) r] \/ exists e, ev = [EvServe t (CmdSubmit sb) r; EvEnd t e]) /\
      ((r = Panic PUnwrapNone /\ y_world (a_sys a') = y_world (a_sys a)) \/
       exists w', serve_submit dbg (y_world (a_sys a)) (Some d) sb = (r, w') /\ y_world (a_sys a') = w'))).
Proof.
  intros E Hl Q. cbn [pstep] in E. destruct (server_label l) eqn:Es; [|done]. destruct (astep dbg a l) as [[a1 e1]|] eqn:Ea; [|done].
  injection E as <- <-. exists a1. split; [done|].
  destruct (quiet_astep _ P d _ _ _ _ Ea Es) as [_ [?|(t & sb & cur & r & w' & _ & HP & Er & Ew & Hc & He)]];
    [destruct l; try done; by destruct l|done|by left|right].
  exists t, sb, r. split; [done|]. split; [done|]. destruct Hc as [Hc|Hc]; rewrite Hc in Er.
  - left. cbn in Er. injection Er as <- <-. done.
  - right. by exists w'.
Qed.
Lemma served_in t sb r t' sb' o ev :
  (ev = [EvServe t (CmdSubmit sb) r] \/ exists e, ev = [EvServe t (CmdSubmit sb) r; EvEnd t e]) ->
  EvServe t' (CmdSubmit sb') o ∈ ev <-> t' = t /\ sb' = sb /\ o = r.
Proof.
  intros [-> |[e ->]]; rewrite !elem_of_cons, elem_of_nil; (split; [|intros (-> & -> & ->); by left]).
  - intros [[= -> -> ->]|[]]. done.
  - intros [[= -> -> ->]|[[=]|[]]]. done.
Qed.
Lemma served_handed want t sb r ev :
  (ev = [EvServe t (CmdSubmit sb) r] \/ exists e, ev = [EvServe t (CmdSubmit sb) r; EvEnd t e]) ->
  handed_out want ev = match r with
                       | Val (RetSubmit rs) => if want sb then [rs_transfer_buffer rs] else []
                       | _ => []
                       end.
Proof. intros [-> |[e ->]]; cbn; destruct r as [[]| |]; cbn; try done; by destruct (want sb). Qed.

(** A request that broke the keyboard. *)
Definition broke (evs : list event) : Prop :=
  exists t sb o, EvServe t (CmdSubmit sb) o ∈ evs /\ unknown_to_keyboard sb /\ o <> Panic PUnwrapNone.
Record kb_inv (dbg : bool) (P : command -> Prop) (d : device) (n : nat) (a : asys keyboard_handlers) (evs : list event) : Prop := mkKbInv {
  ki_quiet : quiet P d (a_sys a);
  ki_keys : exists shown, script (replicate n key_1) = shown ++ kb_todo (c_state (w_intf (y_world (a_sys a)) 0)) /\
              Forall2 shows (non_empty (handed_out polls_1 evs)) shown;
  ki_poison : (forall c, P c -> wf_command dbg c) -> c_poisoned (w_intf (y_world (a_sys a)) 0) = true <-> broke evs }.

Lemma non_empty_app a b : non_empty (a ++ b) = non_empty a ++ non_empty b.
Proof. unfold non_empty. by rewrite filter_app. Qed.
Lemma broke_app a b : broke (a ++ b) <-> broke a \/ broke b.
Proof.
  unfold broke. split.
  - intros (t & sb & o & [Hx|Hx]%elem_of_app & Hy); [left|right]; eauto.
  - intros [(t & sb & o & Hx & Hy)|(t & sb & o & Hx & Hy)]; exists t, sb, o; (split; [apply elem_of_app; auto|done]).
Qed.
Lemma script_replicate n r : script (replicate (S n) r) = script (replicate n r) ++ [Press r; Release].
Proof. rewrite replicate_S_end, script_app. done. Qed.
Lemma kb_init dbg P d w : w = keyboard_world -> kb_inv dbg P d 0 (init_asys [d] w) [].
Proof.
  intros ->. split; [apply quiet_start| |].
  - exists []. split; [done|constructor].
  - intros _. split; [done|]. intros (t & sb & o & Hx & _). by apply elem_of_nil in Hx.
Qed.
Lemma kb_step dbg P d f n a evs l a' ev : shape d [mkEndpoint 129 3 8 10] f -> kb_inv dbg P d n a evs -> delivers P l ->
  pstep dbg hid_keyboard (Running a) l = Some (Running a', ev) ->
  kb_inv dbg P d (n + match l with PTick => 1 | _ => 0 end)%nat a' (evs ++ ev).
Proof.
  intros Hs [Q (shown & K1 & K2) Kp] Hl E. pose proof (quiet_pstep _ _ _ _ _ _ _ _ E Hl Q) as Q'. split; [exact Q'| |]; clear Q'.
  - destruct l as [l|].
    + rewrite Nat.add_0_r. apply (pserver_inv _ P d) in E as (a1 & [= <-] & [[Hn Ew]|(t & sb & r & HP & He & Hr)]); [| |done|done].
      { rewrite handed_out_app, (no_urb_handed _ _ Hn), app_nil_r, Ew. eauto. }
      rewrite handed_out_app, (served_handed _ _ _ _ _ He), non_empty_app.
      destruct Hr as [[-> ->]|(w' & Er & ->)]; [rewrite app_nil_r; eauto|].
      pose proof (kb_serve _ _ _ _ _ _ _ Hs Er) as K. cbv zeta in K. destruct (polls_1 sb) eqn:Epo.
      * destruct K as [(_ & -> & ->)|(_ & _ & rs & -> & Km)]; [rewrite app_nil_r; eauto|].
        destruct (kb_todo (c_state (w_intf (y_world (a_sys a)) 0))) as [|x rest].
        -- destruct Km as [-> ->]. cbn. rewrite app_nil_r. eauto.
        -- destruct Km as (Hb & Hx & ->). exists (shown ++ [x]). split; [by rewrite K1, <- app_assoc|].
           apply Forall2_app; [done|]. unfold non_empty. rewrite filter_cons_True by done. by repeat constructor.
      * destruct K as (-> & _). assert (Ez : match r with Val (RetSubmit rs) => [] | _ => ([] : list (list N)) end = []) by (by destruct r as [[]| |]).
        rewrite Ez, app_nil_r. eauto.
    + apply pstep_tick in E as (-> & [[? _]|(st & a1 & _ & Et & [= <-] & Ew & _)]); [done|].
      rewrite app_nil_r, Ew. cbn in Et. injection Et as <-.
      exists shown. split; [|done]. rewrite Nat.add_1_r, script_replicate, K1, <- app_assoc. f_equal.
      cbn [set_intf w_intf N.eqb g_handler hid_keyboard c_state].
      unfold kb_todo, kb_push. cbn [k_state k_pending]. rewrite script_app, <- !app_assoc. done.
  - intros HW. specialize (Kp HW). rewrite broke_app, <- Kp. destruct l as [l|].
    + apply (pserver_inv _ P d) in E as (a1 & [= <-] & [[Hn Ew]|(t & sb & r & HP & He & Hr)]); [| |done|done].
      { rewrite Ew. split; [by left|]. intros [?|(t & sb & o & Hx & _)]; [done|]. by apply Hn in Hx. }
      assert (Hb : broke ev <-> unknown_to_keyboard sb /\ r <> Panic PUnwrapNone).
      { split.
        - intros (t' & sb' & o & Hx & Hy). apply (served_in _ _ _ _ _ _ _ He) in Hx as (-> & -> & ->). done.
        - intros Hy. exists t, sb, r. split; [by apply (served_in _ _ _ _ _ _ _ He)|done]. }
      rewrite Hb. destruct Hr as [[-> ->]|(w' & Er & ->)]; [split; [by left|]; intros [?|[_ ?]]; done|].
      assert (Hr : r <> Panic PUnwrapNone).
      { intros ->. by apply (kb_serve_device _ _ _ _ _ _ _ Hs Er). }
      pose proof (kb_serve _ _ _ _ _ _ _ Hs Er) as K. cbv zeta in K. destruct (polls_1 sb) eqn:Epo.
      * assert (Hk : ~ unknown_to_keyboard sb).
        { intros [Hx _]. apply N.eqb_eq in Epo. by rewrite Epo in Hx. }
        destruct K as [(K & _ & ->)|(K3 & K4 & _)]; [tauto|]. rewrite K3, K4. tauto.
      * destruct K as (_ & _ & K). rewrite (K (HW _ HP)). tauto.
    + apply pstep_tick in E as (-> & [[? _]|(st & a1 & Hp & Et & [= <-] & Ew & _)]); [done|]. cbn [g_handler hid_keyboard] in Hp. rewrite Ew, Hp. cbn.
      split; [done|]. intros [?|(t & sb & o & Hx & _)]; [done|]. by apply elem_of_nil in Hx.
Qed.

(** Every run of a program that starts is a sequence of steps while it runs. *)
Lemma prun_running {H} dbg (g : program H) p ls l p' evs : prun dbg g p (ls ++ [l]) = Some (p', evs) ->
  exists a e1 e2, prun dbg g p ls = Some (Running a, e1) /\ pstep dbg g (Running a) l = Some (p', e2) /\ evs = e1 ++ e2.
Proof. intros ([a|] & e1 & e2 & E1 & E2 & ->)%prun_snoc; [eauto 10|done]. Qed.
Lemma kb_run dbg P d f : g_device hid_keyboard dbg = Val d -> shape d [mkEndpoint 129 3 8 10] f -> forall ls a evs,
  Forall (delivers P) ls -> prun dbg hid_keyboard (start dbg hid_keyboard) ls = Some (Running a, evs) ->
  kb_inv dbg P d (ticks ls) a evs.
Proof.
  intros Hd Hs ls. induction ls as [|l ls IH] using rev_ind; intros a evs HP E.
  - cbn in E. unfold start in E. rewrite Hd in E. injection E as <- <-. by apply kb_init.
  - apply Forall_app in HP as [HP Hl]. rewrite Forall_singleton in Hl.
    apply prun_running in E as (a1 & e1 & e2 & E1 & E2 & ->). rewrite ticks_snoc.
    eapply kb_step; eauto.
Qed.
Lemma delivers_any {H} (ls : list (plabel H)) : Forall (delivers (fun _ => True)) ls.
Proof. apply Forall_true. intros [[]|]; try done. by destruct l. Qed.
Lemma delivers_readable {H} dbg (ls : list (plabel H)) : Forall (p_readable dbg) ls -> Forall (delivers (wf_command dbg)) ls.
Proof. intros Hf. eapply Forall_impl; [exact Hf|]. intros [[]|]; try done. by destruct l. Qed.

(** ** The serial port *)
Definition takes (sb : submit) : bool := polls_2 sb || interface_in sb.
Lemma cdc_serve dbg (w : world serial_handlers) d f sb r w' : shape d cdc_endpoints f ->
  serve_submit dbg w (Some d) sb = (r, w') -> c_poisoned (w_intf w 0) = false ->
  let c := w_intf w 0 in let c' := w_intf w' 0 in
  c_poisoned c' = false /\
  (polls_2 sb = true -> exists rs, r = Val (RetSubmit rs) /\ rs_transfer_buffer rs = c_tx_buffer (c_state c) /\
     c_tx_buffer (c_state c') = []) /\
  (if takes sb
   then match r with Val (RetSubmit rs) => rs_transfer_buffer rs | _ => [] end ++ c_tx_buffer (c_state c') = c_tx_buffer (c_state c)
   else c_state c' = c_state c).
Proof.
  intros Hs E Hp. assert (Hat : forall e, e ∈ cdc_endpoints -> 1 <= ep_attributes e <= 3).
  { intros e He. unfold cdc_endpoints in He. rewrite !elem_of_cons, elem_of_nil in He.
    destruct He as [-> |[-> |[-> |[]]]]; cbn; lia. }
  pose proof (shape_serve _ _ _ _ _ _ _ _ Hs Hat E) as K. cbv zeta in *.
  unfold takes, polls_2, interface_in. set (a := ep_byte (sb_header sb)) in *.
  destruct K as [(e & He & u & Ec & ->)|(-> & Ha & Hx & _)].
  - unfold call_intf in Ec. rewrite Hp in Ec. cbn [i_step serial_handlers] in Ec.
    set (c := c_state (w_intf w 0)) in *.
    destruct He as [(A1 & [A2 _] & A3 & A4)|(A1 & Hin & A3)].
    + pose proof (ep_byte_lt (sb_header sb)) as Hlt. fold a in Hlt. rewrite A2.
      assert (a = 0 \/ a = 128) as [Ha|Ha] by lia.
      * assert (Eh : cdc_handle_urb c f e (sb_transfer_buffer_length sb) (setup_parse (sb_setup sb)) (sb_data sb) = CallOk c []).
        { unfold cdc_handle_urb. rewrite A4. cbn [N.eqb ep_attr_val].
          assert (Ed : ep_direction e = DOut) by (apply ep_direction_out; unfold in_ep; rewrite A3, Ha; cbn; lia). by rewrite Ed. }
        rewrite Eh in Ec. injection Ec as <- <-. rewrite Ha. cbn. split_and!; try done.
      * assert (Eh : cdc_handle_urb c f e (sb_transfer_buffer_length sb) (setup_parse (sb_setup sb)) (sb_data sb) = CallOk (mkCdc []) (c_tx_buffer c)).
        { unfold cdc_handle_urb. rewrite A4. cbn [N.eqb ep_attr_val].
          assert (Ed : ep_direction e = DIn) by (apply ep_direction_spec; unfold in_ep; rewrite A3, Ha; cbn; lia). by rewrite Ed. }
        rewrite Eh in Ec. injection Ec as <- <-. rewrite Ha. cbn. split_and!; try done. by rewrite app_nil_r.
    + unfold cdc_endpoints in Hin. rewrite !elem_of_cons, elem_of_nil in Hin.
      destruct Hin as [-> |[-> |[-> |[]]]]; cbn in A3; rewrite <- A3; cbn in Ec; injection Ec as <- <-; cbn;
        split_and!; try done; [|by rewrite app_nil_r]. intros _. eexists. split; [reflexivity|]. done.
  - assert (H2 : a <> 130).
    { intros Ha2. destruct Ha as [[Hy _]|[_ Hy]]; [by rewrite Ha2 in Hy|].
      apply (Hy (mkEndpoint 130 (ep_attr_val ABulk) 512 0)); [right; left|by rewrite Ha2]. }
    destruct (N.eqb_spec a 130) as [|_]; [done|]. split; [done|]. split; [done|].
    destruct (N.eqb_spec a 128); [|done]. cbn [orb andb].
    destruct (N.eqb_spec (nth 0 (sb_setup sb) 0 mod 16) 1) as [E1|]; [|done].
    destruct r as [[]| |]; try done. by rewrite (Hx E1 _ eq_refl).
Qed.
Record cdc_inv (P : command -> Prop) (d : device) (n : nat) (a : asys serial_handlers) (evs : list event) : Prop := mkCdcInv {
  ci_quiet : quiet P d (a_sys a);
  ci_fine : c_poisoned (w_intf (y_world (a_sys a)) 0) = false;
  ci_bytes : mjoin (handed_out takes evs) ++ c_tx_buffer (c_state (w_intf (y_world (a_sys a)) 0)) = replicate n 97 }.
Lemma cdc_step dbg P d f n a evs l p ev : shape d cdc_endpoints f -> cdc_inv P d n a evs -> delivers P l ->
  pstep dbg cdc_acm_serial (Running a) l = Some (p, ev) ->
  exists a', p = Running a' /\ cdc_inv P d (n + match l with PTick => 1 | _ => 0 end)%nat a' (evs ++ ev).
Proof.
  intros Hs [Q F B] Hl E. destruct l as [l|].
  - pose proof E as E0. apply (pserver_inv _ P d) in E as (a1 & -> & K); [|done|done]. exists a1. split; [done|].
    pose proof (quiet_pstep _ _ _ _ _ _ _ _ E0 Hl Q) as Q'. rewrite Nat.add_0_r.
    destruct K as [[Hn Ew]|(t & sb & r & HP & He & Hr)].
    { split; [done|by rewrite Ew|]. by rewrite handed_out_app, (no_urb_handed _ _ Hn), app_nil_r, Ew. }
    destruct Hr as [[-> Ew]|(w' & Er & Ew)].
    { split; [done|by rewrite Ew|]. by rewrite handed_out_app, (served_handed _ _ _ _ _ He), app_nil_r, Ew. }
    destruct (cdc_serve _ _ _ _ _ _ _ Hs Er F) as (K1 & _ & K3). cbv zeta in *.
    split; [done|by rewrite Ew|]. rewrite handed_out_app, (served_handed _ _ _ _ _ He), join_app, Ew, <- app_assoc, <- B. f_equal.
    destruct (takes sb).
    + rewrite <- K3. destruct r as [[]| |]; cbn; try done. by rewrite app_nil_r.
    + rewrite K3. destruct r as [[]| |]; done.
  - pose proof E as E0. apply pstep_tick in E as (-> & [[_ [Hp|Hp]]|(st & a1 & Hp & Et & -> & Ew & _)]).
    + cbn [g_handler cdc_acm_serial] in Hp. congruence.
    + by destruct (Hp _ eq_refl).
    + exists a1. split; [done|]. pose proof (quiet_pstep _ _ _ _ _ _ _ _ E0 Hl Q) as Q'.
      cbn in Et. apply Val_inj in Et as <-. split; [done|by rewrite Ew|].
      rewrite app_nil_r, Ew, Nat.add_1_r, replicate_S_end, <- B, <- app_assoc. done.
Qed.
Lemma cdc_run dbg P d f : g_device cdc_acm_serial dbg = Val d -> shape d cdc_endpoints f -> forall ls p evs,
  Forall (delivers P) ls -> prun dbg cdc_acm_serial (start dbg cdc_acm_serial) ls = Some (p, evs) ->
  exists a, p = Running a /\ cdc_inv P d (ticks ls) a evs.
Proof.
  intros Hd Hs ls. induction ls as [|l ls IH] using rev_ind; intros p evs HP E.
  - cbn in E. unfold start in E. rewrite Hd in E. injection E as <- <-. eexists. split; [done|].
    split; [apply quiet_start|done|done].
  - apply Forall_app in HP as [HP Hl]. rewrite Forall_singleton in Hl.
    apply prun_running in E as (a1 & e1 & e2 & E1 & E2 & ->). rewrite ticks_snoc.
    destruct (IH _ _ HP E1) as (a2 & [= <-] & I). eapply cdc_step; eauto.
Qed.
