(** * Properties C91, C92: what class drivers on the host make of the bundled handlers *)
From Verif Require Import Lemmas Prog SpecReport SpecProg PropsHandlers PropsBuild PropsDesc Examples.
From Coq Require Strings.String.
Import Strings.String.StringSyntax.
Local Open Scope string_scope.
Local Open Scope N_scope.

(** ** The format of the keyboard's reports *)
Definition kb_fields : list input_field :=
  [ mkField false true 7 (range 224 231) 0 1 1 8;
    mkField true false 7 [] 0 1 8 1;
    mkField false false 7 (range 0 101) 0 101 8 6 ].
Lemma kb_format : read_format (k_report_descriptor new_keyboard) = Some (mkFormat [(1, 1, 6)] kb_fields).
Proof. vm_compute. reflexivity. Qed.

Lemma byte_bits_check : forallb (fun x => bits_value ((fun i => N.testbit x (N.of_nat i)) <$> seq 0 8) =? x)
  (N.of_nat <$> seq 0 256) = true.
Proof. vm_compute. reflexivity. Qed.
Lemma byte_bits x : x < 256 -> bits_value ((fun i => N.testbit x (N.of_nat i)) <$> seq 0 8) = x.
Proof.
  intros Hx. pose proof byte_bits_check as Hc. rewrite forallb_forall in Hc. apply N.eqb_eq, Hc.
  apply elem_of_list_In, elem_of_list_fmap. exists (N.to_nat x). split; [lia|]. apply elem_of_seq. lia.
Qed.
Lemma report_bits_cons x b : report_bits (x :: b) = ((fun i => N.testbit x (N.of_nat i)) <$> seq 0 8) ++ report_bits b.
Proof. reflexivity. Qed.
Lemma report_bits_length b : length (report_bits b) = (8 * length b)%nat.
Proof. induction b as [|x b IH]; [reflexivity|]. rewrite report_bits_cons, app_length, IH, fmap_length, seq_length. cbn. lia. Qed.
Lemma values_bytes ks rest : Forall (fun x => x < 256) ks ->
  field_values 8 (length ks) (report_bits ks ++ rest) = ks.
Proof.
  induction 1 as [|x ks Hx _ IH]; [reflexivity|].
  rewrite report_bits_cons, <- app_assoc. cbn [length field_values].
  rewrite take_app_alt, drop_app_alt by (by rewrite fmap_length, seq_length). by rewrite IH, byte_bits.
Qed.

Lemma kb_array_check : forallb (fun k => bool_decide (
    field_keys (mkField false false 7 (range 0 101) 0 101 8 6) [k] = array_keys [k])) (N.of_nat <$> seq 0 256) = true.
Proof. vm_compute. reflexivity. Qed.
Lemma kb_array k : k < 256 -> field_keys (mkField false false 7 (range 0 101) 0 101 8 6) [k] = array_keys [k].
Proof.
  intros Hx. pose proof kb_array_check as Hc. rewrite forallb_forall in Hc.
  apply (bool_decide_eq_true_1 (field_keys _ [k] = _)), Hc.
  apply elem_of_list_In, elem_of_list_fmap. exists (N.to_nat k). split; [lia|]. apply elem_of_seq. lia.
Qed.
Lemma kb_arrays ks : Forall (fun x => x < 256) ks ->
  field_keys (mkField false false 7 (range 0 101) 0 101 8 6) ks = array_keys ks.
Proof.
  induction 1 as [|k ks Hk _ IH]; [reflexivity|].
  pose proof (kb_array k Hk) as E. unfold field_keys, array_keys in *. cbn [fd_constant fd_variable fd_page fd_usages fd_min fd_max] in *.
  cbn [fmap list_fmap] in *. cbn [omap list_omap] in *. 
  rewrite IH. clear IH.
  repeat case_match; simplify_eq; reflexivity.
Qed.
Lemma kb_modifiers_check : forallb (fun m => bool_decide (
    field_keys (mkField false true 7 (range 224 231) 0 1 1 8) (field_values 1 8 (report_bits [m])) = modifier_keys m))
    (N.of_nat <$> seq 0 256) = true.
Proof. vm_compute. reflexivity. Qed.
Lemma kb_modifiers m : m < 256 ->
  field_keys (mkField false true 7 (range 224 231) 0 1 1 8) (field_values 1 8 (report_bits [m])) = modifier_keys m.
Proof.
  intros Hx. pose proof kb_modifiers_check as Hc. rewrite forallb_forall in Hc.
  apply (bool_decide_eq_true_1 (field_keys _ _ = _)), Hc.
  apply elem_of_list_In, elem_of_list_fmap. exists (N.to_nat m). split; [lia|]. apply elem_of_seq. lia.
Qed.
Lemma field_values_app size count b1 b2 : (size * count <= length b1)%nat ->
  field_values size count (b1 ++ b2) = field_values size count b1.
Proof.
  revert b1. induction count as [|c IH]; intros b1 Hl; [reflexivity|]. cbn [field_values].
  rewrite take_app_le by lia. rewrite drop_app_le by lia. rewrite IH; [done|]. rewrite drop_length. lia.
Qed.

(** ** C91 *)
Theorem C91_keyboard_usage : exists f, read_format (k_report_descriptor new_keyboard) = Some f /\
  rf_collections f = [(1, 1, 6)] (* one application collection: generic desktop, keyboard *) /\
  format_bits (rf_inputs f) = 64.
Proof. eexists. split; [exact kb_format|]. split; reflexivity. Qed.
Print Assumptions C91_keyboard_usage.

(** Every report that can be queued means to the host what it should: bit i of the modifier byte is
    the modifier key 0xE0 + i, and the six key codes are keys 1 .. 101 of the keyboard page. *)
Theorem C91_host_reads_reports : forall r, u8 (r_modifier r) -> byte_list 6 (r_keys r) ->
  host_keys (k_report_descriptor new_keyboard) (r_modifier r :: 0 :: r_keys r) =
  Some (modifier_keys (r_modifier r) ++ array_keys (r_keys r)).
Proof.
  intros [m ks] Hm [Hl Hk]. cbn [r_modifier r_keys] in *. unfold host_keys. rewrite kb_format. cbn [rf_inputs]. f_equal.
  change (N.to_nat (format_bits kb_fields)) with 64%nat.
  rewrite take_app_alt by (rewrite report_bits_length; cbn; rewrite Hl; reflexivity).
  change (m :: 0 :: ks) with ([m] ++ [0] ++ ks).
  assert (Eb : forall a b, report_bits (a ++ b) = report_bits a ++ report_bits b) by (intros; unfold report_bits; apply bind_app).
  rewrite !Eb. unfold kb_fields.
  cbn [keys_down fd_size fd_count].
  change (N.to_nat 1) with 1%nat. change (N.to_nat 8) with 8%nat. change (N.to_nat 6) with 6%nat.
  change (1 * 8)%nat with 8%nat. change (8 * 1)%nat with 8%nat. change (8 * 6)%nat with 48%nat.
  rewrite field_values_app by reflexivity. rewrite kb_modifiers by exact Hm. f_equal.
  rewrite drop_app_alt by reflexivity. unfold field_keys at 1. cbn [fd_constant app].
  rewrite drop_app_alt by reflexivity. pose proof (values_bytes ks [] Hk) as Ev. rewrite Hl, app_nil_r in Ev.
  change (N.to_nat 1) with 1%nat. change (N.to_nat 8) with 8%nat. change (N.to_nat 6) with 6%nat.
  rewrite Ev, app_nil_r. by apply kb_arrays.
Qed.
Print Assumptions C91_host_reads_reports.

Lemma host_keys_zero b : Forall (fun x => x = 0) b -> host_keys (k_report_descriptor new_keyboard) b = Some [].
Proof.
  intros Hz. unfold host_keys. rewrite kb_format. cbn [rf_inputs].
  change (N.to_nat (format_bits kb_fields)) with 64%nat.
  assert (E : report_bits b ++ replicate 64 false = replicate (8 * length b + 64) false).
  { rewrite replicate_add. f_equal. induction Hz as [|x b -> _ IH]; [reflexivity|].
    rewrite report_bits_cons, IH. cbn [length]. replace (8 * S (length b))%nat with (8 + 8 * length b)%nat by lia. reflexivity. }
  rewrite E, take_replicate. replace (64 `min` (8 * length b + 64))%nat with 64%nat by lia. vm_compute. reflexivity.
Qed.
Lemma key_usage_bounds c u : (c, u) ∈ key_usage -> c < 256 /\ 1 <= u <= 101.
Proof.
  intros Hu.
  assert (Hc : forallb (fun p : N * N => (p.1 <? 256) && (1 <=? p.2) && (p.2 <=? 101)) key_usage = true) by (vm_compute; reflexivity).
  rewrite forallb_forall in Hc. apply elem_of_list_In in Hu. specialize (Hc _ Hu). cbn in Hc.
  apply andb_prop in Hc as [Hc H3]. apply andb_prop in Hc as [H1 H2].
  apply N.ltb_lt in H1. apply N.leb_le in H2, H3. lia.
Qed.
Lemma host_keys_char c r : c < 256 -> from_ascii c = Val r -> exists u, (c, u) ∈ key_usage /\
  host_keys (k_report_descriptor new_keyboard) (r_modifier r :: 0 :: r_keys r) = Some [(7, u)].
Proof.
  intros Hc Hr. destruct (C53_ascii c Hc) as (Hv & _). apply Hv in Hr as (u & Hu & ->). exists u. split; [exact Hu|].
  destruct (key_usage_bounds _ _ Hu) as [_ Hb].
  rewrite C91_host_reads_reports; cbn [r_modifier r_keys].
  - unfold array_keys. cbn [omap list_omap].
    destruct (N.leb_spec 1 u); [|lia]. destruct (N.leb_spec u 101); [|lia]. reflexivity.
  - done.
  - split; [reflexivity|]. constructor; [lia|]. repeat (constructor; [lia|]). constructor.
Qed.

Lemma script_keys text rs : Forall (fun c => c < 256) text -> Forall2 (fun c r => from_ascii c = Val r) text rs ->
  exists ks, typed_keys text ks /\
    Forall2 (fun a k => forall b, shows b a -> host_keys (k_report_descriptor new_keyboard) b = Some k) (script rs) ks.
Proof.
  intros Ht HF. revert Ht. induction HF as [|c r text rs Hr HF IH]; intros Ht.
  - exists []. split; [by exists []|constructor].
  - apply Forall_cons in Ht as [Hc Ht]. destruct (IH Ht) as (ks & (us & HU & ->) & HS).
    destruct (host_keys_char c r Hc Hr) as (u & Hu & Hk).
    exists ([(7, u)] :: [] :: mjoin ((fun u => [[(7, u)]; []]) <$> us)). split.
    + exists (u :: us). split; [by constructor|reflexivity].
    + constructor; [intros b Hb; cbn in Hb; by rewrite Hb|].
      constructor; [intros b [_ Hb]; by apply host_keys_zero|]. exact HS.
Qed.

(** Typing: whatever the interleaving of queueing and polling, a host that uses the report
    descriptor sees the keys of the text go down and up, one after the other, and nothing else. *)
Theorem C91_typing : forall text ops outs k,
  Forall u8 text -> Forall2 (fun c r => from_ascii c = Val r) text (queued ops) ->
  kb_exec new_keyboard ops outs k ->
  exists seen todo, typed_keys text (seen ++ todo) /\
    Forall2 (fun b ks => host_keys (k_report_descriptor new_keyboard) b = Some ks) (non_empty outs) seen /\
    forall f e tbl s req, polls e ->
    exists k1 b, kb_handle_urb k f e tbl s req = CallOk k1 b /\
      match todo with
      | [] => b = []
      | ks :: _ => b <> [] /\ host_keys (k_report_descriptor new_keyboard) b = Some ks
      end.
Proof.
  intros text ops outs k Ht HF HE.
  destruct (script_keys text (queued ops) Ht HF) as (ks & HT & HS).
  destruct (C51_keys_in_order ops outs k HE) as (shown & todo & Hsc & Hsh & Hnext).
  rewrite Hsc in HS. apply Forall2_app_inv_l in HS as (seen & td & HS1 & HS2 & ->).
  exists seen, td. split; [exact HT|]. split.
  - clear -Hsh HS1. revert seen HS1. induction Hsh as [|b a bs as_ Hb _ IH]; intros seen HS; inversion HS; subst; constructor; auto.
  - intros f e tbl s req Hp. destruct (Hnext f e tbl s req Hp) as (k1 & b & E & Hb). exists k1, b. split; [exact E|].
    destruct HS2 as [|a kk t1 t2 Ha _]; [exact Hb|]. destruct Hb as [Hb1 Hb2]. split; [exact Hb1|]. by apply Ha.
Qed.
Print Assumptions C91_typing.

(** The report descriptor never changes by itself. *)
Lemma kb_exec_desc k ops outs k' : kb_exec k ops outs k' -> k_report_descriptor k' = k_report_descriptor k.
Proof.
  assert (Hu : forall k f e tbl s req k1 b, kb_handle_urb k f e tbl s req = CallOk k1 b ->
    k_report_descriptor k1 = k_report_descriptor k).
  { intros k0 f e tbl s req k1 b E. unfold kb_handle_urb in E.
    repeat case_match; simplify_eq; reflexivity. }
  induction 1 as [|? ? ? ? ? ? IH|? ? ? ? ? ? ? ? ? ? ? ? E ? IH|? ? ? ? ? ? ? ? ? ? ? ? E ? IH]; [done|done| |];
    rewrite IH; eapply Hu; exact E.
Qed.
(** The same on the wire, with the report descriptor the client itself got: any text, any moment. *)
Theorem C91_typing_on_the_wire : forall dbg (st : cstate kb_h) m sb d e f s m' sb' e' i' s' text ops outs,
  Forall u8 text -> Forall2 (fun c r => from_ascii c = Val r) text (queued ops) ->
  kb_exec new_keyboard ops outs (c_state (w_intf (cs_world st) (if_handler f))) ->
  (* a poll *)
  delivered dbg st m sb d e (Some f) s (TIntf f) -> h_direction (sb_header sb) = 1 -> polls e ->
  (* a request for the report descriptor *)
  delivered dbg st m' sb' d e' i' s' (TIntf f) -> h_direction (sb_header sb') = 1 -> ep_address e' mod 128 = 0 ->
  s_request_type s' = 129 -> s_request s' = 6 -> s_value s' / 256 = 34 ->
  exists desc st2 b st1 seen todo,
    replies dbg st m' sb' desc st2 /\ replies dbg st m sb b st1 /\
    typed_keys text (seen ++ todo) /\
    Forall2 (fun b ks => host_keys desc b = Some ks) (non_empty outs) seen /\
    match todo with [] => b = [] | ks :: _ => b <> [] /\ host_keys desc b = Some ks end.
Proof.
  intros dbg st m sb d e f s m' sb' e' i' s' text ops outs Ht HF HE HD Hdir Hp HD' Hdir' He' H1 H2 H3.
  destruct (C20_keyboard_ignores_lengths dbg st m' sb' d e' i' f s' _ HD' Hdir' He' H1 H2 H3 eq_refl) as (st2 & HR2).
  rewrite (kb_exec_desc _ _ _ _ HE) in HR2.
  destruct (C51_keys_on_the_wire dbg st m sb d e f s ops outs HD Hdir Hp HE) as (shown & td & b & st1 & Hsc & Hsh & Hb & HR & _).
  destruct (script_keys text (queued ops) Ht HF) as (ks & HT & HS).
  rewrite Hsc in HS. apply Forall2_app_inv_l in HS as (seen & todo & HS1 & HS2 & ->).
  exists (k_report_descriptor new_keyboard), st2, b, st1, seen, todo. split; [exact HR2|]. split; [exact HR|].
  split; [exact HT|]. split.
  - clear -Hsh HS1. revert seen HS1. induction Hsh as [|b0 a bs as_ Hb _ IH]; intros seen HS; inversion HS; subst; constructor; auto.
  - destruct HS2 as [|a kk t1 t2 Ha _]; [exact Hb|]. destruct Hb as [Hb1 Hb2]. split; [exact Hb1|]. by apply Ha.
Qed.
Print Assumptions C91_typing_on_the_wire.

(** Left shift with "a"; the text "a1" with four polls. *)
Example C91_example :
  host_keys (k_report_descriptor new_keyboard) [2; 0; 4; 0; 0; 0; 0; 0] = Some [(7, 0xE1); (7, 4)] /\
  host_keys (k_report_descriptor new_keyboard) [0; 0; 0; 0; 0; 0] = Some [] /\
  exists ra r1 ops outs k, from_ascii 97 = Val ra /\ from_ascii 49 = Val r1 /\ queued ops = [ra; r1] /\
    kb_exec new_keyboard ops outs k /\
    map (host_keys (k_report_descriptor new_keyboard)) outs =
      [Some [(7, 0x04)]; Some []; Some [(7, 0x1e)]; Some []].
Proof.
  split; [vm_compute; reflexivity|]. split; [vm_compute; reflexivity|].
  set (poll := KCall kb_intf kb_ep 8 (mkSetup 0 0 0 0 0) []).
  exists (mkReport 0 [4; 0; 0; 0; 0; 0]), (mkReport 0 [0x1e; 0; 0; 0; 0; 0]),
    [KQueue (mkReport 0 [4; 0; 0; 0; 0; 0]); poll; KQueue (mkReport 0 [0x1e; 0; 0; 0; 0; 0]); poll; poll; poll],
    [[0; 0; 4; 0; 0; 0; 0; 0]; [0; 0; 0; 0; 0; 0]; [0; 0; 0x1e; 0; 0; 0; 0; 0]; [0; 0; 0; 0; 0; 0]], new_keyboard.
  split; [reflexivity|]. split; [reflexivity|]. split; [reflexivity|].
  assert (Hp : polls kb_ep) by (split; vm_compute; done).
  split; [|vm_compute; reflexivity]. subst poll.
  apply kx_queue. eapply kx_poll; [exact Hp|reflexivity|]. apply kx_queue.
  eapply kx_poll; [exact Hp|reflexivity|]. eapply kx_poll; [exact Hp|reflexivity|]. eapply kx_poll; [exact Hp|reflexivity|].
  apply kx_nil.
Qed.

(** ** C92 *)
(** What the host finds when it enumerates the device of a program: the one interface of its
    configuration. *)
Definition shows_interface {H} (dbg : bool) (g : program H) (P : host_intf -> Prop) : Prop :=
  exists d, g_device g dbg = Val d /\ enumerable d /\ forall st : cstate H,
    forall ix, host_gets dbg st d 2 ix (fun desc => exists c, reads_as_config desc c /\
      (forall c', reads_as_config desc c' -> c' = c) /\ exists hi, hc_interfaces c = [hi] /\ P hi).
Lemma program_shows {H} dbg (g : program H) (w : world H) ops a :
  (forall d0, new_device dbg 0 = Val d0 -> forall d r, api_run dbg w d0 ops = Val (d, r) -> g_device g dbg = Val d) ->
  reasonable w ops -> asked w ops = [a] -> forall P : host_intf -> Prop, (forall i, P (asked_view 0 (a, i))) ->
  shows_interface dbg g P.
Proof.
  intros Hg Hr Ha P HP. destruct (C75_host_sees_what_was_built H dbg w 0 ops eq_refl Hr) as (d0 & d & r & E0 & E1 & HE & _ & _ & HL).
  exists d. split; [by eapply Hg|]. split; [exact HE|]. intros st ix.
  destruct (HL st) as (im & ip & is & ic & ii & _ & HC & Hl & _). rewrite Ha in *.
  destruct ii as [|i0 [|]]; try discriminate.
  intros m sb s Hci Hgd. destruct (HC ix m sb s Hci Hgd) as (desc & (_ & HR1 & HR2) & HR).
  exists desc. split; [|exact HR]. eexists. split; [exact HR1|]. split; [exact HR2|]. eexists. split; [reflexivity|]. apply HP.
Qed.
Lemma one_interface {H} dbg (w : world H) d0 c sc p name eps h d r :
  api_run dbg w d0 [AddInterface c sc p name eps h] = Val (d, r) -> with_interface dbg w d0 c sc p name eps h = Val d.
Proof.
  cbn [api_run api_step]. intros E. apply obind_val in E as ([d1 r1] & E1 & E). apply obind_val in E1 as (d2 & E2 & E1).
  cbn [obind] in E. apply Val_inj in E1, E. injection E as -> _. injection E1 as -> _. exact E2.
Qed.
Theorem C92_keyboard_is_hid : forall dbg,
  shows_interface dbg hid_keyboard (fun hi => exists f, read_format (k_report_descriptor new_keyboard) = Some f /\
    hid_function hi (len (k_report_descriptor new_keyboard)) (format_bits (rf_inputs f) / 8)).
Proof.
  intros dbg. destruct (C75_hid_example keyboard_world (fun _ => eq_refl)) as (Hr & _).
  refine (program_shows dbg hid_keyboard keyboard_world hid_example
    (mkAsked 3 0 0 [mkEndpoint 0x81 0x03 0x08 10] (kb_csd new_keyboard) 0) _ Hr eq_refl _ _).
  - intros d0 E0 d r E. apply one_interface in E. unfold hid_keyboard. cbn [g_device]. rewrite E0. exact E.
  - intros i. eexists. split; [exact kb_format|].
    split; [reflexivity|]. split.
    + eexists [_], _. split.
      * apply (blocks_cons 9 0x21 [17; 1; 0; 1; 0x22; 45; 0] []); [reflexivity|constructor].
      * split; [reflexivity|]. split; [reflexivity|]. split_and!; try reflexivity; eexists _, _; split_and!; reflexivity.
    + exists 0x81, 8, 10. split; [by left|]. vm_compute. split_and!; discriminate.
Qed.
Print Assumptions C92_keyboard_is_hid.
Theorem C92_serial_is_acm : forall dbg, shows_interface dbg cdc_acm_serial acm_function.
Proof.
  intros dbg. destruct (C75_cdc_example serial_world (fun _ => eq_refl)) as (Hr & _).
  refine (program_shows dbg cdc_acm_serial serial_world cdc_example
    (mkAsked 2 2 0 cdc_endpoints (cdc_csd new_cdc) 0) _ Hr eq_refl _ _).
  - intros d0 E0 d r E. apply one_interface in E. unfold cdc_acm_serial. cbn [g_device]. rewrite E0. exact E.
  - intros i. split; [reflexivity|]. split; [reflexivity|]. split; [|split; [reflexivity|]].
    + exists [5; 36; 0; 16; 1], [[4; 36; 2; 0]]. split.
      { apply (blocks_cons 5 36 [0; 16; 1] [4; 36; 2; 0]); [reflexivity|].
        apply (blocks_cons 4 36 [2; 0] []); [reflexivity|constructor]. }
      split; [repeat constructor|]. split; [reflexivity|]. split; [reflexivity|].
      split; [eexists _, _; split_and!; reflexivity|]. split; [|repeat constructor; discriminate].
      eexists. split; reflexivity.
    + split; [|split_and!].
      * apply (bool_decide_eq_true_1 (NoDup _)). vm_compute. reflexivity.
      * exists (0x81, 3, 8, 10). split; [by left|]. split; [reflexivity|discriminate].
      * exists (0x82, 2, 512, 0). split; [by right; left|]. split; reflexivity.
      * exists (0x02, 2, 512, 0). split; [by right; right; left|]. split; reflexivity.
Qed.
Print Assumptions C92_serial_is_acm.
(** A connection that has imported the device of the keyboard program asks for the first 9 bytes. *)
Example C92_example : forall dbg, let sb := ctl_in [128; 6; 0; 2; 0; 0; 9; 0] in let s := mkSetup 128 6 512 0 9 in
  exists d, g_device hid_keyboard dbg = Val d /\
    control_in dbg (mkC (mkServer [] {[lit "0-0-0" := d]}) keyboard_world (Some (lit "0-0-0"))) (wire (CmdSubmit sb)) sb d s /\
    get_desc s 2 0.
Proof.
  intros dbg sb s. destruct (C92_keyboard_is_hid dbg) as (d & E & (_ & _ & H1 & H2 & _) & _). exists d. split; [exact E|].
  split; [|by repeat split].
  destruct (ctl_wire dbg [128; 6; 0; 2; 0; 0; 9; 0] eq_refl eq_refl) as [A B].
  split; [exact A|exact B| |done| |].
  - exists (lit "0-0-0"). split; [done|]. apply lookup_singleton.
  - do 8 eexists. split; reflexivity.
  - exists (d_ep0_in d), None. split; [by apply addr_ep0_in|done].
Qed.
