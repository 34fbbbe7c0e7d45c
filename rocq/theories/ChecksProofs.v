(** * Debug and release builds: proofs for C88 *)
From Verif Require Export SpecChecks SysFacts SpecNames HostEnum NetProofs.

Lemma or_stops_refl {A} (x : outcome A) : or_stops x x.
Proof. by right. Qed.
Lemma or_stops_bind {A B} (x y : outcome A) (f g : A -> outcome B) :
  or_stops x y -> (forall a, or_stops (f a) (g a)) -> or_stops (obind x f) (obind y g).
Proof.
  intros [(p & Hp & ->)| ->] Hf; [left; by exists p|]. destruct y as [a|p|]; cbn [obind]; [apply Hf|by right..].
Qed.
Lemma or_stops_assert {A} b (x y : outcome A) : or_stops x y -> or_stops (debug_assert true b x) (debug_assert false b y).
Proof. intros Hx. unfold debug_assert. destruct b; cbn; [done|]. left. exists PDebugAssert. split; [by left|done]. Qed.

Lemma find_vacant_checks pool fuel : forall i, or_stops (find_vacant true pool i fuel) (find_vacant false pool i fuel).
Proof.
  induction fuel as [|n IH]; intros i; cbn [find_vacant]; [by right|]. cbn [andb].
  destruct (i =? 255); [left; exists POverflow; split; [by right|done]|].
  destruct (pool !! i); [apply IH|by right].
Qed.
Lemma new_string_checks d s : or_stops (new_string true d s) (new_string false d s).
Proof. apply or_stops_bind; [apply find_vacant_checks|intros; apply or_stops_refl]. Qed.
Lemma new_device_checks index : or_stops (new_device true index) (new_device false index).
Proof.
  unfold new_device. repeat (apply or_stops_bind; [apply new_string_checks|intros [? ?]; cbv zeta]). apply or_stops_refl.
Qed.
Lemma with_interface_checks {H} (w : world H) d c s p n eps h :
  or_stops (with_interface true w d c s p n eps h) (with_interface false w d c s p n eps h).
Proof.
  apply or_stops_bind; [destruct n; [apply new_string_checks|apply or_stops_refl]|intros [? ?]; apply or_stops_refl].
Qed.
Ltac checks := repeat first
  [ match goal with |- or_stops ?x ?x => exact (or_stops_refl x) end | apply new_string_checks | apply with_interface_checks
  | apply or_stops_assert | apply or_stops_bind; [|intros; repeat match goal with x : _ * _ |- _ => destruct x end]
  | progress cbv zeta | match goal with |- or_stops (match ?x with _ => _ end) (match ?x with _ => _ end) => destruct x end ].
Lemma api_step_checks {H} (w : world H) d o : or_stops (api_step true w d o) (api_step false w d o).
Proof.
  destruct o; cbn [api_step]; unfold set_configuration_name, set_serial_number, set_product_name, set_manufacturer_name; checks.
Qed.
Lemma api_run_checks {H} (w : world H) ops : forall d, or_stops (api_run true w d ops) (api_run false w d ops).
Proof.
  induction ops as [|o ops IH]; intros d; cbn [api_run]; [by right|].
  apply or_stops_bind; [apply api_step_checks|intros [d1 r]]. apply or_stops_bind; [apply IH|intros [d2 rs]; by right].
Qed.
Lemma rusb_add_string_checks h i d : or_stops (rusb_add_string true h i d) (rusb_add_string false h i d).
Proof. unfold rusb_add_string. checks. Qed.
Lemma rusb_checks hs : forall next dh, or_stops (with_rusb_device_handles true hs next dh) (with_rusb_device_handles false hs next dh).
Proof.
  induction hs as [|h hs IH]; intros next dh; cbn [with_rusb_device_handles]; [by right|].
  destruct (rh_desc h); [|apply IH]. destruct (rh_cfg h); [|apply IH].
  apply or_stops_bind; [|intros d; apply or_stops_bind; [apply IH|intros; by right]].
  unfold rusb_device. apply or_stops_bind; [by right|intros is]. cbv zeta.
  repeat (apply or_stops_bind; [apply rusb_add_string_checks|intros [? ?]]). by right.
Qed.
Lemma nusb_checks hs : forall next dh, or_stops (with_nusb_devices true hs next dh) (with_nusb_devices false hs next dh).
Proof.
  induction hs as [|h hs IH]; intros next dh; cbn [with_nusb_devices]; [by right|].
  destruct (ni_open h) as [o|]; [|apply IH]. destruct (no_cfg o); [|apply IH].
  apply or_stops_bind; [|intros d; apply or_stops_bind; [apply IH|intros; by right]].
  unfold nusb_device. apply or_stops_bind; [by right|intros is]. destruct (ni_speed h); [|by right]. cbv zeta.
  unfold nusb_add_string. checks.
Qed.

(** ** Encoding *)
Lemma device_to_bytes_checks d : or_stops (device_to_bytes true d) (device_to_bytes false d).
Proof. unfold device_to_bytes. cbv zeta. checks. Qed.
Lemma devices_to_bytes_checks ds : or_stops (devices_to_bytes true ds) (devices_to_bytes false ds).
Proof.
  induction ds as [|d ds IH]; cbn [devices_to_bytes]; [by right|].
  apply or_stops_bind; [|intros b; apply or_stops_bind; [exact IH|intros; by right]].
  apply or_stops_bind; [apply device_to_bytes_checks|intros; by right].
Qed.
Lemma response_checks r : or_stops (response_to_bytes true r) (response_to_bytes false r).
Proof.
  destruct r as [s c ds|s [d|]|r|h s]; cbn [response_to_bytes].
  - apply or_stops_bind; [apply devices_to_bytes_checks|intros; by right].
  - apply or_stops_bind; [apply device_to_bytes_checks|intros; by right].
  - by right.
  - checks.
  - checks.
Qed.
Lemma command_checks c : or_stops (command_to_bytes true c) (command_to_bytes false c).
Proof. destruct c; cbn [command_to_bytes]; checks. Qed.
Lemma header_checks b : or_stops (header_from_bytes true b) (header_from_bytes false b).
Proof. unfold header_from_bytes. checks. Qed.

(** ** Serving: the handlers see the same calls. *)
Lemma string_descriptor_checks s : or_stops (string_descriptor true s) (string_descriptor false s).
Proof.
  unfold string_descriptor. cbv zeta. apply or_stops_bind; [|intros; by right]. unfold string_blength. cbv zeta.
  destruct (256 <=? as_u8 (len (utf16 s)) * 2); [left; exists POverflow; split; [by right|done]|].
  cbn [andb]. destruct (256 <=? 2 + as_u8 (as_u8 (len (utf16 s)) * 2)); [left; exists POverflow; split; [by right|done]|by right].
Qed.
Lemma get_descriptor_checks d s :
  (exists p, a_check p /\ get_descriptor true d s = UPanic p) \/ get_descriptor true d s = get_descriptor false d s.
Proof.
  unfold get_descriptor. destruct (desc_type_of _) as [[]|]; try by right.
  cbv zeta. destruct (_ =? 0); [by right|]. destruct (d_string_pool d !! _) as [str|]; [|by right].
  destruct (string_descriptor_checks str) as [(p & Hp & ->)| ->]; [left; by exists p|by right].
Qed.
Lemma handle_urb_checks {H} (w : world H) d e i tbl s req :
  (exists p, a_check p /\ handle_urb true w d e i tbl s req = (UPanic p, snd (handle_urb false w d e i tbl s req))) \/
  handle_urb true w d e i tbl s req = handle_urb false w d e i tbl s req.
Proof.
  unfold handle_urb. destruct (ep_attr_of _) as [[]|]; try by right. destruct (ep_direction e); [|by right].
  destruct (s_request_type s =? 128); [|by right]. destruct (std_request_of _) as [[]|]; try by right.
  destruct (get_descriptor_checks d s) as [(p & Hp & ->)| ->]; [left; by exists p|by right].
Qed.
Lemma serve_submit_checks {H} (w : world H) cur sb :
  or_stops (fst (serve_submit true w cur sb)) (fst (serve_submit false w cur sb)) /\
  snd (serve_submit true w cur sb) = snd (serve_submit false w cur sb).
Proof.
  unfold serve_submit. destruct cur as [d|]; [|split; [by right|done]]. cbv zeta.
  destruct (find_ep d _) as [[e i]|]; [|split; [by right|done]].
  destruct (handle_urb_checks w d e i (sb_transfer_buffer_length sb) (setup_parse (sb_setup sb)) (sb_data sb))
    as [(p & Hp & ->)| ->].
  - destruct (handle_urb false _ _ _ _ _ _ _) as [r w']. cbn [snd]. split; [left; by exists p|]. by destruct r.
  - split; [by right|done].
Qed.
Lemma serve_checks {H} (st : cstate H) c :
  or_stops (obind (fst (serve true st c)) (response_to_bytes true)) (obind (fst (serve false st c)) (response_to_bytes false)) /\
  snd (serve true st c) = snd (serve false st c).
Proof.
  destruct c as [s|s b|sb|h u]; cbn [serve fst snd obind].
  - split; [apply response_checks|done].
  - destruct (import_device _ _). cbn [fst snd obind]. split; [apply response_checks|done].
  - destruct (serve_submit_checks (cs_world st) (current_device (cs_server st) (cs_current st)) sb) as [A B].
    destruct (serve_submit true _ _ _) as [r w1], (serve_submit false _ _ _) as [r' w2]. cbn [fst snd] in *. subst w2.
    split; [|done]. apply or_stops_bind; [done|apply response_checks].
  - split; [apply response_checks|done].
Qed.

(** ** Reading *)
Inductive rd_le {A} : rd A -> rd A -> Prop :=
| le_stop p q : a_check p -> rd_le (RPanic p) q
| le_ret a : rd_le (RRet a) (RRet a)
| le_fail e : rd_le (RFail e) (RFail e)
| le_panic p : rd_le (RPanic p) (RPanic p)
| le_read n k k' : (forall b, rd_le (k b) (k' b)) -> rd_le (RRead n k) (RRead n k')
| le_alloc n k k' : rd_le k k' -> rd_le (RAlloc n k) (RAlloc n k').
Lemma le_refl {A} (p : rd A) : rd_le p p.
Proof. induction p; by constructor. Qed.
Lemma le_assert {A} b (p q : rd A) : rd_le p q -> rd_le (rd_debug_assert true b p) (rd_debug_assert false b q).
Proof. intros Hp. unfold rd_debug_assert. destruct b; cbn; [done|]. apply le_stop. by left. Qed.
Lemma le_header {A} c (k k' : header -> rd A) : (forall h, rd_le (k h) (k' h)) -> rd_le (read_header true c k) (read_header false c k').
Proof. intros Hk. unfold read_header, read_u32. do 3 (apply le_read; intros ?). apply le_assert. apply le_read. intros ?. apply Hk. Qed.
Lemma reader_le : rd_le (read_from_socket true) (read_from_socket false).
Proof.
  unfold read_from_socket, read_u16. apply le_read. intros b1. destruct (_ && _); [apply le_refl|].
  apply le_read. intros b2. destruct (of_be b2 =? OP_REQ_DEVLIST); [|destruct (of_be b2 =? OP_REQ_IMPORT);
    [|destruct (of_be b2 =? USBIP_CMD_SUBMIT); [|destruct (of_be b2 =? USBIP_CMD_UNLINK)]]].
  - apply le_read. intros b. apply le_assert, le_refl.
  - apply le_read. intros b. apply le_assert, le_refl.
  - apply le_header. intros h. apply le_refl.
  - apply le_header. intros h. apply le_refl.
  - apply le_refl.
Qed.
Lemma run_rd_le {A} (p q : rd A) fin : rd_le p q -> forall inp,
  (exists x, a_check x /\ run_rd p inp fin = RPan x) \/ run_rd p inp fin = run_rd q inp fin.
Proof.
  induction 1 as [x q Hx| | | |n k k' _ IH|n k k' _ IH]; intros inp; cbn [run_rd]; try by right.
  - left. by exists x.
  - destruct (len inp <? n); [by right|]. apply IH.
  - apply IH.
Qed.

(** ** One connection *)
Lemma conn_checks {H} fin fuel : forall (st : cstate H) inp bud out e st',
  conn_loop fuel true st inp fin bud = (out, e, st') ->
  conn_loop fuel false st inp fin bud = (out, e, st') \/
  (exists p, a_check p /\ e = EndPanic p /\ exists more e2 st2, conn_loop fuel false st inp fin bud = (out ++ more, e2, st2)).
Proof.
  induction fuel as [|n IH]; intros st inp bud out e st' E; cbn [conn_loop] in E |- *; [by left|].
  destruct (run_rd_le _ _ fin reader_le inp) as [(x & Hx & Er)|Er]; rewrite Er in E.
  - injection E as <- <- <-. right. exists x. split; [done|]. split; [done|]. cbn [app].
    destruct (match run_rd (read_from_socket false) inp fin with ROk _ _ => _ | _ => _ end) as [[o e2] s2]. by exists o, e2, s2.
  - destruct (run_rd (read_from_socket false) inp fin) as [c rest|er|p]; [|by left..].
    destruct (serve_checks st c) as [A B].
    destruct (serve true st c) as [r st1], (serve false st c) as [r' st1']. cbn [fst snd] in A, B. subst st1'.
    destruct A as [(p & Hp & Ea)|Ea]; rewrite Ea in E.
    + injection E as <- <- <-. right. exists p. split; [done|]. split; [done|]. cbn [app].
      destruct (match obind r' _ with Val _ => _ | _ => _ end) as [[o e2] s2]. by exists o, e2, s2.
    + destruct (obind r' (response_to_bytes false)) as [b|p|]; [|by left..].
      destruct (write_all bud b) as [sent [bud'|er]]; [|by left].
      destruct (conn_loop n true st1 rest fin bud') as [[o1 e1] s1] eqn:E1. injection E as <- <- <-.
      destruct (IH _ _ _ _ _ _ E1) as [-> |(p & Hp & -> & more & e2 & st2 & ->)]; [by left|].
      right. exists p. split; [done|]. split; [done|]. exists more, e2, st2. by rewrite app_assoc.
Qed.

(** ** The concurrent server *)
Definition checked (t : tid) (ev : list event) : Prop := exists p, a_check p /\ EvEnd t (EndPanic p) ∈ ev.
Lemma respond_checks {H} (s : sys H) t cur c r r' : or_stops r r' ->
  respond true s t cur c r = respond false s t cur c r' \/ checked t (snd (respond true s t cur c r)).
Proof.
  intros [(p & Hp & ->)| ->].
  - right. exists p. split; [done|]. cbn. set_solver.
  - unfold respond. destruct r' as [x|p|]; cbn [obind]; [|by left..].
    destruct (response_checks x) as [(p & Hp & ->)| ->]; [|by left]. right. exists p. split; [done|]. cbn. set_solver.
Qed.
Lemma some_respond_checks {H} (s : sys H) t cur c r r' : or_stops r r' ->
  Some (respond true s t cur c r) = Some (respond false s t cur c r') \/
  exists x, Some (respond true s t cur c r) = Some x /\ checked t (snd x).
Proof. intros Hr. destruct (respond_checks s t cur c r r' Hr) as [-> |Hc]; [by left|right]. eexists. split; [done|exact Hc]. Qed.
Lemma step_checks {H} (s : sys H) l :
  step true s l = step false s l \/ exists s1 ev t, step true s l = Some (s1, ev) /\ checked t ev.
Proof.
  assert (W : forall o, step true s l = o -> (o = step false s l \/ exists x, o = Some x /\ exists t, checked t (snd x)) ->
    step true s l = step false s l \/ exists s1 ev t, step true s l = Some (s1, ev) /\ checked t ev).
  { intros o -> [-> |([s1 ev] & -> & t & Hc)]; [by left|right]. by exists s1, ev, t. }
  apply (W _ eq_refl). clear W.
  destruct l; try (left; reflexivity); cbn [step].
  - destruct (y_tasks s !! t) as [[[] cur]|]; try by left. right. eexists. split; [done|]. exists t, PDebugAssert.
    split; [by left|]. cbn. set_solver.
  - destruct (y_tasks s !! t) as [k|]; [|by left]. unfold run_task. destruct (t_pc k) as [|c| | | | | | | | | | | | |]; try by left.
    + destruct (lk_holds _ _ _); [|by left]. destruct c as [| |sb|]; try by left.
      * destruct (serve_submit_checks (y_world s) (current_device (y_server s) (t_cur k)) sb) as [A B].
        destruct (serve_submit true _ _ _) as [r w1], (serve_submit false _ _ _) as [r' w2]. cbn [fst snd] in A, B. subst w2.
        destruct (some_respond_checks (set_world s w1) t (t_cur k) (CmdSubmit sb) _ _ A) as [-> |(x & E & Hc)]; [by left|].
        right. exists x. split; [exact E|]. by exists t.
    + destruct (lk_holds _ _ _); [|by left]. edestruct (@some_respond_checks H) as [-> |(x & E & Hc)]; [apply or_stops_refl|by left|].
      right. exists x. split; [exact E|]. by exists t.
    + destruct (lk_holds _ _ _); [|by left]. destruct (import_device _ _).
      edestruct (@some_respond_checks H) as [-> |(x & E & Hc)]; [apply or_stops_refl|by left|].
      right. exists x. split; [exact E|]. by exists t.
Qed.
Lemma unchecked_app e1 e2 : unchecked (e1 ++ e2) <-> unchecked e1 /\ unchecked e2.
Proof. unfold unchecked. setoid_rewrite elem_of_app. firstorder. Qed.
Lemma checked_not t ev : checked t ev -> unchecked ev -> False.
Proof. intros (p & Hp & Hi) Hu. exact (Hu _ _ Hi Hp). Qed.
Lemma run_checks {H} ls : forall (s s' : sys H) ev, run true s ls = Some (s', ev) -> unchecked ev -> run false s ls = Some (s', ev).
Proof.
  induction ls as [|l ls IH]; intros s s' ev E Hu; cbn [run] in E |- *; [exact E|].
  destruct (step_checks s l) as [Es|(s1 & e1 & t & Es & Hc)].
  - rewrite Es in E. destruct (step false s l) as [[s1 e1]|]; [|done].
    destruct (run true s1 ls) as [[s2 e2]|] eqn:E2; [|done]. injection E as -> <-.
    apply unchecked_app in Hu as [_ Hu]. by rewrite (IH _ _ _ E2 Hu).
  - rewrite Es in E. destruct (run true s1 ls) as [[s2 e2]|]; [|done]. injection E as -> <-.
    apply unchecked_app in Hu as [Hu _]. destruct (checked_not _ _ Hc Hu).
Qed.
Lemma run_checks_back {H} ls : forall (s s' : sys H) ev, run false s ls = Some (s', ev) ->
  run true s ls = Some (s', ev) \/
  exists l1 l l2 s1 e1 s2 e2 t, ls = l1 ++ l :: l2 /\ run true s l1 = Some (s1, e1) /\ run false s l1 = Some (s1, e1) /\
    step true s1 l = Some (s2, e2) /\ checked t e2.
Proof.
  induction ls as [|l ls IH]; intros s s' ev E; cbn [run] in E |- *; [by left|].
  destruct (step_checks s l) as [Es|(s1 & e1 & t & Es & Hc)].
  - destruct (step false s l) as [[s1 e1]|] eqn:Ef; [|done]. rewrite Es.
    destruct (run false s1 ls) as [[s2 e2]|] eqn:E2; [|done]. injection E as -> <-.
    destruct (IH _ _ _ E2) as [-> |(l1 & l0 & l2 & sa & ea & sb & eb & t & -> & Ht & Hf & Hs & Hc)]; [by left|right].
    exists (l :: l1), l0, l2, sa, (e1 ++ ea), sb, eb, t. cbn [run app]. rewrite Es, Ef, Ht, Hf. by split_and!.
  - right. exists [], l, ls, s, [], s1, e1, t. by split_and!.
Qed.

(** ** The server on byte streams *)
Definition sock_le (a b : sock) : Prop := same_traffic a b /\ rd_le (k_rd a) (k_rd b).
Definition socks_le (a b : gmap tid sock) : Prop :=
  forall t, match a !! t, b !! t with Some x, Some y => sock_le x y | None, None => True | _, _ => False end.
Definition net_le {H} (a b : net H) : Prop := n_sys a = n_sys b /\ socks_le (n_socks a) (n_socks b).
Lemma socks_le_insert a b t x y : socks_le a b -> sock_le x y -> socks_le (<[t := x]> a) (<[t := y]> b).
Proof.
  intros Hs Hx u. destruct (decide (t = u)) as [<- |Hn]; [by rewrite !lookup_insert|].
  rewrite !lookup_insert_ne by done. apply Hs.
Qed.
Lemma polled_le {H} t a b : sock_le a b ->
  (exists p, a_check p /\ k_rd a = RPanic p) \/ (@polled H t a = polled t b).
Proof.
  intros [(E1 & E2 & E3 & _) Hr]. unfold polled. rewrite E1, E2, E3. destruct Hr; try by right. left. by eexists.
Qed.
Lemma poll_le a b : sock_le a b -> (forall p, k_rd a = RPanic p -> ~ a_check p) ->
  match poll a, poll b with Some x, Some y => sock_le x y | None, None => True | _, _ => False end.
Proof.
  destruct a as [i1 f1 r1 b1 p1 g1 s1], b as [i2 f2 r2 b2 p2 g2 s2]. intros [(E1 & E2 & E3 & E4 & E5 & E6) Hr] Hn.
  cbn in E1, E2, E3, E4, E5, E6, Hr, Hn. subst. unfold poll. cbn. destruct Hr as [p q Hp| | | |n k k' Hk|n k k' Hk]; try done.
  - destruct (Hn _ eq_refl Hp).
  - destruct (n <=? len b2); [split; [done|apply Hk]|]. destruct i2; [done|]. split; [done|]. by apply le_read.
Qed.

Lemma sys_step_le {H} (a b : net H) l : net_le a b ->
  match sys_step true a l, sys_step false b l with
  | Some (a', e1), Some (b', e2) => (net_le a' b' /\ e1 = e2) \/ exists t, checked t e1
  | None, None => True
  | Some (_, e1), None => exists t, checked t e1
  | None, Some _ => False
  end.
Proof.
  intros [Hs Hk]. unfold sys_step. rewrite <- Hs.
  destruct (step_checks (n_sys a) l) as [-> |(s1 & ev & t & -> & Hc)].
  - destruct (step false (n_sys a) l) as [[s1 ev]|]; [|done]. left. split; [|done]. by split.
  - destruct (step false (n_sys a) l) as [[s2 e2]|]; [right|]; by exists t.
Qed.
Definition outcomes_le {H} (x y : option (net H * list event)) : Prop :=
  match x, y with
  | Some (a', e1), Some (b', e2) => (net_le a' b' /\ e1 = e2) \/ exists t, checked t e1
  | None, None => True
  | Some (_, e1), None => exists t, checked t e1
  | None, Some _ => False
  end.
Lemma nstep_le {H} (a b : net H) l : net_le a b -> outcomes_le (nstep true a l) (nstep false b l).
Proof.
  intros HN. pose proof HN as [Hs Hk]. destruct l as [l|t c|t f|t|t m|t|t e]; cbn [nstep].
  - destruct (socket_label l); [done|].
    destruct l; try exact (sys_step_le a b _ HN).
    apply (sys_step_le _ _ _). split; [exact Hs|]. apply socks_le_insert; [exact Hk|]. split; [by repeat split|exact reader_le].
  - specialize (Hk t). destruct (n_socks a !! t) as [[i1 f1 r1 b1 p1 g1 s1]|], (n_socks b !! t) as [[i2 f2 r2 b2 p2 g2 s2]|]; try done.
    destruct Hk as [(E1 & E2 & E3 & E4 & E5 & E6) Hr]. cbn in E1, E2, E3, E4, E5, E6, Hr. subst.
    destruct f2; [done|]. destruct c; [done|]. left. split; [|done]. split; [exact Hs|]. apply socks_le_insert; [apply HN|]. by split.
  - specialize (Hk t). destruct (n_socks a !! t) as [[i1 f1 r1 b1 p1 g1 s1]|], (n_socks b !! t) as [[i2 f2 r2 b2 p2 g2 s2]|]; try done.
    destruct Hk as [(E1 & E2 & E3 & E4 & E5 & E6) Hr]. cbn in E1, E2, E3, E4, E5, E6, Hr. subst.
    destruct f2; [done|]. left. split; [|done]. split; [exact Hs|]. apply socks_le_insert; [apply HN|]. by split.
  - specialize (Hk t). destruct (n_socks a !! t) as [ka|] eqn:Ea, (n_socks b !! t) as [kb|] eqn:Eb; try done.
    rewrite <- Hs. destruct (y_tasks (n_sys a) !! t) as [[[] cur]|] eqn:Et; try done.
    destruct (@polled_le H t ka kb Hk) as [(p & Hp & Er)|Ep].
    + unfold polled. rewrite Er. unfold sys_step. cbn [step]. rewrite Et.
      assert (Hc : exists u, checked u [EvEnd t (EndPanic PDebugAssert)]) by (exists t, PDebugAssert; split; [by left|set_solver]).
      unfold outcomes_le. repeat case_match; simplify_eq; auto.
    + rewrite Ep. destruct (polled t kb) as [l|] eqn:El; [by apply sys_step_le|].
      assert (Hn : forall p, k_rd ka = RPanic p -> ~ a_check p).
      { intros p Er. unfold polled in Ep. rewrite Er in Ep. discriminate. }
      pose proof (poll_le _ _ Hk Hn) as Hp. destruct (poll ka), (poll kb); try done.
      left. split; [|done]. split; [exact Hs|]. apply socks_le_insert; [apply HN|done].
  - specialize (Hk t). destruct (n_socks a !! t) as [[i1 f1 r1 b1 p1 g1 s1]|], (n_socks b !! t) as [[i2 f2 r2 b2 p2 g2 s2]|]; try done.
    destruct Hk as [(E1 & E2 & E3 & E4 & E5 & E6) Hr]. cbn in E1, E2, E3, E4, E5, E6, Hr. subst.
    rewrite <- Hs. destruct (y_tasks (n_sys a) !! t) as [[[] cur]|]; try done. destruct (_ && _); [|done].
    left. split; [|done]. split; [exact Hs|]. apply socks_le_insert; [apply HN|]. by split.
  - specialize (Hk t). destruct (n_socks a !! t) as [[i1 f1 r1 b1 p1 g1 s1]|], (n_socks b !! t) as [[i2 f2 r2 b2 p2 g2 s2]|]; try done.
    destruct Hk as [(E1 & E2 & E3 & E4 & E5 & E6) Hr]. cbn in E1, E2, E3, E4, E5, E6, Hr. subst.
    rewrite <- Hs. destruct (y_tasks (n_sys a) !! t) as [[[] cur]|]; try done. destruct (_ =? _); [|done].
    apply (sys_step_le _ _ _). split; [exact Hs|]. apply socks_le_insert; [apply HN|]. split; [by repeat split|exact reader_le].
  - specialize (Hk t). destruct (n_socks a !! t), (n_socks b !! t); try done. by apply sys_step_le.
Qed.
Lemma nrun_checks {H} ls : forall (a b a' : net H) ev, net_le a b -> nrun true a ls = Some (a', ev) -> unchecked ev ->
  exists b', nrun false b ls = Some (b', ev) /\ net_le a' b'.
Proof.
  induction ls as [|l ls IH]; intros a b a' ev HN E Hu; cbn [nrun] in E |- *.
  - injection E as -> <-. by exists b.
  - pose proof (nstep_le a b l HN) as HS. destruct (nstep true a l) as [[a1 e1]|]; [|done].
    destruct (nrun true a1 ls) as [[a2 e2]|] eqn:E2; [|done]. injection E as -> <-. apply unchecked_app in Hu as [Hu1 Hu2].
    destruct (nstep false b l) as [[b1 e1']|].
    + destruct HS as [[HN1 <-]|(t & Hc)]; [|destruct (checked_not _ _ Hc Hu1)].
      destruct (IH _ _ _ _ HN1 E2 Hu2) as (b' & -> & HN'). by exists b'.
    + destruct HS as (t & Hc). destruct (checked_not _ _ Hc Hu1).
Qed.

(** ** A release build has no checks *)
Lemma devices_release ds : exists b, devices_to_bytes false ds = Val b.
Proof.
  induction ds as [|d ds [b IH]]; cbn [devices_to_bytes]; [by eexists|].
  unfold device_to_bytes_with_interfaces, device_to_bytes, debug_assert. cbn [andb obind]. rewrite IH. cbn [obind]. by eexists.
Qed.
Lemma response_release r : exists b, response_to_bytes false r = Val b.
Proof.
  destruct r as [s c ds|s [d|]|r|h s]; cbn [response_to_bytes]; unfold debug_assert; cbn [andb].
  - destruct (devices_release ds) as [b ->]. by eexists.
  - unfold device_to_bytes, debug_assert. cbn [andb obind]. by eexists.
  - by eexists.
  - by eexists.
  - by eexists.
Qed.
Lemma reader_release inp fin p : run_rd (read_from_socket false) inp fin <> RPan p.
Proof.
  unfold read_from_socket, read_header, read_u16, read_u32, rd_debug_assert. cbn [run_rd andb].
  repeat (match goal with |- context [if ?b then _ else _] => destruct b end; cbn [run_rd]; try discriminate).
Qed.
Lemma call_intf_release {H} (w : world H) r f e tbl s req p w' : unchecked_handlers H ->
  call_intf w r f e tbl s req = (UPanic p, w') -> ~ a_check p.
Proof.
  intros [Hi _] E. unfold call_intf in E. destruct (c_poisoned _); [injection E as <- _; intros []; discriminate|].
  destruct (i_step H _ f e tbl s req) eqn:Es; simplify_eq. by eapply Hi.
Qed.
Lemma call_dev_release {H} (w : world H) r tbl s req p w' : unchecked_handlers H ->
  call_dev w r tbl s req = (UPanic p, w') -> ~ a_check p.
Proof.
  intros [_ Hi] E. unfold call_dev in E. destruct (c_poisoned _); [injection E as <- _; intros []; discriminate|].
  destruct (d_step H _ tbl s req) eqn:Es; simplify_eq. by eapply Hi.
Qed.
Lemma dispatch_release {H} (w : world H) d e tbl s req p w' : unchecked_handlers H ->
  control_dispatch w d e tbl s req = (UPanic p, w') -> ~ a_check p.
Proof.
  intros HU E. unfold control_dispatch in E. destruct (N.land (s_request_type s) 15 =? 1).
  - destruct (d_interfaces d !! _); [by eapply call_intf_release|]. injection E as <- _. intros []; discriminate.
  - destruct (N.land (s_request_type s) 15 =? 0); [|injection E as <- _; intros []; discriminate].
    destruct (d_handler d); [by eapply call_dev_release|]. injection E as <- _. intros []; discriminate.
Qed.
Lemma urb_release {H} (w : world H) d e i tbl s req p w' : unchecked_handlers H ->
  handle_urb false w d e i tbl s req = (UPanic p, w') -> ~ a_check p.
Proof.
  intros HU E. unfold handle_urb in E. destruct (ep_attr_of _) as [[]|].
  - destruct (ep_direction e).
    + destruct (s_request_type s =? 128); [|by eapply dispatch_release].
      destruct (std_request_of _) as [[]|]; try by eapply dispatch_release.
      injection E as E _. unfold get_descriptor in E. destruct (desc_type_of _) as [[]|]; try discriminate.
      destruct (_ =? 0); [discriminate|]. destruct (d_string_pool d !! _); [|discriminate].
      unfold string_descriptor, string_blength in E. cbn in E. discriminate.
    + destruct (s_request_type s =? 0); [|by eapply dispatch_release].
      destruct (std_request_of _) as [[]|]; solve [discriminate|by eapply dispatch_release].
  - destruct i; [by eapply call_intf_release|]. injection E as <- _. intros []; discriminate.
  - destruct i; [by eapply call_intf_release|]. injection E as <- _. intros []; discriminate.
  - destruct i; [by eapply call_intf_release|]. injection E as <- _. intros []; discriminate.
  - injection E as <- _. intros []; discriminate.
Qed.
Lemma serve_release {H} (st : cstate H) c p st' : unchecked_handlers H -> serve false st c = (Panic p, st') -> ~ a_check p.
Proof.
  intros HU E. destruct c as [s|s b|sb|h u]; cbn [serve] in E; [done| | |done].
  - by destruct (import_device _ _).
  - destruct (serve_submit _ _ _ sb) as [r w'] eqn:Es. injection E as -> _. unfold serve_submit in Es.
    destruct (current_device _ _) as [d|]; [|injection Es as <- _; intros []; discriminate].
    destruct (find_ep d _) as [[e i]|]; [|discriminate].
    destruct (handle_urb _ _ _ _ _ _ _ _) as [r w''] eqn:Eu. destruct r; try discriminate. injection Es as -> _.
    by eapply urb_release.
Qed.
Lemma conn_release {H} fin fuel : unchecked_handlers H -> forall (st : cstate H) inp bud out p st',
  conn_loop fuel false st inp fin bud = (out, EndPanic p, st') -> ~ a_check p.
Proof.
  intros HU. induction fuel as [|n IH]; intros st inp bud out p st' E; cbn [conn_loop] in E; [done|].
  destruct (run_rd (read_from_socket false) inp fin) as [c rest|er|q] eqn:Er; [| |destruct (reader_release _ _ _ Er)].
  - destruct (serve false st c) as [r st1] eqn:Es. destruct r as [x|q|]; cbn [obind] in E.
    + destruct (response_release x) as [b Hb]. rewrite Hb in E. destruct (write_all bud b) as [sent [bud'|er]]; [|done].
      destruct (conn_loop n false st1 rest fin bud') as [[o e] s2] eqn:E1. injection E as _ -> ->. by eapply IH.
    + injection E as _ <- <-. by eapply serve_release.
    + done.
  - destruct (finish st er) as [r st1] eqn:Ef. injection E as _ -> ->. unfold finish in Ef.
    destruct (cs_current st) as [id|]; [|by destruct er].
    unfold release_device in Ef. destruct (sv_used _ !! id); [by destruct er|]. injection Ef as <- _. intros []; discriminate.
Qed.

Lemma nrun_checks_back {H} ls : forall (a b b' : net H) ev, net_le a b -> nrun false b ls = Some (b', ev) ->
  (exists a', nrun true a ls = Some (a', ev) /\ net_le a' b') \/
  exists l1 l l2 a1 b1 e1 a2 e2 t, ls = l1 ++ l :: l2 /\ nrun true a l1 = Some (a1, e1) /\ nrun false b l1 = Some (b1, e1) /\
    net_le a1 b1 /\ nstep true a1 l = Some (a2, e2) /\ checked t e2.
Proof.
  induction ls as [|l ls IH]; intros a b b' ev HN E; cbn [nrun] in E |- *.
  - injection E as -> <-. left. by exists a.
  - pose proof (nstep_le a b l HN) as HS. destruct (nstep false b l) as [[b1 e1]|] eqn:Ef; [|done].
    destruct (nrun false b1 ls) as [[b2 e2]|] eqn:E2; [|done]. injection E as -> <-.
    destruct (nstep true a l) as [[a1 e1']|] eqn:Et; [|done]. destruct HS as [[HN1 ->]|(t & Hc)].
    + destruct (IH _ _ _ _ HN1 E2) as [(a' & -> & HN')|(l1 & l0 & l2 & x1 & y1 & f1 & x2 & f2 & t & -> & Ha & Hb & HN' & Hs & Hc)].
      * left. by exists a'.
      * right. exists (l :: l1), l0, l2, x1, y1, (e1 ++ f1), x2, f2, t. cbn [nrun app]. rewrite Et, Ef, Ha, Hb.
        split; [done|]. split; [done|]. split; [done|]. split; [done|]. split; [exact Hs|exact Hc].
    + right. exists [], l, ls, a, b, [], a1, e1', t. split; [done|]. split; [done|]. split; [done|]. split; [done|]. split; [exact Et|exact Hc].
Qed.
Lemma init_le {H} ds (w : world H) : net_le (init_net ds w) (init_net ds w).
Proof. split; [done|]. intros t. unfold init_net. cbn [n_socks]. by rewrite lookup_empty. Qed.
