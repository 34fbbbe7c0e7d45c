(** * Property C88: debug and release builds *)
From Verif Require Export ChecksProofs PropsNet Examples.

(** One connection, any input: a debug build does what a release build does, or a check stops it;
    then the release build has written the same bytes and goes on. *)
Theorem C88_one_connection : forall (H : handlers) sv (w : world H) inp fin bud out e st',
  handler true sv w inp fin bud = (out, e, st') ->
  handler false sv w inp fin bud = (out, e, st') \/
  (exists p, a_check p /\ e = EndPanic p /\
     exists more e2 st2, handler false sv w inp fin bud = (out ++ more, e2, st2)).
Proof. intros H sv w inp fin bud out e st'. apply conn_checks. Qed.
Print Assumptions C88_one_connection.
(** The checks belong to debug builds alone. *)
Theorem C88_release_has_no_checks : forall (H : handlers) sv (w : world H) inp fin bud out p st',
  unchecked_handlers H -> handler false sv w inp fin bud = (out, EndPanic p, st') -> ~ a_check p.
Proof. intros H sv w inp fin bud out p st' HU. by apply conn_release. Qed.
Print Assumptions C88_release_has_no_checks.
(** A device list request with a status: the debug build stops, the release build answers. *)
Example C88_example : unchecked_handlers ex_h /\
  let m := [1; 17; 128; 5; 0; 0; 0; 7] in
  (handler true (new_simulated []) ex_world m SEof None).1 = ([], EndPanic PDebugAssert) /\
  (handler false (new_simulated []) ex_world m SEof None).1 = ([1; 17; 0; 5; 0; 0; 0; 0; 0; 0; 0; 0], EndOk).
Proof.
  split; [|split; vm_compute; reflexivity]. split.
  - intros st f e tbl s req st' p E. cbn in E. destruct (ep_direction e); [done|]. by destruct req.
  - done.
Qed.

(** Any number of clients, in any interleaving, on byte streams in any pieces.  Whatever a debug
    build can do without a check failing, a release build can do: same events, same state of the
    server and its handlers, same bytes in and out. *)
Theorem C88_debug_behaviour_is_release_behaviour : forall (H : handlers) ds (w : world H) ls n ev,
  nrun true (init_net ds w) ls = Some (n, ev) -> unchecked ev ->
  exists n', nrun false (init_net ds w) ls = Some (n', ev) /\ n_sys n' = n_sys n /\
    forall t, match n_socks n !! t, n_socks n' !! t with
              | Some a, Some b => same_traffic a b | None, None => True | _, _ => False end.
Proof.
  intros H ds w ls n ev E Hu. destruct (nrun_checks ls _ _ _ _ (init_le ds w) E Hu) as (n' & E' & Hs & Hk).
  exists n'. split; [exact E'|]. split; [by symmetry|]. intros t. specialize (Hk t).
  destruct (n_socks n !! t), (n_socks n' !! t); [apply Hk|done..].
Qed.
Print Assumptions C88_debug_behaviour_is_release_behaviour.
(** Whatever a release build does, a debug build does as well, up to the first moment at which one
    of its checks fails. *)
Theorem C88_release_behaviour_is_debug_behaviour : forall (H : handlers) ds (w : world H) ls n ev,
  nrun false (init_net ds w) ls = Some (n, ev) ->
  (exists n', nrun true (init_net ds w) ls = Some (n', ev) /\ n_sys n' = n_sys n) \/
  exists l1 l l2 n1 n1' e1 n2 e2 t p, ls = l1 ++ l :: l2 /\
    nrun true (init_net ds w) l1 = Some (n1, e1) /\ nrun false (init_net ds w) l1 = Some (n1', e1) /\ n_sys n1 = n_sys n1' /\
    nstep true n1 l = Some (n2, e2) /\ a_check p /\ EvEnd t (EndPanic p) ∈ e2.
Proof.
  intros H ds w ls n ev E.
  destruct (nrun_checks_back ls _ _ _ _ (init_le ds w) E)
    as [(a' & E' & Hs & _)|(l1 & l & l2 & a1 & b1 & e1 & a2 & e2 & t & Hl & Ha & Hb & [Hs _] & Hst & p & Hp & Hi)].
  - left. exists a'. split; [exact E'|done].
  - right. exists l1, l, l2, a1, b1, e1, a2, e2, t, p. split; [exact Hl|]. split; [exact Ha|]. split; [exact Hb|].
    split; [exact Hs|]. split; [exact Hst|]. by split.
Qed.
Print Assumptions C88_release_behaviour_is_debug_behaviour.
(** The same one level up, from any state. *)
Theorem C88_whole_commands : forall (H : handlers) (s s' : sys H) ls ev,
  run true s ls = Some (s', ev) -> unchecked ev -> run false s ls = Some (s', ev).
Proof. intros H s s' ls ev. apply run_checks. Qed.
Print Assumptions C88_whole_commands.
(** A session of two clients without a failed check; and a client whose fifth poll fails one. *)
Example C88_session_example : exists n ev, nrun true net0 session3 = Some (n, ev) /\ forallb (fun e => match e with EvEnd _ _ => false | _ => true end) ev = true /\ ev <> [].
Proof. apply nafter_run. vm_compute. split; [reflexivity|discriminate]. Qed.
Example C88_unchecked_example ev : forallb (fun e => match e with EvEnd _ _ => false | _ => true end) ev = true -> unchecked ev.
Proof. intros Hf t p Hi. rewrite forallb_forall in Hf. apply elem_of_list_In in Hi. by specialize (Hf _ Hi). Qed.
Definition bad_list : list (nlabel ex_h) := [NSys (LConnect 1); NArrive 1 [1; 17; 128; 5; 0; 0; 0; 7]] ++ polls 1 7.
Example C88_stopped_example :
  (exists n ev, nrun true net0 bad_list = Some (n, ev) /\ ev = [EvEnd 1 (EndPanic PDebugAssert)]) /\
  (exists n ev, nrun false net0 bad_list = Some (n, ev) /\ ev = []).
Proof. split; apply nafter_run; vm_compute; reflexivity. Qed.

(** Devices: built by the application, or from what libusb or nusb report. *)
Theorem C88_building : forall (H : handlers) (w : world H) index d ops hs is keep l,
  or_stops (new_device true index) (new_device false index) /\
  or_stops (api_run true w d ops) (api_run false w d ops) /\
  or_stops (with_rusb_device_handles true hs 0 0) (with_rusb_device_handles false hs 0 0) /\
  or_stops (with_nusb_devices true is 0 0) (with_nusb_devices false is 0 0) /\
  or_stops (new_from_host_with_filter true keep l) (new_from_host_with_filter false keep l).
Proof.
  intros H w index d ops hs is keep l. split; [apply new_device_checks|]. split; [apply api_run_checks|].
  split; [apply rusb_checks|]. split; [apply nusb_checks|]. unfold new_from_host_with_filter.
  destruct l; [apply rusb_checks|apply or_stops_refl].
Qed.
Print Assumptions C88_building.
(** And the encoders and decoders on their own. *)
Theorem C88_codecs : forall r c b,
  or_stops (response_to_bytes true r) (response_to_bytes false r) /\
  or_stops (command_to_bytes true c) (command_to_bytes false c) /\
  or_stops (header_from_bytes true b) (header_from_bytes false b).
Proof. intros r c b. split; [apply response_checks|]. split; [apply command_checks|apply header_checks]. Qed.
Print Assumptions C88_codecs.
