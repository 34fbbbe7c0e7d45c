(** * Properties of the byte-level server (C64, C65) *)
From Verif Require Import Examples PropsSys NetProofs WireProofs.

(** ** A concrete session: two clients, messages and replies cut in pieces *)
Definition ex_import : list N := [1; 17; 128; 3; 0; 0; 0; 0] ++ field_of id_a.
Definition ex_list : list N := [1; 17; 128; 5; 0; 0; 0; 0].
Definition polls (t : tid) (j : nat) : list (nlabel ex_h) := replicate j (NPoll t).
(** Client 2 imports a device while client 1 is in the middle of sending OP_REQ_DEVLIST. *)
Definition session1 : list (nlabel ex_h) :=
  [NSys (LConnect 1); NSys (LConnect 2); NArrive 1 [1; 17; 128]; NArrive 2 (take 20 ex_import)] ++
  polls 1 3 ++ polls 2 7 ++ [NArrive 2 (drop 20 ex_import ++ [1; 17])] ++ polls 2 3.
Definition session2 : list (nlabel ex_h) :=
  session1 ++ [NSys LGrantUsed; NSys (LRun 2); NSys (LRun 2); NSys LGrantUsed; NSys (LRun 2); NSys LGrantAvail; NSys (LRun 2);
    NWrite 2 100].
Definition session3 : list (nlabel ex_h) := session2 ++ [NWrite 2 220; NFlushed 2] ++ polls 2 2.
Definition nafter (x : option (net ex_h * list event)) (P : net ex_h -> list event -> Prop) : Prop :=
  match x with Some (n, evs) => P n evs | None => False end.
Lemma nafter_run x P : nafter x P -> exists n evs, x = Some (n, evs) /\ P n evs.
Proof. destruct x as [[n evs]|]; [|done]. cbn. eauto. Qed.
Definition net0 : net ex_h := init_net [ex_dev; dev_b] ex_world.
Definition heard (n : net ex_h) (t : tid) : option (pc * nat * nat) :=
  match n_socks n !! t, y_tasks (n_sys n) !! t with
  | Some k, Some (mkTask p _) => Some (p, length (k_got k), length (k_sent k))
  | _, _ => None
  end.

(** ** C64 *)
Theorem C64_dialogue : forall H dbg ds (w : world H) ls n evs t k,
  nrun dbg (init_net ds w) ls = Some (n, evs) -> n_socks n !! t = Some k -> Forall (fun x => x < 256) (k_got k) ->
  exists l rest part,
    messages dbg (k_got k) l.*1 rest /\
    Forall (fun cb => answers cb.1 cb.2) l /\
    k_sent k = mjoin l.*2 ++ part /\
    (part = [] \/ exists m c rest' more, rest = m ++ rest' /\ cmd_layout dbg m c /\ answers c (part ++ more)).
Proof.
  intros H dbg ds w ls n evs t k E Hk Hu%Forall_u8.
  destruct (talks_run _ _ _ _ _ E (talks_init dbg ds w) t k Hk) as (p & cur & _ & T). by eapply talk_dialogue.
Qed.
Print Assumptions C64_dialogue.
Theorem C64_nothing_left_unread : forall H dbg ds (w : world H) ls n evs t k cur,
  nrun dbg (init_net ds w) ls = Some (n, evs) -> n_socks n !! t = Some k -> Forall (fun x => x < 256) (k_got k) ->
  y_tasks (n_sys n) !! t = Some (mkTask PRead cur) -> nstep dbg n (NPoll t) = None ->
  k_end k = None /\
  exists l rest, messages dbg (k_got k) l.*1 rest /\ Forall (fun cb => answers cb.1 cb.2) l /\ k_sent k = mjoin l.*2 /\
    (forall m rest' c, rest = m ++ rest' -> ~ cmd_layout dbg m c).
Proof.
  intros H dbg ds w ls n evs t k cur E Hk Hu%Forall_u8 Ht Hs.
  destruct (stuck_reader dbg n t k cur) as (l & rest & (M & A & S & _) & Ke & Nc); auto.
  { by eapply talks_run, talks_init. }
  split; [done|]. exists l, rest. rewrite app_nil_r in S. done.
Qed.
Print Assumptions C64_nothing_left_unread.
Theorem C64_message_is_received : forall H dbg ds (w : world H) ls n evs t k cur,
  nrun dbg (init_net ds w) ls = Some (n, evs) -> n_socks n !! t = Some k -> Forall (fun x => x < 256) (k_got k) ->
  y_tasks (n_sys n) !! t = Some (mkTask PRead cur) ->
  exists l rest, messages dbg (k_got k) l.*1 rest /\ Forall (fun cb => answers cb.1 cb.2) l /\ k_sent k = mjoin l.*2 /\
    forall m rest' c, rest = m ++ rest' -> cmd_layout dbg m c ->
      exists j n', nrun dbg n (replicate j (NPoll t)) = Some (n', []) /\
        y_tasks (n_sys n') !! t = Some (mkTask (PUsedR c) cur).
Proof.
  intros H dbg ds w ls n evs t k cur E Hk Hu%Forall_u8 Ht.
  destruct (served_reader dbg n t k cur) as (l & rest & (M & A & S & _) & Nc); auto.
  { by eapply talks_run, talks_init. }
  exists l, rest. rewrite app_nil_r in S. done.
Qed.
Print Assumptions C64_message_is_received.
(** The replies are the results of the calls that the server made for this connection. *)
Theorem C64_replies_as_served : forall H dbg ds (w : world H) ls n evs t k,
  nrun dbg (init_net ds w) ls = Some (n, evs) -> n_socks n !! t = Some k -> Forall (fun x => x < 256) (k_got k) ->
  (exists rest, messages dbg (k_got k) (served t evs).*1 rest) /\ carried dbg (served t evs) (k_sent k) /\
  (forall cur, y_tasks (n_sys n) !! t = Some (mkTask PRead cur) ->
     exists bs, Forall2 (carries dbg) (served t evs) bs /\ k_sent k = mjoin bs).
Proof.
  intros H dbg ds w ls n evs t k E Hk Hu%Forall_u8.
  pose proof (wtalks_run _ _ _ _ [] _ E (wtalks_init dbg ds w)) as W. cbn [app] in W.
  destruct (proj2 W t k Hk) as (p & cur & Ht & Tk). destruct (wtalk_wire _ _ _ _ Tk Hu) as [M C].
  split; [done|]. split; [done|]. intros cur' Ht'.
  destruct (wreading _ _ _ _ _ _ W Hk Hu Ht') as (_ & bs & _ & F & S). eauto.
Qed.
Print Assumptions C64_replies_as_served.
(** A reader stuck in the middle of a message; a reply of which 100 bytes are out. *)
Example C64_example : exists n evs, nrun false net0 session2 = Some (n, evs) /\
  (heard n 1 = Some (PRead, 3%nat, 0%nat) /\ nstep false n (NPoll 1) = None) /\
  (exists b, heard n 2 = Some (PWrite b, 42%nat, 100%nat)).
Proof. apply nafter_run. vm_compute. split; [split; reflexivity|]. eexists. reflexivity. Qed.
(** The same a little later: all 320 bytes are out and the two bytes that came early are read. *)
Example C64_example_later : exists n evs, nrun false net0 session3 = Some (n, evs) /\
  heard n 2 = Some (PRead, 42%nat, 320%nat).
Proof. apply nafter_run. vm_compute. reflexivity. Qed.

Example C64_served_example : exists n evs, nrun false net0 session3 = Some (n, evs) /\
  (served 2 evs).*1 = [OpReqImport 0 (field_of id_a)] /\ served 1 evs = [] /\ heard n 2 = Some (PRead, 42%nat, 320%nat).
Proof. apply nafter_run. vm_compute. split_and!; reflexivity. Qed.

(** ** C65 *)
Theorem C65_same_behaviours : forall H dbg ds (w : world H) s evs,
  (exists ls n, Forall byte_label ls /\ nrun dbg (init_net ds w) ls = Some (n, evs) /\ n_sys n = s) <->
  (exists ls, Forall (readable dbg) ls /\ run dbg (init_sys ds w) ls = Some (s, evs)).
Proof.
  intros H dbg ds w s evs. split.
  - intros (ls & n & B & R & <-).
    apply nrun_readable in R as (_ & ls' & F & R); [by exists ls'|apply talks_init| |done].
    intros t k Hk. cbn in Hk. by rewrite lookup_empty in Hk.
  - intros (ls & F & R). apply (realise dbg ls (init_net ds w)) in R as (ls' & n & B & R & E); [by exists ls', n|done|].
    intros t p cur Ht. cbn in Ht. by rewrite lookup_empty in Ht.
Qed.
Print Assumptions C65_same_behaviours.
Definition session3_commands : list (label ex_h) := [LConnect 1; LConnect 2] ++ do_import 2 id_a ++ [LSent 2].
Example C65_example : Forall byte_label session3 /\ Forall (readable false) session3_commands /\
  exists evs, snd <$> nrun false net0 session3 = Some evs /\ snd <$> run false sys0 session3_commands = Some evs.
Proof.
  split; [|split].
  - unfold session3, session2, session1, polls. rewrite !Forall_app. split_and!; try apply Forall_replicate; try done.
    all: repeat (constructor; [cbn; try done|]); try constructor. all: apply Forall_u8; vm_compute; reflexivity.
  - repeat constructor.
  - eexists. split; vm_compute; reflexivity.
Qed.
