(** * A Linux client stays in step with the server (C93) *)
From Verif Require Import Examples Cdc PropsSys PropsConn PropsNet LinuxProofs.

(** ** Sessions that can be run *)
Inductive act (H : handlers) :=
| AServer (l : nlabel H)
| ATry (l : nlabel H)                 (* if it can happen *)
| AAttach (m f : list N)
| ASend (m : list N) (c : command)
| AHear (j : nat).
Arguments AServer {H} l.
Arguments ATry {H} l.
Arguments AAttach {H} m f.
Arguments ASend {H} m c.
Arguments AHear {H} j.
Record play (H : handlers) := mkPlay {
  p_net : net H; p_evs : list event; p_client : client; p_said : list N; p_cmds : list command; p_heard : list N }.
Arguments mkPlay {H}.
Arguments p_net {H}. Arguments p_evs {H}. Arguments p_client {H}. Arguments p_said {H}. Arguments p_cmds {H}. Arguments p_heard {H}.
Definition fresh_b (v : vhci) (c : command) : bool :=
  match c with
  | CmdSubmit s => bool_decide (h_seqnum (sb_header s) ∉ (u_seq <$> v_urbs v)) && bool_decide (h_seqnum (sb_header s) ∉ (v_unlinks v).*2)
  | CmdUnlink h _ => bool_decide (h_seqnum h ∉ (v_unlinks v).*1)
  | _ => false
  end.
Definition prefix_b (a b : list N) : bool := bool_decide (take (length a) b = a).
Definition server1 {H} (dbg : bool) (t : tid) (p : play H) (l : nlabel H) : option (play H) :=
  match nstep dbg (p_net p) l with
  | Some (n', ev) =>
      let ok := match n_socks n' !! t with Some k => prefix_b (k_got k) (p_said p) | None => true end in
      if ok then Some (mkPlay n' (p_evs p ++ ev) (p_client p) (p_said p) (p_cmds p) (p_heard p)) else None
  | None => None
  end.
Definition act1 {H} (dbg : bool) (t : tid) (p : play H) (a : act H) : option (play H) :=
  match a with
  | AServer l => server1 dbg t p l
  | ATry l => match server1 dbg t p l with Some p' => Some p' | None => Some p end
  | AAttach m f =>
      match p_said p, p_cmds p with
      | [], [] => Some (mkPlay (p_net p) (p_evs p) (p_client p) m [OpReqImport 0 f] (p_heard p))
      | _, _ => None
      end
  | ASend m c =>
      match p_client p with
      | mkClient (Attached v) unread notes =>
          if fresh_b v c then
            Some (mkPlay (p_net p) (p_evs p) (mkClient (Attached (remember v c)) unread notes) (p_said p ++ m) (p_cmds p ++ [c]) (p_heard p))
          else None
      | _ => None
      end
  | AHear j =>
      match n_socks (p_net p) !! t with
      | Some k =>
          if prefix_b (p_heard p) (k_sent k) then
            let b := take j (drop (length (p_heard p)) (k_sent k)) in
            Some (mkPlay (p_net p) (p_evs p) (l_hear (p_client p) b) (p_said p) (p_cmds p) (p_heard p ++ b))
          else None
      | None => None
      end
  end.
Fixpoint acts {H} (dbg : bool) (t : tid) (p : play H) (l : list (act H)) : option (play H) :=
  match l with
  | [] => Some p
  | a :: l => match act1 dbg t p a with Some p' => acts dbg t p' l | None => None end
  end.
Definition act_ok {H} (a : act H) : Prop :=
  match a with
  | AAttach m f => all_u8 m = true /\ cmd_layout true m (OpReqImport 0 f)
  | ASend m c => all_u8 m = true /\ cmd_layout true m c
  | _ => True
  end.
Definition plays {H} (dbg : bool) (t : tid) (ds : list device) (w : world H) (p : play H) : Prop :=
  linux_session dbg t ds w (p_net p) (p_evs p) (p_client p) (p_said p) (p_cmds p) (p_heard p).
Lemma prefix_b_spec a b : prefix_b a b = true -> a `prefix_of` b.
Proof. intros E%bool_decide_eq_true. exists (drop (length a) b). rewrite <- E at 1. by rewrite take_drop. Qed.
Lemma server1_ok {H} dbg t ds (w : world H) p l p' : server1 dbg t p l = Some p' -> plays dbg t ds w p -> plays dbg t ds w p'.
Proof.
  unfold plays, server1. destruct p as [n evs c said cmds heard]. intros E S. cbn in S, E.
  destruct (nstep dbg n l) as [[n' ev]|] eqn:En; [|discriminate].
  destruct (match n_socks n' !! t with Some k => prefix_b (k_got k) said | None => true end) eqn:Ep; [|discriminate].
  injection E as <-. cbn. eapply ls_server; [exact S|exact En|]. intros k Hk. rewrite Hk in Ep. by apply prefix_b_spec.
Qed.
Lemma act1_ok {H} dbg t ds (w : world H) p a p' : act1 dbg t p a = Some p' -> act_ok a -> plays dbg t ds w p -> plays dbg t ds w p'.
Proof.
  destruct a as [l|l|m f|m cmd|j]; cbn [act1]; intros E A S.
  - by eapply server1_ok.
  - destruct (server1 dbg t p l) as [p1|] eqn:E1; injection E as <-; [by eapply server1_ok|done].
  - unfold plays in *. destruct p as [n evs c said cmds heard]. cbn in S, E. destruct said; [|discriminate].
    destruct cmds; [|discriminate]. injection E as <-. cbn. destruct A. by eapply ls_attach.
  - unfold plays in *. destruct p as [n evs c said cmds heard]. cbn in S, E.
    destruct c as [[|v| |] unread notes]; try discriminate. destruct (fresh_b v cmd) eqn:Ef; [|discriminate].
    injection E as <-. cbn. destruct A. apply ls_send; auto. destruct cmd; cbn in Ef |- *; try discriminate.
    + apply andb_prop in Ef as [F1 F2]. apply bool_decide_eq_true in F1, F2. done.
    + by apply bool_decide_eq_true in Ef.
  - unfold plays in *. destruct p as [n evs c said cmds heard]. cbn in S, E.
    destruct (n_socks n !! t) as [k|] eqn:Ek; [|discriminate]. destruct (prefix_b heard (k_sent k)) eqn:Ep; [|discriminate].
    injection E as <-. cbn. eapply ls_hear; [exact S|exact Ek|].
    apply prefix_b_spec in Ep as (z & ->). rewrite drop_app. apply prefix_app. exists (drop j z). by rewrite take_drop.
Qed.
Lemma acts_ok {H} dbg t ds (w : world H) l : forall p p', acts dbg t p l = Some p' -> Forall act_ok l -> plays dbg t ds w p -> plays dbg t ds w p'.
Proof.
  induction l as [|a l IH]; intros p p' E F S; cbn in E; [by injection E as <-|].
  apply Forall_cons in F as [A F]. destruct (act1 dbg t p a) as [p1|] eqn:E1; [|discriminate].
  eapply IH; [exact E|exact F|]. by eapply act1_ok.
Qed.
Definition play0 {H} (ds : list device) (w : world H) : play H := mkPlay (init_net ds w) [] (mkClient Attaching [] []) [] [] [].
Lemma plays0 {H} dbg t ds (w : world H) : plays dbg t ds w (play0 ds w).
Proof. constructor. Qed.

(** ** C93 *)
Theorem C93_in_step : forall H dbg t ds (w : world H) n evs c said cmds heard,
  linux_session dbg t ds w n evs c said cmds heard ->
  answered_badly dbg t evs \/ in_step dbg t evs c cmds heard.
Proof.
  intros H dbg t ds w n evs c said cmds heard S. destruct (session_step _ _ _ _ _ _ _ _ _ _ S); [by left|right].
  by apply stepping_in_step.
Qed.
Print Assumptions C93_in_step.
Theorem C93_kernel_urbs : forall H dbg t ds (w : world H) n evs c said cmds heard,
  quiet H -> honours_length H -> linux_session dbg t ds w n evs c said cmds heard ->
  (forall d, ever_exported ds evs d -> descriptors_fit d) -> Forall kernel_urb cmds ->
  in_step dbg t evs c cmds heard.
Proof.
  intros H dbg t ds w n evs c said cmds heard Q Hh S Hf K.
  destruct (C93_in_step _ _ _ _ _ _ _ _ _ _ _ S) as [B|I]; [|done]. by eapply never_badly in B.
Qed.
Print Assumptions C93_kernel_urbs.
Theorem C93_all_given_back : forall H dbg t ds (w : world H) n evs c said cmds heard k cur,
  linux_session dbg t ds w n evs c said cmds heard -> ~ answered_badly dbg t evs ->
  n_socks n !! t = Some k -> y_tasks (n_sys n) !! t = Some (mkTask PRead cur) -> nstep dbg n (NPoll t) = None ->
  k_got k = said -> k_sent k = heard ->
  l_unread c = [] /\ exists past, cmds = past.*1 /\ heard = mjoin past.*2 /\ Forall2 (carries dbg) (served t evs) past.*2 /\
    match past with
    | [] => l_st c = Attaching /\ l_notes c = []
    | (_, b) :: urbs => (length b = 8%nat /\ l_st c = Refused /\ l_notes c = [] /\ urbs = []) \/
        (length b = 320%nat /\ l_st c = Attached (mkVhci [] []) /\ Forall2 told urbs (l_notes c))
    end.
Proof.
  intros H dbg t ds w n evs c said cmds heard k cur S B Hk Ht Hs Hg Hh.
  destruct (caught_up _ _ _ _ _ _ _ _ _ _ _ _ S Hk Ht Hs Hg Hh) as [?|(St & Hu & Ec)]; [done|]. split; [done|].
  destruct St as (dn & pending & l1 & later & Ec' & Eh & Es & E1 & F & Wl & St).
  assert (later = [] /\ pending = []) as [-> ->].
  { pose proof (session_facts _ _ _ _ _ _ _ _ _ _ S) as (W & U & _).
    destruct (wstuck dbg n evs t k cur W Hk) as (_ & rest & bs & _ & Fb & Sk & _); [by rewrite Hg|done|done|].
    rewrite Es in Fb. apply Forall2_app_inv_l in Fb as (b1 & b2 & Fa & Fb & ->).
    assert (later = []) as ->.
    { destruct (carries_align dbg l1 later (l1 ++ later) [] dn.*2 (b1 ++ b2) [] ltac:(by rewrite app_nil_r) F ltac:(by apply Forall2_app)) as (l & bt & _ & Eb & Fl & _ & El).
      - rewrite <- Sk, Hh, Eh, Hu, !app_nil_r. done.
      - rewrite app_nil_r in El. subst l. destruct Fl as [|cr b later bt C Fl]; [done|]. exfalso.
        rewrite Hh, Eh, Hu, app_nil_r, Eb, join_app in Sk. rewrite <- (app_nil_r (mjoin dn.*2)) in Sk at 1.
        apply app_inv_head in Sk. cbn in Sk. symmetry in Sk. apply app_eq_nil in Sk as [-> _].
        destruct C as [C _]. apply answers_length in C. cbn in C. lia. }
    split; [done|]. rewrite Ec', Es, app_nil_r, E1 in Ec. rewrite <- (app_nil_r dn.*1) in Ec at 2. by apply app_inv_head in Ec. }
  rewrite app_nil_r in Ec', Es. rewrite Hu, app_nil_r in Eh. exists dn. rewrite Es. split_and!; auto.
  destruct dn as [|[c0 b] urbs]; [by destruct St as (? & ? & _)|].
  destruct St as (f & _ & [(? & ? & ? & _ & ?)|(? & ? & _ & ?)]); [left|right]; done.
Qed.
Print Assumptions C93_all_given_back.

(** A session with two clients: client 2 attaches device 0-0-0, sends an IN URB, asks to unlink it,
    and sends an OUT URB before it has heard anything; the first reply and part of the second
    have arrived. *)
Definition urb (seq dir ep tbl : N) (setup data : list N) : command :=
  CmdSubmit (mkSubmit (mkHeader 1 seq 65538 dir ep) 0 tbl 0 0 0 setup data []).
Definition pulls {H} (t : tid) : list (act H) := replicate 40 (ATry (NPoll t)).
Definition serve_import {H} (t : tid) : list (act H) :=
  (fun l => AServer (NSys l)) <$> [LGrantUsed; LRun t; LRun t; LGrantUsed; LRun t; LGrantAvail; LRun t].
Definition serve_urb {H} (t : tid) : list (act H) := (fun l => AServer (NSys l)) <$> [LGrantUsed; LRun t].
Definition attach {H} (t : tid) : list (act H) :=
  [AAttach ex_import (field_of id_a); AServer (NSys (LConnect 1)); AServer (NSys (LConnect t)); AServer (NArrive t (take 20 ex_import))] ++
  pulls t ++ [AServer (NArrive t (drop 20 ex_import))] ++ pulls t ++ serve_import t ++
  [AServer (NWrite t 100); AHear 60; AServer (NWrite t 220); AServer (NFlushed t); AHear 320].
Definition urb_in : command := urb 1 1 1 2 (replicate 8 0) [].
Definition urb_unlink : command := CmdUnlink (mkHeader 2 2 65538 0 0) 1.
Definition urb_out : command := urb 3 0 2 3 (replicate 8 0) [1; 2; 3].
Definition ex_acts : list (act ex_h) :=
  attach 2 ++ [ASend (wire urb_in) urb_in; ASend (wire urb_unlink) urb_unlink; ASend (wire urb_out) urb_out;
    AServer (NArrive 2 (wire urb_in ++ wire urb_unlink ++ take 30 (wire urb_out)))] ++
  pulls 2 ++ serve_urb 2 ++ [AServer (NWrite 2 50); AServer (NFlushed 2)] ++
  pulls 2 ++ serve_urb 2 ++ [AServer (NWrite 2 20); AHear 65].
(** The rest of it. *)
Definition ex_acts2 : list (act ex_h) :=
  ex_acts ++ [AServer (NWrite 2 28); AServer (NFlushed 2); AServer (NArrive 2 (drop 30 (wire urb_out)))] ++
  pulls 2 ++ serve_urb 2 ++ [AServer (NWrite 2 48); AServer (NFlushed 2)] ++ pulls 2 ++ [AHear 1000].
Lemma attach_ok {H} t : Forall (@act_ok H) (attach t).
Proof.
  unfold attach. cbn. constructor.
  { split; [vm_compute; reflexivity|]. apply (wire_ok true (OpReqImport 0 (field_of id_a))); wf_ex. }
  repeat constructor.
Qed.
Definition after_acts {H} (x : option (play H)) (P : play H -> Prop) : Prop := match x with Some p => P p | None => False end.
Lemma after_acts_run {H} (x : option (play H)) P : after_acts x P -> exists p, x = Some p /\ P p.
Proof. destruct x; [|done]. cbn. eauto. Qed.
Definition client_view {H} (p : play H) : l_state * list N * list l_note := (l_st (p_client p), l_unread (p_client p), l_notes (p_client p)).
Example C93_example : Forall act_ok ex_acts /\ forall dbg, exists p,
  acts dbg 2 (play0 [ex_dev; dev_b] ex_world) ex_acts = Some p /\
  client_view p = (Attached (mkVhci [mkLurb 3 true 3 false] [(2, 1)]), [0; 0; 0; 4; 0; 0; 0; 2; 0; 1; 0; 2; 0; 0; 0], [GivenBack 1 0 [65; 66]]).
Proof.
  split.
  - unfold ex_acts. rewrite !Forall_app. split_and!; [apply attach_ok| |repeat constructor..].
    constructor; [apply (wire_ok true urb_in); wf_ex|]. constructor; [apply (wire_ok true urb_unlink); wf_ex|].
    constructor; [apply (wire_ok true urb_out); wf_ex|]. repeat constructor.
  - intros dbg. apply after_acts_run. destruct dbg; vm_compute; reflexivity.
Qed.
Example C93_kernel_example : quiet ex_h /\ honours_length ex_h /\ (forall d, d ∈ [ex_dev; dev_b] -> descriptors_fit d) /\
  Forall kernel_urb [OpReqImport 0 (field_of id_a); urb_in; urb_unlink; urb_out].
Proof.
  split; [exact (proj1 C19_example)|]. split.
  { split; [exact (proj1 C20_example)|]. intros st tbl s req st' data E. discriminate. }
  split.
  { intros d Hd. apply elem_of_cons in Hd as [->|Hd]; [apply C20_example|]. apply elem_of_list_singleton in Hd as ->.
    split; [vm_compute; reflexivity|]. intros i s Hs. cbn [dev_b d_string_pool] in Hs. by apply lookup_empty_Some in Hs. }
  assert (S0 : setup_of (replicate 8 0) (mkSetup 0 0 0 0 0)) by (unfold setup_of; do 8 eexists; split; reflexivity).
  repeat (constructor; [intros sb E; try discriminate E|]); [| |constructor]; injection E as <-;
    (eexists; split; [exact S0|]); cbn; [right|left]; split_and!; lia.
Qed.
Example C93_all_given_back_example : forall dbg, exists p, acts dbg 2 (play0 [ex_dev; dev_b] ex_world) ex_acts2 = Some p /\
  nstep dbg (p_net p) (NPoll 2) = None /\
  (k_got <$> n_socks (p_net p) !! 2) = Some (p_said p) /\ (k_sent <$> n_socks (p_net p) !! 2) = Some (p_heard p) /\
  (t_pc <$> y_tasks (n_sys (p_net p)) !! 2) = Some PRead /\
  client_view p = (Attached (mkVhci [] []), [], [GivenBack 1 0 [65; 66]; Unlinked 2 0; GivenBack 3 0 []]).
Proof. intros dbg. apply after_acts_run. destruct dbg; vm_compute; repeat split; reflexivity. Qed.

(** The proviso is needed: the serial example has 513 bytes waiting, the client offers a buffer of
    512, as its driver does; the driver takes the reply for nonsense and drops the connection. *)
Definition cdc_world : world cdc_h := @mkWorld cdc_h (fun _ => mkCell false (mkCdc (replicate 513 120))) (fun _ => mkCell false tt).
Definition urb_bulk : command := urb 1 1 2 512 (replicate 8 0) [].
Definition cdc_acts : list (act cdc_h) :=
  attach 2 ++ [ASend (wire urb_bulk) urb_bulk; AServer (NArrive 2 (wire urb_bulk))] ++ pulls 2 ++ serve_urb 2 ++ [AServer (NWrite 2 561); AHear 561].
Lemma cdc_acts_ok : Forall act_ok cdc_acts.
Proof.
  unfold cdc_acts. rewrite !Forall_app. split_and!; [apply attach_ok| |repeat constructor..].
  constructor; [apply (wire_ok true urb_bulk); wf_ex|]. repeat constructor.
Qed.
Theorem C93_overlong_reply_breaks : forall dbg, exists n evs c said cmds heard,
  linux_session dbg 2 [cdc_ex_dev] cdc_world n evs c said cmds heard /\ Forall kernel_urb cmds /\ descriptors_fit cdc_ex_dev /\
  l_st c = Broken /\ l_notes c = [] /\ answered_badly dbg 2 evs.
Proof.
  intros dbg.
  assert (X : exists p, acts dbg 2 (play0 [cdc_ex_dev] cdc_world) cdc_acts = Some p /\
    (p_cmds p = [OpReqImport 0 (field_of id_a); urb_bulk] /\ l_st (p_client p) = Broken /\ l_notes (p_client p) = [])).
  { apply after_acts_run. destruct dbg; vm_compute; repeat split; reflexivity. }
  destruct X as (p & E & Ec & Es & En). assert (S : plays dbg 2 [cdc_ex_dev] cdc_world p).
  { eapply acts_ok; [exact E|exact cdc_acts_ok|apply plays0]. }
  unfold plays in S. clear E. destruct p as [n evs c said cmds heard]. cbn in *. exists n, evs, c, said, cmds, heard.
  split; [exact S|]. split; [|split; [|split; [exact Es|split; [exact En|]]]].
  - rewrite Ec. assert (S0 : setup_of (replicate 8 0) (mkSetup 0 0 0 0 0)) by (unfold setup_of; do 8 eexists; split; reflexivity).
    repeat (constructor; [intros sb E; try discriminate E|]); [|constructor]. injection E as <-.
    eexists. split; [exact S0|]. right. cbn. split_and!; lia.
  - split; [vm_compute; reflexivity|]. intros i s Hs. apply (proj1 (proj2 C20_example)) with i. exact Hs.
  - destruct (C93_in_step _ _ _ _ _ _ _ _ _ _ _ S) as [?|I]; [done|]. exfalso.
    destruct I as (past & pending & l1 & later & _ & _ & _ & _ & _ & _ & I). rewrite Es in I.
    destruct past as [|[? ?] ?]; [by destruct I|]. by destruct I as [(_ & ? & _)|(_ & ? & _)].
Qed.
Print Assumptions C93_overlong_reply_breaks.
