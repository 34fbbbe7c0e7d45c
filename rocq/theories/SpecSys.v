(** * Specification of the concurrent server, in terms of its history

    Most definitions here look only at the events an execution has produced, not at the
    model's state. *)
From Verif Require Export Sys SpecConn.

(** The devices entrusted to the server: those it started with, plus those added, minus
    those successfully removed. *)
Definition ledger1 (l : list device) (e : event) : list device :=
  match e with
  | EvAdd _ d => l ++ [d]
  | EvRemove _ id (IOk _) => filter (fun d => d_bus_id d <> id) l
  | _ => l
  end.
Definition ledger (ds : list device) (evs : list event) : list device := foldl ledger1 ds evs.

(** No two of them ever share a bus id. *)
Definition distinct_ids (ds : list device) (evs : list event) : Prop :=
  forall evs1 evs2, evs = evs1 ++ evs2 -> NoDup (d_bus_id <$> ledger ds evs1).

(** What each connection holds: what its last import request returned, until it is
    released or the connection ends. *)
Definition held1 (h : tid -> option device) (e : event) : tid -> option device :=
  let upd t r := fun u => if u =? t then r else h u in
  match e with
  | EvServe t (OpReqImport _ _) (Val (OpRepImport _ r)) => upd t r
  | EvRelease t _ => upd t None
  | EvEnd t _ => upd t None
  | _ => h
  end.
Definition held (evs : list event) : tid -> option device := foldl held1 (fun _ => None) evs.

(** The devices a server has, wherever they are. *)
Definition in_use (sv : server) : list device := (map_to_list (sv_used sv)).*2.
Definition all_devices (sv : server) : list device := sv_available sv ++ in_use sv.

(** [first_such P l d l1 l2]: [d] is the first element of [l] satisfying [P]. *)
Definition first_such {A} (P : A -> Prop) (l : list A) (d : A) (l1 l2 : list A) : Prop :=
  l = l1 ++ d :: l2 /\ P d /\ Forall (fun x => ~ P x) l1.

(** The bus id field of a request: all 32 bytes, or what precedes the first NUL. *)
Definition field_names (f : list N) (id : rstring) : Prop :=
  0 ∉ utf8 id /\ (f = utf8 id \/ exists junk, f = utf8 id ++ 0 :: junk).

(** ** Bystanders *)

(** A task other than the one(s) that act. *)
Definition ended {H} (s : sys H) (t : tid) : Prop :=
  exists r cur, y_tasks s !! t = Some (mkTask (PEnd r) cur).

(** The task is writing a reply to its socket. *)
Definition writing {H} (s : sys H) (t : tid) : Prop :=
  exists b cur, y_tasks s !! t = Some (mkTask (PWrite b) cur).

(** ** Waiting *)
Inductive lockname := Used | Available.
(** The lock a suspended task asked for. *)
Definition waits_for (p : pc) : option (lockname * mode) :=
  match p with
  | PUsedR _ | PRemUsedR _ => Some (Used, MRead)
  | PImpUsedW _ _ | PRelUsedW _ => Some (Used, MWrite)
  | PDevAvailR _ => Some (Available, MRead)
  | PImpAvailW _ _ | PRelAvailW _ | PAddAvailW _ | PRemAvailW _ => Some (Available, MWrite)
  | PRead | PImpStart _ _ | PWrite _ | PEnd _ | PAdded | PRemoved _ => None
  end.
Definition lock_of {H} (s : sys H) (n : lockname) : rwlock :=
  match n with Used => y_used s | Available => y_avail s end.
Definition pending {H} (s : sys H) (t : tid) : Prop :=
  exists p cur, y_tasks s !! t = Some (mkTask p cur) /\ is_Some (waits_for p).
(** [t] waits for a lock that [u] holds. *)
Definition behind {H} (s : sys H) (t u : tid) : Prop :=
  exists p cur n m, y_tasks s !! t = Some (mkTask p cur) /\ waits_for p = Some (n, m) /\
    u ∈ (lk_holders (lock_of s n)).*1.
(** Nothing can happen without a client or the application. *)
Definition stuck {H} (dbg : bool) (s : sys H) : Prop :=
  forall l, is_internal l = true -> step dbg s l = None.

(** Events that mark an operation taking effect. *)
Definition effect (e : event) : Prop :=
  match e with EvServe _ _ _ | EvRelease _ _ | EvAdd _ _ | EvRemove _ _ _ => True | _ => False end.

(** [u]'s socket accepts no more data. *)
Definition stalled {H} (u : tid) (ls : list (label H)) : Prop :=
  Forall (fun l => match l with LSent t | LSendErr t _ => t <> u | _ => True end) ls.

(** ** The device list a client should see, from the history alone *)
Inductive listed (ds : list device) : list event -> list device -> Prop :=
| ls_start : listed ds [] ds
| ls_import evs l1 d l2 t n f st : listed ds evs (l1 ++ d :: l2) ->
    listed ds (evs ++ [EvServe t (OpReqImport n f) (Val (OpRepImport st (Some d)))]) (l1 ++ l2)
| ls_release evs l t d : listed ds evs l -> held evs t = Some d ->
    listed ds (evs ++ [EvRelease t (d_bus_id d)]) (l ++ [d])
| ls_add evs l t d : listed ds evs l -> listed ds (evs ++ [EvAdd t d]) (l ++ [d])
| ls_remove evs l1 d l2 t : listed ds evs (l1 ++ d :: l2) ->
    listed ds (evs ++ [EvRemove t (d_bus_id d) (IOk tt)]) (l1 ++ l2)
| ls_other evs l e : listed ds evs l ->
    match e with
    | EvServe _ (OpReqImport _ _) r => exists st, r = Val (OpRepImport st None)
    | EvServe _ _ _ | EvSent _ _ | EvEnd _ _ => True
    | EvRemove _ _ (IErr _) => True
    | _ => False
    end ->
    listed ds (evs ++ [e]) l.
