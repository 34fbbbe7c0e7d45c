(** * Vocabulary of C90: handler calls that occupy threads *)
From Verif Require Export Workers SpecSlow SpecHost SpecWire.

(** No handler call returns during [ls]. *)
Definition no_call_returns {H} (ls : list (tlabel H)) : Prop := forall t, TReturn t ∉ ls.
(** Events of the application's own calls. *)
Definition of_application (e : event) : Prop :=
  match e with EvAdd _ _ | EvRemove _ _ _ => True | _ => False end.
(** A step of one of the tasks in [ts]. *)
Definition a_step_of {H} (ts : list tid) (l : alabel H) : Prop :=
  match l with ASys (LRun t) => t ∈ ts | _ => False end.
(** A run without threads: a call is entered silently, and its return is the whole step. *)
Definition without_threads {H} (l : tlabel H) : list (alabel H) :=
  match l with TStep l' => [l'] | TEnter _ => [] | TReturn t => [ASys (LRun t)] end.
(** A device that a client can ask for and that its import reply can describe. *)
Definition can_be_imported (d : device) : Prop :=
  requestable (d_bus_id d) /\ len (utf8 (d_path d)) <= 256.

(** [t] has entered a handler call that has not returned. *)
Definition call_in_progress {H} (ls : list (tlabel H)) (t : tid) : Prop :=
  exists a b, ls = a ++ TEnter t :: b /\ TReturn t ∉ b.
(** A step on a thread of the application: it begins or goes on with [add_device] or
    [remove_device], uses a handler itself, or drops the server. *)
Definition by_application {H} (s : sys H) (l : alabel H) : Prop :=
  match l with
  | ADropServer | ASys (LAdd _ _) | ASys (LRemove _ _) | ASys (LApp _ _) => True
  | ASys (LRun t) => exists p cur, y_tasks s !! t = Some (mkTask p cur) /\
      ((exists d, p = PAddAvailW d) \/ (exists id, p = PRemAvailW id) \/ (exists id, p = PRemUsedR id))
  | _ => False
  end.
