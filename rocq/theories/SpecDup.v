(** * Specification vocabulary for devices that share a bus id *)
From Verif Require Export SpecSys.

(** The devices entrusted to the server, when several may have the same bus id: a successful
    removal takes away one of those with the id. *)
Inductive entrusted (ds : list device) : list event -> list device -> Prop :=
| et_start : entrusted ds [] ds
| et_add evs l t d : entrusted ds evs l -> entrusted ds (evs ++ [EvAdd t d]) (l ++ [d])
| et_remove evs l1 d l2 t x : entrusted ds evs (l1 ++ d :: l2) ->
    entrusted ds (evs ++ [EvRemove t (d_bus_id d) (IOk x)]) (l1 ++ l2)
| et_other evs l e : entrusted ds evs l ->
    match e with EvAdd _ _ | EvRemove _ _ (IOk _) => False | _ => True end -> entrusted ds (evs ++ [e]) l.

(** The bus ids under which a device was handed out and not given back. *)
Definition taken1 (ids : list rstring) (e : event) : list rstring :=
  match e with
  | EvServe _ (OpReqImport _ _) (Val (OpRepImport _ (Some d))) => d_bus_id d :: ids
  | EvRelease _ id => filter (fun x => x <> id) ids
  | _ => ids
  end.
Definition taken (evs : list event) : list rstring := foldl taken1 [] evs.

(** No device is handed out while another with the same bus id is out. *)
Definition no_clash (evs : list event) : Prop :=
  forall evs1 t n f k d evs2,
    evs = evs1 ++ EvServe t (OpReqImport n f) (Val (OpRepImport k (Some d))) :: evs2 -> d_bus_id d ∉ taken evs1.
