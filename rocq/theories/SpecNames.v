(** * Specification of the device's names (string descriptors) *)
From Verif Require Export Device.
Require Import Coq.Strings.String.

(** The names a device has: four fixed ones and one per interface, each optional. *)
Inductive which := WConf | WManu | WProd | WSerial.
Record names := mkNames {
  n_conf : option rstring; n_manu : option rstring; n_prod : option rstring;
  n_serial : option rstring; n_intf : list (option rstring) }.

(** Calls a user can make on a device under construction. *)
Inductive name_op :=
| SetName (k : which) (s : rstring)
| UnsetName (k : which)
| AddInterface (class subclass protocol : N) (name : option rstring)
    (endpoints : list endpoint) (h : href).

Definition get_name (n : names) (k : which) : option rstring :=
  match k with WConf => n_conf n | WManu => n_manu n | WProd => n_prod n | WSerial => n_serial n end.
Definition put_name (n : names) (k : which) (o : option rstring) : names :=
  match k with
  | WConf => mkNames o (n_manu n) (n_prod n) (n_serial n) (n_intf n)
  | WManu => mkNames (n_conf n) o (n_prod n) (n_serial n) (n_intf n)
  | WProd => mkNames (n_conf n) (n_manu n) o (n_serial n) (n_intf n)
  | WSerial => mkNames (n_conf n) (n_manu n) (n_prod n) o (n_intf n)
  end.
(** Effect of a call on the names, and what the call returns (the previous name). *)
Definition names_step (n : names) (o : name_op) : names * option (option rstring) :=
  match o with
  | SetName k s => (put_name n k (Some s), Some (get_name n k))
  | UnsetName k => (put_name n k None, Some (get_name n k))
  | AddInterface _ _ _ name _ _ =>
      (mkNames (n_conf n) (n_manu n) (n_prod n) (n_serial n) (n_intf n ++ [name]), None)
  end.
Fixpoint names_run (n : names) (ops : list name_op) : names * list (option (option rstring)) :=
  match ops with
  | [] => (n, [])
  | o :: ops' => let '(n1, r) := names_step n o in
                 let '(n2, rs) := names_run n1 ops' in (n2, r :: rs)
  end.
(** A fresh device. *)
Definition fresh_names : names :=
  mkNames (Some (lit "Default Configuration")) (Some (lit "Manufacturer")) (Some (lit "Product"))
    (Some (lit "Serial")) [].
(** How many strings are in use. *)
Definition one_if_set (o : option rstring) : nat := match o with Some _ => 1%nat | None => 0%nat end.
Definition names_count (n : names) : nat :=
  (one_if_set (n_conf n) + one_if_set (n_manu n) + one_if_set (n_prod n) + one_if_set (n_serial n)
   + list_sum (one_if_set <$> n_intf n))%nat.

(** The name reported through index [i] is [o]: index 0 for "no name". *)
Definition names_string (d : device) (i : N) (o : option rstring) : Prop :=
  match o with
  | None => i = 0
  | Some s => 0 < i /\ i < 256 /\ d_string_pool d !! i = Some s
  end.
(** The indices in use. *)
Definition used_indices (d : device) : list N :=
  filter (fun i => i <> 0)
    ([d_string_configuration d; d_string_manufacturer d; d_string_product d; d_string_serial d]
     ++ (if_string <$> d_interfaces d)).
Definition reports (d : device) (n : names) : Prop :=
  names_string d (d_string_configuration d) (n_conf n)
  /\ names_string d (d_string_manufacturer d) (n_manu n)
  /\ names_string d (d_string_product d) (n_prod n)
  /\ names_string d (d_string_serial d) (n_serial n)
  /\ Forall2 (fun f o => names_string d (if_string f) o) (d_interfaces d) (n_intf n)
  /\ NoDup (used_indices d).

(** The same calls on the modelled API. *)
Definition api_step {H} (dbg : bool) (w : world H) (d : device) (o : name_op)
    : outcome (device * option (option rstring)) :=
  let wrap x := obind x (fun '(old, d') => Val (d', Some old)) in
  match o with
  | SetName WConf s => wrap (set_configuration_name dbg d s)
  | SetName WManu s => wrap (set_manufacturer_name dbg d s)
  | SetName WProd s => wrap (set_product_name dbg d s)
  | SetName WSerial s => wrap (set_serial_number dbg d s)
  | UnsetName WConf => wrap (Val (unset_configuration_name d))
  | UnsetName WManu => wrap (Val (unset_manufacturer_name d))
  | UnsetName WProd => wrap (Val (unset_product_name d))
  | UnsetName WSerial => wrap (Val (unset_serial_number d))
  | AddInterface c sc p name eps h =>
      obind (with_interface dbg w d c sc p name eps h) (fun d' => Val (d', None))
  end.
Fixpoint api_run {H} (dbg : bool) (w : world H) (d : device) (ops : list name_op)
    : outcome (device * list (option (option rstring))) :=
  match ops with
  | [] => Val (d, [])
  | o :: ops' => obind (api_step dbg w d o) (fun '(d1, r) =>
                 obind (api_run dbg w d1 ops') (fun '(d2, rs) => Val (d2, r :: rs)))
  end.
