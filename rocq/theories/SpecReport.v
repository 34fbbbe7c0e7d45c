(** * Specification: a HID host (HID 1.11, sections 6.2.2 and 8), and how class drivers recognise
    their device

    Written from the HID specification; nothing of the model is used. *)
From Verif Require Export SpecHandlers SpecBuild.

(** ** Reading a report descriptor *)

(** One short item: item type and tag (prefix without the size code), number of data bytes, value. *)
Record hid_item := mkItem { it_tag : N; it_size : nat; it_value : N }.
Fixpoint hid_items (fuel : nat) (b : list N) : option (list hid_item) :=
  match fuel, b with
  | _, [] => Some []
  | O, _ => None
  | S fuel, p :: rest =>
      let n := N.to_nat (if p mod 4 =? 3 then 4 else p mod 4) in
      if p =? 0xFE then None                              (* long item: none is defined *)
      else if (length rest <? n)%nat then None
      else match hid_items fuel (drop n rest) with
           | Some l => Some (mkItem (4 * (p / 4)) n (le_value (take n rest)) :: l)
           | None => None
           end
  end.

(** Logical minimum and maximum are signed. *)
Definition signed_value (i : hid_item) : Z :=
  let bits := 8 * N.of_nat (it_size i) in
  if (0 <? bits) && (N.pow 2 (bits - 1) <=? it_value i)
  then (Z.of_N (it_value i) - Z.of_N (N.pow 2 bits))%Z else Z.of_N (it_value i).

(** An input field: [if_count] numbers of [if_size] bits. *)
Record input_field := mkField {
  fd_constant : bool; fd_variable : bool; fd_page : N; fd_usages : list N;
  fd_min : Z; fd_max : Z; fd_size : N; fd_count : N }.
(** What the descriptor says: its top-level collections (type, usage page, usage) and the input
    fields in order. *)
Record report_format := mkFormat { rf_collections : list (N * N * N); rf_inputs : list input_field }.

(** Global items stay, local items (the usages) last until the next main item. *)
Record hid_state := mkHid {
  hs_page : N; hs_min : Z; hs_max : Z; hs_size : N; hs_count : N;
  hs_usages : list N; hs_usage_min : option N; hs_depth : nat }.
Definition no_locals (s : hid_state) (depth : nat) : hid_state :=
  mkHid (hs_page s) (hs_min s) (hs_max s) (hs_size s) (hs_count s) [] None depth.
Definition range (lo hi : N) : list N := (fun k => lo + N.of_nat k) <$> seq 0 (N.to_nat (hi + 1 - lo)).

Fixpoint hid_format (s : hid_state) (l : list hid_item) : option report_format :=
  match l with
  | [] => if (hs_depth s =? 0)%nat then Some (mkFormat [] []) else None
  | i :: l' =>
      let v := it_value i in
      let global page mn mx size count :=
        hid_format (mkHid page mn mx size count (hs_usages s) (hs_usage_min s) (hs_depth s)) l' in
      let local us um :=
        hid_format (mkHid (hs_page s) (hs_min s) (hs_max s) (hs_size s) (hs_count s) us um (hs_depth s)) l' in
      if it_tag i =? 0x04 then global v (hs_min s) (hs_max s) (hs_size s) (hs_count s)                  (* Usage Page *)
      else if it_tag i =? 0x14 then global (hs_page s) (signed_value i) (hs_max s) (hs_size s) (hs_count s)  (* Logical Minimum *)
      else if it_tag i =? 0x24 then global (hs_page s) (hs_min s) (signed_value i) (hs_size s) (hs_count s)  (* Logical Maximum *)
      else if it_tag i =? 0x74 then global (hs_page s) (hs_min s) (hs_max s) v (hs_count s)             (* Report Size *)
      else if it_tag i =? 0x94 then global (hs_page s) (hs_min s) (hs_max s) (hs_size s) v              (* Report Count *)
      else if it_tag i =? 0x08 then local (hs_usages s ++ [v]) (hs_usage_min s)                         (* Usage *)
      else if it_tag i =? 0x18 then local (hs_usages s) (Some v)                                        (* Usage Minimum *)
      else if it_tag i =? 0x28 then                                                                     (* Usage Maximum *)
        match hs_usage_min s with
        | Some lo => local (hs_usages s ++ range lo v) None
        | None => None
        end
      else if it_tag i =? 0xA0 then                                                                     (* Collection *)
        match hid_format (no_locals s (S (hs_depth s))) l' with
        | Some f =>
            Some (mkFormat (if (hs_depth s =? 0)%nat then (v, hs_page s, nth 0 (hs_usages s) 0) :: rf_collections f
                            else rf_collections f) (rf_inputs f))
        | None => None
        end
      else if it_tag i =? 0xC0 then                                                                     (* End Collection *)
        match hs_depth s with S n => hid_format (no_locals s n) l' | O => None end
      else if it_tag i =? 0x80 then                                                                     (* Input *)
        match hid_format (no_locals s (hs_depth s)) l' with
        | Some f =>
            Some (mkFormat (rf_collections f)
              (mkField (N.testbit v 0) (N.testbit v 1) (hs_page s) (hs_usages s) (hs_min s) (hs_max s)
                 (hs_size s) (hs_count s) :: rf_inputs f))
        | None => None
        end
      else None     (* outputs, features, report ids, units: not used here *)
  end.
Definition read_format (desc : list N) : option report_format :=
  match hid_items (length desc) desc with
  | Some l => hid_format (mkHid 0 0 0 0 0 [] None 0) l
  | None => None
  end.

(** ** Reading an input report *)
Definition report_bits (b : list N) : list bool :=
  b ≫= fun x => (fun i => N.testbit x (N.of_nat i)) <$> seq 0 8.
Definition bits_value (l : list bool) : N := fold_right (fun (b : bool) n => (if b then 1 else 0) + 2 * n) 0 l.
(** The numbers of a field. *)
Fixpoint field_values (size count : nat) (bits : list bool) : list N :=
  match count with
  | O => []
  | S c => bits_value (take size bits) :: field_values size c (drop size bits)
  end.
(** Variable: one control per number, on if not 0.  Array: each number selects a control.  Usage 0
    means no control. *)
Definition field_keys (f : input_field) (vs : list N) : list (N * N) :=
  if fd_constant f then []
  else omap (fun u => match u with Some u => if u =? 0 then None else Some (fd_page f, u) | None => None end)
    (if fd_variable f
     then imap (fun i v => if v =? 0 then None else fd_usages f !! i) vs
     else (fun v => let k := (Z.of_N v - fd_min f)%Z in
                    if (Z.leb 0 k) && (Z.leb (Z.of_N v) (fd_max f))
                    then fd_usages f !! Z.to_nat k else None) <$> vs).
Fixpoint keys_down (fs : list input_field) (bits : list bool) : list (N * N) :=
  match fs with
  | [] => []
  | f :: fs' =>
      let size := N.to_nat (fd_size f) in let count := N.to_nat (fd_count f) in
      field_keys f (field_values size count bits) ++ keys_down fs' (drop (size * count) bits)
  end.
(** The controls (usage page, usage) that are on after a report; a short report counts as if zeros
    followed. *)
Definition format_bits (fs : list input_field) : N := fold_right (fun f n => fd_size f * fd_count f + n) 0 fs.
Definition host_keys (desc report : list N) : option (list (N * N)) :=
  match read_format desc with
  | Some f =>
      let n := N.to_nat (format_bits (rf_inputs f)) in
      Some (keys_down (rf_inputs f) (take n (report_bits report ++ replicate n false)))
  | None => None
  end.

(** ** The keyboard page: modifier bit [i] is usage 0xE0 + i *)
Definition modifier_keys (m : N) : list (N * N) :=
  omap (fun i => if N.testbit m i then Some (7, 0xE0 + i) else None) [0; 1; 2; 3; 4; 5; 6; 7].
Definition array_keys (ks : list N) : list (N * N) :=
  omap (fun k => if (1 <=? k) && (k <=? 101) then Some (7, k) else None) ks.

(** What a host should see while [text] is typed: each key down alone, then no key down. *)
Definition typed_keys (text : list N) (ks : list (list (N * N))) : Prop :=
  exists us, Forall2 (fun c u => (c, u) ∈ key_usage) text us /\ ks = mjoin ((fun u => [[(7, u)]; []]) <$> us).

(** ** How drivers recognise their device *)
Definition int_in (e : N * N * N * N) : Prop := let '(a, t, _, _) := e in t = 3 /\ 128 <= a.
Definition bulk (dir : N) (e : N * N * N * N) : Prop := let '(a, t, _, _) := e in t = 2 /\ a / 128 = dir.
(** A HID function (HID 1.11, 4.1 and 6.2.1): class 3, one HID descriptor that announces one report
    descriptor of [n] bytes, and an interrupt IN endpoint whose packets hold a report of [r] bytes. *)
Definition hid_function (hi : host_intf) (n r : N) : Prop :=
  hi_class hi = 3 /\
  (exists bs b, blocks (hi_specific hi) bs /\ filter (fun x => block_type x = 0x21) bs = [b] /\ length b = 9%nat /\
     u16le_at b 2 0x0111 /\ u8_at b 5 1 /\ u8_at b 6 0x22 /\ u16le_at b 7 n) /\
  exists a p iv, (a, 3, p, iv) ∈ hi_endpoints hi /\ 128 <= a /\ r <= p /\ 1 <= iv.
(** A serial port in one interface (CDC 1.1; the "collapsed" form that host drivers know): class 2,
    subclass 2, functional descriptors of type 0x24 with the header (subtype 0) first, one ACM
    (subtype 2), no union (subtype 6), and exactly one endpoint of each of the three kinds. *)
Definition acm_function (hi : host_intf) : Prop :=
  hi_class hi = 2 /\ hi_subclass hi = 2 /\
  (exists h bs, blocks (hi_specific hi) (h :: bs) /\ Forall (fun x => block_type x = 0x24) (h :: bs) /\
     u8_at h 2 0 /\ length h = 5%nat /\ u16le_at h 3 0x0110 /\
     (exists a, filter (fun x => nth 2 x 0 = 2) bs = [a] /\ length a = 4%nat) /\
     Forall (fun x => nth 2 x 0 <> 6) bs) /\
  length (hi_endpoints hi) = 3%nat /\ NoDup (hi_endpoints hi) /\
  (exists e, e ∈ hi_endpoints hi /\ int_in e) /\ (exists e, e ∈ hi_endpoints hi /\ bulk 1 e) /\
  (exists e, e ∈ hi_endpoints hi /\ bulk 0 e).
