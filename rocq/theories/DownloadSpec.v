(** What is said about the download of Dataport. *)
From Coq Require Import String QArith Sorted.
From Verif Require Import Base LocalModel DownloadModel.
Import List. Open Scope list_scope. Open Scope Z_scope.

(** Whole seconds. *)
Definition whole (t : Z) : Prop := t mod 1000000000 = 0.
Definition whole_zone (z : zone) : Prop := Forall whole (z_first z :: map snd (z_changes z)).

(** The readings of building [b] taken from the instant [lo] on and before [hi], each with its
    instant, in their order. *)
Definition taken (z : zone) (b lo hi : Z) (rows : list row) : list (Z * row) :=
  concat (map (fun r => match localize z (r_stamp r) with
                        | Ok u => if (r_id r =? b) && (lo <=? u) && (u <? hi) then [(u, r)] else []
                        | Err _ => []
                        end) rows).

(** Columns that are no appliance. *)
Definition ignored (c : string) : bool :=
  existsb (String.eqb c) (["solar"; "solar2"; "grid"; "leg1v"; "leg2v"; "battery1"; "circpump1"; "sewerpump1"; "sumppump1"; "wellpump1"])%string.
(** The columns with a reading that are not ignored, in the order of the table. *)
Definition metered (columns : list string) (R : list (Z * row)) : list string :=
  filter (fun c => existsb (fun x => match r_cell (snd x) c with Some _ => true | None => false end) R && negb (ignored c)) columns.

(** Watts, of a table of active powers in kilowatts; other tables are left as they are. *)
Definition real_power (table : string) : bool :=
  existsb (String.eqb table) ["eg_realpower_15min"; "eg_realpower_1hr"; "eg_realpower_1min"; "eg_realpower_1s"; "eg_realpower_1s_40homes_dataset"]%string.
Definition value (table : string) (x : option Q) : option Q :=
  match x with Some q => Some (if real_power table then q * 1000 else q)%Q | None => None end.
(** The readings of a column. *)
Definition readings (f : option Q -> option Q) (R : list (Z * row)) (c : string) : list (Z * option Q) :=
  map (fun x => (fst x, f (r_cell (snd x) c))) R.

(** Ten days; the stretches of ten days from [lo] on up to [hi]. *)
Definition ten_days : Z := 864000000000000.
Definition stretches (lo hi : Z) : list (Z * Z) :=
  map (fun j => (lo + Z.of_nat j * ten_days, Z.min hi (lo + (Z.of_nat j + 1) * ten_days)))
      (seq 0 (Z.to_nat ((hi - lo + ten_days - 1) / ten_days))).

(** The readings of a meter in the file. *)
Definition stored (o : out) (n m : nat) : list (Z * option Q) :=
  match find (fun x => Nat.eqb (fst (fst x)) n && Nat.eqb (snd (fst x)) m) (o_tables o) with Some x => t_rows (snd x) | None => [] end.
(** The metadata of a building. *)
Definition metadata (o : out) (n : nat) : option meta :=
  match find (fun x => Nat.eqb (fst x) n) (o_yaml o) with Some x => Some (snd x) | None => None end.

(** The views of the database whose names contain the name of the table. *)
Definition contains (s x : string) : Prop := exists a b, s = (a ++ x ++ b)%string.
Definition views (db : database) (table : string) (n : nat) : Prop :=
  exists flags : list bool, Forall2 (fun v f => f = true <-> contains (v_name v) table) (d_views db) flags /\ n = length (filter (fun f => f) flags).

(** The table asked for is in the database, and building [b], the [i]-th of the buildings asked for,
    is asked for from [a] to [e] and has readings from [first] to [last]. *)
Definition per_second (table : string) : bool := existsb (String.eqb table) ["eg_angle_1s"; "eg_apparentpower_1s"; "eg_current_1s"; "eg_realpower_1s"; "eg_thd_1s"; "eg_realpower_1s_40homes_dataset"]%string.
Definition asks (z : zone) (db : database) (table : string) (periods : list (Z * (option Z * option Z))) (v : view) (i : nat) (b lo hi : Z) : Prop :=
  In v (d_views db) /\ v_name v = table /\ NoDup (map v_name (d_views db)) /\ NoDup (map fst periods) /\
  exists s e a a' first last, nth_error periods i = Some (b, (Some s, Some e)) /\ localize z s = Ok a /\ localize z e = Ok a' /\
    d_span db (per_second table) b = Some (first, last) /\ whole s /\ whole e /\ whole first /\ whole last /\ lo = Z.max a first /\ hi = Z.min a' last.
(** The rows of the table are at whole seconds and, as the query asks for, in the order of time. *)
Definition whole_rows (v : view) : Prop := forall r, In r (v_rows v) -> whole (r_stamp r).
Definition in_time_order (v : view) : Prop := StronglySorted (fun x y => r_stamp x <= r_stamp y) (v_rows v).

(** The same columns have readings in every stretch of ten days with a row. *)
Definition steady (z : zone) (v : view) (b lo hi : Z) : Prop :=
  forall x c, In x (stretches lo hi) -> taken z b (fst x) (snd x) (v_rows v) <> [] ->
    In c (metered (v_columns v) (taken z b lo hi (v_rows v))) -> In c (metered (v_columns v) (taken z b (fst x) (snd x) (v_rows v))).

(** What the metadata say if the meters are those of the columns [cs]. *)
Definition kind (c : string) : option (option string * option string) :=
  match find (fun x => String.eqb (fst x) c) feed_mapping with Some x => Some (snd x) | None => None end.
Definition describes (n : nat) (b : Z) (cs : list string) (md : meta) : Prop :=
  b_instance md = n /\ b_name md = b /\
  (forall m site, In (m, site) (b_meters md) <-> exists k c, m = S k /\ nth_error cs k = Some c /\ (site = true <-> c = "use"%string)) /\
  map (fun a => (a_name a, a_meter a)) (b_apps md) = filter (fun x => negb (String.eqb (fst x) "use")) (combine cs (seq 1 (length cs))) /\
  (forall a, In a (b_apps md) -> kind (a_name a) = Some (Some (a_type a), a_room a)) /\
  (forall pre a post, b_apps md = pre ++ a :: post -> a_instance a = S (length (filter (fun x => String.eqb (a_type x) (a_type a)) pre))).

(** What the readings [R] add to meter [m], in one go. *)
Definition part (f : option Q -> option Q) (columns : list string) (R : list (Z * row)) (m : nat) : list (Z * option Q) :=
  match m with
  | O => []
  | S k => match nth_error (metered columns R) k with Some c => readings f R c | None => [] end
  end.
