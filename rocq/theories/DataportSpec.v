(** Vocabulary for the Dataport converter. *)
From Coq Require Import Permutation Sorted.
From Verif Require Import Base DataportModel.
Import List. Open Scope Z_scope.

(** The rows of a building in a file; which columns have a reading among some rows. *)
Definition file_rows (fl : file) (b : Z) : list row := filter (fun r => r_id r =? b) (concat (f_chunks fl)).
Definition recorded (rs : list row) (c : col) : Prop := exists r v, In r rs /\ r_cell r c = Some v.
Definition with_solar (header : list col) (rs : list row) : Prop :=
  (In Solar header /\ recorded rs Solar) \/ (In Solar2 header /\ recorded rs Solar2).
Definition with_grid (header : list col) (rs : list row) : Prop := In Grid header /\ recorded rs Grid.

(** What a column stands for: an appliance column for itself, "use" for the consumption:
    the grid's reading plus that of the solar columns that the rows [rs] use; a missing
    reading makes the sum missing.  Readings are in kW, powers in W. *)
Definition is_power (header : list col) (rs : list row) (c : col) (r : row) (p : option Z) : Prop :=
  match c with
  | App k => p = option_map (Z.mul 1000) (r_cell r c)
  | Use =>
      exists parts : list col, NoDup parts /\
        (forall c, In c parts <-> (c = Grid \/ ((c = Solar \/ c = Solar2) /\ In c header /\ recorded rs c))) /\
        ((p = None /\ exists c, In c parts /\ r_cell r c = None) \/
         (exists vs, p = Some (1000 * sumZ vs) /\ Forall2 (fun c v => r_cell r c = Some v) parts vs))
  | _ => False
  end.

(** The meters of a building: the appliances with a reading in the order of the header;
    the consumption in the place of the grid, or last with solar panels. *)
Definition meters_of (header : list col) (rs : list row) (ms : list col) : Prop :=
  exists cs, filter mapped (filter (has_reading rs) header) = cs /\
    ((with_solar header rs /\ ms = filter (fun c => match c with App _ => true | _ => false end) cs ++ [Use]) \/
     (~ with_solar header rs /\ ms = map (fun c => match c with Grid => Use | _ => c end) cs)).

(** In every chunk with rows of the building, the same columns have readings. *)
Definition steady (fl : file) (b : Z) : Prop :=
  forall ch c, In ch (f_chunks fl) -> of_building b ch <> [] -> In c (f_header fl) -> mapped c = true ->
    recorded (file_rows fl b) c -> recorded (of_building b ch) c.

(** [l'] is [l] in the order of time, rows with the same time in their old order. *)
Definition by_time (l l' : list (Z * option Z)) : Prop :=
  StronglySorted (fun x y => fst x <= fst y) l' /\ forall t, filter (fun x => fst x =? t) l' = filter (fun x => fst x =? t) l.

(** The table of meter [m] from one file. *)
Definition column_rows (f : frame) (m : nat) : list (Z * option Z) :=
  match m with
  | O => []
  | S k => match nth_error (columns f) k with Some c => map (fun x => (fst x, snd x c)) (rows f) | None => [] end
  end.
Definition table (t : tables) (k : nat * nat) : list (Z * option Z) := match dget key_eqb t k with Some l => l | None => [] end.

(** What the converter extracts of building [b] from a file, if not nothing. *)
Definition yields_frame (fl : file) (b : Z) (f : frame) : Prop := exists pv, extract fl b false = Ok (f, pv) /\ is_empty f = false.
Definition extracts (fl : file) (b : Z) (f : frame) : Prop :=
  yields_frame fl b f \/ (f = mkFrame [] [] /\ forall g, ~ yields_frame fl b g).

(** The appliances of the columns [cs], with the numbers of their meters. *)
Fixpoint named (m : nat) (cs : list col) : list (col * nat) :=
  match cs with [] => [] | c :: r => match c with App _ => (c, m) :: named (S m) r | _ => named (S m) r end end.

(** What the last file with a meter [m] says of it: whether it is the site meter. *)
Definition site_flag (Fs : list frame) (m : nat) : option bool :=
  fold_left (fun a f => match m with
                        | O => a
                        | S k => match nth_error (columns f) k with
                                 | Some Use => Some true
                                 | Some _ => Some false
                                 | None => a
                                 end
                        end) Fs None.
(** The appliances of one type are numbered 1, 2, ... in their order in the list. *)
Definition numbered (apps : list appliance) : Prop :=
  forall pre a post, apps = pre ++ a :: post -> p_instance a = S (length (filter (fun x => Nat.eqb (p_type x) (p_type a)) pre)).
(** The metadata of the [i]-th building with the frames [Fs]. *)
Definition describes (typ : nat -> nat) (i : nat) (Fs : list frame) (md : meta) : Prop :=
  m_instance md = Some i /\
  map (fun a => (p_name a, p_meter a)) (m_apps md) = concat (map (fun f => named 1 (columns f)) Fs) /\
  (forall a k, In a (m_apps md) -> p_name a = App k -> p_type a = typ k) /\
  numbered (m_apps md) /\
  (forall m, dget Nat.eqb (m_meters md) m = site_flag Fs m).
(** Somewhere a chunk with a reading of the solar panels, but none of the grid. *)
Definition unusable (fl : file) (b : Z) : Prop :=
  exists ch, In ch (f_chunks fl) /\ with_solar (f_header fl) (of_building b ch) /\ ~ with_grid (f_header fl) (of_building b ch).
(** Only the file [n] has rows of the building. *)
Definition only_in (fs : nat -> file) (names : list nat) (n : nat) (b : Z) : Prop :=
  In n names /\ NoDup names /\ forall n', In n' names -> n' <> n -> ~ In b (buildings_of (fs n')).
