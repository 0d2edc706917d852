(** Vocabulary for the factorial HMM that writes its estimates to a store. *)
From Coq Require Import String QArith Sorted.
From Verif Require Import Base TimeFrameModel TimeFrameSpec LcoModel LcoSpec LfhModel.
From Verif Require FhmmSpec.
Import List.
Open Scope list_scope.
Open Scope nat_scope.

(** The readings that are not missing. *)
Definition present (rows : list (Z * option Z)) : list (Z * Z) :=
  flat_map (fun r => match snd r with Some v => [(fst r, v)] | None => [] end) rows.

(** One of each list, in the order of the states of the combined model: that
    of the last list changes first. *)
Fixpoint choices (l : list (list Q)) : list (list Q) :=
  match l with [] => [[]] | a :: r => flat_map (fun x => map (cons x) (choices r)) a end.

(** The object has learnt something, and each model has its means in order
    (C50: so they are after training). *)
Definition learnt (f : fh) : Prop :=
  f_ind f <> [] /\ Forall (fun kv => snd kv <> [] /\ StronglySorted Qle (snd kv)) (f_ind f).

(** The combined model finds the states of the readings of this chunk. *)
Definition explains (predict : list Z -> res (list nat)) (f : fh) (ch : chunk) (states : list nat) : Prop :=
  predict (map snd (present (ch_rows ch))) = Ok states /\ length states = length (present (ch_rows ch)) /\
  Forall (fun s => s < length (choices (map snd (f_ind f)))) states.

(** The estimates have the times of the readings that are not missing and a
    column for each model; in each row they are the rounded means of one choice
    of the models' states, the one the combined model found. *)
Definition estimated (predict : list Z -> res (list nat)) (f : fh) (ch : chunk) (frame : list Z * list (who * list Z)) : Prop :=
  fst frame = map fst (present (ch_rows ch)) /\ map fst (snd frame) = map fst (f_ind f) /\
  exists states picks, explains predict f ch states /\
    Forall2 (fun s ms => nth_error (choices (map snd (f_ind f))) s = Some ms) states picks /\
    forall i w col, nth_error (snd frame) i = Some (w, col) ->
      Forall2 (fun ms z => exists m, nth_error ms i = Some m /\ FhmmSpec.rounded m z) picks col.

Definition usable (predict : list Z -> res (list nat)) (f : fh) (ch : chunk) : Prop :=
  present (ch_rows ch) <> [] /\ exists states, explains predict f ch states.

(** Column [i] of the estimates. *)
Definition column_of (i : nat) (frame : list Z * list (who * list Z)) : list (Z * option Z) :=
  match nth_error (snd frame) i with
  | Some (_, col) => combine (fst frame) (map Some col)
  | None => []
  end.

(** [targets] are the meters the columns go to, [None] for none: no two to the
    same one, none to that of the mains, and not all to none. *)
Definition apart (targets : list (option Z)) : Prop :=
  (forall i j z, nth_error targets i = Some (Some z) -> nth_error targets j = Some (Some z) -> i = j) /\
  ~ In (Some 1%Z) targets /\ exists z, In (Some z) targets.

(** The long chunks are usable, of one column and of one type; the tables they
    go to accept them. *)
Definition ready (predict : list Z -> res (list nat)) (f : fh) (b : Z) (st : store) (name : column) (force : option dtype) (dt : dtype) (targets : list (option Z)) (chs : list chunk) : Prop :=
  Forall (fun ch => is_long ch = true -> usable predict f ch /\ ch_name ch = name /\ match force with Some d => dt = d | None => ch_dtype ch = dt end) chs /\
  (forall z, In (Some z) targets -> accepts st (b, z) (name, float64)) /\ accepts st (b, 1%Z) (name, dt).

(** The tables afterwards. *)
Definition wrote (b : Z) (targets : list (option Z)) (st : store) (long : list chunk) (frames : list (list Z * list (who * list Z))) (st' : store) : Prop :=
  (forall i z, nth_error targets i = Some (Some z) -> rows_at (b, z) st' = rows_at (b, z) st ++ flat_map (column_of i) frames) /\
  rows_at (b, 1%Z) st' = rows_at (b, 1%Z) st ++ flat_map ch_rows long /\
  forall k, k <> (b, 1%Z) -> (forall z, In (Some z) targets -> k <> (b, z)) -> lookup k (st_tables st') = lookup k (st_tables st).

(** The object was trained on these meters. *)
Definition trained_on (f : fh) (ms : list meter) : Prop := map fst (f_ind f) = map Trained ms.
Definition number (m : meter) : Z := id_instance (m_id m).

(** The sections asked for, or else the good ones. *)
Definition sections_of {S} (kw : kwargs S) (good : S) : S := match k_sections kw with Some s => s | None => good end.

(** ** Several buildings *)

(** The meter a column goes to: the first submeter whose first appliance has
    the type, if there is one. *)
Definition first_of (subs : list meter) (t : string) (target : option Z) : Prop :=
  (exists l1 m a rest l2, subs = l1 ++ m :: l2 /\ m_apps m = a :: rest /\ ap_type a = t /\ target = Some (number m) /\
     Forall (fun m => exists a rest, m_apps m = a :: rest /\ ap_type a <> t) l1) \/
  target = None /\ Forall (fun m => exists a rest, m_apps m = a :: rest /\ ap_type a <> t) subs.
Definition goes_to {S} (bd : building S) (w : who) (target : option Z) : Prop :=
  match w with
  | Trained m => target = Some (number m)
  | Typed t => first_of (bd_subs bd) t target
  end.

(** What the mains of a building yield over [sections] is ready, and its meters are
    there. *)
Definition prepared {S} (predict : list Z -> res (list nat)) (f : fh) (sections : S) (p : Z) (st : store) (b : Z) (bd : building S) (targets : list (option Z)) (chs : list chunk) : Prop :=
  (exists g, mn_good (bd_mains bd) = Ok g) /\
  mn_power (bd_mains bd) sections p = (chs, None) /\
  Forall (fun m => m_apps m <> [] /\ number m <> (-1)%Z) (bd_subs bd) /\
  (forall m, In m (bd_subs bd) -> exists m', bd_item bd (number m) = Ok m') /\
  Forall2 (goes_to bd) (map fst (f_ind f)) targets /\ apart targets /\
  (exists name, ready predict f b st name (Some float32) float32 targets chs) /\
  Forall is_bounded (map ch_frame (filter is_long chs)) /\ in_order (map ch_frame (filter is_long chs)).

(** The tables of building [b] afterwards. *)
Definition filled (b : Z) (targets : list (option Z)) (st : store) (long : list chunk) (frames : list (list Z * list (who * list Z))) (st' : store) : Prop :=
  (forall i z, nth_error targets i = Some (Some z) -> rows_at (b, z) st' = rows_at (b, z) st ++ flat_map (column_of i) frames) /\
  rows_at (b, 1%Z) st' = rows_at (b, 1%Z) st ++ flat_map ch_rows long /\
  forall z, z <> 1%Z -> ~ In (Some z) targets -> lookup (b, z) (st_tables st') = lookup (b, z) (st_tables st).

(** The same arguments with these sections. *)
Definition given {S} (kw : kwargs S) (s : S) : kwargs S := mk_kw (k_resample kw) (k_period kw) (Some s).

(** [elec[n]] is the submeter with number [n]; no two have the same number, and
    none that of the mains. *)
Definition numbered {S} (bd : building S) : Prop :=
  NoDup (map number (bd_subs bd)) /\ ~ In 1%Z (map number (bd_subs bd)) /\ forall m, In m (bd_subs bd) -> bd_item bd (number m) = Ok m.

(** Submeter [m] is the first for one of the appliances asked for. *)
Definition chosen {S} (bd : building S) (apps : list string) (m : meter) : Prop :=
  In m (bd_subs bd) /\ exists t, In t apps /\ first_of (bd_subs bd) t (Some (number m)).

(** Metadata of building [b] with the mains and these submeters. *)
Definition describes (b : Z) (frame : option Z * option Z) (isin : meter -> Prop) (bm : bmeta) : Prop :=
  get_meta 1%Z (b_meters bm) = Some (mk_mmeta true None (b, 1%Z) None frame) /\
  (forall m, isin m -> exists n, (n = m_name m \/ m_name m = Some EmptyString /\ n = None) /\
     get_meta (number m) (b_meters bm) = Some (mk_mmeta false (Some 1%Z) (b, number m) n frame)) /\
  (forall i, i <> 1%Z -> (forall m, isin m -> number m <> i) -> get_meta i (b_meters bm) = None) /\
  (forall x, In x (b_apps bm) <-> exists m a, isin m /\ In a (m_apps m) /\ x = ([number m], ap_type a, ap_instance a)).
