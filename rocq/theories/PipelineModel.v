(** Model of nilmtk/node.py (requirements), nilmtk/preprocessing/clip.py and
    the AC type choice of nilmtk/measurement.py.

    Simplifications:
    - metadata values that are not dictionaries are [Atom]s compared with [=]
      (NaN, which is not equal to itself, does not occur in metadata);
      ['ANY VALUE'] is the atom [AnyValue];
    - a message is the tuple of the values printed in it;
    - warnings are not modelled. *)
From Verif Require Import Base TimeFrameModel StoreModel EnergyModel.
Open Scope Z_scope.

Definition key := nat.
Inductive meta := AnyValue | Atom (n : nat) | Dict (items : list (key * meta)).

(** [d[key]] on a dictionary; [None] is KeyError.  Keys of a dictionary are
    not repeated. *)
Fixpoint lookup_key (k : key) (d : list (key * meta)) : option meta :=
  match d with
  | [] => None
  | (k', v) :: r => if Nat.eqb k k' then Some v else lookup_key k r
  end.

(** node.py:117-126: ["Requires 'k=v' but 'k' not in state dict."] and
    ["Requires 'k=v' not 'k=w'."]. *)
Inductive message := NotInState (k : key) (v : meta) | OtherValue (k : key) (v w : meta).

(** [cond_value != value] for a value that is not a dictionary. *)
Definition same_atom (v w : meta) : bool :=
  match v, w with
  | AnyValue, AnyValue => true
  | Atom n, Atom m => Nat.eqb n m
  | _, _ => false
  end.

(** node.py:96-131, [find_unsatisfied_requirements]; [st[key]] raises
    TypeError if [st] is not a dictionary. *)
Fixpoint find_unsatisfied (state requirements : meta) {struct requirements} : res (list message) :=
  match requirements with
  | Dict items =>
      (fix go (items : list (key * meta)) : res (list message) :=
         match items with
         | [] => Ok []
         | (k, v) :: rest =>
             do here <- match state with
                        | Dict d =>
                            match lookup_key k d with
                            | None => Ok [NotInState k v]
                            | Some w =>
                                match v with
                                | Dict _ => find_unsatisfied w v
                                | AnyValue => Ok []
                                | Atom _ => if same_atom v w then Ok [] else Ok [OtherValue k v w]
                                end
                            end
                        | _ => Err TypeError
                        end;
             do others <- go rest;
             Ok (here ++ others)
         end) items
  | _ => Ok []
  end.

(** node.py:45-58, [check_requirements]: [None] if it returns, otherwise the exception. *)
Definition check_requirements (state requirements : meta) : option exn :=
  match find_unsatisfied state requirements with
  | Err e => Some e
  | Ok [] => None
  | Ok _ => Some UnsatisfiedRequirementsError
  end.

(** ** clip.py *)

(** One entry of [metadata['device']['measurements']]. *)
Record measurement := mkMeas { me_column : column; me_lower : option Z; me_upper : option Z }.

(** clip.py:39-50, [_find_limits]. *)
Definition find_limits (c : column) (measurements : list measurement) : option Z * option Z :=
  match find (fun m => col_eqb (me_column m) c) measurements with
  | Some m => (me_lower m, me_upper m)
  | None => (None, None)
  end.

(** [Series.clip(lower, upper)] with scalar limits: pandas swaps limits given
    in the wrong order; NaN stays NaN. *)
Definition clip_value (lower upper : Z) (v : option Z) : option Z :=
  let lo := Z.min lower upper in
  let hi := Z.max lower upper in
  match v with None => None | Some x => Some (Z.min (Z.max x lo) hi) end.

(** clip.py:27-34: the limits used for a column; [self_lower], [self_upper]
    are the node's own settings. *)
Definition limits_for (self_lower self_upper : option Z) (measurements : list measurement) (c : column)
  : option (Z * Z) :=
  let '(lower, upper) := find_limits c measurements in
  let lower := match self_lower with None => lower | Some x => Some x end in
  let upper := match self_upper with None => upper | Some x => Some x end in
  match lower, upper with Some l, Some u => Some (l, u) | _, _ => None end.

(** clip.py:28-34 on one row: each column in turn.  Column names of a chunk are
    not repeated, so [index_of_column_name] finds the column itself. *)
Fixpoint clip_cells (limits : column -> option (Z * Z)) (columns : list column) (cells : list (option Z))
  : list (option Z) :=
  match columns, cells with
  | c :: cs, v :: vs =>
      (match limits c with Some (l, u) => clip_value l u v | None => v end) :: clip_cells limits cs vs
  | _, _ => cells
  end.

(** clip.py:26-36: one chunk; clip.py:22-36, [process]: the stream of chunks
    (time frame and look-ahead attributes are kept). *)
Definition clip_chunk (limits : column -> option (Z * Z)) (columns : list column)
  (df : list (sample (list (option Z)))) : list (sample (list (option Z))) :=
  map (fun r => (fst r, clip_cells limits columns (snd r))) df.
Definition clip_process (limits : column -> option (Z * Z)) (columns : list column)
  (chunks : gen (chunk (list (option Z)))) : gen (chunk (list (option Z))) :=
  (map (fun ch => mkChunk (clip_chunk limits columns (c_rows ch)) (c_look ch) (c_tf ch)) (fst chunks), snd chunks).

(** ** measurement.py *)

(** The names of AC types; other strings may occur in lists of types. *)
Inductive acname := Known (a : actype) | OtherName (n : nat).
Definition acname_eqb (x y : acname) : bool :=
  match x, y with
  | Known a, Known b => ac_eqb a b
  | OtherName n, OtherName m => Nat.eqb n m
  | _, _ => false
  end.

(** measurement.py:5, [AC_TYPES]. *)
Definition AC_TYPES : list acname := [Known Active; Known Apparent; Known Reactive].

(** [ac_type in l]. *)
Definition mem_name (x : acname) (l : list acname) : bool := existsb (acname_eqb x) l.

(** measurement.py:29-67, [select_best_ac_type]. *)
Definition select_best_ac_type (available : list acname) (mains : option (list acname)) : res acname :=
  let order := match mains with
               | None => AC_TYPES
               | Some m => filter (fun a => mem_name a m) AC_TYPES
               end in
  match find (fun a => mem_name a available) order with
  | Some a => Ok a
  | None =>
      match mains with
      | None => Err KeyError
      | Some _ => match find (fun a => mem_name a available) AC_TYPES with
                  | Some a => Ok a
                  | None => Err KeyError
                  end
      end
  end.
