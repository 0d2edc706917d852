(** Model of opening a data set: nilmtk/dataset.py:30-70 and
    nilmtk/building.py:22-44.

    Simplifications:
    - the metadata of a building are its 'instance' (absent: [None]), its
      'dataset' (absent: [None]; a null value is not modelled) and the rest, which
      [MeterGroup.import_metadata] uses (modelled in ImportModel.v, here an
      argument [import_elec] that may raise);
    - [store.load_metadata] is an argument that may raise (an HDF node without
      metadata raises [AttributeError], hdfdatastore.py:180-187). *)
From Coq Require Import String.
From Verif Require Import Base.
Import List.
Open Scope list_scope.
Open Scope nat_scope.

Section Open.
  (** The rest of the metadata of a building, and its [elec]. *)
  Context {R E : Type}.

  Record building_md := mk_md { md_instance : option Z; md_dataset : option string; md_rest : R }.

  (** building.py:10, 22-24 and 38-42. *)
  Record building := mk_building { b_instance : option Z; b_dataset : option string; b_elec : E }.

  Variable load_metadata : string -> res building_md.
  Variable import_elec : R -> option Z -> option string -> res E.

  (** building.py:26-32, [Building.import_metadata]. *)
  Definition import_building (dataset_name : option string) (key : string) : res building :=
    do md <- load_metadata key;
    let dataset := match md_dataset md with Some d => Some d | None => dataset_name end in
    do elec <- import_elec (md_rest md) (md_instance md) dataset;
    Ok (mk_building (md_instance md) dataset elec).

  (** Order of strings in Python: by code points. *)
  Definition name_leb (a b : string) : bool := match String.compare a b with Gt => false | _ => true end.

  Fixpoint insert_name (x : string) (l : list string) : list string :=
    match l with
    | [] => [x]
    | y :: r => if name_leb x y then x :: l else y :: insert_name x r
    end.

  (** dataset.py:64, [buildings.sort()]. *)
  Definition sort_names (l : list string) : list string := fold_right insert_name [] l.

  Definition okey_eqb (a b : option Z) : bool :=
    match a, b with Some x, Some y => (x =? y)%Z | None, None => true | _, _ => false end.

  (** [self.buildings[k] = v]: an existing key keeps its place. *)
  Fixpoint put {V} (d : list (option Z * V)) (k : option Z) (v : V) : list (option Z * V) :=
    match d with
    | [] => [(k, v)]
    | (k', v') :: r => if okey_eqb k k' then (k', v) :: r else (k', v') :: put r k v
    end.

  (** dataset.py:46-55, 62-70, [import_metadata] of a new data set:
      [elements] is [store.elements_below_key('/')] and [dataset_name]
      [self.metadata.get('name')]. *)
  Definition open (dataset_name : option string) (elements : list string) : res (list (option Z * building)) :=
    foldM (fun d key => do b <- import_building dataset_name key; Ok (put d (b_instance b) b)) (sort_names elements) [].

  (** dataset.py:58-60 and building.py:34-36: no store has a method
      [write_metadata], so saving the first building raises. *)
  Definition save (buildings : list (option Z * building)) : res unit :=
    foldM (fun _ _ => Err AttributeError) buildings tt.
End Open.
Arguments building_md : clear implicits.
Arguments building : clear implicits.
