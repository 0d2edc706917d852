(** Model of removing keys from data stores, and of histories of operations on
    a store: nilmtk/datastore/hdfdatastore.py (remove, with append, put and
    save_metadata from ConvModel) and nilmtk/datastore/csvdatastore.py
    (remove, __getitem__, with append and put from ConvModel).

    Simplifications: those of ConvModel; the caller goes on after an operation
    that raised (an operation that raises changes nothing).  Removing the root
    of a CSV store also removes the directory for metadata, after which
    [save_metadata] raises; this is not modelled. *)
From Coq Require Import Ascii String.
From Verif Require Import Base TimeFrameModel StoreModel KeyModel ConvModel.
Import List.
Open Scope list_scope.
Open Scope nat_scope.

Section Remove.
Context {A : Type}.

(** ** HDF5 files *)
Fixpoint del_child (name : str) (l : list (str * node A)) : list (str * node A) :=
  match l with
  | [] => []
  | (s, n) :: r => if str_eqb name s then del_child name r else (s, n) :: del_child name r
  end.

(** The node at the path and everything below it are taken out of the tree;
    the groups above it stay. *)
Fixpoint remove_node (n : node A) (p : list str) : node A :=
  match p with
  | [] => n
  | s :: r =>
      match r with
      | [] => Node (n_meta n) (n_table n) (del_child s (n_children n))
      | _ => match child s (n_children n) with
             | None => n
             | Some c => Node (n_meta n) (n_table n) (set_child s (remove_node c r) (n_children n))
             end
      end
  end.

(** hdfdatastore.py:176-177, [remove]: [pandas.HDFStore.remove] raises
    [KeyError] if there is no node, otherwise removes the node recursively,
    whether or not it holds a table.  PyTables refuses to remove the root. *)
Definition hdf_remove (k : str) (root : node A) : node A * option exn :=
  match get_node root k with
  | None => (root, Some KeyError)
  | Some _ => match key_parts k with
              | [] => (root, Some GenericException)
              | p => (remove_node root p, None)
              end
  end.

(** The operations that change a store. *)
Inductive event :=
  | Append (k : str) (rows : list (sample A))
  | Put (k : str) (rows : list (sample A))
  | Remove (k : str)
  | Save (k : str) (m : val).

(** hdfdatastore.py:151-197, one operation. *)
Definition hdf_step (e : event) (root : node A) : node A * option exn :=
  match e with
  | Append k rows => (hdf_append k rows root, None)
  | Put k rows => hdf_put k rows root
  | Remove k => hdf_remove k root
  | Save k m => hdf_save_metadata k m root
  end.
Definition hdf_run (h : list event) (root : node A) : node A :=
  fold_left (fun r e => fst (hdf_step e r)) h root.

(** ** CSV stores *)

(** What the path of a directory in the store begins with. *)
Definition dir_prefix (p : str) : str := rev (lstrip (rev p)) ++ [slash].

(** csvdatastore.py:130-135, [remove]: a file is removed, otherwise
    [rmtree] removes the directory and everything in it, and raises
    [FileNotFoundError] (here [GenericException]) if there is none.
    [empty_dir] tells which directories without files there are.  The root
    holds the metadata too. *)
Definition csv_remove (py_int : str -> option Z) (empty_dir : str -> bool) (k : str) (st : csv A) : csv A * option exn :=
  match key_to_path py_int k with
  | Err e => (st, Some e)
  | Ok p =>
      match get_file p st with
      | Some _ =>
          (mkCsv (v_dataset st) (v_devices st) (v_buildings st)
             (filter (fun f => negb (mkey_eqb (fst f) (KStr p))) (v_files st)), None)
      | None =>
          match p with
          | [] => (mkCsv None None [] [], None)
          | _ =>
              let inside f := match fst f with KStr q => startswith (dir_prefix p) q | KInt _ => false end in
              if existsb inside (v_files st) || empty_dir p then
                (mkCsv (v_dataset st) (v_devices st) (v_buildings st) (filter (fun f => negb (inside f)) (v_files st)), None)
              else (st, Some GenericException)
          end
      end
  end.

(** csvdatastore.py:38-44, [__getitem__]: the lines of the file ([read_csv]
    without arguments: nothing is parsed as a time or left out). *)
Definition csv_getitem (py_int : str -> option Z) (k : str) (st : csv A) : res (list (line A)) :=
  do p <- key_to_path py_int k;
  match get_file p st with
  | None => Err KeyError
  | Some ls => Ok ls
  end.

(** csvdatastore.py:108-185, one operation.  [empty_dir] may change with
    the state of the file system. *)
Definition csv_step (py_int : str -> option Z) (empty_dir : csv A -> str -> bool) (e : event) (st : csv A) : csv A * option exn :=
  match e with
  | Append k rows => csv_append py_int k rows st
  | Put k rows => csv_put py_int k rows st
  | Remove k => csv_remove py_int (empty_dir st) k st
  | Save k m => csv_save_metadata py_int k m st
  end.
Definition csv_run (py_int : str -> option Z) (empty_dir : csv A -> str -> bool) (h : list event) (st : csv A) : csv A :=
  fold_left (fun s e => fst (csv_step py_int empty_dir e s)) h st.

End Remove.
Arguments event : clear implicits.
