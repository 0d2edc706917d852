(** Model of the conversion of COMBED files (nilmtk/dataset_converters/combed/convert_combed.py:38-94).

    The meters are the entries of overall_dataset_mapping (lines 12-28) in order; [M] are their keys.  [direct] and
    [nested] are the files of a meter, those below combed_path and those below its folder iiitd; None is a file that
    is not there.  [read] is reading one (lines 70-72), [join] is making the table of a meter from the attributes
    that were read (lines 78-82, an error if times are repeated).  Left out: the directory, the store itself and
    the metadata. *)
From Verif Require Import Base.
Import List. Open Scope list_scope. Open Scope nat_scope.

(** convert_combed.py:32-35, the attributes in order. *)
Inductive attribute := Power | Energy | Current.
Definition attributes : list attribute := [Power; Energy; Current].

Section Combed.
  Context {M File Series Table : Type}.
  Variable direct nested : M -> attribute -> option File.
  Variable read : File -> res Series.
  Variable join : list (attribute * Series) -> res Table.

  (** convert_combed.py:61-67: the file of an attribute. *)
  Definition find_file (m : M) (a : attribute) : option File :=
    match direct m a with Some f => Some f | None => nested m a end.

  (** convert_combed.py:60-75: [dfs] and [exists] after the loop over attributes. *)
  Fixpoint read_attributes (m : M) (dfs : list (attribute * Series)) (present : bool) (l : list attribute) : res (list (attribute * Series) * bool) :=
    match l with
    | [] => Ok (dfs, present)
    | a :: l =>
        match find_file m a with
        | Some f => do s <- read f; read_attributes m (dfs ++ [(a, s)]) true l
        | None => read_attributes m dfs false l
        end
    end.

  (** convert_combed.py:54-84: the loop over meters; the tables stored so far and the error that ends it. *)
  Fixpoint do_meters (stored : list (M * Table)) (ms : list M) : list (M * Table) * option exn :=
    match ms with
    | [] => (stored, None)
    | m :: ms =>
        match read_attributes m [] false attributes with
        | Err e => (stored, Some e)
        | Ok (dfs, present) =>
            if present then
              match join dfs with
              | Err e => (stored, Some e)
              | Ok t => do_meters (stored ++ [(m, t)]) ms
              end
            else do_meters stored ms
        end
    end.

  (** convert_combed.py:86-87: [any_file_converted] is that a table was stored. *)
  Definition convert (ms : list M) : list (M * Table) * option exn :=
    match do_meters [] ms with
    | (stored, Some e) => (stored, Some e)
    | ([], None) => ([], Some RuntimeError)
    | (stored, None) => (stored, None)
    end.
End Combed.
