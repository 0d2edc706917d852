(** Model of exporting and importing trained models of the legacy disaggregators
    (nilmtk/legacy/disaggregate/combinatorial_optimisation.py:247-275,
    nilmtk/legacy/disaggregate/fhmm_exact.py:552-587 and
    nilmtk/legacy/disaggregate/hart_85.py:513-527).

    Simplifications:
    - a meter is a reference into a heap of objects; of an object only the attribute [store] is
      told apart from the rest, its payload; what has no such attribute (a group of meters, a
      string) is [Absent];
    - a store is the file it reads and its window; stores are values, so that two meters with one
      store are not told apart from two with stores of the same file and window;
    - [dumps] and [loads] stand for pickle; objects come back as new objects;
    - [can_open f] tells whether HDFDataStore(f) can be opened (hdfdatastore.py:16-26);
    - writing is [Fine], refused when the file is opened, or ends after some bytes, because of the
      disk or because an object cannot be pickled; OSError and errors of pickle are
      [GenericException]. *)
From Coq Require Import String.
From Verif Require Import Base.
Import List. Open Scope list_scope. Open Scope nat_scope.

Section Pickle.
  Context {Payload Window : Type}.
  (** TimeFrame(), the window of a store that was just opened (datastore.py:39). *)
  Variable unbounded : Window.
  Variable can_open : string -> bool.

  Inductive dstore := Hdf (file : string) (w : Window) | Csv (file : string) (w : Window).
  (** The attribute [store]: a data store, a string, or none. *)
  Inductive attr := Store (s : dstore) | Path (file : string) | Absent.
  Record object := mkObj { payload : Payload; o_store : attr }.
  Definition heap := list object.

  Definition store_at (h : heap) (r : nat) : attr := match nth_error h r with Some o => o_store o | None => Absent end.
  Fixpoint set_store (h : heap) (r : nat) (a : attr) : heap :=
    match h, r with
    | [], _ => []
    | o :: h, O => mkObj (payload o) a :: h
    | o :: h, S r => o :: set_store h r a
    end.

  (** [original_store.store.filename]: only the HDFStore of pandas is an attribute [store] with a
      file name; a CSVDataStore, a string or nothing raises. *)
  Definition file_name (a : attr) : res string := match a with Store (Hdf f _) => Ok f | _ => Err AttributeError end.
  (** combinatorial_optimisation.py:263-267, fhmm_exact.py:569, 574-577: the original stores, and the heap in which file names
      take their places, up to the first that has none. *)
  Fixpoint swap (refs : list nat) (h : heap) : list attr * heap * option exn :=
    match refs with
    | [] => ([], h, None)
    | r :: refs =>
        match file_name (store_at h r) with
        | Err e => ([], h, Some e)
        | Ok f => let '(os, h', e) := swap refs (set_store h r (Path f)) in (store_at h r :: os, h', e)
        end
    end.
  (** combinatorial_optimisation.py:274-275, fhmm_exact.py:584-585. *)
  Definition restore (os : list attr) (refs : list nat) (h : heap) : heap :=
    fold_left (fun h p => set_store h (snd p) (fst p)) (combine os refs) h.

  (** combinatorial_optimisation.py:254-256, fhmm_exact.py:560-562. *)
  Fixpoint reopen (refs : list nat) (h : heap) : heap * option exn :=
    match refs with
    | [] => (h, None)
    | r :: refs =>
        match store_at h r with
        | Path f => if can_open f then reopen refs (set_store h r (Store (Hdf f unbounded))) else (h, Some GenericException)
        | Store _ => (h, Some TypeError)
        | Absent => (h, Some AttributeError)
        end
    end.

  (** ** Files *)
  Definition bytes := list nat.
  Definition disk := list (string * bytes).
  Fixpoint get (d : disk) (f : string) : option bytes :=
    match d with [] => None | (g, b) :: r => if String.eqb g f then Some b else get r f end.
  Definition put (d : disk) (f : string) (b : bytes) : disk := (f, b) :: d.
  Inductive luck := Fine | Refused | Stopped (n : nat).
  (** [with open(filename, 'wb') as out_file: pickle.dump(…, out_file)] *)
  Definition write (d : disk) (f : string) (b : bytes) (l : luck) : disk * option exn :=
    match l with
    | Fine => (put d f b, None)
    | Refused => (d, Some GenericException)
    | Stopped n => (put d f (firstn n b), Some GenericException)
    end.
  Definition read {A} (loads : bytes -> option A) (d : disk) (f : string) : res A :=
    match get d f with
    | None => Err GenericException
    | Some b => match loads b with None => Err GenericException | Some a => Ok a end
    end.

  (** ** CombinatorialOptimisation *)
  Section CO.
    Context {States Combos : Type}.
    (** [model] (the states and the training metadata), [state_combinations], [MIN_CHUNK_LENGTH]. *)
    Record co := mkCo { co_model : list (States * nat); co_combos : Combos; co_min : nat }.
    (** What is pickled: the object with the meters it refers to. *)
    Record co_file := mkCoFile { cf_model : list (States * object); cf_combos : Combos; cf_min : nat }.
    Variable dumps : co_file -> bytes.
    Variable loads : bytes -> option co_file.

    (** A reference that is not in the heap is left out; [swap] has raised before. *)
    Definition objects {A} (l : list (A * nat)) (h : heap) : list (A * object) :=
      flat_map (fun p => match nth_error h (snd p) with Some o => [(fst p, o)] | None => [] end) l.
    (** combinatorial_optimisation.py:261-275, [export_model]. *)
    Definition export_co (o : co) (h : heap) (f : string) (l : luck) (d : disk) : heap * disk * option exn :=
      match swap (map snd (co_model o)) h with
      | (_, h', Some e) => (h', d, Some e)
      | (os, h', None) =>
          let '(d', e) := write d f (dumps (mkCoFile (objects (co_model o) h') (co_combos o) (co_min o))) l in
          (restore os (map snd (co_model o)) h', d', e)
      end.
    (** combinatorial_optimisation.py:247-259, [import_model]. *)
    Definition import_co (o : co) (h : heap) (f : string) (d : disk) : co * heap * option exn :=
      match read loads d f with
      | Err e => (o, h, Some e)
      | Ok c =>
          let refs := seq (length h) (length (cf_model c)) in
          let model := combine (map fst (cf_model c)) refs in
          match reopen refs (h ++ map snd (cf_model c)) with
          | (h', Some e) => (mkCo model (co_combos o) (co_min o), h', Some e)
          | (h', None) => (mkCo model (cf_combos c) (cf_min c), h', None)
          end
      end.
  End CO.

  (** ** FHMM *)
  Section FHMM.
    Context {Hmm Combined : Type}.
    (** [model]; [individual], the learnt models by meter (a dictionary, in order), and [meters],
        which training sets. *)
    Record fhmm := mkFhmm { fh_model : Combined; fh_trained : option (list (Hmm * nat) * option (list nat)) }.
    Record fhmm_file := mkFhmmFile { ff_model : Combined; ff_individual : list (Hmm * object) }.
    Variable dumps : fhmm_file -> bytes.
    Variable loads : bytes -> option fhmm_file.

    (** fhmm_exact.py:567-587, [export_model]; before training there is no attribute [meters]. *)
    Definition export_fhmm (o : fhmm) (h : heap) (f : string) (l : luck) (d : disk) : fhmm * heap * disk * option exn :=
      match fh_trained o with
      | None => (o, h, d, Some AttributeError)
      | Some (individual, meters) =>
          match swap (map snd individual) h with
          | (_, h', Some e) => (mkFhmm (fh_model o) (Some (individual, None)), h', d, Some e)
          | (os, h', None) =>
              let '(d', e) := write d f (dumps (mkFhmmFile (fh_model o) (objects individual h'))) l in
              (mkFhmm (fh_model o) (Some (individual, meters)), restore os (map snd individual) h', d', e)
          end
      end.
    (** fhmm_exact.py:552-564, [import_model]; [meters] stays as it was when it raises. *)
    Definition import_fhmm (o : fhmm) (h : heap) (f : string) (d : disk) : fhmm * heap * option exn :=
      match read loads d f with
      | Err e => (o, h, Some e)
      | Ok c =>
          let refs := seq (length h) (length (ff_individual c)) in
          let individual := combine (map fst (ff_individual c)) refs in
          match reopen refs (h ++ map snd (ff_individual c)) with
          | (h', Some e) => (mkFhmm (ff_model c) (Some (individual, match fh_trained o with Some (_, m) => m | None => None end)), h', Some e)
          | (h', None) => (mkFhmm (ff_model c) (Some (individual, Some refs)), h', None)
          end
      end.
  End FHMM.
End Pickle.
Arguments dstore Window : clear implicits. Arguments attr Window : clear implicits. Arguments object Payload Window : clear implicits. Arguments heap Payload Window : clear implicits.
Arguments co States Combos : clear implicits. Arguments co_file Payload Window States Combos : clear implicits.
Arguments fhmm Hmm Combined : clear implicits. Arguments fhmm_file Payload Window Hmm Combined : clear implicits.

(** ** Hart85: columns, state threshold, noise level, steady states, transients and centroids *)
Section Hart.
  Context {Value : Type}.
  (** [self.model]: a dictionary, empty before training (hart_85.py:203, 249-257). *)
  Definition hart_dict := list (string * Value).
  Fixpoint item (d : hart_dict) (k : string) : option Value :=
    match d with [] => None | (j, v) :: r => if String.eqb j k then Some v else item r k end.
  Record hart := mkHart { ha_model : hart_dict; ha_attrs : hart_dict }.
  Variable dumps : hart_dict -> bytes.
  Variable loads : bytes -> option hart_dict.
  (** hart_85.py:513-516, [export_model]. *)
  Definition export_hart (o : hart) (f : string) (l : luck) (d : disk) : disk * option exn := write d f (dumps (ha_model o)) l.
  (** hart_85.py:521-527: the attributes, one after the other; a missing item raises. *)
  Definition attributes : list string := ["columns"; "state_threshold"; "noise_level"; "steady_states"; "transients"; "centroids"]%string.
  Fixpoint set_attrs (m : hart_dict) (ks : list string) (attrs : hart_dict) : hart_dict * option exn :=
    match ks with
    | [] => (attrs, None)
    | k :: ks => match item m k with None => (attrs, Some KeyError) | Some v => set_attrs m ks ((k, v) :: attrs) end
    end.
  (** hart_85.py:518-527, [import_model]. *)
  Definition import_hart (o : hart) (f : string) (d : disk) : hart * option exn :=
    match read loads d f with
    | Err e => (o, Some e)
    | Ok m => let '(attrs, e) := set_attrs m attributes (ha_attrs o) in (mkHart m attrs, e)
    end.
End Hart.
Arguments hart Value : clear implicits. Arguments hart_dict Value : clear implicits.
