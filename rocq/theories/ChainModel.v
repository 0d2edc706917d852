(** Model of chains of nodes: nilmtk/node.py (metadata and checks), the
    [process] methods of nilmtk/preprocessing/clip.py, apply.py and of
    nilmtk/stats/goodsections.py, totalenergy.py, dropoutrate.py up to the
    first chunk, the [to_dict] methods of their results, and
    nilmtk/elecmeter.py [get_source_node].

    Simplifications:
    - metadata are those of [PipelineModel]: values that are not dictionaries
      (numbers, strings, lists, None) are atoms;
    - [recursively_update_dict] belongs to nilm_metadata, outside the
      repository: a key the target lacks is added, two dictionaries are merged
      key by key, and what becomes of two other values is left open ([join] for
      two atoms, [clash] for a dictionary and something else);
    - the work on the chunks is not modelled here: it is taken to succeed, and
      each node carries the answer it will have afterwards;
    - the first node of a chain is fed by [get_source_node], whose own
      postconditions and requirements are empty; it hands on the meter's
      metadata. *)
From Verif Require Import Base TimeFrameModel StoreModel EnergyModel PipelineModel.
Import List. Open Scope list_scope. Open Scope nat_scope.

(** The keys used by the nodes; any other number is another key. *)
Definition k_device : key := 0.
Definition k_measurements : key := 1.
Definition k_sample_period : key := 2.
Definition k_max_sample_period : key := 3.
Definition k_preprocessing_applied : key := 4.
Definition k_clip : key := 5.
Definition k_statistics : key := 6.
Definition k_energy : key := 7.
Definition k_dropout_rate : key := 8.
Definition k_good_sections : key := 9.
Definition k_total_energy : key := 10.

(** [d[key] = v]. *)
Fixpoint set_key (k : key) (v : meta) (d : list (key * meta)) : list (key * meta) :=
  match d with
  | [] => [(k, v)]
  | (k', w) :: r => if Nat.eqb k k' then (k, v) :: r else (k', w) :: set_key k v r
  end.

(** [d[key]] on a value: KeyError if the key is missing, TypeError if the value
    is not a dictionary. *)
Definition item (m : meta) (k : key) : res meta :=
  match m with
  | Dict d => match lookup_key k d with Some v => Ok v | None => Err KeyError end
  | _ => Err TypeError
  end.

(** elecmeter.py:571-579, [get_source_node]: [self.metadata['device'] = self.device]
    (565-569, [dry_run_metadata] and [get_metadata] return [self.metadata]). *)
Definition source (metadata device : list (key * meta)) : meta :=
  Dict (set_key k_device (Dict device) metadata).

(** preprocessing/clip.py:5, apply.py:3, stats/goodsections.py:11,
    totalenergy.py:11, dropoutrate.py:7: the kinds of nodes. *)
Inductive kind := Clip | Apply | GoodSections | TotalEnergy | DropoutRate.

(** clip.py:15, goodsections.py:19, totalenergy.py:13-14, dropoutrate.py:9,
    node.py:10: [requirements]. *)
Definition requirements (k : kind) : list (key * meta) :=
  match k with
  | Clip => [(k_device, Dict [(k_measurements, AnyValue)])]
  | Apply => []
  | GoodSections => [(k_device, Dict [(k_max_sample_period, AnyValue)])]
  | TotalEnergy => [(k_device, Dict [(k_max_sample_period, AnyValue)]);
                    (k_preprocessing_applied, Dict [(k_clip, AnyValue)])]
  | DropoutRate => [(k_device, Dict [(k_sample_period, AnyValue)])]
  end.

(** clip.py:16, goodsections.py:20, totalenergy.py:15, dropoutrate.py:10,
    node.py:11: [postconditions]; [[]] and [None] are the atoms 0 and 1. *)
Definition postconditions (k : kind) : meta :=
  match k with
  | Clip => Dict [(k_preprocessing_applied, Dict [(k_clip, Dict [])])]
  | Apply => Dict []
  | GoodSections => Dict [(k_statistics, Dict [(k_good_sections, Atom 0)])]
  | TotalEnergy => Dict [(k_statistics, Dict [(k_energy, Dict [])])]
  | DropoutRate => Dict [(k_statistics, Dict [(k_dropout_rate, Atom 1)])]
  end.

(** A node: its kind, what it will find (one value, or energies by AC type),
    and what [self.results.to_dict()] gives at present; [None] if
    [self.results] is None. *)
Record node := mkNode { n_kind : kind; n_value : nat; n_energies : list (key * nat); n_results : option (res meta) }.

(** node.py:14-34, [__init__] and [reset]: a new node.  clip.py:18-20 and
    goodsections.py:23-24 override [reset] and leave [results] None, apply.py
    has no [results_class].  Without rows, totalenergyresults.py:35-36 sums no
    column, and dropoutrateresults.py:17-27 looks for a column ['n_samples']
    that is not there. *)
Definition fresh_results (k : kind) : option (res meta) :=
  match k with
  | Clip | Apply | GoodSections => None
  | TotalEnergy => Some (Ok (Dict [(k_total_energy, Dict [])]))
  | DropoutRate => Some (Err KeyError)
  end.
Definition fresh (k : kind) (value : nat) (energies : list (key * nat)) : node :=
  mkNode k value energies (fresh_results k).

(** goodsectionsresults.py:95-99, totalenergyresults.py:35-36,
    dropoutrateresults.py:38-39, [to_dict] after a run over at least one chunk
    ([some]) or none.  Without a chunk the list of good sections is still a
    list, and there are still no energies. *)
Definition final_results (some : bool) (n : node) : option (res meta) :=
  match n_kind n with
  | Clip | Apply => None
  | GoodSections => Some (Ok (Dict [(k_statistics, Dict [(k_good_sections, Atom (n_value n))])]))
  | TotalEnergy => Some (Ok (Dict [(k_total_energy, Dict (if some then map (fun e => (fst e, Atom (snd e))) (n_energies n) else []))]))
  | DropoutRate => if some then Some (Ok (Dict [(k_statistics, Dict [(k_dropout_rate, Atom (n_value n))])]))
                   else Some (Err KeyError)
  end.

Section External.
Variable join : nat -> nat -> nat.
Variable clash : meta -> meta -> res meta.

(** nilm_metadata's [recursively_update_dict(old, new)], see above. *)
Fixpoint merged (old new : meta) {struct new} : res meta :=
  match new with
  | Dict items =>
      match old with
      | Dict d =>
          do d' <- (fix go (items d : list (key * meta)) : res (list (key * meta)) :=
                      match items with
                      | [] => Ok d
                      | (k, v) :: rest =>
                          do v' <- match lookup_key k d with None => Ok v | Some w => merged w v end;
                          go rest (set_key k v' d)
                      end) items d;
          Ok (Dict d')
      | _ => clash old new
      end
  | Atom b => match old with Atom a => Ok (Atom (join a b)) | _ => clash old new end
  | AnyValue => clash old new
  end.

(** node.py:60-70, [dry_run_metadata] of the last node of a chain over the
    metadata [m]; the chain is listed from its last node upstream. *)
Fixpoint dry_run_metadata (m : meta) (chain : list node) : res meta :=
  match chain with
  | [] => Ok m
  | n :: up => do u <- dry_run_metadata m up; merged (postconditions (n_kind n)) u
  end.

(** node.py:72-81, [get_metadata]; a [Results] object is true. *)
Fixpoint get_metadata (m : meta) (chain : list node) : res meta :=
  match chain with
  | [] => Ok m
  | n :: up =>
      match n_results n with
      | Some results => do metadata <- get_metadata m up; do results_dict <- results; merged metadata results_dict
      | None => get_metadata m up
      end
  end.

(** node.py:45-58, [check_requirements] of a node of kind [k] over [up]. *)
Definition check (m : meta) (up : list node) (k : kind) : res unit :=
  do state <- dry_run_metadata m up;
  match check_requirements state (Dict (requirements k)) with
  | Some e => Err e
  | None => Ok tt
  end.

(** [metadata['device'][key]] with the metadata of the node upstream. *)
Definition device_item (m : meta) (up : list node) (k : key) : res unit :=
  do metadata <- get_metadata m up;
  do device <- item metadata k_device;
  do _ <- item device k;
  Ok tt.

(** clip.py:22-26, apply.py:11-13, goodsections.py:26-31, totalenergy.py:18-25,
    dropoutrate.py:13-17: what [process] does before it asks the node upstream
    for a chunk.  (goodsections.py reads the metadata before the check, but
    the entry after it.) *)
Definition begin_node (m : meta) (up : list node) (k : kind) : res unit :=
  match k with
  | Clip => do _ <- check m up k; device_item m up k_measurements
  | Apply => check m up k
  | GoodSections => do _ <- get_metadata m up; do _ <- check m up k; device_item m up k_max_sample_period
  | TotalEnergy => do _ <- check m up k; device_item m up k_max_sample_period
  | DropoutRate => do _ <- check m up k; device_item m up k_sample_period
  end.

(** The request for the first chunk goes up the chain, from its last node. *)
Fixpoint begin_chain (m : meta) (chain : list node) : res unit :=
  match chain with
  | [] => Ok tt
  | n :: up => do _ <- begin_node m up (n_kind n); begin_chain m up
  end.

(** node.py:39-43, [run] (or elecmeter.py:449-460, [load], read to its end):
    the nodes afterwards; [some]: there is at least one chunk. *)
Definition run (some : bool) (m : meta) (chain : list node) : res (list node) :=
  do _ <- begin_chain m chain;
  Ok (map (fun n => mkNode (n_kind n) (n_value n) (n_energies n) (final_results some n)) chain).
End External.
