(** Model of the course of an experiment (nilmtk/api.py:49-99, [API.experiment], and
    the loops of [train_chunk_wise], [train_jointly], [test_chunk_wise] and
    [test_jointly]): which classifier is trained when, with which arguments of
    [partial_fit], and what is predicted after that.

    Simplifications:
    - the data of a house are what the loading code of api.py makes of them: one item of
      type [D] for each chunk (see ApiModel.v and ExpModel.v for how they are made), and
      possibly an exception after some chunks;
    - a classifier is an object with a state [S]; what [partial_fit] and
      [disaggregate_chunk] do is given by functions;
    - only the predictions are kept, not the losses (see ExpModel.v). *)
From Coq Require Import String QArith.
From Verif Require Import Base.
Import List. Open Scope list_scope. Open Scope nat_scope.

Section Trial.
Context {S D P H : Type}.

(** Arguments of [partial_fit] after the data, by name. *)
Definition bound := list (string * nat).

(** A classifier: the names of the positional parameters of [partial_fit] after
    [train_main] and [train_appliances], whether the attribute [load_model_path] exists
    and is set, the attributes [chunk_wise_training] and [n_epochs] (if they exist). *)
Record clf := mkClf {
  k_extra : list string; k_pretrained : option bool; k_chunkwise : option bool; k_epochs : option nat;
  k_fit : S -> bound -> list D -> S * option exn; k_predict : S -> D -> res P; k_state : S }.
Definition set_state (c : clf) (s : S) : clf := mkClf (k_extra c) (k_pretrained c) (k_chunkwise c) (k_epochs c) (k_fit c) (k_predict c) s.
Definition set_epochs (c : clf) (n : nat) : clf := mkClf (k_extra c) (k_pretrained c) (k_chunkwise c) (Some n) (k_fit c) (k_predict c) (k_state c).

(** What is given to [API]: 'chunk_size', the houses for training and testing, 'methods'
    (names and objects).  [first] is the first chunk loaded without chunk size. *)
Record house := mkHouse { h_key : H; h_first : res D; h_chunks : list D * option exn }.
Record config := mkConfig { c_chunk : option nat; c_train : list house; c_test : list house; c_methods : list (string * nat) }.

(** Calling [partial_fit] with positional arguments after the data: too many raise
    TypeError. *)
Definition call_fit (c : clf) (args : list nat) (ds : list D) : clf * option exn :=
  if length args <=? length (k_extra c) then
    let '(s, e) := k_fit c (k_state c) (combine (k_extra c) args) ds in (set_state c s, e)
  else (c, Some TypeError).

(** api.py:101-149, [train_chunk_wise]. *)
Fixpoint fit_chunks (c : clf) (epoch : nat) (ds : list D) : clf * option exn :=
  match ds with
  | [] => (c, None)
  | d :: r => match call_fit c [epoch] [d] with
              | (c', None) => fit_chunks c' epoch r
              | (c', Some e) => (c', Some e)
              end
  end.
Fixpoint train_chunk_wise (c : clf) (hs : list house) (epoch : nat) : clf * option exn :=
  match hs with
  | [] => (c, None)
  | h :: r => match fit_chunks c epoch (fst (h_chunks h)) with
              | (c', None) => match snd (h_chunks h) with None => train_chunk_wise c' r epoch | Some e => (c', Some e) end
              | (c', Some e) => (c', Some e)
              end
  end.
(** api.py:81-82: the epochs [i], [i+1], ... *)
Fixpoint train_epochs (c : clf) (hs : list house) (i n : nat) : clf * option exn :=
  match n with
  | 0 => (c, None)
  | Datatypes.S n => match train_chunk_wise c hs i with
                     | (c', None) => train_epochs c' hs (Datatypes.S i) n
                     | (c', Some e) => (c', Some e)
                     end
  end.
(** api.py:199-240, [train_jointly]. *)
Definition train_jointly (c : clf) (hs : list house) : clf * option exn :=
  match mapM h_first hs with
  | Err e => (c, Some e)
  | Ok ds => call_fit c [] ds
  end.
(** api.py:70 and 91: [if self.chunk_size]. *)
Definition chunked (cfg : config) : bool := match c_chunk cfg with Some (Datatypes.S _) => true | _ => false end.
(** api.py:57-88: one classifier. *)
Definition train_one (cfg : config) (c : clf) : clf * option exn :=
  match k_pretrained c with
  | Some true => (c, None)
  | _ =>
      if chunked cfg then
        match k_chunkwise c with
        | None => (c, Some AttributeError)
        | Some true =>
            let '(c, n) := match k_epochs c with Some n => (set_epochs c 1, n) | None => (c, 1) end in
            train_epochs c (c_train cfg) 0 n
        | Some false => train_jointly c (c_train cfg)
        end
      else train_jointly c (c_train cfg)
  end.

Fixpoint set_nth {A} (l : list A) (i : nat) (v : A) : list A :=
  match l, i with [], _ => [] | _ :: r, 0 => v :: r | x :: r, Datatypes.S i => x :: set_nth r i v end.

(** api.py:57-88: all classifiers, objects of the [heap]. *)
Fixpoint train_all (cfg : config) (heap : list clf) (ms : list (string * nat)) : list clf * option exn :=
  match ms with
  | [] => (heap, None)
  | (_, i) :: r =>
      match nth_error heap i with
      | None => (heap, Some NameError)
      | Some c => match train_one cfg c with
                  | (c', None) => train_all cfg (set_nth heap i c') r
                  | (c', Some e) => (set_nth heap i c', Some e)
                  end
      end
  end.

(** api.py:321-323: the predictions of all classifiers for one item. *)
Definition predict_all (heap : list clf) (ms : list (string * nat)) (d : D) : res (list (string * P)) :=
  mapM (fun m => match nth_error heap (snd m) with
                 | None => Err NameError
                 | Some c => do p <- k_predict c (k_state c) d; Ok (fst m, p)
                 end) ms.
Definition results := list (H * option nat * list (string * P)).
(** api.py:151-196, [test_chunk_wise]; 243-274, [test_jointly]. *)
Fixpoint test_chunks (heap : list clf) (ms : list (string * nat)) (k : H) (i : nat) (ds : list D) : res results :=
  match ds with
  | [] => Ok []
  | d :: r => do p <- predict_all heap ms d; do rest <- test_chunks heap ms k (Datatypes.S i) r; Ok ((k, Some i, p) :: rest)
  end.
Definition test_house (cfg : config) (heap : list clf) (h : house) : res results :=
  if chunked cfg then
    do r <- test_chunks heap (c_methods cfg) (h_key h) 0 (fst (h_chunks h));
    match snd (h_chunks h) with None => Ok r | Some e => Err e end
  else
    do d <- h_first h; do p <- predict_all heap (c_methods cfg) d; Ok [(h_key h, None, p)].
Definition test_all (cfg : config) (heap : list clf) : res results :=
  do rs <- mapM (test_house cfg heap) (c_test cfg); Ok (concat rs).

(** api.py:49-99, [experiment]: the objects afterwards, and the predictions. *)
Definition experiment (cfg : config) (heap : list clf) : list clf * res results :=
  match train_all cfg heap (c_methods cfg) with
  | (heap, Some e) => (heap, Err e)
  | (heap, None) => (heap, test_all cfg heap)
  end.
End Trial.
Arguments clf : clear implicits.
Arguments house : clear implicits.
Arguments config : clear implicits.
Arguments results : clear implicits.

(** The algorithms of nilmtk/disaggregate: the positional parameters of [partial_fit]
    after the data and the default of 'chunk_wise_training' (mean.py:14,18;
    combinatorial_optimisation.py:43,49-54; fhmm_exact.py:177,183; hart_85.py:206,211-219);
    none has an attribute [n_epochs]. *)
Inductive algorithm := Mean | CO | FHMM | Hart85.
Definition parameters (a : algorithm) : list string :=
  match a with
  | Mean | FHMM => []
  | CO => ["do_preprocessing"]%string
  | Hart85 => ["buffer_size"; "noise_level"; "state_threshold"; "min_tolerance"; "percent_tolerance"; "large_transition"]%string
  end.
Definition chunk_wise_default (a : algorithm) : bool := match a with Mean | Hart85 => true | CO | FHMM => false end.
(** [partial_fit] of Hart85 as a function of its bound arguments (see HartRunModel.v):
    the other parameters have their defaults. *)
From Verif Require Import HartModel SteadyModel ClusterModel HartRunModel.
Definition hart_data := ((HartModel.ac * list (Z * Q)) * list (string * list Q))%type.
Definition argument (b : bound) (name : string) (default : Q) : Q := match get b name with Some n => inject_Z (Z.of_nat n) | None => default end.
Definition hart_params (b : bound) : params :=
  mkParams (match get b "buffer_size" with Some n => n | None => 20 end) (argument b "noise_level" 70) (argument b "state_threshold" 15)
           (argument b "min_tolerance" 100) (argument b "percent_tolerance" (35 # 1000)) (argument b "large_transition" 1000).
(** The i-th appliance with its data in all houses (api.py:231-236). *)
Definition collect (ds : list hart_data) : list (string * list (list Q)) :=
  match ds with
  | [] => []
  | d :: _ => map (fun i => (match nth_error (snd d) i with Some a => fst a | None => ""%string end,
                             flat_map (fun x => match nth_error (snd x) i with Some a => [snd a] | None => [] end) ds)) (seq 0 (length (snd d)))
  end.
Definition hart_fit (mean_shift : list (list Q) -> list (list Q)) (s : hart) (b : bound) (ds : list hart_data) : hart * option exn :=
  partial_fit mean_shift (hart_params b) s (map fst ds) (collect ds).

(** combinatorial_optimisation.py:49-87, [partial_fit] of CO: appliances that are already
    in the model are not trained again.  [cluster] is feature_detectors/cluster.py with the
    largest number of clusters; data: the readings of each appliance in one item. *)
Definition co_state := list (string * list Z).
Definition co_data := list (string * list Q).
Definition co_collect (ds : list co_data) : list (string * list Q) :=
  match ds with
  | [] => []
  | d :: _ => map (fun i => (match nth_error d i with Some a => fst a | None => ""%string end,
                             flat_map (fun x => match nth_error x i with Some a => snd a | None => [] end) ds)) (seq 0 (length d))
  end.
Definition co_fit (cluster : nat -> list Q -> list Z) (s : co_state) (b : bound) (ds : list co_data) : co_state * option exn :=
  match ds with
  | [] => (s, Some ValueError)
  | _ =>
      let apps := co_collect ds in
      let k := if 12 <? length apps then 2 else 3 in
      let known := map fst s in
      (s ++ flat_map (fun a => if existsb (String.eqb (fst a)) known then [] else [(fst a, cluster k (snd a))]) apps, None)
  end.
