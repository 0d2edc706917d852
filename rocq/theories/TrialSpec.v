(** Vocabulary for the course of an experiment. *)
From Coq Require Import String QArith.
From Verif Require Import Base TrialModel.
Import List. Open Scope list_scope. Open Scope nat_scope.

Section Spec.
Context {S D P H : Type}.
Notation clf := (clf S D P).
Notation house := (house D H).
Notation config := (config D H).

(** A series of successful calls of [partial_fit]: the further arguments and the data of
    each. *)
Inductive fits (f : S -> bound -> list D -> S * option exn) : S -> list (bound * list D) -> S -> Prop :=
| fits_none s : fits f s [] s
| fits_call s b ds s1 r s2 : f s b ds = (s1, None) -> fits f s1 r s2 -> fits f s ((b, ds) :: r) s2.

(** 'chunk_size' is given. *)
Definition by_chunks (cfg : config) : Prop := exists n, c_chunk cfg = Some n /\ n <> 0.

(** The calls that an experiment makes for a classifier.  A pretrained one is not
    trained; otherwise there is one call with the data of all houses, or, chunk by chunk,
    a call for each epoch, house and chunk, with the number of the epoch as the first
    parameter after the data. *)
Inductive training (cfg : config) (c : clf) : list (bound * list D) -> Prop :=
| t_pretrained : k_pretrained c = Some true -> training cfg c []
| t_joint ds : k_pretrained c <> Some true -> ~ by_chunks cfg \/ k_chunkwise c = Some false ->
    Forall2 (fun h d => h_first h = Ok d) (c_train cfg) ds -> training cfg c [([], ds)]
| t_chunks n p : k_pretrained c <> Some true -> by_chunks cfg -> k_chunkwise c = Some true ->
    (match k_epochs c with Some k => n = k | None => n = 1 end) ->
    Forall (fun h => snd (h_chunks h) = None) (c_train cfg) \/ n = 0 ->
    (exists r, k_extra c = p :: r) \/ n = 0 \/ Forall (fun h => fst (h_chunks h) = []) (c_train cfg) ->
    training cfg c (flat_map (fun epoch => flat_map (fun h => map (fun d => ([(p, epoch)], [d])) (fst (h_chunks h))) (c_train cfg)) (seq 0 n)).

(** Nothing but the state and the number of epochs of a classifier changes. *)
Definition same_class (c c' : clf) : Prop :=
  k_extra c' = k_extra c /\ k_pretrained c' = k_pretrained c /\ k_chunkwise c' = k_chunkwise c /\ k_fit c' = k_fit c /\ k_predict c' = k_predict c.

(** The predictions of the objects for one item; the results for one house. *)
Definition predicted (heap : list clf) (ms : list (string * nat)) (d : D) (ps : list (string * P)) : Prop :=
  Forall2 (fun m p => fst p = fst m /\ exists c, nth_error heap (snd m) = Some c /\ k_predict c (k_state c) d = Ok (snd p)) ms ps.
Inductive house_results (cfg : config) (heap : list clf) (h : house) : results P H -> Prop :=
| hr_joint d ps : ~ by_chunks cfg -> h_first h = Ok d -> predicted heap (c_methods cfg) d ps -> house_results cfg heap h [(h_key h, None, ps)]
| hr_chunks rs : by_chunks cfg -> snd (h_chunks h) = None -> length rs = length (fst (h_chunks h)) ->
    (forall i d, nth_error (fst (h_chunks h)) i = Some d -> exists ps, nth_error rs i = Some (h_key h, Some i, ps) /\ predicted heap (c_methods cfg) d ps) ->
    house_results cfg heap h rs.

(** The experiment with one of its methods only, and the results of that method. *)
Definition only (cfg : config) (m : string * nat) : config := mkConfig (c_chunk cfg) (c_train cfg) (c_test cfg) [m].
Definition of_method (name : string) (rs : results P H) : results P H :=
  map (fun r => (fst r, filter (fun p => String.eqb (fst p) name) (snd r))) rs.

(** There is something to train on: the first chunk that can be loaded. *)
Definition some_chunk (hs : list house) : Prop :=
  exists pre h post d ds, hs = pre ++ h :: post /\ Forall (fun x => h_chunks x = ([], None)) pre /\ fst (h_chunks h) = d :: ds.
(** The classifier is to be trained chunk by chunk. *)
Definition chunkwise (cfg : config) (c : clf) : Prop :=
  by_chunks cfg /\ k_pretrained c <> Some true /\ k_chunkwise c = Some true /\ k_epochs c <> Some 0.
End Spec.
