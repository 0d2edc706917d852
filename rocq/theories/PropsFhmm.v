(** Property theorems about the factorial HMM (C41, C50). *)
From Verif Require Import Base FhmmModel FhmmSpec FhmmProofs FhmmSortProofs FhmmFitProofs.
From Coq Require Import QArith Sorted Permutation.
Open Scope nat_scope.

(** C41: decoding a state of the combined model gives, for each appliance, the
    state whose mean, initial probability and transition probabilities went
    into that combined state. *)
Theorem C41_combination : forall C ns (model : list (hmm C)) centroids,
  model <> [] -> Forall (fun n => 0 < n) ns ->
  Forall2 (fun n (h : hmm C) => shaped n (startprob h) (transmat h) (means h)) ns model ->
  map (@length Z) centroids = ns ->
  exists pi A mu, create_combined_hmm model = Ok (pi, A, mu) /\
    length pi = size ns /\ length A = size ns /\ length mu = size ns /\
    forall k, k < size ns -> exists d, decode_one centroids k = Ok d /\
      picks centroids (map fst d) (map snd d) /\
      (exists m ms, nth_error mu k = Some m /\ picks (map means model) (map fst d) ms /\ m = sum ms) /\
      (exists p ps, nth_error pi k = Some p /\ picks (map startprob model) (map fst d) ps /\ (p == prod ps)%Q) /\
      (forall k', k' < size ns -> exists d' row x rows xs, decode_one centroids k' = Ok d' /\
         nth_error A k = Some row /\ length row = size ns /\ nth_error row k' = Some x /\
         picks (map transmat model) (map fst d) rows /\ picks rows (map fst d') xs /\ (x == prod xs)%Q).
Proof. exact @combined_thm. Qed.
Print Assumptions C41_combination.

(** C41: every tuple of appliance states is decoded from exactly one combined
    state. *)
Theorem C41_bijection : forall centroids js, Forall2 (fun j (c : list Z) => j < length c) js centroids ->
  exists k, k < size (map (@length Z) centroids) /\ (exists d, decode_one centroids k = Ok d /\ map fst d = js) /\
    forall k' d', k' < size (map (@length Z) centroids) -> decode_one centroids k' = Ok d' -> map fst d' = js -> k' = k.
Proof. exact bijection_thm. Qed.
Print Assumptions C41_bijection.

(** C41: combining distributions gives distributions. *)
Theorem C41_stochastic : forall C (model : list (hmm C)) pi A mu,
  Forall (fun h => distribution (startprob h) /\ Forall distribution (transmat h)) model ->
  create_combined_hmm model = Ok (pi, A, mu) -> distribution pi /\ Forall distribution A.
Proof. exact @stochastic_thm. Qed.
Print Assumptions C41_stochastic.

(** Two appliances with two and three states. *)
Definition h2 : hmm unit := mkHmm [1#4; 3#4]%Q [inject_Z 0; inject_Z 100] [tt; tt] [[1#2; 1#2]; [1#3; 2#3]]%Q.
Definition h3 : hmm unit := mkHmm [1#2; 1#4; 1#4]%Q [inject_Z 0; inject_Z 7; inject_Z 40] [tt; tt; tt] [[1#1; 0#1; 0#1]; [0#1; 1#1; 0#1]; [1#2; 1#4; 1#4]]%Q.
Example C41_met :
  Forall2 (fun n h => shaped n (startprob h) (transmat h) (means h)) [2; 3] [h2; h3] /\
  Forall (fun h => distribution (startprob h) /\ Forall distribution (transmat h)) [h2; h3] /\
  match create_combined_hmm [h2; h3] with
  | Ok (pi, A, mu) => Forall2 Qeq mu (map inject_Z [0; 7; 40; 100; 107; 140]%Z) /\ Forall2 Qeq pi [1#8; 1#16; 1#16; 3#8; 3#16; 3#16]%Q
  | Err _ => False
  end /\
  decode_one [[0; 100]; [0; 7; 40]]%Z 5 = Ok [(1, 100%Z); (2, 40%Z)] /\ decode_one [[0; 100]; [0; 7; 40]]%Z 3 = Ok [(1, 100%Z); (0, 0%Z)].
Proof.
  split; [repeat constructor|]. split; [|split; [cbn; split; repeat constructor|split; reflexivity]].
  repeat constructor; cbn; try reflexivity; try discriminate.
Qed.

(** C41: sorting by mean applies one permutation of the states to every
    parameter, provided the means are different. *)
Theorem C41_sorting_partial : forall C n (h : hmm C),
  shaped n (startprob h) (transmat h) (means h) -> length (covars h) = n -> distinct (means h) ->
  exists m h', sort_learnt_parameters h = Ok h' /\ Permutation m (seq 0 n) /\ StronglySorted Qle (means h') /\
    reordered m (means h) (means h') /\ reordered m (startprob h) (startprob h') /\ reordered m (covars h) (covars h') /\
    Forall2 (fun i r' => exists r, nth_error (transmat h) i = Some r /\ reordered m r r') m (transmat h').
Proof. exact @sort_distinct. Qed.
Print Assumptions C41_sorting_partial.
Definition h3u : hmm nat := mkHmm [1#2; 1#4; 1#4]%Q [inject_Z 40; inject_Z 0; inject_Z 7] [1; 2; 3] [[1#1; 0#1; 0#1]; [0#1; 1#1; 0#1]; [1#2; 1#8; 3#8]]%Q.
Example C41_sorting_met : shaped 3 (startprob h3u) (transmat h3u) (means h3u) /\ distinct (means h3u) /\
  sort_learnt_parameters h3u =
    Ok (mkHmm [1#4; 1#4; 1#2]%Q [inject_Z 0; inject_Z 7; inject_Z 40] [2; 3; 1] [[1#1; 0#1; 0#1]; [1#8; 3#8; 1#2]; [0#1; 0#1; 1#1]]%Q).
Proof.
  split; [repeat constructor|]. split; [|reflexivity]. intros i j x y Hi Hj E.
  destruct i as [|[|[|i]]]; destruct j as [|[|[|j]]]; cbn in Hi, Hj; try reflexivity; try (destruct i; discriminate); try (destruct j; discriminate); injection Hi as <-; injection Hj as <-; discriminate E.
Qed.

(** C41: in general the means are sorted, but the other parameters of states with
    equal means are all taken from the first of them. *)
Theorem C41_sorting_general : forall C n (h : hmm C),
  shaped n (startprob h) (transmat h) (means h) -> length (covars h) = n ->
  exists m h', sort_learnt_parameters h = Ok h' /\ StronglySorted Qle (means h') /\ Permutation (means h') (means h) /\
    length m = n /\ Forall (fun i => i < n) m /\
    Forall2 (fun v i => exists x, nth_error (means h) i = Some x /\ (v == x)%Q) (means h') m /\
    reordered m (startprob h) (startprob h') /\ reordered m (covars h) (covars h') /\
    Forall2 (fun i r' => exists r, nth_error (transmat h) i = Some r /\ reordered m r r') m (transmat h').
Proof. exact @sort_thm. Qed.
Print Assumptions C41_sorting_general.
Theorem C41_ties_refuted : exists (h h' : hmm unit), shaped 2 (startprob h) (transmat h) (means h) /\
  distribution (startprob h) /\ Forall distribution (transmat h) /\
  sort_learnt_parameters h = Ok h' /\ ~ distribution (startprob h') /\ ~ Permutation (startprob h') (startprob h).
Proof.
  exists (mkHmm [1#4; 3#4]%Q [inject_Z 5; inject_Z 5] [tt; tt] [[1#2; 1#2]; [1#3; 2#3]]%Q). eexists.
  split; [repeat constructor|]. split; [split; [repeat constructor; discriminate|reflexivity]|]. split; [repeat constructor; discriminate|]. split; [reflexivity|]. cbn. split.
  - intros [_ H]. discriminate H.
  - intros H. assert (K : In (3#4)%Q [(1#4)%Q; (1#4)%Q]) by (eapply Permutation_in; [symmetry; exact H|right; left; reflexivity]). destruct K as [K|[K|[]]]; discriminate.
Qed.
Print Assumptions C41_ties_refuted.

(** C41: no appliance at all. *)
Theorem C41_no_model : forall C, create_combined_hmm (C := C) [] = Err IndexError.
Proof. reflexivity. Qed.
Print Assumptions C41_no_model.

(** C50: training keeps the appliances that have samples, in order, each with its
    own fitted and sorted model. *)
Theorem C50_training : forall C (fit : nat -> list Q -> res (hmm C)) self train self', NoDup (map fst train) ->
  partial_fit fit self train = Ok self' ->
  app_names self' = app_names self ++ map fst train /\
  Forall2 (fun x kv => fst kv = fst x /\ exists h, fit (fst x) (samples (snd x)) = Ok h /\ sort_learnt_parameters h = Ok (snd kv))
    (filter has_samples train) (individual self') /\
  exists c, create_combined_hmm (map snd (individual self')) = Ok c /\ combined self' = Some c.
Proof. exact @fit_thm. Qed.
Print Assumptions C50_training.

(** C50: an appliance that is named several times has one model, learnt from the
    last of its data that have samples. *)
Theorem C50_repeated : forall C (fit : nat -> list Q -> res (hmm C)) self train self', partial_fit fit self train = Ok self' ->
  NoDup (map fst (individual self')) /\
  (forall name, In name (map fst (individual self')) <-> In name (map fst (filter has_samples train))) /\
  forall name m, In (name, m) (individual self') -> exists before data after h, train = before ++ (name, data) :: after /\
    has_samples (name, data) = true /\ ~ In name (map fst (filter has_samples after)) /\
    fit name (samples data) = Ok h /\ sort_learnt_parameters h = Ok m.
Proof. exact @retrained_thm. Qed.
Print Assumptions C50_repeated.
Example C50_repeated_met :
  match partial_fit (fun name data => Ok (if length data =? 1 then h2 else h3)) (mkFhmm [] [] None)
    [(1, [Some (inject_Z 5)]); (1, [Some (inject_Z 6); Some (inject_Z 7)]); (1, [None])] with
  | Ok self => map fst (individual self) = [1] /\ map (fun kv : nat * hmm unit => length (means (snd kv))) (individual self) = [3]
  | Err _ => False
  end.
Proof. split; reflexivity. Qed.

(** C50: each prediction is the rounded mean of the appliance's state, the states
    being those whose means add up to the mean of the predicted combined state. *)
Theorem C50_predictions : forall C ns (self : fhmm C) predict mains, individual self <> [] -> Forall (fun n => 0 < n) ns ->
  Forall2 (fun n (kv : nat * hmm C) => shaped n (startprob (snd kv)) (transmat (snd kv)) (means (snd kv)) /\ StronglySorted Qle (means (snd kv)))
    ns (individual self) ->
  mains <> [] -> Forall (fun s => s < size ns) (predict (map snd mains)) -> length (predict (map snd mains)) = length mains ->
  exists pi A mu rows, create_combined_hmm (map snd (individual self)) = Ok (pi, A, mu) /\
    disaggregate_one predict self mains = Ok (map Z.of_nat (seq 0 (length mains)), map fst (individual self), rows) /\
    Forall2 (fun s row => exists js ms, nth_error mu s = Some (sum ms) /\
               picks (map (fun kv => means (snd kv)) (individual self)) js ms /\
               Forall2 (fun m c => exists z, c = Some z /\ rounded m z) ms row) (predict (map snd mains)) rows.
Proof. exact @predict_rounded_thm. Qed.
Print Assumptions C50_predictions.

Definition trained : res (fhmm unit) :=
  partial_fit (fun name _ => Ok (if name =? 1 then h2 else h3)) (mkFhmm [] [] None)
    [(1, [Some (inject_Z 5)]); (2, [None]); (3, [None; Some (inject_Z 7)])].
Example C50_met : exists self, trained = Ok self /\ map fst (individual self) = [1; 3] /\
  Forall2 (fun n (kv : nat * hmm unit) => shaped n (startprob (snd kv)) (transmat (snd kv)) (means (snd kv)) /\ StronglySorted Qle (means (snd kv))) [2; 3] (individual self) /\
  disaggregate_one (fun _ => [5; 3]) self [(100%Z, inject_Z 141); (160%Z, inject_Z 99)] =
    Ok ([0%Z; 1%Z], [1; 3], [[Some 100%Z; Some 40%Z]; [Some 100%Z; Some 0%Z]]).
Proof.
  eexists. split; [reflexivity|]. cbn. split; [reflexivity|]. split; [|reflexivity].
  repeat constructor; cbn; discriminate.
Qed.

(** C50: the predictions do not carry the time stamps of the mains. *)
Theorem C50_index_refuted : exists (self : fhmm unit) predict mains out, trained = Ok self /\
  disaggregate_one predict self mains = Ok out /\ length (fst (fst out)) = length mains /\ fst (fst out) <> map fst mains.
Proof.
  eexists. exists (fun _ => [5; 3]), [(100%Z, inject_Z 141); (160%Z, inject_Z 99)]. eexists. split; [reflexivity|]. split; [reflexivity|]. cbn. split; [reflexivity|discriminate].
Qed.
Print Assumptions C50_index_refuted.

(** C50: an appliance without samples is a column of the prediction for an empty
    chunk only. *)
Theorem C50_columns_refuted : exists (self : fhmm unit) predict mains out1 out2, trained = Ok self /\
  disaggregate_chunk predict self [[]; mains] = Ok [out1; out2] /\ snd (fst out1) <> snd (fst out2).
Proof.
  eexists. exists (fun _ => [5]), [(100%Z, inject_Z 141)]. do 2 eexists. split; [reflexivity|]. split; [reflexivity|]. cbn. discriminate.
Qed.
Print Assumptions C50_columns_refuted.
