(** Model of a joint experiment in nilmtk/api.py: [train_jointly],
    [test_jointly], [test_chunk_wise], [call_predict], [predict] and
    [compute_loss], on top of [dropna] and the artificial aggregate of
    ApiModel.

    Simplifications:
    - [site_only] and [display_predictions] are unset;
    - what [mains().load(...)] and [elec[name].load(...)] yield is given as
      lists of frames; a frame without rows has no columns ([pd.DataFrame()]);
    - [disaggregate_chunk] is a function from the frame of test mains to the
      columns (appliance name and values) of the concatenated predictions; it
      does not change the model it belongs to;
    - a loss function is any function of the two series; [globals()[metric]]
      is the lookup [loss];
    - [errors] and [errors_keys], which are always extended together, are one
      list; a key is the house (and chunk number), not its text. *)
From Coq Require Import String.
From Verif Require Import Base ApiModel.
Import List.
Open Scope list_scope.
Open Scope Z_scope.

Record house (K : Type) := mkHouse {
  h_key : K;                           (* data set and building *)
  h_mains : list frame;
  h_app : string -> list frame
}.
Arguments mkHouse {K} _ _ _.
Arguments h_key {K} _.
Arguments h_mains {K} _.
Arguments h_app {K} _ _.

(** [next(generator)] *)
Definition next {X} (l : list X) : res X := match l with [] => Err StopIteration | x :: _ => Ok x end.

(** [df[[list(df.columns)[0]]]]: the first column, IndexError if there is no
    column. *)
Definition first_column (f : frame) : res frame :=
  match f with
  | [] => Err IndexError
  | _ => mapM (fun r => match snd r with [] => Err IndexError | v :: _ => Ok (fst r, [v]) end) f
  end.

(** api.py:221-229, 261-268 (and 178-184): missing values dropped and the aggregate built, if
    asked for. *)
Definition prepare (drop aggregate : bool) (mains : frame) (apps : list frame) : res (frame * list frame) :=
  do (mains, apps) <- (if drop then do (m, a, _) <- dropna mains apps; Ok (m, a) else Ok (mains, apps));
  do mains <- (if aggregate then artificial_aggregate apps else Ok mains);
  Ok (mains, apps).

(** ** Training *)

(** api.py:211-229: one building. *)
Definition train_house {K} (drop aggregate : bool) (names : list string) (h : house K) : res (frame * list frame) :=
  do m <- next (h_mains h);
  do m <- first_column m;
  do apps <- mapM (fun n => do a <- next (h_app h n); first_column a) names;
  prepare drop aggregate m apps.

(** [self.train_submeters[i].append(appliance_readings[i])] for all [i]. *)
Fixpoint append_each {X} (lists : list (list X)) (xs : list X) : list (list X) :=
  match lists, xs with
  | l :: ls, x :: xs => (l ++ [x]) :: append_each ls xs
  | _, _ => lists
  end.

(** api.py:199-240, [train_jointly]: the arguments of [partial_fit]. *)
Definition train_jointly {K} (drop aggregate : bool) (names : list string) (houses : list (house K))
  : res (list frame * list (string * list frame)) :=
  do (mains, subs) <- foldM (fun st h =>
      do (m, apps) <- train_house drop aggregate names h;
      Ok (fst st ++ [m], append_each (snd st) apps)) houses ([], map (fun _ => []) names);
  Ok (mains, combine names subs).

(** ** Testing *)
Notation series := (list (Z * option Z)) (only parsing).
Notation predicted := (list (Z * Z)) (only parsing).

(** [gt[meter] = ...] *)
Fixpoint dict_set {V} (n : string) (v : V) (d : list (string * V)) : list (string * V) :=
  match d with
  | [] => [(n, v)]
  | (n', v') :: r => if String.eqb n n' then (n', v) :: r else (n', v') :: dict_set n v r
  end.
Fixpoint lookup {V} (n : string) (d : list (string * V)) : option V :=
  match d with
  | [] => None
  | (n', v) :: r => if String.eqb n n' then Some v else lookup n r
  end.

(** api.py:382-384: [pd.Series(df.values.flatten(), index=df.index)];
    ValueError unless every row has one cell. *)
Definition series_of (f : frame) : res series :=
  if forallb (fun r => Nat.eqb (length (snd r)) 1) f then Ok (map (fun r => (fst r, hd None (snd r))) f)
  else Err ValueError.

(** api.py:380-386: the ground truth.  A later entry of [test_submeters] with
    the same name replaces an earlier one. *)
Definition truth_of (subs : list (string * frame)) : res (list (string * series)) :=
  foldM (fun d s => do v <- series_of (snd s); Ok (dict_set (fst s) v d)) subs [].
Definition gt_index (d : list (string * series)) : list Z := union_index (map (fun e => map fst (snd e)) d).
Definition gt_table (d : list (string * series)) : list (string * series) :=
  map (fun e => (fst e, map (fun t => (t, truth_at (snd e) t)) (gt_index d))) d.

(** api.py:363-406, [predict]. *)
Definition predict_named (subs : list (string * frame)) (columns : list (string * list Z))
  : res (list (string * series) * list (string * predicted)) :=
  do d <- truth_of subs;
  let gt := gt_table d in
  do pred <- mapM (fun c => match lookup (fst c) gt with
                            | None => Err KeyError
                            | Some g => do s <- series_with (firstn (length g) (snd c)) (gt_index d); Ok (fst c, s)
                            end) columns;
  Ok (gt, pred).

Section Losses.
Context {L : Type}.
Variable loss : string -> option (series -> predicted -> L).

(** api.py:410-414, [compute_loss]. *)
Definition compute_loss (gt : list (string * series)) (pred : list (string * predicted)) (f : series -> predicted -> L)
  : res (list (string * L)) :=
  mapM (fun g => match lookup (fst g) pred with
                 | None => Err KeyError
                 | Some p => Ok (fst g, f (snd g) p)
                 end) gt.

Notation classifier := (string * (frame -> list (string * list Z)))%type (only parsing).
Notation report := (string * list (string * list (string * L)))%type (only parsing).

(** api.py:328-330: [gt_overall.size == 0]. *)
Definition no_samples (gt : list (string * series)) : bool :=
  match gt with [] => true | (_, s) :: _ => match s with [] => true | _ => false end end.

(** api.py:314-345, [call_predict]: for each supported metric, the losses of
    each classifier for each appliance.  Without classifiers [gt_overall] is a
    dict, which has no [size]. *)
Definition call_predict (metrics : list string) (classifiers : list classifier)
  (mains : frame) (subs : list (string * frame)) : res (list report) :=
  do results <- mapM (fun c => do gp <- predict_named subs (snd c mains); Ok (fst c, gp)) classifiers;
  match last_opt results with
  | None => Err AttributeError
  | Some (_, (gt, _)) =>
      if no_samples gt then Ok []
      else foldM (fun acc m =>
             match loss m with
             | None => Ok acc
             | Some f =>
                 do table <- mapM (fun r => do row <- compute_loss gt (snd (snd r)) f; Ok (fst r, row)) results;
                 Ok (acc ++ [(m, table)])
             end) metrics []
  end.

(** api.py:243-274, [test_jointly]: [test_submeters] is extended by every
    building and never reset. *)
Definition test_house {K} (drop aggregate : bool) (names metrics : list string) (classifiers : list classifier)
  (st : list (string * frame) * list (K * report)) (h : house K) : res (list (string * frame) * list (K * report)) :=
  do m <- next (h_mains h);
  do apps <- mapM (fun n => next (h_app h n)) names;
  do (m, apps) <- prepare drop aggregate m apps;
  let subs := fst st ++ combine names apps in
  do reports <- call_predict metrics classifiers m subs;
  Ok (subs, snd st ++ map (fun r => (h_key h, r)) reports).
Definition test_jointly {K} (drop aggregate : bool) (names metrics : list string) (classifiers : list classifier)
  (houses : list (house K)) : res (list (K * report)) :=
  do st <- foldM (test_house drop aggregate names metrics classifiers) houses ([], []);
  Ok (snd st).

(** api.py:156-196, [test_chunk_wise] for one building: chunk [k] of the mains
    with chunk [k] of every appliance (an empty frame if there is none). *)
Fixpoint test_chunks {K} (drop aggregate : bool) (names metrics : list string) (classifiers : list classifier)
  (h : house K) (k : nat) (mains : list frame) : res (list (K * nat * report)) :=
  match mains with
  | [] => Ok []
  | m :: rest =>
      do (m', apps) <- prepare drop aggregate m (map (fun n => nth_chunk (h_app h n) k) names);
      do reports <- call_predict metrics classifiers m' (combine names apps);
      do others <- test_chunks drop aggregate names metrics classifiers h (S k) rest;
      Ok (map (fun r => (h_key h, k, r)) reports ++ others)
  end.
Definition test_chunk_wise {K} (drop aggregate : bool) (names metrics : list string) (classifiers : list classifier)
  (houses : list (house K)) : res (list (K * nat * report)) :=
  do l <- mapM (fun h => test_chunks drop aggregate names metrics classifiers h 0 (h_mains h)) houses;
  Ok (concat l).
End Losses.
