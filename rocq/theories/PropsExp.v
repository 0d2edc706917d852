(** C62: joint and chunk-wise experiments. *)
From Coq Require Import String.
From Verif Require Import Base ApiModel ApiSpec ExpModel ExpSpec ExpProofs ExpProofs2.
Import List.
Open Scope list_scope.
Open Scope Z_scope.

(** *** Concrete data for the examples *)
(** Loss: total absolute error. *)
Definition ex_loss (m : string) : option (list (Z * option Z) -> list (Z * Z) -> Z) :=
  if String.eqb m "total"%string
  then Some (fun t p => sumZ (map (fun e => Z.abs (match snd (fst e) with Some v => v | None => 0 end - snd (snd e))) (combine t p)))
  else None.
(** A classifier that gives the fridge and the kettle a third and two thirds, padded. *)
Definition ex_third (f : frame) : list (string * list Z) :=
  let value k r := match snd r with [Some v] => k * v / 3 | _ => 0 end in
  [("kettle"%string, map (value 2) f ++ [0]); ("fridge"%string, map (value 1) f)].
Definition ex_app (f k : frame) (n : string) : list frame := if String.eqb n "fridge"%string then [f] else [k; [(9, [Some 1])]].
Definition ex_h1 : house nat := mkHouse 1%nat [[(0, [Some 30]); (1, [None]); (2, [Some 60])]; [(9, [Some 1])]]
  (ex_app [(0, [Some 10]); (1, [Some 5]); (2, [Some 10])] [(0, [Some 20]); (2, [Some 50])]).
Definition ex_h2 : house nat := mkHouse 2%nat [[(5, [Some 3])]] (ex_app [(5, [Some 1])] [(5, [Some 1])]).
Definition ex_names := ["fridge"; "kettle"]%string.

(** Testing on several houses is testing on each of them separately: the errors
    are those of the single tests, in order, and the first failing test is the
    failure.  (Although [test_submeters] still holds the meters of the earlier
    houses.) *)
Theorem C62_independent {L K} loss drop agg names metrics cl (hs : list (house K)) :
  test_jointly (L := L) loss drop agg names metrics cl hs =
  do es <- mapM (fun h => test_jointly loss drop agg names metrics cl [h]) hs; Ok (concat es).
Proof. exact (test_independent loss drop agg names metrics cl hs). Qed.
Print Assumptions C62_independent.
Example C62_independent_met : test_jointly ex_loss true false ex_names ["total"; "none"]%string [("third"%string, ex_third)] [ex_h1; ex_h2] =
  Ok [(1%nat, ("total", [("third", [("fridge", 10); ("kettle", 10)])])); (2%nat, ("total", [("third", [("fridge", 0); ("kettle", 1)])]))]%string.
Proof. reflexivity. Qed.

(** Chunk-wise testing is testing every chunk as a house of its own. *)
Theorem C62_chunks {L K} loss drop agg names metrics cl (hs : list (house K)) :
  test_chunk_wise (L := L) loss drop agg names metrics cl hs = test_jointly loss drop agg names metrics cl (flat_map chunk_houses hs).
Proof. exact (test_chunk_wise_spec loss drop agg names metrics cl hs). Qed.
Print Assumptions C62_chunks.
Example C62_chunks_met : length (flat_map chunk_houses [ex_h1; ex_h2]) = 3%nat /\
  test_chunk_wise ex_loss true false ex_names ["total"]%string [("third"%string, ex_third)] [ex_h1; ex_h2] =
  Ok [(1%nat, 0%nat, ("total", [("third", [("fridge", 10); ("kettle", 10)])])); (2%nat, 0%nat, ("total", [("third", [("fridge", 0); ("kettle", 1)])]))]%string.
Proof. split; reflexivity. Qed.

(** The test on one house (missing values dropped): one report for every
    supported metric, in it every classifier, in it every appliance of the
    experiment, with the loss of the true readings and the predictions at
    exactly the timestamps at which mains and all appliances have a reading. *)
Theorem C62_house {L K} (loss : string -> option (list (Z * option Z) -> list (Z * Z) -> L)) agg names metrics cl (h : house K) :
  NoDup names -> names <> [] -> cl <> [] -> (forall c, In c cl -> predicts names (snd c)) -> testable names h ->
  exists reports, test_jointly loss true agg names metrics cl [h] = Ok (map (fun r => (h_key h, r)) reports) /\
    faithful loss agg names metrics cl (first_chunk (h_mains h)) (fun n => first_chunk (h_app h n)) reports.
Proof. exact (test_house_faithful loss agg names metrics cl h). Qed.
Print Assumptions C62_house.
Example C62_house_met : NoDup ex_names /\ predicts ex_names ex_third /\ testable ex_names ex_h1.
Proof.
  split; [repeat constructor; cbn; intros H; repeat (destruct H as [H|H]; try discriminate); destruct H|]. split.
  - intros f. cbn [ex_third map fst]. split; [repeat constructor; cbn; intros H; repeat (destruct H as [H|H]; try discriminate); destruct H|]. split; [intros n; cbn; tauto|].
    intros n vs [H|[H|[]]]; injection H as _ <-; [rewrite app_length|]; rewrite map_length; cbn [length]; first [apply Nat.le_add_r|apply le_n].
  - split; [discriminate|]. split; [cbn; repeat split; intros y H; repeat (destruct H as [H|H]; [subst; reflexivity|]); destruct H|].
    intros n [<-|[<-|[]]]; (split; [discriminate|]; split; [cbn; repeat split; intros y H; repeat (destruct H as [H|H]; [subst; reflexivity|]); destruct H|]);
      intros r H; cbn in H; repeat (destruct H as [<-|H]; [reflexivity|]); destruct H.
Qed.

(** Joint training: the [k]-th frame of the mains and of every appliance hold
    the readings of house [k], at the same timestamps, namely those at which the
    first columns of mains and all appliances have a reading. *)
Theorem C62_train {K} agg names (hs : list (house K)) : names <> [] -> (forall h, In h hs -> trainable names h) ->
  exists mains subs, train_jointly true agg names hs = Ok (mains, combine names subs) /\ length mains = length hs /\ length subs = length names /\
    (forall i l, nth_error subs i = Some l -> length l = length hs) /\
    forall k h, nth_error hs k = Some h -> exists ix given, nth_error mains k = Some given /\ rising ix /\
      (forall t, In t ix <-> usable (column_one (first_chunk (h_mains h))) (map (fun n => column_one (first_chunk (h_app h n))) names) t) /\
      given_mains agg (column_one (first_chunk (h_mains h))) (map (fun n => column_one (first_chunk (h_app h n))) names) ix given /\
      forall i n l, nth_error names i = Some n -> nth_error subs i = Some l -> exists f, nth_error l k = Some f /\ restricted (column_one (first_chunk (h_app h n))) ix f.
Proof. exact (train_spec agg names hs). Qed.
Print Assumptions C62_train.
Example C62_train_met : (forall h, In h [ex_h1; ex_h2] -> trainable ex_names h) /\
  train_jointly true true ex_names [ex_h1; ex_h2] =
  Ok ([[(0, [Some 30]); (2, [Some 60])]; [(5, [Some 2])]],
      [("fridge", [[(0, [Some 10]); (2, [Some 10])]; [(5, [Some 1])]]); ("kettle", [[(0, [Some 20]); (2, [Some 50])]; [(5, [Some 1])]])]%string).
Proof.
  split; [|reflexivity].
  intros h [<-|[<-|[]]]; (split; [|intros n [<-|[<-|[]]]]); eexists; eexists; (split; [reflexivity|]); (split; [discriminate|]);
    (split; [cbn; repeat split; intros y H; repeat (destruct H as [H|H]; [subst; reflexivity|]); destruct H|]); intros r H; cbn in H; repeat (destruct H as [<-|H]; [discriminate|]); destruct H.
Qed.

(** A test should use all the data of the window.  It uses the first chunk of
    each load only: nothing in later chunks changes the result. *)
Theorem C62_later_chunks_refuted {L K} (loss : string -> option (list (Z * option Z) -> list (Z * Z) -> L)) drop agg names metrics cl (key : K) m (a : string -> frame) rest later :
  test_jointly loss drop agg names metrics cl [mkHouse key (m :: rest) (fun n => a n :: later n)] =
  test_jointly loss drop agg names metrics cl [mkHouse key [m] (fun n => [a n])].
Proof. reflexivity. Qed.
Print Assumptions C62_later_chunks_refuted.

(** A classifier that also predicts an appliance which is not in the experiment
    (such as a pre-trained one) makes the test fail. *)
Theorem C62_extra_refuted {L K} (loss : string -> option (list (Z * option Z) -> list (Z * Z) -> L)) agg names metrics cn g cl (h : house K) :
  NoDup names -> names <> [] -> testable names h ->
  (forall f, (exists n vs, In (n, vs) (g f) /\ ~ In n names) /\ forall n vs, In (n, vs) (g f) -> (length f <= length vs)%nat) ->
  test_jointly loss true agg names metrics ((cn, g) :: cl) [h] = Err KeyError.
Proof. exact (test_house_extra loss agg names metrics cn g cl h). Qed.
Print Assumptions C62_extra_refuted.
Example C62_extra_met : test_jointly ex_loss true false ["fridge"]%string ["total"]%string [("third"%string, ex_third)] [ex_h1] = Err KeyError.
Proof. reflexivity. Qed.

(** Without classifiers the test fails, whatever the data, as soon as the data
    of a house have been loaded. *)
Theorem C62_no_classifier_refuted {L K} (loss : string -> option (list (Z * option Z) -> list (Z * Z) -> L)) drop agg names metrics (h : house K) hs m apps m' apps' :
  next (h_mains h) = Ok m -> mapM (fun n => next (h_app h n)) names = Ok apps -> prepare drop agg m apps = Ok (m', apps') ->
  test_jointly loss drop agg names metrics [] (h :: hs) = Err AttributeError.
Proof. exact (test_house_none loss drop agg names metrics h hs m apps m' apps'). Qed.
Print Assumptions C62_no_classifier_refuted.
Example C62_no_classifier_met : exists m apps p, next (h_mains ex_h1) = Ok m /\ mapM (fun n => next (h_app ex_h1 n)) ex_names = Ok apps /\ prepare true true m apps = Ok p.
Proof. do 3 eexists. split; [reflexivity|]. split; reflexivity. Qed.
