(** Vocabulary for experiments: what a report on a house says. *)
From Coq Require Import String.
From Verif Require Import Base ApiModel ApiSpec ExpModel.
Import List.
Open Scope list_scope.
Open Scope Z_scope.

(** The frame the first chunk of a load is. *)
Definition first_chunk (l : list frame) : frame := hd [] l.
(** The first column of a frame. *)
Definition column_one (f : frame) : frame := map (fun r => (fst r, firstn 1 (snd r))) f.

(** A single column of readings with rising timestamps. *)
Definition readings (f : frame) : Prop := rising (index f) /\ one_column f.

(** The mains given to a classifier: at the timestamps [ix], either the true
    mains or the sum of the appliances. *)
Definition given_mains (aggregate : bool) (mains : frame) (apps : list frame) (ix : list Z) (given : frame) : Prop :=
  if aggregate
  then map fst given = ix /\
       forall t c, In (t, c) given -> exists vs, Forall2 (fun a v => In (t, [Some v]) a) apps vs /\ c = [Some (sumZ vs)]
  else restricted mains ix given.

(** The classifier predicts exactly the appliances [names], at least one value
    for every row. *)
Definition predicts (names : list string) (g : frame -> list (string * list Z)) : Prop :=
  forall f, NoDup (map fst (g f)) /\ (forall n, In n (map fst (g f)) <-> In n names) /\
    forall n vs, In (n, vs) (g f) -> (length f <= length vs)%nat.

(** The reports on one set of frames. *)
Definition faithful {L} (loss : string -> option (list (Z * option Z) -> list (Z * Z) -> L)) (aggregate : bool)
  (names metrics : list string) (classifiers : list (string * (frame -> list (string * list Z))))
  (mains : frame) (app : string -> frame) (reports : list (string * list (string * list (string * L)))) : Prop :=
  exists ix given, rising ix /\ (forall t, In t ix <-> usable mains (map app names) t) /\
    given_mains aggregate mains (map app names) ix given /\
    (ix = [] -> reports = []) /\
    (ix <> [] ->
      map fst reports = filter (fun m => match loss m with Some _ => true | None => false end) metrics /\
      forall m table, In (m, table) reports -> exists f, loss m = Some f /\
        Forall2 (fun c row => fst row = fst c /\ map fst (snd row) = names /\
          forall a l, In (a, l) (snd row) -> exists truth values,
            l = f truth (combine ix (firstn (length ix) values)) /\
            In (a, values) (snd c given) /\
            map fst truth = ix /\ forall t v, In (t, v) truth -> exists x, v = Some x /\ In (t, [Some x]) (app a))
          classifiers table).

(** Every chunk of a house as a house of its own. *)
Definition chunk_houses {K} (h : house K) : list (house (K * nat)) :=
  map (fun k => mkHouse (h_key h, k) [nth_chunk (h_mains h) k] (fun n => [nth_chunk (h_app h n) k]))
      (seq 0 (length (h_mains h))).

(** The house has data to test with. *)
Definition testable {K} (names : list string) (h : house K) : Prop :=
  h_mains h <> [] /\ rising (index (first_chunk (h_mains h))) /\
  forall n, In n names -> h_app h n <> [] /\ readings (first_chunk (h_app h n)).

(** The house has data to train with. *)
Definition trainable {K} (names : list string) (h : house K) : Prop :=
  let good l := exists f rest, l = f :: rest /\ f <> [] /\ rising (index f) /\ forall r, In r f -> snd r <> [] in
  good (h_mains h) /\ forall n, In n names -> good (h_app h n).
