(** C111: the conversion of COMBED. *)
From Verif Require Import Base CombedModel CombedSpec CombedProofs.
Import List. Open Scope list_scope. Open Scope nat_scope.

(** If for each meter all three files are there or none, then a conversion that ends well stores exactly the
    meters with files, in order, each with its power, energy and current. *)
Theorem C111_complete_partial : forall M File Series Table (direct nested : M -> attribute -> option File) (read : File -> res Series) (join : list (attribute * Series) -> res Table) ms stored,
  Forall (all_or_none direct nested) ms -> convert direct nested read join ms = (stored, None) ->
  map fst stored = filter (fun m => existsb (available direct nested m) [Power; Energy; Current]) ms /\
  forall m t, In (m, t) stored -> exists p e c, join [(Power, p); (Energy, e); (Current, c)] = Ok t /\
    holds direct nested read m Power p /\ holds direct nested read m Energy e /\ holds direct nested read m Current c.
Proof. intros M File Series Table direct nested read join ms stored. apply complete. Qed.
Print Assumptions C111_complete_partial.
Definition ex_direct (m : nat) (a : attribute) : option nat := match m with 1 => Some (match a with Power => 10 | Energy => 11 | Current => 12 end) | _ => None end.
Definition ex_nested (m : nat) (a : attribute) : option nat := match m with 3 => Some (match a with Power => 30 | Energy => 31 | Current => 32 end) | _ => None end.
Example C111_complete_example : Forall (all_or_none ex_direct ex_nested) [1; 2; 3] /\
  convert ex_direct ex_nested (fun f => Ok f) (fun dfs => Ok (map snd dfs)) [1; 2; 3] = ([(1, [10; 11; 12]); (3, [30; 31; 32])], None).
Proof. split; [|reflexivity]. repeat constructor; intros a b; destruct a, b; reflexivity. Qed.

(** In general a meter is stored if and only if the file of its current is there, with what else there is. *)
Theorem C111_stored : forall M File Series Table (direct nested : M -> attribute -> option File) (read : File -> res Series) (join : list (attribute * Series) -> res Table) ms stored,
  convert direct nested read join ms = (stored, None) ->
  map fst stored = filter (fun m => available direct nested m Current) ms /\
  Forall (fun x => exists dfs, join dfs = Ok (snd x) /\ map fst dfs = filter (available direct nested (fst x)) [Power; Energy; Current] /\
    Forall (fun y => holds direct nested read (fst x) (fst y) (snd y)) dfs) stored /\ stored <> [].
Proof. intros M File Series Table direct nested read join ms stored. apply convert_ok. Qed.
Print Assumptions C111_stored.

(** So it is false that all readings are converted: power and energy of a meter without a file of its current are
    left out without an error. *)
Theorem C111_last_refuted : forall M File Series Table (direct nested : M -> attribute -> option File) (read : File -> res Series) (join : list (attribute * Series) -> res Table) ms stored m,
  available direct nested m Current = false -> convert direct nested read join ms = (stored, None) -> ~ In m (map fst stored).
Proof.
  intros M File Series Table direct nested read join ms stored m N H I. rewrite (proj1 (convert_ok _ _ _ _ _ _ H)) in I. apply filter_In in I as [_ I]. congruence.
Qed.
Print Assumptions C111_last_refuted.
Definition ex_missing (m : nat) (a : attribute) : option nat :=
  match m, a with 4, Current => None | 5, Current => Some 52 | 5, _ => None | _, _ => Some (10 * m) end.
Example C111_last_example : available ex_missing (fun _ _ => None) 4 Current = false /\ available ex_missing (fun _ _ => None) 4 Power = true /\
  convert ex_missing (fun _ _ => None) (fun f => Ok f) (fun dfs => Ok (map snd dfs)) [4; 5; 6] = ([(5, [52]); (6, [60; 60; 60])], None).
Proof. repeat split. Qed.

(** Without any file there is a RuntimeError. *)
Theorem C111_nothing : forall M File Series Table (direct nested : M -> attribute -> option File) (read : File -> res Series) (join : list (attribute * Series) -> res Table) ms,
  (forall m a, In m ms -> available direct nested m a = false) -> convert direct nested read join ms = ([], Some RuntimeError).
Proof. intros M File Series Table direct nested read join ms. apply nothing. Qed.
Print Assumptions C111_nothing.
Example C111_nothing_example : forall m a, In m [2; 7] -> available ex_direct ex_nested m a = false.
Proof. intros m a [<-|[<-|[]]]; destruct a; reflexivity. Qed.

(** With the pandas that pyproject.toml asks for nothing can be converted: the axis of DataFrame.drop can no longer
    be given by position, so that reading any file raises TypeError. *)
Theorem C111_pandas_refuted : forall M File Series Table (direct nested : M -> attribute -> option File) (read : File -> res Series) (join : list (attribute * Series) -> res Table) ms,
  (forall f, read f = Err TypeError) -> (exists m a, In m ms /\ available direct nested m a = true) -> convert direct nested read join ms = ([], Some TypeError).
Proof. intros M File Series Table direct nested read join ms. apply refused. Qed.
Print Assumptions C111_pandas_refuted.
Example C111_pandas_example : exists m a, In m [2; 3] /\ available ex_direct ex_nested m a = true.
Proof. exists 3, Power. split; [right; left; reflexivity|reflexivity]. Qed.
