(** C73: importing raw data as the REDD and UK-DALE converters do. *)
From Coq Require Import String Ascii Sorted Permutation Lia ZArith.
From Verif Require Import Base RawModel RawSpec RawProofs RawProofs2.
Import List. Open Scope list_scope. Open Scope nat_scope.

(** After a REDD conversion that ends normally the store holds, for each house 1 to 9
    and channel 1 to 99, the rows of house_<h>/channel_<c>.dat in time order, as
    apparent power for channels 1 and 2 and as active power for the others; it holds
    nothing else. *)
Theorem C73_redd_partial : forall (V : Type) (sorter : rows V -> rows V) (d : root V) (s : store V),
  sorts sorter -> proper d -> convert_redd sorter (Some d) = (s, None) ->
  forall h c,
    (forall raw, (1 <= h <= 9)%Z -> (1 <= c <= 99)%Z -> channel_file d h c raw ->
      exists r l, raw = Ok r /\ get s (h, c) = Some ([(Power, Some (if (c <=? 2)%Z then Apparent else Active))], l) /\
        Permutation l r /\ StronglySorted Z.le (map fst l)) /\
    ((forall raw, ~ channel_file d h c raw) \/ ~ (1 <= h <= 9)%Z \/ ~ (1 <= c <= 99)%Z -> get s (h, c) = None).
Proof. exact (fun V => @redd_lemma V). Qed.
Print Assumptions C73_redd_partial.

(** It ends normally exactly when each recognised channel has a number from 1, is in
    a house with a number from 1, and its file exists under its usual name and can be
    read. *)
Theorem C73_redd_succeeds : forall (V : Type) (sorter : rows V -> rows V) (d : root V), proper d ->
  (snd (convert_redd sorter (Some d)) = None <->
   forall h c, recognised d h c -> (1 <= h)%Z /\ (1 <= c)%Z /\ exists r, channel_file d h c (Ok r)).
Proof. exact (fun V => @redd_succeeds V). Qed.
Print Assumptions C73_redd_succeeds.

(** When it fails, it fails at a recognised channel; exactly the channels before it
    (by house, then channel) are in the store. *)
Theorem C73_redd_interrupted : forall (V : Type) (sorter : rows V -> rows V) (d : root V) (s : store V) e,
  sorts sorter -> proper d -> convert_redd sorter (Some d) = (s, Some e) ->
  exists h c, recognised d h c /\
    ((e = AssertionError /\ ((h < 1)%Z \/ (c < 1)%Z \/ forall raw, ~ channel_file d h c raw)) \/ channel_file d h c (Err e)) /\
    forall h' c',
      (recognised d h' c' -> before (h', c') (h, c) -> exists r l, channel_file d h' c' (Ok r) /\
         get s (h', c') = Some ([(Power, Some (if (c' <=? 2)%Z then Apparent else Active))], l) /\ Permutation l r /\ StronglySorted Z.le (map fst l)) /\
      (forall t, get s (h', c') = Some t -> recognised d h' c' /\ before (h', c') (h, c)).
Proof. exact (fun V => @redd_interrupted V). Qed.
Print Assumptions C73_redd_interrupted.

(** After a UK-DALE conversion that ends normally a meter of AC types active and
    apparent (in this order) holds the rows of mains.dat of its house with the columns
    active power, apparent power and voltage; any other channel 1 to 99 of a house 1
    to 9 holds its own rows, under the first of its AC types; repeated times are
    dropped, the first row staying, if asked; there is nothing else. *)
Theorem C73_ukdale_partial : forall (V : Type) (sorter : rows V -> rows V) (m : ac_map) (mains : Z -> res (rows V)) (dd : bool) (d : root V) (s : store V),
  NoDup (map fst m) -> proper d -> convert_ukdale sorter m mains dd (Some d) = (s, None) ->
  forall h c,
    (In ((h, c), [Active; Apparent]) m -> exists r l, mains h = Ok r /\
       get s (h, c) = Some ([(Power, Some Active); (Power, Some Apparent); (Voltage, None)], l) /\ as_asked dd r l) /\
    (forall raw types, (1 <= h <= 9)%Z -> (1 <= c <= 99)%Z -> channel_file d h c raw -> In ((h, c), types) m -> types <> [Active; Apparent] ->
       exists t ts r l, types = t :: ts /\ raw = Ok r /\ get s (h, c) = Some ([(Power, Some t)], l) /\ as_asked dd r l) /\
    (~ In ((h, c), [Active; Apparent]) m -> (forall raw, ~ channel_file d h c raw) \/ ~ (1 <= h <= 9)%Z \/ ~ (1 <= c <= 99)%Z -> get s (h, c) = None).
Proof. exact (fun V => @ukdale_lemma V). Qed.
Print Assumptions C73_ukdale_partial.

(** When it ends normally. *)
Theorem C73_ukdale_succeeds : forall (V : Type) (sorter : rows V -> rows V) (m : ac_map) (mains : Z -> res (rows V)) (dd : bool) (d : root V),
  NoDup (map fst m) -> proper d ->
  (snd (convert_ukdale sorter m mains dd (Some d)) = None <->
   (forall h c, recognised d h c -> (1 <= h)%Z /\ (1 <= c)%Z /\ (exists t ts, In ((h, c), t :: ts) m) /\ exists r, channel_file d h c (Ok r)) /\
   (forall h c, In ((h, c), [Active; Apparent]) m -> (1 <= h)%Z /\ (1 <= c)%Z /\ exists r, mains h = Ok r)).
Proof. exact (fun V => @ukdale_succeeds V). Qed.
Print Assumptions C73_ukdale_succeeds.

(** A house with two digits and a channel with three are silently left out. *)
Theorem C73_many_refuted : exists (d : root nat),
  proper d /\ channel_file d 10 1 (Ok [(0%Z, 5)]) /\
  (exists files, In ("house_1"%string, Some files) d /\ In ("channel_100.dat"%string, Some (Ok [(0%Z, 6)])) files) /\
  forall sorter, convert_redd sorter (Some d) = ([], None).
Proof.
  exists [("house_1"%string, Some [("channel_100.dat"%string, Some (Ok [(0%Z, 6)]))]); ("house_10"%string, Some [("channel_1.dat"%string, Some (Ok [(0%Z, 5)]))])].
  split; [|split; [|split]].
  - split; [cbn; repeat constructor; cbn; intuition discriminate|]. intros n files [H|[H|[]]]; injection H as _ <-; cbn; repeat constructor; cbn; tauto.
  - eexists. split; [right; left; reflexivity|]. now left.
  - eexists. split; [left; reflexivity|]. now left.
  - intros sorter. reflexivity.
Qed.
Print Assumptions C73_many_refuted.

(** A file that is not a channel file, or a channel written with a leading zero, stops
    the conversion. *)
Theorem C73_other_names_refuted : forall n, In n ["channel_1-dat"; "channel_01.dat"; "channel_123dat"]%string ->
  forall (V : Type) (sorter : rows V -> rows V) (r : rows V),
  convert_redd sorter (Some [("house_1"%string, Some [(n, Some (Ok r))])]) = ([], Some AssertionError).
Proof. intros n [<-|[<-|[<-|[]]]] V sorter r; reflexivity. Qed.
Print Assumptions C73_other_names_refuted.

(** The one-second meters of a house all hold the same data. *)
Theorem C73_shared_mains_refuted : forall (V : Type) (sorter : rows V -> rows V) (m : ac_map) (mains : Z -> res (rows V)) (dd : bool) (d : root V) (s : store V) h c c',
  convert_ukdale sorter m mains dd (Some d) = (s, None) ->
  In ((h, c), [Active; Apparent]) m -> In ((h, c'), [Active; Apparent]) m -> exists t, get s (h, c) = Some t /\ get s (h, c') = Some t.
Proof. exact (fun V => @shared_lemma V). Qed.
Print Assumptions C73_shared_mains_refuted.

(** A meter whose metadata list apparent power before active power keeps its channel
    data, with one column; rows out of order stay out of order. *)
Theorem C73_order_refuted : exists (d : root nat) (mains : Z -> res (rows nat)),
  proper d /\ (exists r, mains 1%Z = Ok r /\ r <> []) /\
  forall sorter dd, convert_ukdale sorter [((1%Z, 1%Z), [Apparent; Active])] mains dd (Some d)
    = ([((1%Z, 1%Z), ([(Power, Some Apparent)], [(6%Z, 70); (0%Z, 80)]))], None).
Proof.
  exists [("house_1"%string, Some [("channel_1.dat"%string, Some (Ok [(6%Z, 70); (0%Z, 80)]))])], (fun _ => Ok [(0%Z, 1)]).
  split; [|split].
  - split; [cbn; repeat constructor; cbn; tauto|]. intros n files [H|[]]. injection H as _ <-. cbn. repeat constructor. cbn. tauto.
  - eexists. split; [reflexivity|discriminate].
  - intros sorter dd. destruct dd; reflexivity.
Qed.
Print Assumptions C73_order_refuted.

(** When rows are sorted and then repeated times dropped, the row that stays need not
    be the first: it depends on how the sort treats equal times. *)
Theorem C73_keeps_first_refuted : exists raw : rows nat,
  sorts (V := nat) (sort_rows true) /\ sorts (V := nat) (sort_rows false) /\
  clean (sort_rows true) true true raw = [(0%Z, 1); (1%Z, 2)] /\ clean (sort_rows false) true true raw = [(0%Z, 1); (1%Z, 3)].
Proof.
  exists [(1%Z, 2); (0%Z, 1); (1%Z, 3)]. split; [apply sort_rows_sorts|]. split; [apply sort_rows_sorts|]. split; reflexivity.
Qed.
Print Assumptions C73_keeps_first_refuted.

(** A missing directory. *)
Example C73_missing_directory : forall sorter : rows nat -> rows nat, convert_redd sorter None = ([], Some GenericException).
Proof. reflexivity. Qed.

(** Two houses. *)
Example C73_example :
  let d : root nat := [("house_2"%string, Some [("channel_11.dat"%string, Some (Ok [(4%Z, 1); (0%Z, 2)])); ("labels.dat"%string, Some (Ok []))]);
                       ("readme"%string, None);
                       ("house_1"%string, Some [("channel_3.dat"%string, Some (Ok [(0%Z, 3)])); ("channel_2.dat"%string, Some (Ok [(0%Z, 4)])); ("channel_4.dat"%string, None)])] in
  proper d /\
  convert_redd (sort_rows true) (Some d)
    = ([((1%Z, 2%Z), ([(Power, Some Apparent)], [(0%Z, 4)])); ((1%Z, 3%Z), ([(Power, Some Active)], [(0%Z, 3)]));
        ((2%Z, 11%Z), ([(Power, Some Active)], [(0%Z, 2); (4%Z, 1)]))], None).
Proof.
  split; [|reflexivity]. split; [cbn; repeat constructor; cbn; intuition discriminate|].
  intros n files [H|[H|[H|[]]]]; try discriminate H; injection H as _ <-; cbn; repeat constructor; cbn; intuition discriminate.
Qed.
(** An unreadable file: what comes before it stays. *)
Example C73_example_interrupted :
  let d : root nat := [("house_2"%string, Some [("channel_1.dat"%string, Some (Err ValueError))]);
                       ("house_1"%string, Some [("channel_3.dat"%string, Some (Ok [(0%Z, 3)]))]);
                       ("house_3"%string, Some [("channel_3.dat"%string, Some (Ok [(0%Z, 3)]))])] in
  proper d /\ convert_redd (sort_rows true) (Some d) = ([((1%Z, 3%Z), ([(Power, Some Active)], [(0%Z, 3)]))], Some ValueError).
Proof.
  split; [|reflexivity]. split; [cbn; repeat constructor; cbn; intuition discriminate|].
  intros n files [H|[H|[H|[]]]]; injection H as _ <-; cbn; repeat constructor; cbn; intuition discriminate.
Qed.
(** UK-DALE: a mains meter with one-second data and a submeter with a repeated time. *)
Example C73_example_ukdale :
  let d : root nat := [("house_1"%string, Some [("channel_1.dat"%string, Some (Ok [(0%Z, 3)])); ("channel_2.dat"%string, Some (Ok [(0%Z, 7); (6%Z, 8); (0%Z, 9)]))])] in
  let m := [((1%Z, 1%Z), [Active; Apparent]); ((1%Z, 2%Z), [Active])] in
  proper d /\ NoDup (map fst m) /\
  convert_ukdale (sort_rows true) m (fun h => if (h =? 1)%Z then Ok [(1%Z, 100); (1%Z, 101)] else Err ValueError) true (Some d)
    = ([((1%Z, 1%Z), ([(Power, Some Active); (Power, Some Apparent); (Voltage, None)], [(1%Z, 100)]));
        ((1%Z, 2%Z), ([(Power, Some Active)], [(0%Z, 7); (6%Z, 8)]))], None).
Proof.
  split; [|split; [|reflexivity]].
  - split; [cbn; repeat constructor; cbn; tauto|]. intros n files [H|[]]. injection H as _ <-. cbn. repeat constructor; cbn; intuition discriminate.
  - cbn. repeat constructor; cbn; intuition discriminate.
Qed.
