(** C102: the download of Dataport. *)
From Coq Require Import String QArith Sorted Lia.
From Verif Require Import Base LocalModel LocalSpec LocalProofs DownloadModel DownloadSpec DownloadProofs DownloadProofs4 DownloadProofs5 DownloadProofs6.
Import List. Open Scope list_scope. Open Scope Z_scope.

(** A zone six hours behind, five from day 30 on; days and seconds as clocks show them, and instants. *)
Definition central : zone := mkZone (-21600000000000) [(30 * 86400000000000 + 28800000000000, -18000000000000)].
Definition clock (day s : Z) : Z := (day * 86400 + s) * 1000000000.
Definition instant (day s : Z) : Z := clock day s + 21600000000000.
Example C102_ex_zone : regular central /\ whole_zone central.
Proof. split; [cbn; auto|]. repeat constructor. Qed.

Definition cells (use air car grid : option Q) (c : string) : option Q :=
  if String.eqb c "use" then use else if String.eqb c "air1" then air else if String.eqb c "car1" then car else if String.eqb c "grid" then grid else None.
Definition minutes : view := mkView "eg_realpower_1min" ["use"; "air1"; "car1"; "grid"]%string
  [mkRow 26 (clock 1 60) (cells (Some 3) (Some 1) None (Some 3))%Q; mkRow 40 (clock 1 60) (cells (Some 9) None None None)%Q;
   mkRow 26 (clock 1 120) (cells (Some 4) None (Some 2) None)%Q; mkRow 26 (clock 12 0) (cells (Some 5) (Some 2) (Some 1) None)%Q;
   mkRow 26 (clock 21 0) (cells (Some 6) (Some 1) (Some 3) None)%Q; mkRow 26 (clock 29 0) (cells (Some 7) None None None)%Q].
Definition egauge : database := mkDb [minutes] (fun fast b => if fast then None else if b =? 26 then Some (instant 0 0, instant 29 0) else if b =? 40 then Some (instant 1 60, instant 1 60) else None).
Definition wanted : list (Z * (option Z * option Z)) := [(7, (Some (clock 0 0), Some (clock 9 0))); (26, (Some (clock 1 0), Some (clock 25 0)))].
Example C102_ex_asks : asks central egauge "eg_realpower_1min" wanted minutes 1 26 (instant 1 0) (instant 25 0).
Proof.
  split; [now left|]. split; [reflexivity|]. split; [repeat constructor; intros []|]. split; [repeat constructor; cbn; intuition discriminate|].
  exists (clock 1 0), (clock 25 0), (instant 1 0), (instant 25 0), (instant 0 0), (instant 29 0). repeat split; reflexivity.
Qed.
Example C102_ex_rows : whole_rows minutes /\ in_time_order minutes /\ views egauge "eg_realpower_1min" 1.
Proof.
  split; [|split].
  - intros r I. cbn in I. repeat (destruct I as [<-|I]; [reflexivity|]). destruct I.
  - unfold in_time_order. cbn. repeat constructor; cbn; unfold clock; lia.
  - exists [true]. split; [|reflexivity]. constructor; [|constructor]. split; [|reflexivity]. intros _. exists ""%string, ""%string. reflexivity.
Qed.
Example C102_ex_steady : steady central minutes 26 (instant 1 0) (instant 25 0).
Proof.
  intros x c I N M. assert (E : stretches (instant 1 0) (instant 25 0) = [(instant 1 0, instant 11 0); (instant 11 0, instant 21 0); (instant 21 0, instant 25 0)]) by (vm_compute; reflexivity).
  rewrite E in I. change (metered (v_columns minutes) (taken central 26 (instant 1 0) (instant 25 0) (v_rows minutes))) with (["use"; "air1"; "car1"]%string) in M.
  assert (G : metered (v_columns minutes) (taken central 26 (fst x) (snd x) (v_rows minutes)) = ["use"; "air1"; "car1"]%string).
  { destruct I as [<-|[<-|[<-|[]]]]; vm_compute; reflexivity. }
  now rewrite G.
Qed.

(** If in each stretch of ten days with a row the same columns have readings, and one view of the
    database contains the table's name, the meters of the [i]-th building asked for are its columns
    with readings, each with its readings of the period asked for as far as there are any: all, once,
    in order, in watts. *)
Theorem C102_readings_partial : forall z db table periods v i b lo hi o, regular z -> whole_zone z -> whole_rows v -> in_time_order v ->
  asks z db table periods v i b lo hi -> views db table 1 -> steady z v b lo hi -> download z db table periods = Ok o ->
  forall m, stored o (S i) m =
    match m with
    | O => []
    | S k => match nth_error (metered (v_columns v) (taken z b lo hi (v_rows v))) k with
             | Some c => readings (value table) (taken z b lo hi (v_rows v)) c
             | None => []
             end
    end.
Proof.
  intros z db table periods v i b lo hi o R ZW W T A V S0 H m. rewrite (whole_stored z db table periods v i b lo hi o 1 R ZW W T A V S0 H m). cbn [repeat concat]. apply app_nil_r.
Qed.
Print Assumptions C102_readings_partial.
Example C102_ex_readings : exists o, download central egauge "eg_realpower_1min" wanted = Ok o /\
  stored o 2 2 = [(instant 1 60, Some 1000); (instant 1 120, None); (instant 12 0, Some 2000); (instant 21 0, Some 1000)]%Q /\ stored o 2 4 = [] /\ stored o 1 1 = [].
Proof. eexists. split; [vm_compute; reflexivity|]. repeat split; vm_compute; reflexivity. Qed.

(** In general the columns of each stretch are numbered anew, and all views with such a name add the
    readings again. *)
Theorem C102_stretches : forall z db table periods v i b lo hi o n, regular z -> whole_zone z -> whole_rows v -> asks z db table periods v i b lo hi -> views db table n ->
  download z db table periods = Ok o ->
  forall m, stored o (S i) m = concat (repeat (concat (map (fun x => part (value table) (v_columns v) (taken z b (fst x) (snd x) (v_rows v)) m) (stretches lo hi))) n).
Proof. exact parts_stored. Qed.
Print Assumptions C102_stretches.

(** Nothing else is stored. *)
Theorem C102_within : forall z db table periods v i b lo hi o n m u x, regular z -> whole_zone z -> whole_rows v -> asks z db table periods v i b lo hi -> views db table n ->
  download z db table periods = Ok o -> In (u, x) (stored o (S i) m) ->
  exists r c, In r (v_rows v) /\ r_id r = b /\ localize z (r_stamp r) = Ok u /\ lo <= u < hi /\ In c (v_columns v) /\ ignored c = false /\ x = value table (r_cell r c).
Proof. exact stored_within. Qed.
Print Assumptions C102_within.

(** The metadata: with a row in the last stretch, they name the meters. *)
Theorem C102_metadata_partial : forall z db table periods v i b lo hi o x, regular z -> whole_zone z -> whole_rows v -> asks z db table periods v i b lo hi ->
  steady z v b lo hi -> last_opt (stretches lo hi) = Some x -> taken z b (fst x) (snd x) (v_rows v) <> [] -> download z db table periods = Ok o ->
  exists md, metadata o (S i) = Some md /\ describes (S i) b (metered (v_columns v) (taken z b lo hi (v_rows v))) md.
Proof. exact whole_described. Qed.
Print Assumptions C102_metadata_partial.
Example C102_ex_metadata : last_opt (stretches (instant 1 0) (instant 25 0)) = Some (instant 21 0, instant 25 0) /\ taken central 26 (instant 21 0) (instant 25 0) (v_rows minutes) <> [] /\
  exists o, download central egauge "eg_realpower_1min" wanted = Ok o /\
    metadata o 2 = Some (mkMeta 2 26 [(1%nat, true); (2%nat, false); (3%nat, false)] [mkApp "air1" 2 "air conditioner" None 1; mkApp "car1" 3 "electric vehicle" None 1]).
Proof. split; [vm_compute; reflexivity|]. split; [vm_compute; discriminate|]. eexists. split; [vm_compute; reflexivity|]. vm_compute. reflexivity. Qed.

(** … and in general those of the last stretch only; if that has no row, the building has no meters. *)
Theorem C102_last_stretch : forall z db table periods v i b lo hi o, regular z -> whole_zone z -> whole_rows v -> asks z db table periods v i b lo hi ->
  download z db table periods = Ok o -> forall x, last_opt (stretches lo hi) = Some x ->
  exists md, metadata o (S i) = Some md /\ describes (S i) b (metered (v_columns v) (taken z b (fst x) (snd x) (v_rows v))) md.
Proof. exact last_described. Qed.
Print Assumptions C102_last_stretch.
Theorem C102_meters_lost_refuted : forall z db table periods v i b lo hi o x, regular z -> whole_zone z -> whole_rows v -> asks z db table periods v i b lo hi ->
  last_opt (stretches lo hi) = Some x -> taken z b (fst x) (snd x) (v_rows v) = [] -> download z db table periods = Ok o ->
  exists md, metadata o (S i) = Some md /\ b_meters md = [] /\ b_apps md = [].
Proof. exact lost_described. Qed.
Print Assumptions C102_meters_lost_refuted.
Example C102_ex_lost : exists o md, download central egauge "eg_realpower_1min" [(26, (Some (clock 4 0), Some (clock 25 0)))] = Ok o /\
  stored o 1 1 = [(instant 12 0, Some 5000); (instant 21 0, Some 6000)]%Q /\ metadata o 1 = Some md /\ b_meters md = [].
Proof. do 2 eexists. split; [vm_compute; reflexivity|]. split; [vm_compute; reflexivity|]. split; [vm_compute; reflexivity|]. vm_compute. reflexivity. Qed.

(** A meter can hold the readings of two appliances, of which the metadata name one. *)
Definition fading : view := mkView "eg_realpower_1min" ["air1"; "car1"]%string
  [mkRow 26 (clock 1 60) (cells None (Some 1) (Some 2) None)%Q; mkRow 26 (clock 12 0) (cells None None (Some 3) None)%Q].
Definition fading_db : database := mkDb [fading] (fun _ b => Some (instant 0 0, instant 29 0)).
Theorem C102_mixed_refuted : exists z db table periods v b lo hi o md, regular z /\ whole_zone z /\ whole_rows v /\ in_time_order v /\ asks z db table periods v 0 b lo hi /\ views db table 1 /\
  download z db table periods = Ok o /\ metadata o 1 = Some md /\ map (fun a => (a_name a, a_meter a)) (b_apps md) = [("car1"%string, 1%nat)] /\
  exists r1 r2 u1 u2, v_rows v = [r1; r2] /\ stored o 1 1 = [(u1, value table (r_cell r1 "air1")); (u2, value table (r_cell r2 "car1"))] /\ stored o 1 2 = [(u1, value table (r_cell r1 "car1"))].
Proof.
  exists central, fading_db, "eg_realpower_1min"%string, [(26, (Some (clock 1 0), Some (clock 20 0)))], fading, 26, (instant 1 0), (instant 20 0). do 2 eexists.
  split; [apply C102_ex_zone|]. split; [apply C102_ex_zone|].
  split; [intros r I; cbn in I; repeat (destruct I as [<-|I]; [reflexivity|]); destruct I|].
  split; [unfold in_time_order; cbn; repeat constructor; cbn; unfold clock; lia|]. split.
  { split; [now left|]. split; [reflexivity|]. split; [repeat constructor; intros []|]. split; [repeat constructor; cbn; intuition discriminate|].
    exists (clock 1 0), (clock 20 0), (instant 1 0), (instant 20 0), (instant 0 0), (instant 29 0). repeat split; reflexivity. }
  split. { exists [true]. split; [|reflexivity]. constructor; [|constructor]. split; [|reflexivity]. intros _. exists ""%string, ""%string. reflexivity. }
  split; [vm_compute; reflexivity|]. split; [vm_compute; reflexivity|]. split; [vm_compute; reflexivity|].
  do 2 eexists. exists (instant 1 60), (instant 12 0). split; [reflexivity|]. split; vm_compute; reflexivity.
Qed.
Print Assumptions C102_mixed_refuted.

(** With two such views, every reading is stored twice. *)
Theorem C102_twice_refuted : forall z db table periods v i b lo hi o, regular z -> whole_zone z -> whole_rows v -> in_time_order v ->
  asks z db table periods v i b lo hi -> views db table 2 -> steady z v b lo hi -> download z db table periods = Ok o ->
  forall k c, nth_error (metered (v_columns v) (taken z b lo hi (v_rows v))) k = Some c ->
    stored o (S i) (S k) = readings (value table) (taken z b lo hi (v_rows v)) c ++ readings (value table) (taken z b lo hi (v_rows v)) c.
Proof.
  intros z db table periods v i b lo hi o R ZW W T A V S0 H k c N. rewrite (whole_stored z db table periods v i b lo hi o 2 R ZW W T A V S0 H (S k)). cbn [repeat concat part]. rewrite N. now rewrite app_nil_r.
Qed.
Print Assumptions C102_twice_refuted.
Definition seconds : view := mkView "eg_realpower_1s" ["use"; "air1"]%string [mkRow 26 (clock 1 60) (cells (Some 3) (Some 1) None None)%Q].
Definition second_db : database := mkDb [seconds; mkView "eg_realpower_1s_40homes_dataset" [] []] (fun fast b => if fast then Some (instant 0 0, instant 29 0) else None).
Example C102_ex_twice : views second_db "eg_realpower_1s" 2 /\ exists o, download central second_db "eg_realpower_1s" [(26, (Some (clock 0 0), Some (clock 8 0)))] = Ok o /\
  stored o 1 2 = [(instant 1 60, Some 1000); (instant 1 60, Some 1000)]%Q.
Proof.
  split.
  - exists [true; true]. split; [|reflexivity]. repeat constructor; intros _; [exists ""%string, ""%string|exists ""%string, "_40homes_dataset"%string]; reflexivity.
  - eexists. split; [vm_compute; reflexivity|]. vm_compute. reflexivity.
Qed.

(** The last reading of a building is not stored. *)
Theorem C102_last_refuted : forall z db table periods v i b lo hi o n m u x first last, regular z -> whole_zone z -> whole_rows v -> asks z db table periods v i b lo hi -> views db table n ->
  d_span db (per_second table) b = Some (first, last) -> download z db table periods = Ok o -> In (u, x) (stored o (S i) m) -> u < last.
Proof.
  intros z db table periods v i b lo hi o n m u x first last R ZW W A V SP H I. destruct (stored_within z db table periods v i b lo hi o n m u x R ZW W A V H I) as (r & c & _ & _ & _ & L & _).
  destruct A as (_ & _ & _ & _ & s & e & a & a' & f & l & _ & _ & _ & SP' & _ & _ & _ & _ & _ & ->). assert (l = last) by congruence. lia.
Qed.
Print Assumptions C102_last_refuted.
Example C102_ex_last : exists o, download central egauge "eg_realpower_1min" [(26, (Some (clock 22 0), Some (clock 31 0)))] = Ok o /\ stored o 1 1 = [].
Proof. eexists. split; [vm_compute; reflexivity|]. vm_compute. reflexivity. Qed.

(** Whatever the table, what is stored is called active power. *)
Theorem C102_active_refuted : forall z db table periods o, download z db table periods = Ok o -> forall x, In x (o_tables o) -> t_column (snd x) = ("power", "active")%string.
Proof. exact all_active. Qed.
Print Assumptions C102_active_refuted.
Definition currents : view := mkView "eg_current_1min" ["air1"]%string [mkRow 26 (clock 1 60) (cells None (Some 8) None None)%Q].
Example C102_ex_active : exists o, download central (mkDb [currents] (fun _ _ => Some (instant 0 0, instant 29 0))) "eg_current_1min" [(26, (Some (clock 0 0), Some (clock 8 0)))] = Ok o /\
  o_tables o = [((1%nat, 1%nat), mkTab ("power", "active")%string [(instant 1 60, Some 8%Q)])].
Proof. eexists. split; [vm_compute; reflexivity|]. vm_compute. reflexivity. Qed.

(** It succeeds if both ends of each period are given and shown once by clocks, as are all times in
    the table, and all its columns are known. *)
Theorem C102_works : forall z db table periods v, In table compatible -> In v (d_views db) -> v_name v = table -> NoDup (map v_name (d_views db)) -> periods <> [] ->
  (forall b s e, In (b, (s, e)) periods -> exists s' e', s = Some s' /\ e = Some e' /\ shown_once z s' /\ shown_once z e') ->
  (forall r, In r (v_rows v) -> shown_once z (r_stamp r)) -> (forall c, In c (v_columns v) -> c = "use"%string \/ kind c <> None) ->
  exists o, download z db table periods = Ok o.
Proof. exact works. Qed.
Print Assumptions C102_works.
Example C102_ex_works : (forall b s e, In (b, (s, e)) wanted -> exists s' e', s = Some s' /\ e = Some e' /\ shown_once central s' /\ shown_once central e') /\
  (forall r, In r (v_rows minutes) -> shown_once central (r_stamp r)) /\ (forall c, In c (v_columns minutes) -> c = "use"%string \/ kind c <> None).
Proof.
  split; [|split].
  - intros b s e I. cbn in I. destruct I as [[= <- <- <-]|[[= <- <- <-]|[]]]; do 2 eexists; (split; [reflexivity|split; [reflexivity|]]); split; apply localize_once; eexists; vm_compute; reflexivity.
  - intros r I. cbn in I. repeat (destruct I as [<-|I]; [apply localize_once; eexists; vm_compute; reflexivity|]). destruct I.
  - intros c I. cbn in I. repeat (destruct I as [<-|I]; [first [left; reflexivity | right; vm_compute; discriminate]|]). destruct I.
Qed.

(** Asking for everything, as is the default, raises; so does leaving out one end. *)
Theorem C102_everything_refuted : forall z db table v r first last, In table compatible -> In v (d_views db) -> contains (v_name v) table -> In r (v_rows v) ->
  d_span db (per_second table) (r_id r) = Some (first, last) -> download z db table [] = Err TypeError.
Proof. exact everything. Qed.
Print Assumptions C102_everything_refuted.
Example C102_ex_everything : download central egauge "eg_realpower_1min" [] = Err TypeError.
Proof. vm_compute. reflexivity. Qed.
Theorem C102_half_open_refuted : forall z db table v periods b s e first last, In v (d_views db) -> contains (v_name v) table -> NoDup (map fst periods) -> In (b, (s, e)) periods ->
  d_span db (per_second table) b = Some (first, last) -> s = None \/ e = None -> forall o, download z db table periods <> Ok o.
Proof. exact half_open. Qed.
Print Assumptions C102_half_open_refuted.
Example C102_ex_half_open : download central egauge "eg_realpower_1min" [(26, (Some (clock 1 0), None))] = Err TypeError.
Proof. vm_compute. reflexivity. Qed.

(** A reading in the hour that clocks show twice makes it fail, and so does a column not known. *)
Theorem C102_hour_refuted : forall z db table periods v i b lo hi x r, whole_zone z -> asks z db table periods v i b lo hi -> In x (stretches lo hi) ->
  In r (v_rows v) -> r_id r = b -> wall z (fst x) <= r_stamp r <= wall z (snd x - 1000000000) -> ~ shown_once z (r_stamp r) ->
  forall o, download z db table periods <> Ok o.
Proof. exact skipped_hour. Qed.
Print Assumptions C102_hour_refuted.
Definition autumn : zone := mkZone (-18000000000000) [(clock 5 25200, -21600000000000)].
Definition night : view := mkView "eg_realpower_1min" ["air1"]%string [mkRow 26 (clock 5 5400) (cells None (Some 1) None None)%Q].
Example C102_ex_hour : download autumn (mkDb [night] (fun _ _ => Some (clock 0 0, clock 9 0))) "eg_realpower_1min" [(26, (Some (clock 1 0), Some (clock 8 0)))] = Err GenericException.
Proof. vm_compute. reflexivity. Qed.
Theorem C102_unknown_column : forall z db table periods v i b lo hi x c, regular z -> whole_zone z -> whole_rows v -> asks z db table periods v i b lo hi -> In x (stretches lo hi) ->
  In c (metered (v_columns v) (taken z b (fst x) (snd x) (v_rows v))) -> c <> "use"%string -> kind c = None ->
  forall o, download z db table periods <> Ok o.
Proof. exact unknown_column. Qed.
Print Assumptions C102_unknown_column.
Example C102_ex_unknown : kind "wellpump2" = None /\
  download central (mkDb [mkView "eg_realpower_1min" ["wellpump2"]%string [mkRow 26 (clock 1 0) (fun _ => Some 1%Q)]] (fun _ _ => Some (instant 0 0, instant 9 0)))
    "eg_realpower_1min" [(26, (Some (clock 1 0), Some (clock 8 0)))] = Err KeyError.
Proof. split; vm_compute; reflexivity. Qed.
Theorem C102_known_columns : forall c, kind c <> None -> ignored c = true \/ exists ty room, kind c = Some (Some ty, room).
Proof. exact mapping_types. Qed.
Print Assumptions C102_known_columns.
