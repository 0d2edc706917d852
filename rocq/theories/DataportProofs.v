From Coq Require Import Lia Permutation Sorted.
From Verif Require Import Base DataportModel DataportSpec.
Import List. Open Scope Z_scope.

(** ** Columns *)
Lemma col_eqb_eq a b : col_eqb a b = true <-> a = b.
Proof.
  destruct a, b; cbn; split; intros H; try discriminate; try reflexivity; try (apply Nat.eqb_eq in H; now subst); try (injection H as ->; apply Nat.eqb_refl).
Qed.
Lemma mem_in c l : mem c l = true <-> In c l.
Proof.
  unfold mem. rewrite existsb_exists. split.
  - intros (x & H & E). apply col_eqb_eq in E. now subst.
  - intros H. exists c. split; [exact H|now apply col_eqb_eq].
Qed.
Lemma mem_false c l : mem c l = false <-> ~ In c l.
Proof. destruct (mem c l) eqn:E; split; intros H; try discriminate; try reflexivity; [elim H; now apply mem_in|]. intros K. apply mem_in in K. congruence. Qed.
Lemma has_reading_iff rs c : has_reading rs c = true <-> recorded rs c.
Proof.
  unfold has_reading, recorded. rewrite existsb_exists. split.
  - intros (r & H & E). destruct (r_cell r c) as [v|] eqn:Ec; [eauto|discriminate].
  - intros (r & v & H & E). exists r. rewrite E. auto.
Qed.
Lemma in_kept header rs c : In c (kept header rs) <-> In c header /\ recorded rs c /\ mapped c = true.
Proof. unfold kept. rewrite !filter_In, has_reading_iff. tauto. Qed.

Lemma solar_iff header rs : (mem Solar (kept header rs) || mem Solar2 (kept header rs) = true) <-> with_solar header rs.
Proof.
  rewrite orb_true_iff, !mem_in, !in_kept. unfold with_solar. cbn. tauto.
Qed.
Lemma grid_iff header rs : mem Grid (kept header rs) = true <-> with_grid header rs.
Proof. rewrite mem_in, in_kept. unfold with_grid. cbn. tauto. Qed.

(** ** One chunk *)
Definition out_of (header : list col) (rs : list row) : list col :=
  let cs := kept header rs in
  if mem Solar cs || mem Solar2 cs then filter (fun c => negb (mem c [Grid; Solar; Solar2])) cs ++ [Use]
  else map (fun c => match c with Grid => Use | _ => c end) cs.
Definition cell_of (cs out : list col) (r : row) (c : col) : option Z :=
  if mem c out then thousand (match c with Use => if mem Solar cs || mem Solar2 cs then addo (r_cell r Grid) (generated cs r) else r_cell r Grid | _ => r_cell r c end) else None.
Lemma preprocess_eq header rs : preprocess header rs =
  if (mem Solar (kept header rs) || mem Solar2 (kept header rs)) && negb (mem Grid (kept header rs)) then Err KeyError
  else Ok (mkFrame (out_of header rs) (map (fun r => (r_time r, cell_of (kept header rs) (out_of header rs) r)) rs), mem Solar (kept header rs) || mem Solar2 (kept header rs)).
Proof.
  unfold preprocess, out_of, cell_of. destruct (mem Solar (kept header rs) || mem Solar2 (kept header rs)) eqn:E; cbn [andb].
  - destruct (mem Grid (kept header rs)); reflexivity.
  - reflexivity.
Qed.

Lemma filter_ext_in' {A} (f g : A -> bool) l : (forall x, In x l -> f x = g x) -> filter f l = filter g l.
Proof. apply filter_ext_in. Qed.

Lemma out_meters header rs : meters_of header rs (out_of header rs).
Proof.
  exists (kept header rs). split; [reflexivity|]. unfold out_of. destruct (mem Solar (kept header rs) || mem Solar2 (kept header rs)) eqn:E.
  - left. split; [now apply solar_iff|]. f_equal. apply filter_ext_in. intros c Hc. apply in_kept in Hc. destruct Hc as (_ & _ & M).
    destruct c; try discriminate M; reflexivity.
  - right. split; [|reflexivity]. intros H. apply solar_iff in H. congruence.
Qed.
Lemma meters_det header rs ms ms' : meters_of header rs ms -> meters_of header rs ms' -> ms = ms'.
Proof. intros (cs & <- & [[H ->]|[H ->]]) (cs' & <- & [[H' ->]|[H' ->]]); tauto || reflexivity. Qed.

(* which columns an output can have *)
Lemma out_in header rs c : In c (out_of header rs) -> (exists k, c = App k /\ In c (kept header rs)) \/ (c = Use /\ (with_solar header rs \/ with_grid header rs)).
Proof.
  unfold out_of. destruct (mem Solar (kept header rs) || mem Solar2 (kept header rs)) eqn:E.
  - intros H. apply in_app_or in H. destruct H as [H|[<-|[]]].
    + apply filter_In in H. destruct H as [H1 H2]. pose proof (proj1 (in_kept _ _ _) H1) as (_ & _ & M). destruct c; try discriminate; eauto.
    + right. split; [reflexivity|]. left. now apply solar_iff.
  - intros H. apply in_map_iff in H. destruct H as (c' & <- & H1). pose proof (proj1 (in_kept _ _ _) H1) as (_ & _ & M).
    apply orb_false_iff in E. destruct E as [E1 E2]. apply mem_false in E1, E2.
    destruct c'; try discriminate; try contradiction; [right; split; [reflexivity|]; right; apply grid_iff; now apply mem_in|left; eauto].
Qed.

Lemma cell_power header rs r c : with_solar header rs \/ with_grid header rs \/ c <> Use -> In c (out_of header rs) -> is_power header rs c r (cell_of (kept header rs) (out_of header rs) r c).
Proof.
  intros _ H. unfold cell_of. rewrite (proj2 (mem_in _ _) H). destruct (out_in _ _ _ H) as [(k & -> & _)|[-> HU]].
  - unfold is_power. destruct (r_cell r (App k)); unfold thousand, option_map; [f_equal; apply Z.mul_comm|reflexivity].
  - cbn [is_power]. set (cs := kept header rs).
    assert (HS : forall c, mem c cs = true <-> In c header /\ recorded rs c /\ mapped c = true) by (intros c; unfold cs; rewrite mem_in; apply in_kept).
    assert (P : exists parts, NoDup parts /\ (forall c, In c parts <-> (c = Grid \/ ((c = Solar \/ c = Solar2) /\ In c header /\ recorded rs c))) /\
       parts = Grid :: (if mem Solar cs then [Solar] else []) ++ (if mem Solar2 cs then [Solar2] else [])).
    { eexists. split; [|split; [|reflexivity]].
      - destruct (mem Solar cs), (mem Solar2 cs); repeat constructor; cbn; intuition discriminate.
      - assert (HT : forall c d, mapped d = true -> In c (if mem d cs then [d] else []) <-> c = d /\ In c header /\ recorded rs c).
        { intros c d Md. pose proof (HS d) as A. destruct (mem d cs).
          - cbn. split; [intros [<-|[]]; split; [reflexivity|]; tauto|]. intros [-> _]. now left.
          - split; [intros []|]. intros (-> & H1 & H2). exfalso. apply diff_false_true. apply A. auto. }
        intros c. cbn [In]. rewrite in_app_iff, (HT c Solar eq_refl), (HT c Solar2 eq_refl). intuition congruence. }
    destruct P as (parts & P1 & P2 & P3). exists parts. split; [exact P1|]. split; [exact P2|].
    assert (G : (if mem Solar cs || mem Solar2 cs then addo (r_cell r Grid) (generated cs r) else r_cell r Grid) =
                fold_left addo (map (r_cell r) parts) (Some 0)).
    { subst parts. unfold generated. destruct (mem Solar cs), (mem Solar2 cs); cbn;
        destruct (r_cell r Grid); cbn; try reflexivity; try (destruct (r_cell r Solar); cbn; try reflexivity); try (destruct (r_cell r Solar2); cbn; try reflexivity); f_equal; lia. }
    rewrite G. clear.
    assert (N : forall l, fold_left addo l None = None) by (induction l as [|x l IH]; [reflexivity|exact IH]).
    assert (K : forall l x, (fold_left addo (map (r_cell r) l) (Some x) = None /\ exists c, In c l /\ r_cell r c = None) \/
       (exists vs, fold_left addo (map (r_cell r) l) (Some x) = Some (x + sumZ vs) /\ Forall2 (fun c v => r_cell r c = Some v) l vs)).
    { induction l as [|c l IH]; intros x.
      - right. exists []. split; [cbn; f_equal; lia|constructor].
      - cbn [map fold_left]. destruct (r_cell r c) as [v|] eqn:E; cbn [addo].
        + destruct (IH (x + v)) as [[H1 (c' & H2 & H3)]|(vs & H1 & H2)].
          * left. split; [exact H1|]. exists c'. split; [now right|exact H3].
          * right. exists (v :: vs). split; [rewrite H1; cbn; f_equal; lia|]. constructor; assumption.
        + left. split; [apply N|]. exists c. split; [now left|exact E]. }
    destruct (K parts 0) as [[H1 H2]|(vs & H1 & H2)].
    + left. rewrite H1. split; [reflexivity|exact H2].
    + right. exists vs. rewrite H1. split; [cbn [thousand]; f_equal; lia|exact H2].
Qed.

(** ** Sorting *)
Notation frow := (Z * (col -> option Z))%type.
Lemma insert_row_in (x : frow) l y : In y (insert_row x l) <-> y = x \/ In y l.
Proof.
  induction l as [|z l IH]; cbn; [intuition|]. destruct (fst x <=? fst z); cbn; [intuition|]. rewrite IH. intuition.
Qed.
Lemma insert_row_sorted (x : frow) l : StronglySorted (fun a b => fst a <= fst b) l -> StronglySorted (fun a b => fst a <= fst b) (insert_row x l).
Proof.
  induction 1 as [|y l H IH HF]; cbn; [repeat constructor|]. destruct (Z.leb_spec (fst x) (fst y)) as [L|L].
  - constructor; [constructor; assumption|]. constructor; [exact L|]. rewrite Forall_forall in *. intros z Hz. specialize (HF z Hz). cbn in HF. lia.
  - constructor; [exact IH|]. rewrite Forall_forall in *. intros z Hz. apply insert_row_in in Hz. destruct Hz as [->|Hz]; [lia|auto].
Qed.
Lemma insert_row_filter (x : frow) l t : filter (fun y => fst y =? t) (insert_row x l) = filter (fun y => fst y =? t) (x :: l).
Proof.
  induction l as [|y l IH]; [reflexivity|]. cbn [insert_row]. destruct (Z.leb_spec (fst x) (fst y)) as [L|L]; [reflexivity|].
  cbn [filter] in *. rewrite IH. destruct (Z.eqb_spec (fst x) t), (Z.eqb_spec (fst y) t); try reflexivity. lia.
Qed.
Lemma sort_rows_sorted l : StronglySorted (fun a b : frow => fst a <= fst b) (sort_rows l).
Proof. induction l as [|x l IH]; [constructor|]. cbn. now apply insert_row_sorted. Qed.
Lemma sort_rows_filter l t : filter (fun y : frow => fst y =? t) (sort_rows l) = filter (fun y => fst y =? t) l.
Proof. induction l as [|x l IH]; [reflexivity|]. cbn [sort_rows fold_right]. rewrite insert_row_filter. cbn [filter]. fold (sort_rows l). now rewrite IH. Qed.
Lemma sort_rows_nil l : sort_rows l = [] <-> l = [].
Proof.
  destruct l as [|x l]; [tauto|]. split; [|discriminate]. cbn. destruct (fold_right insert_row [] l) as [|y r]; [discriminate|]. cbn. destruct (fst x <=? fst y); discriminate.
Qed.
Lemma map_sorted_time c l : StronglySorted (fun a b : frow => fst a <= fst b) l ->
  StronglySorted (fun a b : Z * option Z => fst a <= fst b) (map (fun x => (fst x, snd x c)) l).
Proof.
  induction 1 as [|x l H IH HF]; cbn; constructor; [exact IH|]. rewrite Forall_forall in *. intros y Hy. apply in_map_iff in Hy. destruct Hy as (z & <- & Hz). exact (HF z Hz).
Qed.
Lemma map_filter_time c l t : filter (fun x => fst x =? t) (map (fun x : frow => (fst x, snd x c)) l) = map (fun x => (fst x, snd x c)) (filter (fun x => fst x =? t) l).
Proof. induction l as [|x l IH]; [reflexivity|]. cbn. rewrite IH. destruct (fst x =? t); reflexivity. Qed.
Lemma sort_by_time c l : by_time (map (fun x : frow => (fst x, snd x c)) l) (map (fun x => (fst x, snd x c)) (sort_rows l)).
Proof. split; [apply map_sorted_time, sort_rows_sorted|]. intros t. now rewrite !map_filter_time, sort_rows_filter. Qed.

(** ** One file *)
Definition badb (header : list col) (rs : list row) : bool := (mem Solar (kept header rs) || mem Solar2 (kept header rs)) && negb (mem Grid (kept header rs)).
Definition solarb (header : list col) (rs : list row) : bool := mem Solar (kept header rs) || mem Solar2 (kept header rs).
Lemma kept_nil header : kept header [] = [].
Proof. unfold kept. induction header as [|c h IH]; [reflexivity|exact IH]. Qed.
Lemma badb_nil header : badb header [] = false.
Proof. unfold badb. now rewrite kept_nil. Qed.
Lemma solarb_nil header : solarb header [] = false.
Proof. unfold solarb. now rewrite kept_nil. Qed.

Definition step_frame (header : list col) (f : frame) (rs : list row) : frame :=
  match rs with
  | [] => f
  | _ => let g := mkFrame (out_of header rs) (map (fun r => (r_time r, cell_of (kept header rs) (out_of header rs) r)) rs) in
         if is_empty f then g else concat_frames f g
  end.
Lemma extract_chunks_eq header b chunks : forall f pv, extract_chunks header b chunks f pv =
  if existsb (fun ch => badb header (of_building b ch)) chunks then Err KeyError
  else Ok (fold_left (step_frame header) (map (of_building b) chunks) f, pv || existsb (fun ch => solarb header (of_building b ch)) chunks).
Proof.
  induction chunks as [|ch r IH]; intros f pv; cbn [extract_chunks existsb map fold_left]; [now rewrite orb_false_r|].
  destruct (of_building b ch) as [|x rs] eqn:E.
  - rewrite badb_nil, solarb_nil. cbn [orb step_frame]. apply IH.
  - rewrite preprocess_eq. fold (badb header (x :: rs)). destruct (badb header (x :: rs)); [reflexivity|]. cbn [bind fst snd orb]. rewrite IH.
    destruct (existsb _ r); [reflexivity|]. fold (solarb header (x :: rs)). unfold step_frame at 3. now rewrite orb_assoc.
Qed.
Definition file_frame (fl : file) (b : Z) : frame :=
  let f := fold_left (step_frame (f_header fl)) (map (of_building b) (f_chunks fl)) (mkFrame [] []) in
  if is_empty f then f else mkFrame (columns f) (sort_rows (rows f)).
Definition file_bad (fl : file) (b : Z) : bool := existsb (fun ch => badb (f_header fl) (of_building b ch)) (f_chunks fl).
Definition file_solar (fl : file) (b : Z) : bool := existsb (fun ch => solarb (f_header fl) (of_building b ch)) (f_chunks fl).
Lemma extract_eq fl b pv : extract fl b pv = if file_bad fl b then Err KeyError else Ok (file_frame fl b, pv || file_solar fl b).
Proof.
  unfold extract. rewrite extract_chunks_eq. fold (file_bad fl b). destruct (file_bad fl b); [reflexivity|]. cbn [bind fst snd]. reflexivity.
Qed.

(* photovoltaics only with data *)
Lemma step_frame_cols header f rs : (forall c, In c (columns f) -> In c (columns (step_frame header f rs)) \/ rows f = []) /\ (solarb header rs = true -> is_empty (step_frame header f rs) = false) /\
  (is_empty f = false -> is_empty (step_frame header f rs) = false).
Proof.
  destruct rs as [|x rs]; [cbn; rewrite solarb_nil; split; [auto|split; [discriminate|auto]]|]. unfold step_frame. destruct (is_empty f) eqn:E.
  - split; [|split; [|discriminate]].
    + intros c H. right. unfold is_empty in E. destruct (columns f); [destruct H|]. destruct (rows f); [reflexivity|discriminate].
    + intros H. unfold solarb in H. unfold is_empty. cbn [columns rows map]. unfold out_of. rewrite H. destruct (filter _ _); reflexivity.
  - cbn [concat_frames columns rows]. split; [intros c H; left; apply in_or_app; now left|].
    assert (K : is_empty (concat_frames f (mkFrame (out_of header (x :: rs)) (map (fun r => (r_time r, cell_of (kept header (x :: rs)) (out_of header (x :: rs)) r)) (x :: rs)))) = false).
    { unfold is_empty, concat_frames in *. cbn [columns rows]. destruct (columns f); [discriminate|]. destruct (rows f); [discriminate|]. reflexivity. }
    auto.
Qed.
Lemma fold_nonempty header l : forall f, is_empty f = false \/ existsb (solarb header) l = true -> is_empty (fold_left (step_frame header) l f) = false.
Proof.
  induction l as [|rs l IH]; intros f H; cbn in *; [destruct H; [assumption|discriminate]|]. apply IH. destruct (step_frame_cols header f rs) as (_ & A & B).
  destruct H as [H|H]; [left; auto|]. apply orb_true_iff in H. destruct H as [H|H]; [left; auto|right; exact H].
Qed.
Lemma file_empty fl b : is_empty (file_frame fl b) = is_empty (fold_left (step_frame (f_header fl)) (map (of_building b) (f_chunks fl)) (mkFrame [] [])).
Proof.
  unfold file_frame. destruct (is_empty (fold_left _ _ _)) eqn:E; [exact E|]. unfold is_empty in *. cbn [columns rows].
  destruct (columns (fold_left _ _ _)); [discriminate|]. destruct (rows (fold_left _ _ _)) as [|y r]; [discriminate|].
  destruct (sort_rows (y :: r)) eqn:K; [|reflexivity]. apply (proj1 (sort_rows_nil _)) in K. discriminate.
Qed.
Lemma empty_no_solar fl b : is_empty (file_frame fl b) = true -> file_solar fl b = false.
Proof.
  rewrite file_empty. intros H. destruct (file_solar fl b) eqn:E; [|reflexivity]. rewrite fold_nonempty in H; [discriminate|]. right.
  unfold file_solar in E. rewrite <- E. clear. induction (f_chunks fl) as [|ch l IH]; [reflexivity|]. cbn. now rewrite IH.
Qed.
Lemma absent_empty fl b : ~ In b (buildings_of fl) -> file_frame fl b = mkFrame [] [] /\ file_bad fl b = false /\ file_solar fl b = false.
Proof.
  unfold buildings_of, file_frame, file_bad, file_solar. intros H.
  assert (E : forall ch, In ch (f_chunks fl) -> of_building b ch = []).
  { intros ch Hc. destruct (of_building b ch) as [|r rs] eqn:E; [reflexivity|]. exfalso. apply H. assert (Hr : In r (of_building b ch)) by (rewrite E; now left).
    apply filter_In in Hr. destruct Hr as [Hr Hb]. apply Z.eqb_eq in Hb. apply in_map_iff. exists r. split; [exact Hb|]. apply in_concat. eauto. }
  clear H. induction (f_chunks fl) as [|ch l IH]; [auto|]. cbn [map fold_left existsb]. rewrite (E ch (or_introl eq_refl)), badb_nil, solarb_nil. cbn [step_frame orb].
  apply IH. intros ch' H'. apply E. now right.
Qed.

(** *** A steady file *)
Lemma of_building_concat b chunks : of_building b (concat chunks) = concat (map (of_building b) chunks).
Proof. induction chunks as [|ch r IH]; [reflexivity|]. cbn. unfold of_building in *. rewrite filter_app. now rewrite IH. Qed.
Lemma recorded_sub rs rs' c : incl rs rs' -> recorded rs c -> recorded rs' c.
Proof. intros H (r & v & A & B). exists r, v. auto. Qed.
Lemma kept_same header rs rs' : (forall c, In c header -> mapped c = true -> recorded rs c <-> recorded rs' c) -> kept header rs = kept header rs'.
Proof.
  unfold kept. intros H. induction header as [|c h IH]; [reflexivity|]. cbn [filter].
  assert (IH' : filter mapped (filter (has_reading rs) h) = filter mapped (filter (has_reading rs') h)) by (apply IH; intros; apply H; [now right|assumption]).
  destruct (mapped c) eqn:M.
  - assert (E : has_reading rs c = has_reading rs' c).
    { destruct (has_reading rs c) eqn:E1, (has_reading rs' c) eqn:E2; try reflexivity; exfalso.
      - apply has_reading_iff in E1. apply (H c (or_introl eq_refl) M) in E1. apply has_reading_iff in E1. congruence.
      - apply has_reading_iff in E2. apply (H c (or_introl eq_refl) M) in E2. apply has_reading_iff in E2. congruence. }
    rewrite E. destruct (has_reading rs' c); cbn [filter]; rewrite IH'; reflexivity.
  - destruct (has_reading rs c), (has_reading rs' c); cbn [filter]; rewrite ?M; exact IH'.
Qed.
Lemma steady_kept fl b ch : steady fl b -> In ch (f_chunks fl) -> of_building b ch <> [] -> kept (f_header fl) (of_building b ch) = kept (f_header fl) (file_rows fl b).
Proof.
  intros HS Hc Hn. apply kept_same. intros c Hc' M. split.
  - apply recorded_sub. intros r Hr. unfold file_rows. fold (of_building b (concat (f_chunks fl))). rewrite of_building_concat. apply in_concat. exists (of_building b ch).
    split; [now apply in_map|exact Hr].
  - now apply HS.
Qed.
Lemma filter_mem_nil l : filter (fun c => negb (mem c l)) l = [].
Proof.
  assert (K : forall m, incl m l -> filter (fun c => negb (mem c l)) m = []).
  { induction m as [|c m IH]; intros H; [reflexivity|]. cbn. rewrite (proj2 (mem_in c l)) by (apply H; now left). cbn. apply IH. intros x Hx. apply H. now right. }
  apply K. apply incl_refl.
Qed.
Section St.
Variables (header : list col) (cs : list col).
Hypothesis Hne : (if mem Solar cs || mem Solar2 cs then filter (fun c => negb (mem c [Grid; Solar; Solar2])) cs ++ [Use] else map (fun c => match c with Grid => Use | _ => c end) cs) <> [].
Let out := (if mem Solar cs || mem Solar2 cs then filter (fun c => negb (mem c [Grid; Solar; Solar2])) cs ++ [Use] else map (fun c => match c with Grid => Use | _ => c end) cs).
Definition frm (acc : list row) : frame := match acc with [] => mkFrame [] [] | _ => mkFrame out (map (fun r => (r_time r, cell_of cs out r)) acc) end.
Lemma frm_step acc rs : (rs <> [] -> kept header rs = cs) -> step_frame header (frm acc) rs = frm (acc ++ rs).
Proof.
  intros H. destruct rs as [|x rs]; [now rewrite app_nil_r|]. specialize (H ltac:(discriminate)). unfold step_frame.
  assert (O : out_of header (x :: rs) = out) by (unfold out_of; rewrite H; reflexivity). rewrite O, H. destruct acc as [|y acc].
  - cbn [frm is_empty columns List.app]. reflexivity.
  - assert (E : is_empty (frm (y :: acc)) = false). { unfold is_empty, frm. cbn [columns rows map]. fold out in Hne. destruct out; [congruence|reflexivity]. }
    rewrite E. unfold concat_frames, frm. cbn [columns rows List.app]. rewrite filter_mem_nil, app_nil_r. f_equal. now rewrite <- map_app.
Qed.
Lemma frm_fold l : forall acc, (forall rs, In rs l -> rs <> [] -> kept header rs = cs) -> fold_left (step_frame header) l (frm acc) = frm (acc ++ concat l).
Proof.
  induction l as [|rs l IH]; intros acc H; cbn [fold_left concat]; [now rewrite app_nil_r|]. rewrite frm_step by (apply H; now left).
  rewrite IH by (intros; apply H; [now right|assumption]). now rewrite app_assoc.
Qed.
End St.

Lemma steady_frame fl b : steady fl b -> out_of (f_header fl) (file_rows fl b) <> [] ->
  file_frame fl b = mkFrame (out_of (f_header fl) (file_rows fl b))
     (sort_rows (map (fun r => (r_time r, cell_of (kept (f_header fl) (file_rows fl b)) (out_of (f_header fl) (file_rows fl b)) r)) (file_rows fl b))).
Proof.
  intros HS HN. unfold file_frame. set (cs := kept (f_header fl) (file_rows fl b)) in *. pose proof (frm_fold (f_header fl) cs HN (map (of_building b) (f_chunks fl)) []) as F.
  cbn [frm List.app] in F. rewrite F; clear F.
  2: { intros rs Hr Hn. apply in_map_iff in Hr. destruct Hr as (ch & <- & Hc). now apply steady_kept. }
  rewrite <- of_building_concat. fold (file_rows fl b). change (of_building b (concat (f_chunks fl))) with (file_rows fl b).
  assert (HR : file_rows fl b <> []). { intros E. apply HN. rewrite E. unfold out_of. rewrite kept_nil. reflexivity. }
  destruct (file_rows fl b) as [|x rs] eqn:ER; [congruence|]. unfold frm. cbn [is_empty columns rows map]. fold (out_of (f_header fl) (x :: rs)) in *.
  change (if mem Solar cs || mem Solar2 cs then filter (fun c => negb (mem c [Grid; Solar; Solar2])) cs ++ [Use] else map (fun c => match c with Grid => Use | _ => c end) cs) with (out_of (f_header fl) (x :: rs)).
  destruct (out_of (f_header fl) (x :: rs)) eqn:EO; [congruence|]. reflexivity.
Qed.
Lemma steady_empty fl b : steady fl b -> out_of (f_header fl) (file_rows fl b) = [] -> is_empty (file_frame fl b) = true.
Proof.
  intros HS HN. rewrite file_empty.
  assert (K : forall l f, is_empty f = true -> (forall rs, In rs l -> rs <> [] -> out_of (f_header fl) rs = []) -> is_empty (fold_left (step_frame (f_header fl)) l f) = true).
  { induction l as [|rs l IH]; intros f Hf H; cbn; [exact Hf|]. apply IH; [|intros; apply H; [now right|assumption]]. destruct rs as [|x rs]; [exact Hf|].
    unfold step_frame. rewrite Hf, (H _ (or_introl eq_refl) ltac:(discriminate)). reflexivity. }
  apply K; [reflexivity|]. intros rs Hr Hn. apply in_map_iff in Hr. destruct Hr as (ch & <- & Hc). unfold out_of. rewrite (steady_kept _ _ _ HS Hc Hn). exact HN.
Qed.
Lemma file_bad_iff fl b : file_bad fl b = true <-> exists ch, In ch (f_chunks fl) /\ with_solar (f_header fl) (of_building b ch) /\ ~ with_grid (f_header fl) (of_building b ch).
Proof.
  unfold file_bad. rewrite existsb_exists. unfold badb. split; intros (ch & H & K); exists ch; (split; [exact H|]).
  - apply andb_true_iff in K. destruct K as [K1 K2]. split; [now apply solar_iff|]. intros G. apply grid_iff in G. rewrite G in K2. discriminate.
  - destruct K as [K1 K2]. rewrite (proj2 (solar_iff _ _) K1). cbn. destruct (mem Grid _) eqn:E; [|reflexivity]. elim K2. now apply grid_iff.
Qed.
Lemma solar_dec header rs : with_solar header rs \/ ~ with_solar header rs.
Proof. destruct (mem Solar (kept header rs) || mem Solar2 (kept header rs)) eqn:E; [left; now apply solar_iff|right; intros H; apply solar_iff in H; congruence]. Qed.
Lemma steady_good fl b : steady fl b -> (with_solar (f_header fl) (file_rows fl b) -> with_grid (f_header fl) (file_rows fl b)) -> file_bad fl b = false.
Proof.
  intros HS H. destruct (file_bad fl b) eqn:E; [|reflexivity]. exfalso. apply file_bad_iff in E. destruct E as (ch & Hc & A & B).
  assert (N : of_building b ch <> []). { intros N. rewrite N in A. destruct A as [[_ (r & v & [] & _)]|[_ (r & v & [] & _)]]. }
  apply B. apply grid_iff. rewrite (steady_kept _ _ _ HS Hc N). apply grid_iff. apply H. apply solar_iff. rewrite <- (steady_kept _ _ _ HS Hc N). now apply solar_iff.
Qed.

Theorem file_ok fl b ms : steady fl b -> meters_of (f_header fl) (file_rows fl b) ms -> (with_solar (f_header fl) (file_rows fl b) -> with_grid (f_header fl) (file_rows fl b)) ->
  (ms = [] -> forall f, ~ yields_frame fl b f) /\
  (ms <> [] -> exists f, yields_frame fl b f /\ columns f = ms /\
     forall k c, nth_error ms k = Some c -> exists l, Forall2 (fun r x => fst x = r_time r /\ is_power (f_header fl) (file_rows fl b) c r (snd x)) (file_rows fl b) l /\ by_time l (column_rows f (S k))).
Proof.
  intros HS HM HG. pose proof (meters_det _ _ _ _ HM (out_meters _ _)) as ->. pose proof (steady_good _ _ HS HG) as HB. split.
  - intros E f (pv & H & H'). rewrite extract_eq, HB in H. injection H as <- _. rewrite (steady_empty _ _ HS E) in H'. discriminate.
  - intros N. exists (file_frame fl b). split.
    + exists (false || file_solar fl b). split; [rewrite extract_eq, HB; reflexivity|]. rewrite (steady_frame _ _ HS N). unfold is_empty. cbn [columns rows].
      destruct (out_of (f_header fl) (file_rows fl b)) eqn:EO; [congruence|]. destruct (sort_rows _) eqn:ES; [|reflexivity]. apply (proj1 (sort_rows_nil _)) in ES. apply map_eq_nil in ES.
      rewrite ES in EO. unfold out_of in EO. rewrite kept_nil in EO. discriminate.
    + rewrite (steady_frame _ _ HS N). cbn [columns]. split; [reflexivity|]. intros k c Hk. unfold column_rows. cbn [columns rows]. rewrite Hk.
      eexists. split; [|apply sort_by_time]. rewrite map_map. assert (Hc : In c (out_of (f_header fl) (file_rows fl b))) by (eapply nth_error_In; exact Hk).
      assert (K : forall l, Forall2 (fun r x => fst x = r_time r /\ is_power (f_header fl) (file_rows fl b) c r (snd x)) l
         (map (fun r => (r_time r, cell_of (kept (f_header fl) (file_rows fl b)) (out_of (f_header fl) (file_rows fl b)) r c)) l)).
      { induction l as [|r l IH]; cbn; constructor; [|exact IH]. split; [reflexivity|]. apply cell_power; [|exact Hc].
        destruct (out_in _ _ _ Hc) as [(k' & -> & _)|[_ [H|H]]]; [right; right; discriminate|left; exact H|right; left; exact H]. }
      apply K.
Qed.
