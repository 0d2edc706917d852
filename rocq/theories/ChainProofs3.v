(** Running a chain of nodes. *)
From Coq Require Import Lia.
From Verif Require Import Base TimeFrameModel StoreModel EnergyModel PipelineModel PipelineSpec PipelineProofs ChainModel ChainSpec ChainProofs ChainProofs2.
Import List. Open Scope list_scope. Open Scope nat_scope.

Notation step := (kind * nat * list (key * nat))%type.

Lemma made_kinds plan : map n_kind (made plan) = kinds plan.
Proof. unfold made, kinds. rewrite map_map. now apply map_ext. Qed.

Lemma made_fine plan n : In n (made plan) -> (fine n /\ n_kind n <> DropoutRate) \/ (broken n /\ n_kind n = DropoutRate).
Proof.
  intros I. apply in_map_iff in I as ([[k v] e] & <- & _). destruct k; cbn.
  1-3: left; split; [now left|discriminate].
  - left. split; [right|discriminate]. eexists. split; [reflexivity|]. apply (proper_energies []). constructor.
  - now right.
Qed.

Lemma item_items g a b v : follow [a; b] g = Some v -> (do d <- item g a; do _ <- item d b; Ok tt) = Ok tt.
Proof.
  destruct g as [| |d]; try discriminate. rewrite follow_cons. cbn [item]. destruct (lookup_key a d) as [w|]; [|discriminate].
  cbn [bind]. destruct w as [| |e]; try discriminate. rewrite follow_cons. cbn [item]. now destruct (lookup_key b e).
Qed.

Section External.
Variable join : nat -> nat -> nat.
Variable clash : meta -> meta -> res meta.

Lemma made_get m plan : fits m -> ~ In DropoutRate (kinds plan) ->
  exists g, get_metadata join clash m (made plan) = Ok g /\ forall b, follow [k_device; b] g = follow [k_device; b] m.
Proof.
  intros F N. destruct (get_ok join clash m (made plan) F) as (g & E & G).
  - intros n I. destruct (made_fine plan n I) as [[H _]|[_ H]]; [exact H|].
    exfalso. apply N. rewrite <- made_kinds, <- H. now apply in_map.
  - exists g. split; [exact E|]. intros b. apply (g_kept _ _ _ _ G). intros n r I R.
    apply in_map_iff in I as ([[k v] e] & <- & _). destruct k; cbn in R; try discriminate. injection R as <-. reflexivity.
Qed.

Lemma made_get_error m plan : fits m -> In DropoutRate (kinds plan) -> get_metadata join clash m (made plan) = Err KeyError.
Proof.
  intros F I. rewrite <- made_kinds in I. apply in_map_iff in I as (n & K & I).
  apply (get_broken_error join clash m (made plan) n F); [|exact I|].
  - intros x J. destruct (made_fine plan x J) as [[H _]|[H _]]; auto.
  - destruct (made_fine plan n I) as [[_ H]|[H _]]; [easy|exact H].
Qed.

Lemma kind_dec (a b : kind) : {a = b} + {a <> b}.
Proof. decide equality. Qed.

Lemma device_cases m plan b : fits m ->
  (In DropoutRate (kinds plan) /\ device_item join clash m (made plan) b = Err KeyError /\ get_metadata join clash m (made plan) = Err KeyError) \/
  (~ In DropoutRate (kinds plan) /\ (exists g, get_metadata join clash m (made plan) = Ok g) /\
   (present [k_device; b] m -> device_item join clash m (made plan) b = Ok tt)).
Proof.
  intros F. unfold device_item. destruct (in_dec kind_dec DropoutRate (kinds plan)) as [I|I].
  - left. rewrite (made_get_error m plan F I). auto.
  - right. destruct (made_get m plan F I) as (g & E & K). split; [exact I|]. split; [now exists g|].
    intros [v V]. rewrite E. cbn [bind]. rewrite <- K in V. apply (item_items _ _ _ _ V).
Qed.

Lemma begin_cases m plan k : fits m ->
  (begin_node join clash m (made plan) k = Ok tt /\ ready m (kinds plan) k /\ readable (kinds plan) k) \/
  (begin_node join clash m (made plan) k = Err UnsatisfiedRequirementsError /\ ~ ready m (kinds plan) k) \/
  (begin_node join clash m (made plan) k = Err KeyError /\ ~ readable (kinds plan) k).
Proof.
  intros F. pose proof (check_ready join clash m (made plan) k F) as C. rewrite made_kinds in C.
  assert (R : forall b, k <> Apply -> (ready m (kinds plan) k -> present [k_device; b] m) ->
    (ready m (kinds plan) k -> (device_item join clash m (made plan) b = Ok tt /\ readable (kinds plan) k) \/
      (device_item join clash m (made plan) b = Err KeyError /\ ~ readable (kinds plan) k))).
  { intros b K P Y. destruct (device_cases m plan b F) as [(I & E & _)|(I & _ & E)].
    - right. split; [exact E|]. intros [H|H]; easy.
    - left. split; [now apply E, P|now right]. }
  destruct k; cbn [begin_node].
  - destruct C as [[-> Y]|[-> Y]]; cbn [bind]; [|now right; left].
    destruct (R k_measurements) as [[-> H]|[-> H]]; auto; discriminate.
  - destruct C as [[-> Y]|[-> Y]]; [left; split; [reflexivity|split; [exact Y|now left]]|now right; left].
  - destruct (device_cases m plan k_max_sample_period F) as [(I & E & G)|(I & [g G] & E)]; rewrite G; cbn [bind].
    + right; right. split; [reflexivity|]. intros [H|H]; [discriminate|easy].
    + destruct C as [[-> Y]|[-> Y]]; cbn [bind]; [|now right; left].
      left. split; [now apply E|split; [exact Y|now right]].
  - destruct C as [[-> Y]|[-> Y]]; cbn [bind]; [|now right; left].
    destruct (R k_max_sample_period) as [[-> H]|[-> H]]; auto; [discriminate|now intros []].
  - destruct C as [[-> Y]|[-> Y]]; cbn [bind]; [|now right; left].
    destruct (R k_sample_period) as [[-> H]|[-> H]]; auto; discriminate.
Qed.

(** All nodes of [down], which stand below [up], are ready and can read. *)
Lemma begin_chain_cases m plan : fits m ->
  (begin_chain join clash m (made plan) = Ok tt /\ supported m (kinds plan)) \/
  exists e down k up, begin_chain join clash m (made plan) = Err e /\ kinds plan = down ++ k :: up /\
    (forall d1 k' d2, down = d1 ++ k' :: d2 -> ready m (d2 ++ k :: up) k' /\ readable (d2 ++ k :: up) k') /\
    ((e = UnsatisfiedRequirementsError /\ ~ ready m up k) \/ (e = KeyError /\ ~ readable up k)).
Proof.
  intros F. induction plan as [|[[k v] en] plan IH].
  - left. split; [reflexivity|]. intros down k up E. destruct down; discriminate.
  - change (made ((k, v, en) :: plan)) with (fresh k v en :: made plan).
    change (kinds ((k, v, en) :: plan)) with (k :: kinds plan).
    cbn [begin_chain n_kind fresh].
    destruct (begin_cases m plan k F) as [(E & Y & R)|[[E Y]|[E Y]]]; rewrite E; cbn [bind].
    + destruct IH as [[E' S]|(e & down & k' & up & E' & K & D & Q)]; rewrite E'.
      * left. split; [reflexivity|]. intros [|d down] k' up E2; injection E2 as <- E2; [now rewrite <- E2|].
        now apply (S down).
      * right. exists e, (k :: down), k', up. split; [reflexivity|]. split; [now rewrite K|]. split; [|exact Q].
        intros [|d d1] k2 d2 E2; injection E2 as <- E2; [rewrite <- E2, <- K; now split|now apply (D d1)].
    + right. exists UnsatisfiedRequirementsError, [], k, (kinds plan). split; [reflexivity|]. split; [reflexivity|]. split; [|now left].
      intros d1 k' d2 Q. destruct d1; discriminate.
    + right. exists KeyError, [], k, (kinds plan). split; [reflexivity|]. split; [reflexivity|]. split; [|now right].
      intros d1 k' d2 Q. destruct d1; discriminate.
Qed.

Lemma runs some m plan : fits m -> ((exists ns, run join clash some m (made plan) = Ok ns) <-> supported m (kinds plan)).
Proof.
  intros F. unfold run. destruct (begin_chain_cases m plan F) as [[E S]|(e & down & k & up & E & K & _ & Q)]; rewrite E; cbn [bind].
  - split; [intros _; exact S|intros _; now eexists].
  - split; [intros [ns H]; discriminate|]. intros S. exfalso. destruct (S down k up K) as [Y R]. destruct Q as [[_ Q]|[_ Q]]; easy.
Qed.

Lemma raises some m plan e : fits m -> run join clash some m (made plan) = Err e ->
  exists down k up, kinds plan = down ++ k :: up /\
    (forall d1 k' d2, down = d1 ++ k' :: d2 -> ready m (d2 ++ k :: up) k' /\ readable (d2 ++ k :: up) k') /\
    ((e = UnsatisfiedRequirementsError /\ ~ ready m up k) \/ (e = KeyError /\ ~ readable up k)).
Proof.
  intros F. unfold run. destruct (begin_chain_cases m plan F) as [[E S]|(e' & down & k & up & E & K & D & Q)]; rewrite E; cbn [bind]; [discriminate|].
  intros [= <-]. now exists down, k, up.
Qed.

Lemma source_device metadata device b : present [k_device; b] (source metadata device) <-> present [b] (Dict device).
Proof.
  unfold present, source. rewrite follow_cons, lookup_set. cbn [Nat.eqb k_device]. reflexivity.
Qed.
Lemma supported_one m k : supported m [k] <-> ready m [] k.
Proof.
  split.
  - intros S. now destruct (S [] k [] eq_refl).
  - intros R [|d down] k' up E; [injection E as <- <-; split; [exact R|right; intros []]|].
    destruct down; discriminate.
Qed.
Lemma meter_runs some metadata device x y : fits (source metadata device) ->
  ((exists ns, run join clash some (source metadata device) (made [(TotalEnergy, fst x, snd x); (Clip, fst y, snd y)]) = Ok ns) <->
     present [k_measurements] (Dict device) /\ present [k_max_sample_period] (Dict device)) /\
  ((exists ns, run join clash some (source metadata device) (made [(GoodSections, fst x, snd x)]) = Ok ns) <-> present [k_max_sample_period] (Dict device)) /\
  ((exists ns, run join clash some (source metadata device) (made [(DropoutRate, fst x, snd x)]) = Ok ns) <-> present [k_sample_period] (Dict device)).
Proof.
  intros F. split; [|split].
  - rewrite runs by exact F. cbn [kinds map fst]. rewrite <- !(source_device metadata). split.
    + intros S. destruct (S [] _ _ eq_refl) as [[R _] _]. destruct (S [TotalEnergy] _ _ eq_refl) as [R' _]. now split.
    + intros [P Q] [|d down] k up E; injection E as <- E.
      * subst up. split; [split; [exact Q|right; now left]|right; intros [H|[]]; discriminate].
      * revert k up E. apply supported_one. exact P.
  - rewrite runs by exact F. cbn [kinds map fst]. rewrite supported_one, <- (source_device metadata). reflexivity.
  - rewrite runs by exact F. cbn [kinds map fst]. rewrite supported_one, <- (source_device metadata). reflexivity.
Qed.

(** ** No metadata whatever help *)
Lemma device_broken m up n b : In n up -> broken n -> device_item join clash m up b <> Ok tt.
Proof.
  intros I B. unfold device_item. pose proof (get_broken join clash m up n I B) as G.
  destruct (get_metadata join clash m up) as [g|e]; [now destruct (G g)|discriminate].
Qed.

Lemma begin_broken m up n k : In n up -> broken n -> k <> Apply -> begin_node join clash m up k <> Ok tt.
Proof.
  intros I B K. pose proof (device_broken m up n) as D. destruct k; cbn [begin_node]; [| easy | | |].
  - destruct (check join clash m up Clip); [now apply D|discriminate].
  - destruct (get_metadata join clash m up); [|discriminate]. cbn [bind].
    destruct (check join clash m up GoodSections); [now apply D|discriminate].
  - destruct (check join clash m up TotalEnergy); [now apply D|discriminate].
  - destruct (check join clash m up DropoutRate); [now apply D|discriminate].
Qed.

Lemma begin_chain_all m chain : begin_chain join clash m chain = Ok tt ->
  forall down n up, chain = down ++ n :: up -> begin_node join clash m up (n_kind n) = Ok tt.
Proof.
  induction chain as [|x rest IH]; intros E down n up Q; [destruct down; discriminate|].
  cbn [begin_chain] in E. destruct (begin_node join clash m rest (n_kind x)) as [[]|] eqn:B; [|discriminate].
  destruct down as [|d down]; injection Q as <- Q; [now rewrite <- Q|]. now apply (IH E down).
Qed.

Lemma never_chained some m plan down k up : kinds plan = down ++ k :: up -> k <> Apply -> In DropoutRate up ->
  forall ns, run join clash some m (made plan) <> Ok ns.
Proof.
  intros K A I ns R. unfold run in R. destruct (begin_chain join clash m (made plan)) as [[]|] eqn:B; [|discriminate].
  unfold kinds in K. apply map_eq_app in K as (p1 & p2 & -> & _ & K). destruct p2 as [|x p3]; [discriminate|]. injection K as K1 K2.
  unfold made in B. rewrite map_app in B. cbn [map] in B.
  pose proof (begin_chain_all m _ B _ _ _ eq_refl) as N. cbn [n_kind fresh] in N. rewrite K1 in N.
  rewrite <- K2 in I. apply in_map_iff in I as (y & Y & I).
  refine (begin_broken m _ (fresh (fst (fst y)) (snd (fst y)) (snd y)) k _ _ A N).
  - apply in_map_iff. now exists y.
  - unfold broken. cbn. now rewrite Y.
Qed.

(** ** Afterwards *)
Definition finished (some : bool) (plan : list step) : list node :=
  map (fun n => mkNode (n_kind n) (n_value n) (n_energies n) (final_results some n)) (made plan).

Lemma run_finished some m plan ns : run join clash some m (made plan) = Ok ns -> ns = finished some plan.
Proof. unfold run. destruct (begin_chain _ _ _ _); [|discriminate]. cbn [bind]. now intros [= <-]. Qed.

Lemma in_finished some plan n : In n (finished some plan) <-> exists k v e, In (k, v, e) plan /\
  n = mkNode k v e (final_results some (fresh k v e)).
Proof.
  unfold finished, made. rewrite map_map, in_map_iff. split.
  - intros ([[k v] e] & <- & I). now exists k, v, e.
  - intros (k & v & e & I & ->). exists (k, v, e). split; [reflexivity|exact I].
Qed.

Lemma final_proper k v e r some : NoDup (map fst e) -> final_results some (fresh k v e) = Some (Ok r) -> proper r.
Proof.
  intros ND. destruct k; cbn [final_results fresh n_kind n_value n_energies]; try discriminate.
  - intros [= <-]. apply (proper_two _ _ _ false); try reflexivity. intros _. now eexists.
  - intros [= <-]. destruct some; [now apply proper_energies|]. apply (proper_energies []). constructor.
  - destruct some; [|discriminate]. intros [= <-]. apply (proper_two _ _ _ false); try reflexivity. intros _. now eexists.
Qed.

Lemma finished_get m plan : fits m -> sound_plan plan ->
  exists g, get_metadata join clash m (finished true plan) = Ok g /\ got join m (finished true plan) g.
Proof.
  intros F SP. apply (get_ok join clash m _ F). intros n I. apply in_finished in I as (k & v & e & I & ->).
  unfold fine. cbn [n_results]. destruct (final_results true (fresh k v e)) as [[r|x]|] eqn:E; [| |now left].
  - right. exists r. split; [reflexivity|]. apply (final_proper k v e r true); [apply (SP _ I)|exact E].
  - destruct k; discriminate.
Qed.

Lemma finished_answers (p : list key) (here : step -> option nat) old plan :
  (forall x, answer_at p (mkNode (fst (fst x)) (snd (fst x)) (snd x) (final_results true (fresh (fst (fst x)) (snd (fst x)) (snd x)))) = here x) ->
  fold_right (fun n acc => gather join acc (answer_at p n)) old (finished true plan) = gathered join here plan old.
Proof.
  intros H. unfold gathered. induction plan as [|x plan IH]; [reflexivity|].
  change (finished true (x :: plan)) with
    (mkNode (fst (fst x)) (snd (fst x)) (snd x) (final_results true (fresh (fst (fst x)) (snd (fst x)) (snd x))) :: finished true plan).
  cbn [fold_right]. now rewrite IH, H.
Qed.

Lemma supplied m plan ns : fits m -> sound_plan plan -> run join clash true m (made plan) = Ok ns ->
  exists g, get_metadata join clash m ns = Ok g /\
    follow p_good_sections g = gathered join good_answer plan (follow p_good_sections m) /\
    follow p_dropout_rate g = gathered join dropout_answer plan (follow p_dropout_rate m) /\
    forall a, follow (p_total_energy a) g = gathered join (energy_answer a) plan (follow (p_total_energy a) m).
Proof.
  intros F SP R. apply run_finished in R as ->. destruct (finished_get m plan F SP) as (g & E & G).
  exists g. split; [exact E|]. split; [|split; [|intros a]].
  - rewrite (g_answers _ _ _ _ G p_good_sections eq_refl). apply finished_answers. intros [[k v] e]. now destruct k.
  - rewrite (g_answers _ _ _ _ G p_dropout_rate eq_refl). apply finished_answers. intros [[k v] e]. now destruct k.
  - rewrite (g_answers _ _ _ _ G (p_total_energy a) eq_refl). apply finished_answers. intros [[k v] e].
    destruct k; try reflexivity. cbn [fst snd].
    unfold answer_at, energy_answer, p_total_energy. cbn [n_results final_results fresh n_kind n_energies fst snd].
    rewrite follow_one. destruct (Nat.eq_dec k_total_energy k_total_energy) as [_|]; [|easy].
    rewrite follow_cons, entry_atoms.
    match goal with |- context [find ?f e] => destruct (find f e) end; reflexivity.
Qed.

Lemma kept m plan ns : fits m -> sound_plan plan -> run join clash true m (made plan) = Ok ns ->
  exists g, get_metadata join clash m ns = Ok g /\
    forall k q, k <> k_statistics -> k <> k_total_energy -> follow (k :: q) g = follow (k :: q) m.
Proof.
  intros F SP R. apply run_finished in R as ->. destruct (finished_get m plan F SP) as (g & E & G).
  exists g. split; [exact E|]. intros k q N1 N2. apply (g_kept _ _ _ _ G). intros n r I.
  apply in_finished in I as (k' & v & e & _ & ->). cbn [n_results].
  destruct k'; cbn [final_results fresh n_kind]; try discriminate; intros [= <-]; rewrite follow_one;
    match goal with |- context [Nat.eq_dec ?x ?y] => destruct (Nat.eq_dec x y); [easy|reflexivity] end.
Qed.

Lemma other_statistics m plan ns : fits m -> sound_plan plan -> run join clash true m (made plan) = Ok ns ->
  exists g, get_metadata join clash m ns = Ok g /\
    forall k q, k <> k_good_sections -> k <> k_dropout_rate -> follow (k_statistics :: k :: q) g = follow (k_statistics :: k :: q) m.
Proof.
  intros F SP R. apply run_finished in R as ->. destruct (finished_get m plan F SP) as (g & E & G).
  exists g. split; [exact E|]. intros k q N1 N2. apply (g_kept _ _ _ _ G). intros n r I.
  apply in_finished in I as (k' & v & e & _ & ->). cbn [n_results].
  destruct k'; cbn [final_results fresh n_kind]; try discriminate; intros [= <-]; rewrite follow_one;
    match goal with |- context [Nat.eq_dec ?x ?y] => destruct (Nat.eq_dec x y); [|reflexivity] end; try discriminate.
  all: rewrite follow_one; match goal with |- context [Nat.eq_dec ?x ?y] => destruct (Nat.eq_dec x y); [easy|reflexivity] end.
Qed.

Lemma dry_promise m plan : fits m -> exists D, dry_run_metadata join clash m (made plan) = Ok D /\
  forall p, present p D <-> present p m \/ exists k, In k (kinds plan) /\ present p (postconditions k).
Proof.
  intros F. destruct (dry_ok join clash m (made plan) F) as (D & E & DD). exists D. split; [exact E|].
  intros p. rewrite (d_present _ _ _ DD). apply or_iff_compat_l. rewrite <- made_kinds. split.
  - intros (n & I & P). exists (n_kind n). split; [now apply in_map|exact P].
  - intros (k & I & P). apply in_map_iff in I as (n & <- & I). now exists n.
Qed.

Lemma dry_two m plan : fits m -> exists D, dry_run_metadata join clash m (made plan) = Ok D /\
  forall a b, present [a; b] D <-> present [a; b] m \/ exists k, In k (kinds plan) /\ promise k = Some [a; b].
Proof.
  intros F. destruct (dry_promise m plan F) as (D & E & P). exists D. split; [exact E|]. intros a b. rewrite P. apply or_iff_compat_l.
  split; intros (k & I & H); exists k; (split; [exact I|]).
  - apply (post_two clash) in H; [|now exists a, b].
    destruct H as [[-> ->]|[[-> ->]|[[-> ->]|[-> ->]]]]; reflexivity.
  - destruct k; cbn in H; try discriminate; injection H as <- <-; now eexists.
Qed.

Lemma clip_unfulfilled m plan ns : fits m -> sound_plan plan -> ~ present p_clip m -> In Clip (kinds plan) ->
  run join clash true m (made plan) = Ok ns ->
  exists D g, dry_run_metadata join clash m (made plan) = Ok D /\ present p_clip D /\
    get_metadata join clash m ns = Ok g /\ ~ present p_clip g.
Proof.
  intros F SP N I R. destruct (dry_promise m plan F) as (D & E & P). destruct (kept m plan ns F SP R) as (g & G & K).
  exists D, g. split; [exact E|]. split; [|split; [exact G|]].
  - apply P. right. exists Clip. split; [exact I|now eexists].
  - unfold present, p_clip in *. rewrite K by discriminate. exact N.
Qed.

Lemma energy_unfulfilled m plan ns : fits m -> sound_plan plan -> ~ present p_energy m -> In TotalEnergy (kinds plan) ->
  run join clash true m (made plan) = Ok ns ->
  exists D g, dry_run_metadata join clash m (made plan) = Ok D /\ present p_energy D /\
    get_metadata join clash m ns = Ok g /\ ~ present p_energy g.
Proof.
  intros F SP N I R. destruct (dry_promise m plan F) as (D & E & P). destruct (other_statistics m plan ns F SP R) as (g & G & K).
  exists D, g. split; [exact E|]. split; [|split; [exact G|]].
  - apply P. right. exists TotalEnergy. split; [exact I|now eexists].
  - unfold present, p_energy in *. rewrite K by discriminate. exact N.
Qed.

Lemma gathered_some here plan old x v : In x plan -> here x = Some v -> exists w, gathered join here plan old = Some w.
Proof.
  unfold gathered. intros I H.
  assert (S : forall acc y, (exists w, acc = Some w) -> exists w, gather join acc (here y) = Some w).
  { intros acc y [w ->]. unfold gather. destruct (here y); [destruct w|]; now eexists. }
  induction plan as [|y plan IH]; [destruct I|]. cbn [fold_right]. destruct I as [->|I]; [|apply S, IH, I].
  rewrite H. unfold gather. destruct (fold_right _ old plan) as [[| |]|]; now eexists.
Qed.

Lemma fulfilled m plan ns : fits m -> sound_plan plan -> run join clash true m (made plan) = Ok ns ->
  exists D g, dry_run_metadata join clash m (made plan) = Ok D /\ get_metadata join clash m ns = Ok g /\
    forall p, p = p_good_sections \/ p = p_dropout_rate -> present p D -> present p g.
Proof.
  intros F SP R. destruct (dry_promise m plan F) as (D & E & P). apply run_finished in R as ->.
  destruct (finished_get m plan F SP) as (g & G & GG). exists D, g. split; [exact E|]. split; [exact G|].
  intros p Q H. apply (g_present _ _ _ _ GG). apply P in H as [H|(k & I & H)]; [now left|right].
  unfold kinds in I. apply in_map_iff in I as ([[k' v] e] & <- & I). cbn [fst] in *.
  apply (post_two clash) in H; [|destruct Q as [->| ->]; now do 2 eexists].
  destruct Q as [->| ->]; destruct H as [[-> H]|[[-> H]|[[-> H]|[-> H]]]]; try discriminate.
  - exists (mkNode GoodSections v e (final_results true (fresh GoodSections v e))). eexists.
    split; [apply in_finished; now exists GoodSections, v, e|]. split; [reflexivity|now eexists].
  - exists (mkNode DropoutRate v e (final_results true (fresh DropoutRate v e))). eexists.
    split; [apply in_finished; now exists DropoutRate, v, e|]. split; [reflexivity|now eexists].
Qed.

Lemma no_chunk m plan ns : fits m -> sound_plan plan -> run join clash false m (made plan) = Ok ns ->
  (In DropoutRate (kinds plan) -> get_metadata join clash m ns = Err KeyError) /\
  (~ In DropoutRate (kinds plan) -> exists g, get_metadata join clash m ns = Ok g).
Proof.
  intros F SP R. apply run_finished in R as ->.
  assert (C : forall x, In x (finished false plan) -> fine x /\ n_kind x <> DropoutRate \/ broken x /\ n_kind x = DropoutRate).
  { intros x I. apply in_finished in I as (k & v & e & I & ->). unfold fine, broken. cbn [n_results n_kind].
    destruct (kind_dec k DropoutRate) as [->|N]; [now right|left]. split; [|exact N].
    destruct (final_results false (fresh k v e)) as [[r|x]|] eqn:Q; [| |now left].
    - right. exists r. split; [reflexivity|]. apply (final_proper k v e r false); [apply (SP _ I)|exact Q].
    - destruct k; discriminate || easy. }
  split; intros I.
  - unfold kinds in I. apply in_map_iff in I as ([[k v] e] & K & I). cbn [fst] in K. subst k.
    apply (get_broken_error join clash m _ (mkNode DropoutRate v e (Some (Err KeyError))) F).
    + intros x J. destruct (C x J) as [[H _]|[H _]]; auto.
    + apply in_finished. now exists DropoutRate, v, e.
    + reflexivity.
  - destruct (get_ok join clash m (finished false plan) F) as (g & G & _); [|now exists g].
    intros x J. destruct (C x J) as [[H _]|[_ H]]; [exact H|]. exfalso. apply I.
    apply in_finished in J as (k & v & e & J & ->). cbn in H. subst k. unfold kinds. apply in_map_iff. now exists (DropoutRate, v, e).
Qed.
End External.
