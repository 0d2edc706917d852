From Coq Require Import String QArith Lia.
From Verif Require Import Base HartModel SteadyModel ClusterModel HartRunModel TrialModel TrialSpec.
Import List. Open Scope list_scope. Open Scope nat_scope.

Section Pr.
Context {S D P H : Type}.
Notation clf := (clf S D P).
Notation house := (house D H).
Notation config := (config D H).
Implicit Types (c : clf) (cfg : config).

Lemma chunked_iff cfg : chunked cfg = true <-> by_chunks cfg.
Proof.
  unfold chunked, by_chunks. destruct (c_chunk cfg) as [[|n]|]; split; try discriminate.
  - intros (n & [= <-] & K). congruence.
  - intros _. exists (Datatypes.S n). auto.
  - reflexivity.
  - intros (n & K & _). discriminate.
Qed.
Lemma same_class_refl c : same_class c c.
Proof. repeat split. Qed.
Lemma same_class_trans c c1 c2 : same_class c c1 -> same_class c1 c2 -> same_class c c2.
Proof. intros (A & B & C & E & F) (A' & B' & C' & E' & F'). repeat split; congruence. Qed.
Lemma fits_app f (s : S) l1 s1 l2 s2 : fits f s l1 s1 -> fits f s1 l2 s2 -> fits (D := D) f s (l1 ++ l2) s2.
Proof. induction 1; intros K; [exact K|]. cbn. econstructor; eauto. Qed.
Definition calls (p : string) (epoch : nat) (ds : list D) : list (bound * list D) := map (fun d => ([(p, epoch)], [d])) ds.
Lemma fit_chunks_ok c ep ds c' p : fit_chunks c ep ds = (c', None) -> (exists r, k_extra c = p :: r) \/ ds = [] ->
  same_class c c' /\ k_epochs c' = k_epochs c /\ fits (k_fit c) (k_state c) (calls p ep ds) (k_state c').
Proof.
  revert c. induction ds as [|d ds IH]; intros c E HX; cbn in E.
  - injection E as <-. split; [apply same_class_refl|]. split; [reflexivity|constructor].
  - destruct HX as [(r & HX)|HX]; [|discriminate]. unfold call_fit in E. rewrite HX in E. cbn [length Nat.leb] in E. cbn [combine] in E. destruct (k_fit c (k_state c) [(p, ep)] [d]) as [s e] eqn:EF.
    rewrite ?combine_nil in E. destruct r as [|q r]; cbn [combine] in E; rewrite EF in E; (destruct e as [e|]; [discriminate|]);
    (destruct (IH (set_state c s)) as (A & B & C); [exact E|left; eexists; exact HX|]);
    (split; [eapply same_class_trans; [|exact A]; repeat split|]); (split; [exact B|]); cbn; (econstructor; [exact EF|exact C]).
Qed.
Lemma train_chunk_wise_ok hs : forall c ep c' p, train_chunk_wise c hs ep = (c', None) -> (exists r, k_extra c = p :: r) \/ Forall (fun h => fst (h_chunks h) = []) hs ->
  Forall (fun h : house => snd (h_chunks h) = None) hs /\ same_class c c' /\ k_epochs c' = k_epochs c /\
  fits (k_fit c) (k_state c) (flat_map (fun h => calls p ep (fst (h_chunks h))) hs) (k_state c').
Proof.
  induction hs as [|h hs IH]; intros c ep c' p E HX; cbn in E.
  - injection E as <-. split; [constructor|]. split; [apply same_class_refl|]. split; [reflexivity|constructor].
  - destruct (fit_chunks c ep (fst (h_chunks h))) as [c1 [e|]] eqn:E1; [discriminate|]. destruct (snd (h_chunks h)) as [e|] eqn:E2; [discriminate|].
    assert (HX1 : (exists r, k_extra c = p :: r) \/ fst (h_chunks h) = []) by (destruct HX as [HX|HX]; [now left|right; now apply Forall_inv in HX]).
    destruct (fit_chunks_ok _ _ _ _ _ E1 HX1) as (A & B & C). destruct (IH c1 ep c' p E) as (F & A' & B' & C').
    { destruct HX as [HX|HX]; [left; destruct A as (-> & _); exact HX|right; now apply Forall_inv_tail in HX]. }
    split; [constructor; assumption|]. split; [eapply same_class_trans; eassumption|]. split; [congruence|]. cbn. eapply fits_app; [exact C|]. destruct A as (_ & _ & _ & <- & _). exact C'.
Qed.
Lemma train_epochs_ok hs n : forall c i c' p, train_epochs c hs i n = (c', None) -> (exists r, k_extra c = p :: r) \/ n = 0 \/ Forall (fun h => fst (h_chunks h) = []) hs ->
  (Forall (fun h : house => snd (h_chunks h) = None) hs \/ n = 0) /\ same_class c c' /\ k_epochs c' = k_epochs c /\
  fits (k_fit c) (k_state c) (flat_map (fun ep => flat_map (fun h => calls p ep (fst (h_chunks h))) hs) (seq i n)) (k_state c').
Proof.
  induction n as [|n IH]; intros c i c' p E HX; cbn in E.
  - injection E as <-. split; [now right|]. split; [apply same_class_refl|]. split; [reflexivity|constructor].
  - destruct (train_chunk_wise c hs i) as [c1 [e|]] eqn:E1; [discriminate|]. destruct (train_chunk_wise_ok _ _ _ _ p E1) as (F & A & B & C); [destruct HX as [HX|[HX|HX]]; [now left|discriminate|now right]|].
    destruct (IH c1 (Datatypes.S i) c' p E) as (F' & A' & B' & C'). { destruct HX as [HX|[HX|HX]]; [left; destruct A as (-> & _); exact HX|discriminate|right; now right]. }
    split; [now left|]. split; [eapply same_class_trans; eassumption|]. split; [congruence|]. cbn. eapply fits_app; [exact C|]. destruct A as (_ & _ & _ & <- & _). exact C'.
Qed.
Lemma mapM_first (hs : list house) : forall ds, mapM h_first hs = Ok ds -> Forall2 (fun h d => h_first h = Ok d) hs ds.
Proof.
  induction hs as [|h hs IH]; cbn; intros ds E; [injection E as <-; constructor|]. destruct (h_first h) eqn:E1; [|discriminate]. cbn in E. destruct (mapM h_first hs) eqn:E2; [|discriminate]. injection E as <-. constructor; auto.
Qed.
(* with no positional parameter, success means that there was no chunk *)
Lemma fit_chunks_none c ep ds c' : k_extra c = [] -> fit_chunks c ep ds = (c', None) -> ds = [].
Proof. intros HX. destruct ds; [reflexivity|]. cbn. unfold call_fit. rewrite HX. discriminate. Qed.
Lemma train_chunk_wise_none (hs : list house) : forall c ep c', k_extra c = [] -> train_chunk_wise c hs ep = (c', None) -> Forall (fun h => fst (h_chunks h) = []) hs.
Proof.
  induction hs as [|h hs IH]; intros c ep c' HX E; cbn in E; [constructor|]. destruct (fit_chunks c ep (fst (h_chunks h))) as [c1 [e|]] eqn:E1; [discriminate|].
  destruct (snd (h_chunks h)); [discriminate|]. pose proof (fit_chunks_none _ _ _ _ HX E1) as E0. constructor; [exact E0|]. rewrite E0 in E1. injection E1 as <-. eapply IH; eassumption.
Qed.
Lemma train_epochs_none hs n : forall c i c', k_extra c = [] -> train_epochs c hs i n = (c', None) -> n = 0 \/ Forall (fun h : house => fst (h_chunks h) = []) hs.
Proof.
  destruct n as [|n]; intros c i c' HX E; [now left|right]. cbn in E. destruct (train_chunk_wise c hs i) as [c1 [e|]] eqn:E1; [discriminate|]. eapply train_chunk_wise_none; eassumption.
Qed.

Lemma train_one_ok cfg c c' : train_one cfg c = (c', None) ->
  exists calls, training cfg c calls /\ same_class c c' /\ fits (k_fit c) (k_state c) calls (k_state c') /\
    (k_epochs c' = k_epochs c \/ (by_chunks cfg /\ k_epochs c <> None /\ k_epochs c' = Some 1)) /\
    (chunkwise cfg c -> k_epochs c <> None -> k_epochs c' = Some 1).
Proof.
  unfold train_one. intros E. destruct (k_pretrained c) as [[|]|] eqn:EP.
  1: { injection E as <-. exists []. split; [now constructor|]. split; [apply same_class_refl|]. split; [constructor|]. split; [now left|]. intros (_ & K & _). congruence. }
  all: assert (NP : k_pretrained c <> Some true) by congruence.
  all: assert (J : forall c', train_jointly c (c_train cfg) = (c', None) -> ~ by_chunks cfg \/ k_chunkwise c = Some false ->
        exists calls, training cfg c calls /\ same_class c c' /\ fits (k_fit c) (k_state c) calls (k_state c') /\
    (k_epochs c' = k_epochs c \/ (by_chunks cfg /\ k_epochs c <> None /\ k_epochs c' = Some 1)) /\
    (chunkwise cfg c -> k_epochs c <> None -> k_epochs c' = Some 1)).
  1, 3: (intros c1 E1 HM; unfold train_jointly in E1; destruct (mapM h_first (c_train cfg)) as [ds|e] eqn:EM; [|discriminate]; unfold call_fit in E1; cbn [length Nat.leb] in E1;
    rewrite combine_nil in E1; destruct (k_fit c (k_state c) [] ds) as [s [e|]] eqn:EF; [discriminate|]; injection E1 as <-; exists [([], ds)];
    (split; [constructor; auto using mapM_first|]); (split; [repeat split|]); (split; [econstructor; [exact EF|constructor]|]); (split; [now left|]);
    intros (K1 & _ & K2 & _); destruct HM; [contradiction|congruence]).
  all: destruct (chunked cfg) eqn:EC; [|apply J; [exact E|left; intros K; apply chunked_iff in K; congruence]].
  all: apply chunked_iff in EC.
  all: destruct (k_chunkwise c) as [[|]|] eqn:EW; [|apply J; [exact E|now right]|discriminate].
  all: clear J.
  all: assert (K : forall c0 n, k_extra c0 = k_extra c -> same_class c c0 -> k_fit c0 = k_fit c -> k_state c0 = k_state c -> train_epochs c0 (c_train cfg) 0 n = (c', None) -> (match k_epochs c with Some k => n = k | None => n = 1 end) ->
     exists calls, training cfg c calls /\ same_class c c' /\ fits (k_fit c) (k_state c) calls (k_state c') /\ k_epochs c' = k_epochs c0).
  1, 3: (intros c0 n HX HS HF HSt ET HN;
    assert (HP : exists p, (exists r, k_extra c0 = p :: r) \/ n = 0 \/ Forall (fun h => fst (h_chunks h) = []) (c_train cfg))
      by (destruct (k_extra c0) as [|p r] eqn:EX; [exists ""%string; right; eapply train_epochs_none; eassumption|exists p; left; eauto]);
    destruct HP as (p & HP); destruct (train_epochs_ok _ _ _ _ _ p ET HP) as (A & B & C & F); rewrite HF, HSt in F;
    eexists; (split; [eapply (t_chunks cfg c n p); auto; rewrite <- HX; exact HP|]); (split; [eapply same_class_trans; eassumption|]); (split; [exact F|]); exact C).
  all: destruct (k_epochs c) as [n|] eqn:EE.
  1, 3: (destruct (K (set_epochs c 1) n eq_refl ltac:(repeat split) eq_refl eq_refl E eq_refl) as (cl & A & B & C & F); exists cl; split; [exact A|]; split; [exact B|]; split; [exact C|];
    cbn in F; split; [right; split; [exact EC|]; split; [discriminate|exact F]|intros _ _; exact F]).
  all: destruct (K c 1 eq_refl (same_class_refl c) eq_refl eq_refl E eq_refl) as (cl & A & B & C & F); exists cl; split; [exact A|]; split; [exact B|]; split; [exact C|]; split; [left; congruence|congruence].
Qed.

(** ** All classifiers *)
Lemma set_nth_same {A} (l : list A) i v x : nth_error l i = Some x -> nth_error (set_nth l i v) i = Some v.
Proof. revert i. induction l as [|y l IH]; intros [|i] E; cbn in *; try discriminate; [reflexivity|]. now apply IH. Qed.
Lemma set_nth_other {A} (l : list A) i j v : i <> j -> nth_error (set_nth l i v) j = nth_error l j.
Proof. revert i j. induction l as [|y l IH]; intros [|i] [|j] E; cbn; try reflexivity; [congruence|]. apply IH. congruence. Qed.
Lemma train_all_ok cfg ms : forall heap heap', train_all cfg heap ms = (heap', None) -> NoDup (map snd ms) ->
  (forall n i, In (n, i) ms -> exists c c', nth_error heap i = Some c /\ nth_error heap' i = Some c' /\ train_one cfg c = (c', None)) /\
  (forall i, ~ In i (map snd ms) -> nth_error heap' i = nth_error heap i).
Proof.
  induction ms as [|[n i] ms IH]; intros heap heap' E ND; cbn in E.
  - injection E as <-. split; [intros n i []|reflexivity].
  - cbn in ND. apply NoDup_cons_iff in ND. destruct ND as [N1 N2]. destruct (nth_error heap i) as [c|] eqn:EC; [|discriminate].
    destruct (train_one cfg c) as [c' [e|]] eqn:ET; [discriminate|]. destruct (IH _ _ E N2) as [A B]. split.
    + intros n' i' [[= -> ->]|K].
      * exists c, c'. split; [exact EC|]. split; [|exact ET]. rewrite B by exact N1. eapply set_nth_same; exact EC.
      * destruct (A n' i' K) as (c0 & c1 & A1 & A2 & A3). exists c0, c1. split; [|auto]. rewrite set_nth_other in A1; [exact A1|]. intros ->. apply N1. now apply (in_map snd) in K.
    + intros i' K. cbn in K. rewrite B by tauto. apply set_nth_other. tauto.
Qed.
Theorem training_ok cfg heap heap' rs : experiment cfg heap = (heap', Ok rs) -> NoDup (map snd (c_methods cfg)) ->
  (forall n i, In (n, i) (c_methods cfg) -> exists c c' calls, nth_error heap i = Some c /\ nth_error heap' i = Some c' /\ same_class c c' /\ training cfg c calls /\ fits (k_fit c) (k_state c) calls (k_state c')) /\
  (forall i, ~ In i (map snd (c_methods cfg)) -> nth_error heap' i = nth_error heap i).
Proof.
  unfold experiment. intros E ND. destruct (train_all cfg heap (c_methods cfg)) as [h [e|]] eqn:ET; [discriminate|]. injection E as <- _. destruct (train_all_ok _ _ _ _ ET ND) as [A B].
  split; [|exact B]. intros n i K. destruct (A n i K) as (c & c' & A1 & A2 & A3). destruct (train_one_ok _ _ _ A3) as (cl & T1 & T2 & T3 & _). exists c, c', cl. auto.
Qed.
Theorem epochs_ok cfg heap heap' rs n i c : experiment cfg heap = (heap', Ok rs) -> NoDup (map snd (c_methods cfg)) -> In (n, i) (c_methods cfg) -> nth_error heap i = Some c ->
  chunkwise cfg c -> k_epochs c <> None -> exists c', nth_error heap' i = Some c' /\ k_epochs c' = Some 1.
Proof.
  unfold experiment. intros E ND K EC HW HE. destruct (train_all cfg heap (c_methods cfg)) as [h [e|]] eqn:ET; [discriminate|]. injection E as <- _. destruct (train_all_ok _ _ _ _ ET ND) as [A B].
  destruct (A n i K) as (c0 & c' & A1 & A2 & A3). rewrite EC in A1. injection A1 as <-. destruct (train_one_ok _ _ _ A3) as (cl & T1 & T2 & T3 & T4 & T5). eauto.
Qed.

(** ** Results *)
Lemma predict_all_ok (heap : list clf) ms d : forall ps, predict_all heap ms d = Ok ps <-> predicted heap ms d ps.
Proof.
  unfold predict_all, predicted. induction ms as [|m ms IH]; intros ps; cbn.
  - split; [intros [= <-]; constructor|]. intros K. inversion K. reflexivity.
  - destruct (nth_error heap (snd m)) as [c|] eqn:EC; cbn.
    + destruct (k_predict c (k_state c) d) as [p|e] eqn:EP; cbn.
      * destruct (mapM _ ms) as [r|e] eqn:EM.
        -- split; [intros [= <-]; constructor; [split; [reflexivity|]; eauto|now apply IH]|]. intros K. inversion K as [|? q ? qs [K1 (c0 & K2 & K3)] K4]; subst. rewrite EC in K2. injection K2 as <-.
           rewrite EP in K3. injection K3 as K3. apply IH in K4. injection K4 as ->. destruct q. cbn in *. subst. reflexivity.
        -- split; [discriminate|]. intros K. inversion K as [|? q ? qs [K1 (c0 & K2 & K3)] K4]; subst. apply IH in K4. discriminate.
      * split; [discriminate|]. intros K. inversion K as [|? q ? qs [K1 (c0 & K2 & K3)] K4]; subst. rewrite EC in K2. injection K2 as <-. congruence.
    + split; [discriminate|]. intros K. inversion K as [|? q ? qs [K1 (c0 & K2 & K3)] K4]; subst. congruence.
Qed.
Lemma test_chunks_ok (heap : list clf) ms (k : H) ds : forall i rs, test_chunks heap ms k i ds = Ok rs ->
  length rs = length ds /\ forall j d, nth_error ds j = Some d -> exists ps, nth_error rs j = Some (k, Some (i + j), ps) /\ predicted heap ms d ps.
Proof.
  induction ds as [|d ds IH]; intros i rs E; cbn in E.
  - injection E as <-. split; [reflexivity|]. intros [|j] d; discriminate.
  - destruct (predict_all heap ms d) as [p|e] eqn:EP; [|discriminate]. cbn in E. destruct (test_chunks heap ms k (Datatypes.S i) ds) as [r|e] eqn:ER; [|discriminate]. injection E as <-.
    destruct (IH _ _ ER) as [A B]. split; [cbn; now rewrite A|]. intros [|j] x Hx; cbn in Hx.
    + injection Hx as ->. exists p. rewrite Nat.add_0_r. split; [reflexivity|]. now apply predict_all_ok.
    + destruct (B j x Hx) as (ps & B1 & B2). exists ps. split; [|exact B2]. cbn. rewrite B1. replace (i + Datatypes.S j) with (Datatypes.S i + j) by lia. reflexivity.
Qed.
Lemma test_house_ok cfg (heap : list clf) (h : house) rs : test_house cfg heap h = Ok rs -> house_results cfg heap h rs.
Proof.
  unfold test_house. intros E. destruct (chunked cfg) eqn:EC.
  - destruct (test_chunks heap (c_methods cfg) (h_key h) 0 (fst (h_chunks h))) as [r|e] eqn:ER; [|discriminate]. cbn in E. destruct (snd (h_chunks h)) eqn:ES; [discriminate|]. injection E as ->.
    destruct (test_chunks_ok _ _ _ _ _ _ ER) as [A B]. apply hr_chunks; auto. now apply chunked_iff.
  - destruct (h_first h) as [d|e] eqn:EF; [|discriminate]. cbn in E. destruct (predict_all heap (c_methods cfg) d) as [p|e] eqn:EP; [|discriminate]. injection E as <-.
    apply (hr_joint cfg heap h d p); auto; [intros K; apply chunked_iff in K; congruence|now apply predict_all_ok].
Qed.
Theorem results_ok cfg (heap heap' : list clf) rs : experiment cfg heap = (heap', Ok rs) -> exists parts, rs = concat parts /\ Forall2 (house_results cfg heap') (c_test cfg) parts.
Proof.
  unfold experiment. intros E. destruct (train_all cfg heap (c_methods cfg)) as [h [e|]]; [discriminate|]. injection E as <- E. unfold test_all in E.
  destruct (mapM (test_house cfg h) (c_test cfg)) as [parts|e] eqn:EM; [|discriminate]. injection E as <-. exists parts. split; [reflexivity|]. clear -EM.
  revert parts EM. induction (c_test cfg) as [|x l IH]; cbn; intros parts EM; [injection EM as <-; constructor|]. destruct (test_house cfg h x) eqn:E1; [|discriminate]. cbn in EM.
  destruct (mapM (test_house cfg h) l) eqn:E2; [|discriminate]. injection EM as <-. constructor; [now apply test_house_ok|auto].
Qed.

(** ** Methods do not affect each other *)
Lemma train_only cfg m c : train_one (only cfg m) c = train_one cfg c.
Proof. reflexivity. Qed.
Lemma predict_only (heap heap1 : list clf) n i d ms : nth_error heap1 i = nth_error heap i -> forall ps, predict_all heap ms d = Ok ps -> In (n, i) ms -> NoDup (map fst ms) ->
  predict_all heap1 [(n, i)] d = Ok (filter (fun p => String.eqb (fst p) n) ps).
Proof.
  intros EH. induction ms as [|[n' i'] ms IH]; intros ps E HI ND; [destruct HI|]. cbn in E. destruct (nth_error heap i') as [c|] eqn:EC; [|discriminate]. cbn in E.
  destruct (k_predict c (k_state c) d) as [p|e] eqn:EP; [|discriminate]. cbn in E. destruct (mapM _ ms) as [r|e] eqn:EM; [|discriminate]. injection E as <-. cbn in ND. apply NoDup_cons_iff in ND. destruct ND as [N1 N2].
  assert (NM : forall q, In q r -> In (fst q) (map fst ms)).
  { clear -EM. revert r EM. induction ms as [|[a b] ms IH]; cbn; intros r EM q Hq; [injection EM as <-; destruct Hq|]. destruct (nth_error heap b) as [c|]; [|discriminate]. cbn in EM.
    destruct (k_predict c (k_state c) d); [|discriminate]. cbn in EM. destruct (mapM _ ms) eqn:E2; [|discriminate]. injection EM as <-. destruct Hq as [<-|Hq]; [now left|right; eapply IH; eauto]. }
  cbn [filter fst]. destruct HI as [[= -> ->]|HI].
  - rewrite String.eqb_refl. assert (F : filter (fun q => String.eqb (fst q) n) r = []).
    { assert (NN : forall q, In q r -> fst q <> n) by (intros q Hq E0; apply N1; rewrite <- E0; now apply NM). clear -NN. induction r as [|q r IH]; [reflexivity|]. cbn. rewrite (proj2 (String.eqb_neq _ _) (NN q (or_introl eq_refl))). apply IH. intros; apply NN; now right. }
    rewrite F. unfold predict_all. cbn. rewrite EH, EC. cbn. rewrite EP. reflexivity.
  - assert (n' <> n) by (intros ->; apply N1; now apply (in_map fst) in HI). rewrite (proj2 (String.eqb_neq _ _) H0). apply IH; auto.
Qed.
Lemma test_chunks_only (heap heap1 : list clf) n i ms (k : H) ds : nth_error heap1 i = nth_error heap i -> In (n, i) ms -> NoDup (map fst ms) -> forall j rs, test_chunks heap ms k j ds = Ok rs ->
  test_chunks heap1 [(n, i)] k j ds = Ok (of_method n rs).
Proof.
  intros EH HI ND. induction ds as [|d ds IH]; intros j rs E; cbn [test_chunks] in E |- *; [injection E as <-; reflexivity|].
  destruct (predict_all heap ms d) as [p|e] eqn:EP; [|discriminate]. cbn in E. destruct (test_chunks heap ms k (Datatypes.S j) ds) as [r|e] eqn:ER; [|discriminate]. injection E as <-.
  rewrite (predict_only heap heap1 n i d ms EH p EP HI ND). cbn [bind]. rewrite (IH _ _ ER). reflexivity.
Qed.
Theorem alone_ok cfg (heap heap' : list clf) rs n i : experiment cfg heap = (heap', Ok rs) -> NoDup (map fst (c_methods cfg)) -> NoDup (map snd (c_methods cfg)) -> In (n, i) (c_methods cfg) ->
  exists heap1, experiment (only cfg (n, i)) heap = (heap1, Ok (of_method n rs)) /\ nth_error heap1 i = nth_error heap' i.
Proof.
  unfold experiment. intros E ND1 ND2 HI. destruct (train_all cfg heap (c_methods cfg)) as [h [e|]] eqn:ET; [discriminate|]. injection E as -> E.
  destruct (train_all_ok _ _ _ _ ET ND2) as [A B]. destruct (A n i HI) as (c & c' & A1 & A2 & A3). cbn [only c_methods train_all]. rewrite A1, train_only, A3. exists (set_nth heap i c'). 
  assert (EH : nth_error (set_nth heap i c') i = nth_error heap' i) by (rewrite A2; eapply set_nth_same; exact A1). split; [|exact EH]. f_equal.
  unfold test_all in *. destruct (mapM (test_house cfg heap') (c_test cfg)) as [parts|e] eqn:EM; [|discriminate]. injection E as <-.
  assert (K : forall hs parts, mapM (test_house cfg heap') hs = Ok parts -> mapM (test_house (only cfg (n, i)) (set_nth heap i c')) hs = Ok (map (of_method n) parts)).
  { induction hs as [|x hs IH]; cbn; intros ps E; [injection E as <-; reflexivity|]. destruct (test_house cfg heap' x) as [r|e] eqn:E1; [|discriminate]. cbn in E.
    destruct (mapM (test_house cfg heap') hs) as [q|e] eqn:E2; [|discriminate]. injection E as <-. specialize (IH _ eq_refl).
    assert (T : test_house (only cfg (n, i)) (set_nth heap i c') x = Ok (of_method n r)).
    { clear IH. unfold test_house in *. change (chunked (only cfg (n, i))) with (chunked cfg). cbn [only c_methods]. destruct (chunked cfg).
      - destruct (test_chunks heap' (c_methods cfg) (h_key x) 0 (fst (h_chunks x))) as [r0|e] eqn:ER; [|discriminate]. cbn in E1. rewrite (test_chunks_only heap' _ n i _ _ _ EH HI ND1 _ _ ER). cbn.
        destruct (snd (h_chunks x)); [discriminate|]. now injection E1 as ->.
      - destruct (h_first x) as [d|e]; [|discriminate]. cbn [bind] in *. destruct (predict_all heap' (c_methods cfg) d) as [p|e] eqn:EP; [|discriminate]. rewrite (predict_only heap' _ n i d _ EH p EP HI ND1). now injection E1 as <-. }
    cbn. rewrite T. cbn. now rewrite IH. }
  change (c_test (only cfg (n, i))) with (c_test cfg). rewrite (K _ _ EM). cbn. f_equal. clear. induction parts as [|p l IH]; [reflexivity|]. cbn. rewrite IH. unfold of_method. now rewrite map_app.
Qed.

(** ** Chunk-wise training that cannot work *)
Lemma train_fails cfg c : chunkwise cfg c -> some_chunk (c_train cfg) ->
  (forall s d, exists e, snd (call_fit (set_state c s) [0] [d]) = Some e) -> exists e, snd (train_one cfg c) = Some e.
Proof.
  intros (HB & NP & HW & HE) (pre & h & post & d & ds & EH & HP & EF) HX. apply chunked_iff in HB. unfold train_one.
  assert (K : forall c0 n, k_extra c0 = k_extra c -> k_fit c0 = k_fit c -> exists e, snd (train_epochs c0 (c_train cfg) 0 (Datatypes.S n)) = Some e).
  { intros c0 n HX0 HF0. assert (T : exists e, snd (train_chunk_wise c0 (c_train cfg) 0) = Some e).
    { rewrite EH. clear -HP EF HX HX0 HF0. revert c0 HX0 HF0. induction HP as [|x pre Hx HP IH]; intros c0 HX0 HF0; cbn.
      - rewrite EF. cbn. destruct (HX (k_state c0) d) as (e & E). unfold call_fit in *. cbn [set_state k_extra k_fit k_state] in E. rewrite HX0, HF0. destruct (_ <=? _); [|eexists; reflexivity].
        destruct (k_fit c (k_state c0) _ _) as [s1 e1]. cbn in E. rewrite E. eexists; reflexivity.
      - rewrite Hx. cbn. apply IH; assumption. }
    cbn. destruct (train_chunk_wise c0 (c_train cfg) 0) as [c1 [e|]]; cbn in *; [eauto|]. destruct T as (e & T). discriminate. }
  destruct (k_pretrained c) as [[|]|]; [congruence| |]; rewrite HB, HW; (destruct (k_epochs c) as [[|n]|]; [congruence|apply K; reflexivity|apply K; reflexivity]).
Qed.
Lemma train_all_fails cfg ms : forall heap n i c, In (n, i) ms -> NoDup (map snd ms) -> nth_error heap i = Some c -> (exists e, snd (train_one cfg c) = Some e) -> exists e, snd (train_all cfg heap ms) = Some e.
Proof.
  induction ms as [|[n' i'] ms IH]; intros heap n i c HI ND EC HF; [destruct HI|]. cbn in ND. apply NoDup_cons_iff in ND. destruct ND as [N1 N2]. cbn. destruct HI as [[= -> ->]|HI].
  - rewrite EC. destruct HF as (e & HF). destruct (train_one cfg c) as [c' e']. cbn in HF. subst. eexists. reflexivity.
  - destruct (nth_error heap i') as [c0|] eqn:E0; [|eexists; reflexivity]. destruct (train_one cfg c0) as [c1 [e|]]; [eexists; reflexivity|]. eapply IH; eauto.
    rewrite set_nth_other; [exact EC|]. intros ->. apply N1. now apply (in_map snd) in HI.
Qed.
Lemma experiment_fails cfg heap n i c : In (n, i) (c_methods cfg) -> NoDup (map snd (c_methods cfg)) -> nth_error heap i = Some c -> (exists e, snd (train_one cfg c) = Some e) -> exists e, snd (experiment cfg heap) = Err e.
Proof.
  intros HI ND EC HF. unfold experiment. destruct (train_all_fails cfg (c_methods cfg) heap n i c HI ND EC HF) as (e & E). destruct (train_all cfg heap (c_methods cfg)) as [h' e']. cbn in E. subst. eexists. reflexivity.
Qed.
Lemma train_typeerror cfg c : chunkwise cfg c -> some_chunk (c_train cfg) -> k_extra c = [] -> snd (train_one cfg c) = Some TypeError /\ k_state (fst (train_one cfg c)) = k_state c.
Proof.
  intros (HB & NP & HW & HE) (pre & h & post & d & ds & EH & HP & EF) HX. apply chunked_iff in HB. unfold train_one.
  assert (K : forall c0 n ep, k_extra c0 = [] -> k_state c0 = k_state c -> snd (train_epochs c0 (c_train cfg) ep (Datatypes.S n)) = Some TypeError /\ k_state (fst (train_epochs c0 (c_train cfg) ep (Datatypes.S n))) = k_state c).
  { intros c0 n ep HX0 HS0. assert (T : snd (train_chunk_wise c0 (c_train cfg) ep) = Some TypeError /\ k_state (fst (train_chunk_wise c0 (c_train cfg) ep)) = k_state c).
    { rewrite EH. clear -HP EF HX0 HS0. induction HP as [|x pre Hx HP IH]; cbn; [rewrite EF; cbn; unfold call_fit; rewrite HX0; cbn; auto|]. rewrite Hx. cbn. exact IH. }
    cbn. destruct (train_chunk_wise c0 (c_train cfg) ep) as [c1 [e|]]; cbn in *; [exact T|]. destruct T. discriminate. }
  destruct (k_pretrained c) as [[|]|]; [congruence| |]; rewrite HB, HW; (destruct (k_epochs c) as [[|n]|]; [congruence|apply K; [exact HX|reflexivity]|apply K; [exact HX|reflexivity]]).
Qed.
Theorem positional_ok cfg heap n i c : In (n, i) (c_methods cfg) -> NoDup (map snd (c_methods cfg)) -> nth_error heap i = Some c ->
  chunkwise cfg c -> some_chunk (c_train cfg) -> k_extra c = [] ->
  (exists e, snd (experiment cfg heap) = Err e) /\ (forall r, c_methods cfg = (n, i) :: r -> snd (experiment cfg heap) = Err TypeError).
Proof.
  intros HI ND EC HW HC HX. destruct (train_typeerror cfg c HW HC HX) as [T1 T2]. split; [eapply experiment_fails; eauto|]. intros r Hm. unfold experiment. rewrite Hm. cbn. rewrite EC.
  destruct (train_one cfg c) as [c' e']. cbn in T1. subst. reflexivity.
Qed.
End Pr.

(** ** Hart85 *)
Lemma pair_zero column mt pc lg n ev l : HartModel.pair column 0 mt pc lg n ev = Ok l -> l = [].
Proof.
  unfold HartModel.pair. destruct (new_buffer column 0 mt pc lg n) as [b|e] eqn:EB; [|discriminate]. cbn.
  assert (HB : pb_size b = 0 /\ pb_list b = [] /\ pb_pairs b = []) by (unfold new_buffer in EB; destruct n as [|[|[|]]]; try discriminate; [destruct column; try discriminate|]; injection EB as <-; auto). clear EB.
  unfold run. revert b HB. induction ev as [|x ev IH]; intros b (A & B & C); cbn; [intros [= <-]; exact C|].
  assert (K : forall b1, pair_step b x = Ok b1 -> pb_size b1 = 0 /\ pb_list b1 = [] /\ pb_pairs b1 = []).
  { intros b1. unfold pair_step. rewrite A, B. cbn [length Nat.eqb]. assert (CB : clean_buffer b = Ok b). { unfold clean_buffer. rewrite B. destruct b; cbn in *; subst; reflexivity. }
    rewrite CB. cbn [bind]. unfold add_transition. destruct (negb _); [discriminate|]. cbn [bind]. unfold pair_transitions, set_list, deque_append. cbn [pb_list pb_size]. rewrite A, B. cbn. intros [= <-]. cbn. auto. }
  destruct (pair_step b x) as [b1|e]; cbn; [|discriminate]. apply IH. apply K. reflexivity.
Qed.
Theorem hart_zero ms p s mains apps : p_buffer p = 0 -> exists e, snd (partial_fit ms p s mains apps) = Some e.
Proof.
  intros HP. unfold partial_fit. destruct mains as [|[column readings] r]; [eexists; reflexivity|]. destruct (find_steady_states _ _ _ _) as [[? tr]|e]; [|eexists; reflexivity].
  rewrite HP. destruct (HartModel.pair _ _ _ _ _ _ _) as [pairs|e] eqn:EP; [|eexists; reflexivity]. apply pair_zero in EP. subst. cbn [map]. unfold hart_clusters. cbn [length]. rewrite andb_false_r. eexists. reflexivity.
Qed.
Theorem hart_ok {P H} ms (cfg : config hart_data H) (heap : list (clf hart hart_data P)) n i c : In (n, i) (c_methods cfg) -> NoDup (map snd (c_methods cfg)) -> nth_error heap i = Some c ->
  chunkwise cfg c -> some_chunk (c_train cfg) -> k_extra c = parameters Hart85 -> k_fit c = hart_fit ms -> exists e, snd (experiment cfg heap) = Err e.
Proof.
  intros HI ND EC HW HC HX HF. eapply experiment_fails; eauto. apply train_fails; auto. intros s d. unfold call_fit. cbn [set_state k_extra k_fit k_state]. rewrite HX, HF. cbn [parameters length Nat.leb combine].
  destruct (hart_zero ms (hart_params [("buffer_size"%string, 0)]) s (map fst [d]) (collect [d]) eq_refl) as (e & E). unfold hart_fit.
  destruct (partial_fit ms (hart_params [("buffer_size"%string, 0)]) s (map fst [d]) (collect [d])) as [s1 e1]. cbn [snd] in E |- *. eauto.
Qed.

(** ** CO *)
Lemma co_collect_one d : co_collect [d] = d.
Proof.
  unfold co_collect. cbn [flat_map].
  assert (K : forall p (l : co_data), map (fun i => (match nth_error (p ++ l) i with Some a => fst a | None => ""%string end, match nth_error (p ++ l) i with Some a => snd a | None => [] end ++ [])) (seq (length p) (length l)) = l).
  { intros p l. revert p. induction l as [|x l IH]; intros p; [reflexivity|]. cbn. rewrite nth_error_app2, Nat.sub_diag by lia. cbn. rewrite app_nil_r. specialize (IH (p ++ [x])). rewrite app_length in IH. cbn in IH. rewrite Nat.add_1_r in IH.
    rewrite <- app_assoc in IH. cbn in IH. rewrite IH. now destruct x. }
  exact (K [] d).
Qed.
Lemma existsb_in x l : In x l -> existsb (String.eqb x) l = true.
Proof. intros HI. apply existsb_exists. exists x. split; [exact HI|apply String.eqb_refl]. Qed.
Lemma co_known cluster b s d : (forall x, In x (map fst d) -> In x (map fst s)) -> co_fit cluster s b [d] = (s, None).
Proof.
  intros HK. unfold co_fit. rewrite co_collect_one. f_equal. generalize (if 12 <? length d then 2 else 3). intros k.
  assert (E : forall l, (forall x, In x (map fst l) -> In x (map fst s)) -> flat_map (fun a => if existsb (String.eqb (fst a)) (map fst s) then [] else [(fst a, cluster k (snd a))]) l = []).
  { induction l as [|x l IH]; intros HL; [reflexivity|]. cbn. rewrite existsb_in by (apply HL; now left). cbn. apply IH. intros y Hy. apply HL. now right. }
  rewrite E by exact HK. apply app_nil_r.
Qed.
Definition trained cluster (d : co_data) : co_state := map (fun a => (fst a, cluster (if 12 <? length d then 2 else 3) (snd a))) d.
Lemma co_first cluster b d : co_fit cluster [] b [d] = (trained cluster d, None).
Proof. unfold co_fit. rewrite co_collect_one. unfold trained. cbn [map existsb List.app]. reflexivity. Qed.
Lemma co_fits_known cluster names s calls s' : fits (co_fit cluster) s calls s' -> map fst s = names -> Forall (fun x => exists d, snd x = [d] /\ map fst d = names) calls -> s' = s.
Proof.
  induction 1 as [|s b ds s1 r s2 E F IH]; intros HN HC; [reflexivity|]. apply Forall_cons_iff in HC. destruct HC as [(d & E1 & E2) HC]. cbn in E1. subst ds. rewrite co_known in E by (rewrite E2, HN; auto). injection E as <-. auto.
Qed.
Lemma flat_map_nil {A B} (f : A -> list B) l : Forall (fun x => f x = []) l -> flat_map f l = [].
Proof. induction 1 as [|x l E _ IH]; [reflexivity|]. cbn. now rewrite E. Qed.
Theorem co_ok {P H} cluster names (cfg : config co_data H) (heap heap' : list (clf co_state co_data P)) rs n i c pre h post d ds :
  experiment cfg heap = (heap', Ok rs) -> NoDup (map snd (c_methods cfg)) -> In (n, i) (c_methods cfg) -> nth_error heap i = Some c ->
  chunkwise cfg c -> k_fit c = co_fit cluster -> k_state c = [] ->
  c_train cfg = pre ++ h :: post -> Forall (fun x => h_chunks x = ([], None)) pre -> fst (h_chunks h) = d :: ds ->
  Forall (fun x => Forall (fun y => map fst y = names) (fst (h_chunks x))) (c_train cfg) ->
  exists c', nth_error heap' i = Some c' /\ k_state c' = map (fun a => (fst a, cluster (if 12 <? length d then 2 else 3) (snd a))) d.
Proof.
  intros E ND HI EC HW HF HS ET HP EH HN. destruct (training_ok _ _ _ _ E ND) as [A _]. destruct (A n i HI) as (c0 & c' & calls & A1 & A2 & A3 & A4 & A5). rewrite EC in A1. injection A1 as <-.
  exists c'. split; [exact A2|]. change (k_state c' = trained cluster d). rewrite HF, HS in A5. destruct HW as (W1 & W2 & W3 & W4). destruct A4 as [K|dd K1 K2 _|m p K1 K2 K3 K4 K5 K6]; [contradiction|destruct K2; [contradiction|congruence]|].
  assert (HM : exists k, m = Datatypes.S k) by (destruct m as [|k]; [destruct (k_epochs c) as [[|]|]; congruence|eauto]). destruct HM as (k & ->).
  assert (HD : map fst d = names). { rewrite ET in HN. apply Forall_app in HN. destruct HN as [_ HN]. apply Forall_cons_iff in HN. destruct HN as [HN _]. unfold co_data in *. rewrite EH in HN. now apply Forall_cons_iff in HN. }
  assert (HC : Forall (fun x : bound * list co_data => exists y, snd x = [y] /\ map fst y = names) (flat_map (fun epoch => flat_map (fun h => map (fun d => ([(p, epoch)], [d])) (fst (h_chunks h))) (c_train cfg)) (seq 0 (Datatypes.S k)))).
  { apply Forall_forall. intros x Hx. apply in_flat_map in Hx. destruct Hx as (ep & _ & Hx). apply in_flat_map in Hx. destruct Hx as (hh & Hh & Hx). apply in_map_iff in Hx. destruct Hx as (y & <- & Hy). exists y. split; [reflexivity|].
    rewrite Forall_forall in HN. specialize (HN _ Hh). rewrite Forall_forall in HN. auto. }
  cbn [seq flat_map] in A5, HC. rewrite ET in A5 at 1. rewrite ET in HC at 1. rewrite flat_map_app in A5, HC.
  assert (EP : flat_map (fun h : house co_data H => map (fun d => ([(p, 0)], [d])) (fst (h_chunks h))) pre = []). { apply flat_map_nil. apply Forall_forall. intros x Hx. rewrite Forall_forall in HP. now rewrite (HP _ Hx). }
  rewrite EP in A5, HC. cbn [flat_map] in A5, HC. rewrite EH in A5, HC. cbn [map List.app] in A5, HC. inversion A5 as [|? ? ? s1 ? ? F1 F2]; subst. rewrite co_first in F1. injection F1 as <-. apply Forall_inv_tail in HC.
  eapply co_fits_known; [exact F2| |exact HC]. unfold trained. rewrite map_map. reflexivity.
Qed.
