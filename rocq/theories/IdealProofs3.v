From Coq Require Import String Ascii QArith Qabs Sorted Permutation Lia Lqa.
From Verif Require Import Base IdealModel IdealSpec IdealProofs.
Import List. Open Scope list_scope. Open Scope nat_scope.

Lemma machines_iff m n : In (m, n) machines <-> machine m n.
Proof.
  unfold machine. split.
  - cbn [machines In]. intros H. repeat (destruct H as [H|H]; [injection H as <- <-; split; [lia|reflexivity]|]). destruct H.
  - intros [H E]. assert (L : Z.to_nat (m - 1) < 11).
    { change 11 with (List.length machine_names). apply nth_error_Some. congruence. }
    assert (C : (m = 1 \/ m = 2 \/ m = 3 \/ m = 4 \/ m = 5 \/ m = 6 \/ m = 7 \/ m = 8 \/ m = 9 \/ m = 10 \/ m = 11)%Z) by lia.
    repeat (destruct C as [->|C]; [injection E as <-; cbn [machines In]; tauto|]). subst m. injection E as <-. cbn [machines In]. tauto.
Qed.

Section Hipe.
  Variable sorter : rows (option Q) -> rows (option Q).
  Implicit Types d : listing (option Q).

  Lemma first_iff d n f : first_csv d n f <-> exists r, filter (globbed n ".csv") (map fst d) = f :: r.
  Proof.
    unfold first_csv. generalize (map fst d). intros l. induction l as [|x l IH]; cbn [filter].
    - split; [intros [[|] [a [[=] _]]]|]. intros [r [=]].
    - destruct (globbed n ".csv" x) eqn:G.
      + split.
        * intros [b [a [E [C N]]]]. destruct b as [|y b].
          -- injection E as <- <-. eauto.
          -- injection E as <- _. destruct (N x (or_introl eq_refl)). apply globbed_iff in G. exact G.
        * intros [r [= <- _]]. exists [], l. split; [reflexivity|]. split; [now apply globbed_iff|]. intros f [].
      + rewrite <- IH. split.
        * intros [b [a [E [C N]]]]. destruct b as [|y b].
          -- injection E as <- <-. apply globbed_iff in C. congruence.
          -- injection E as <- ->. exists b, a. split; [reflexivity|]. split; [exact C|]. intros f' Hf. apply N. now right.
        * intros [b [a [-> [C N]]]]. exists (x :: b), a. split; [reflexivity|]. split; [exact C|].
          intros f' [<-|Hf]; [|now apply N]. intros Hc. apply globbed_iff in Hc. congruence.
  Qed.
  Lemma first_fun d n f f' : first_csv d n f -> first_csv d n f' -> f = f'.
  Proof. intros H K. apply first_iff in H, K. destruct H as [r H], K as [r' K]. congruence. Qed.
  Lemma find_channel_ok d m n f : find_channel d (m, n) = Ok (m, f) <-> first_csv d n f.
  Proof.
    rewrite first_iff. unfold find_channel. cbn [fst snd]. destruct (filter _ _) as [|x r].
    - split; [discriminate|]. intros [r [=]].
    - split; [intros [= ->]; eauto|]. intros [r' [= -> _]]. reflexivity.
  Qed.

  Definition hipe_type_of (m : Z) : actype := if (m =? 1)%Z then Apparent else Active.

  Theorem hipe_ok d : NoDup (map fst d) -> sorts sorter ->
    (forall m n, machine m n -> exists f raw, first_csv d n f /\ In (f, File (Ok raw)) d) ->
    exists s, convert_hipe sorter d = (s, None) /\
      forall b m ac t, get s (b, m) = Some (ac, t) <->
        b = 1%Z /\ ac = (if Z.eq_dec m 1 then Apparent else Active) /\
        exists n f raw, machine m n /\ first_csv d n f /\ In (f, File (Ok raw)) d /\ raw <> [] /\ t = in_watts (sorter raw).
  Proof.
    intros ND HS H.
    assert (exists ys, mapM (find_channel d) machines = Ok ys) as [ys E].
    { apply mapM_all. intros [m n] Hm. apply machines_iff in Hm. destruct (H m n Hm) as [f [raw [F _]]].
      exists (m, f). now apply find_channel_ok. }
    assert (Y : forall m f, In (m, f) ys <-> exists n, machine m n /\ first_csv d n f).
    { intros m f. apply mapM_F2 in E. split.
      - intros Hy. assert (K : exists x, In x machines /\ find_channel d x = Ok (m, f)).
        { clear - E Hy. induction E as [|x y l ys Exy _ IH]; [destruct Hy|]. destruct Hy as [->|Hy].
          - exists x. split; [now left|exact Exy].
          - destruct (IH Hy) as [x' [Hx K]]. exists x'. split; [now right|exact K]. }
        destruct K as [[m' n] [Hx K]]. assert (m' = m) as ->.
        { unfold find_channel in K. cbn [fst snd] in K. destruct (filter _ _); [discriminate|]. now injection K. }
        exists n. split; [now apply machines_iff|]. now apply find_channel_ok in K.
      - intros [n [Hm F]]. apply machines_iff in Hm. apply (find_channel_ok d m) in F.
        clear - E Hm F. induction E as [|x y l ys Exy _ IH]; [destruct Hm|]. destruct Hm as [->|Hm]; [left; congruence|right; now apply IH]. }
    assert (M1 : forall m n, machine m n -> (1 <= m)%Z) by (intros m n K; exact (proj1 K)).
    assert (FO : forall m f n raw, machine m n -> first_csv d n f -> In (f, File (Ok raw)) d ->
      hipe_file sorter d (m, f) = Ok ((1%Z, m), (hipe_type m, in_watts (sorter raw)))).
    { intros m f n raw Hm F Hin. unfold hipe_file. cbn [fst snd]. unfold check_key. pose proof (M1 m n Hm). destruct (Z.leb_spec 1 m); [|lia].
      cbn [andb bind Z.leb Z.compare]. change ((1 <=? 1)%Z) with true. cbn [andb bind]. unfold hipe_load, read_csv.
      rewrite (proj2 (entry_in f d (File (Ok raw)) ND) Hin). reflexivity. }
    assert (MF : forall m n n', machine m n -> machine m n' -> n = n') by (intros m n n' [_ A] [_ B]; congruence).
    assert (RD : forall m f, In (m, f) ys -> exists n raw, machine m n /\ first_csv d n f /\ In (f, File (Ok raw)) d).
    { intros m f Hy. apply Y in Hy. destruct Hy as [n [Hm F]]. destruct (H m n Hm) as [f' [raw [F' Hin]]].
      rewrite <- (first_fun d n f f' F F') in Hin. exists n, raw. split; [exact Hm|]. split; [exact F|exact Hin]. }
    assert (X0 : exact_for (@nil ((Z * Z) * (actype * rows (option Q)))) (fun _ _ => False)).
    { intros k t. cbn [get]. split; [discriminate|intros []]. }
    destruct (write_all_exact (hipe_file sorter d) ys [] (fun _ _ => False) X0) as [W1 W2].
    - intros [m f] Hy. destruct (RD m f Hy) as [n [raw [Hm [F Hin]]]]. rewrite (FO m f n raw Hm F Hin). eauto.
    - intros k t t' [[]|[[m f] [Hy Ey]]] [[]|[[m' f'] [Hy' Ey']]].
      destruct (RD m f Hy) as [n [raw [Hm [F Hin]]]]. destruct (RD m' f' Hy') as [n' [raw' [Hm' [F' Hin']]]].
      rewrite (FO m f n raw Hm F Hin) in Ey. rewrite (FO m' f' n' raw' Hm' F' Hin') in Ey'.
      injection Ey as <- <-. injection Ey' as <- <-. pose proof (MF m' n n' Hm Hm') as <-. pose proof (first_fun d n f f' F F') as <-.
      pose proof (nodup_fst _ _ _ _ ND Hin Hin') as Er. injection Er as <-. reflexivity.
    - exists (fst (write_all (hipe_file sorter d) ys [])). split.
      + unfold convert_hipe. rewrite E, <- W1. apply surjective_pairing.
      + intros b m ac t. rewrite (W2 (b, m) (ac, t)). split.
        * intros [[]|[[m' f] [Hy [Ey Hne]]]]. destruct (RD m' f Hy) as [n [raw [Hm [F Hin]]]].
          rewrite (FO m' f n raw Hm F Hin) in Ey. injection Ey as <- <- <- <-. split; [reflexivity|]. split.
          -- unfold hipe_type. pose proof (M1 m' n Hm). destruct (Z.ltb_spec m' 2), (Z.eq_dec m' 1); try reflexivity; lia.
          -- exists n, f, raw. split; [exact Hm|]. split; [exact F|]. split; [exact Hin|]. split; [|reflexivity].
             intros ->. apply Hne. cbn [snd]. pose proof (proj1 (HS [])) as P. apply Permutation_sym, Permutation_nil in P. now rewrite P.
        * intros [-> [-> [n [f [raw [Hm [F [Hin [Hne ->]]]]]]]]]. right. exists (m, f). split; [apply Y; eauto|].
          rewrite (FO m f n raw Hm F Hin). split.
          -- repeat f_equal. unfold hipe_type. pose proof (M1 m n Hm). destruct (Z.ltb_spec m 2), (Z.eq_dec m 1); try reflexivity; lia.
          -- cbn [snd]. intros K. unfold in_watts in K. apply map_eq_nil in K. pose proof (proj1 (HS raw)) as P. rewrite K in P. now apply Permutation_nil in P.
  Qed.

  Theorem hipe_missing d m n : machine m n -> (forall f t, In (f, t) d -> ~ csv_of n f) -> convert_hipe sorter d = ([], Some IndexError).
  Proof.
    intros Hm H. unfold convert_hipe. rewrite (mapM_err _ IndexError); [reflexivity| |].
    - intros [m' n'] e' _. unfold find_channel. destruct (filter _ _); congruence.
    - exists (m, n). split; [now apply machines_iff|]. unfold find_channel. cbn [fst snd].
      destruct (filter (globbed n ".csv") (map fst d)) as [|f r] eqn:E; [eauto|]. exfalso.
      assert (K : In f (filter (globbed n ".csv") (map fst d))) by (rewrite E; now left).
      apply filter_In in K. destruct K as [K G]. apply in_map_iff in K. destruct K as [[f' t] [<- K]]. apply (H f' t K). now apply globbed_iff.
  Qed.

  Lemma total_perm a b : Permutation a b -> (total a == total b)%Q.
  Proof.
    induction 1 as [|[x v] l l' _ IH|[x v] [y w] l|l l' l'' _ IH _ IH']; cbn [total]; [reflexivity|rewrite IH; reflexivity|ring|now rewrite IH].
  Qed.
  Lemma watts_ge l : (1000 * total l <= total (in_watts l))%Q /\ ((exists x q, In (x, Some q) l /\ q < 0) -> 1000 * total l < total (in_watts l))%Q.
  Proof.
    induction l as [|[x v] l [IH1 IH2]]; cbn [total in_watts map fst snd].
    - split; [lra|]. intros [? [? [[] _]]].
    - fold (in_watts l). destruct v as [q|]; cbn [option_map].
      + assert (A : (q * 1000 <= Qabs (q * 1000))%Q) by apply Qle_Qabs. split; [lra|].
        intros [y [p [[E|Hin] Hp]]].
        * injection E as _ ->. assert (B : (0 <= Qabs (p * 1000))%Q) by apply Qabs_nonneg. lra.
        * assert ((1000 * total l < total (in_watts l))%Q) by (apply IH2; eauto). lra.
      + split; [lra|]. intros [y [p [[E|Hin] Hp]]]; [discriminate|]. assert ((1000 * total l < total (in_watts l))%Q) by (apply IH2; eauto). lra.
  Qed.
  Theorem feed_in raw : sorts sorter -> (exists x q, In (x, Some q) raw /\ (q < 0)%Q) -> (1000 * total raw < total (in_watts (sorter raw)))%Q.
  Proof.
    intros HS [x [q [Hin Hq]]]. destruct (HS raw) as [P _]. rewrite <- (total_perm _ _ P). apply watts_ge.
    exists x, q. split; [|exact Hq]. apply (Permutation_in _ (Permutation_sym P) Hin).
  Qed.
End Hipe.
