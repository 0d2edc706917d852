From Coq Require Import String Ascii QArith Qabs Sorted Permutation Lia.
From Verif Require Import Base IdealModel IdealSpec.
Import List. Open Scope list_scope. Open Scope nat_scope.

(** Strings. *)
Lemma app_assoc_s a b c : ((a ++ b) ++ c = a ++ b ++ c)%string.
Proof. induction a as [|x a IH]; [reflexivity|]. cbn. now rewrite IH. Qed.
Lemma app_nil_s a : (a ++ "" = a)%string.
Proof. induction a as [|x a IH]; [reflexivity|]. cbn. now rewrite IH. Qed.
Lemma count_app c a b : count c (a ++ b) = count c a + count c b.
Proof. induction a as [|x a IH]; [reflexivity|]. cbn. destruct (ascii_dec x c); rewrite IH; lia. Qed.
Lemma length_app a b : String.length (a ++ b) = String.length a + String.length b.
Proof. induction a as [|x a IH]; [reflexivity|]. cbn. now rewrite IH. Qed.

Lemma split_ne c s : split_on c s <> [].
Proof. destruct s as [|a r]; cbn; [discriminate|]. destruct (Ascii.eqb a c); [discriminate|]. destruct (split_on c r); discriminate. Qed.
Lemma split_sep c s r : count c s = 0 -> split_on c (s ++ String c r) = s :: split_on c r.
Proof.
  induction s as [|a s IH]; cbn [count String.append split_on]; intros H.
  - now rewrite Ascii.eqb_refl.
  - destruct (ascii_dec a c) as [e|n]; [discriminate|]. apply Ascii.eqb_neq in n. rewrite n, IH by exact H. reflexivity.
Qed.
Lemma split_one c s : count c s = 0 -> split_on c s = [s].
Proof.
  induction s as [|a s IH]; cbn [count split_on]; intros H; [reflexivity|].
  destruct (ascii_dec a c) as [e|n]; [discriminate|]. apply Ascii.eqb_neq in n. rewrite n, IH by exact H. reflexivity.
Qed.
Lemma split_count c s : List.length (split_on c s) = S (count c s).
Proof.
  induction s as [|a s IH]; [reflexivity|]. cbn [split_on count].
  destruct (ascii_dec a c) as [e|n].
  - apply Ascii.eqb_eq in e. rewrite e. cbn. now rewrite IH.
  - apply Ascii.eqb_neq in n. rewrite n. pose proof (split_ne c s). destruct (split_on c s); [contradiction|exact IH].
Qed.

Lemma digit_char d : (0 <= d <= 9)%Z -> digit_value (ascii_of_nat (48 + Z.to_nat d)) = Some d.
Proof.
  intros H. unfold digit_value. rewrite nat_ascii_embedding by lia.
  destruct (Nat.leb_spec 48 (48 + Z.to_nat d)); [|lia]. destruct (Nat.leb_spec (48 + Z.to_nat d) 57); [|lia].
  cbn [andb]. f_equal. lia.
Qed.
Lemma digit_is c d : digit_value c = Some d -> (0 <= d <= 9)%Z /\ c = ascii_of_nat (48 + Z.to_nat d).
Proof.
  unfold digit_value. destruct (Nat.leb_spec 48 (nat_of_ascii c)); [|discriminate].
  destruct (Nat.leb_spec (nat_of_ascii c) 57); [|discriminate]. cbn [andb]. intros [= <-]. split; [lia|].
  rewrite <- (ascii_nat_embedding c) at 1. f_equal. lia.
Qed.

Lemma digits_app a b : digits (a ++ b) = (digits a ++ digits b)%string.
Proof. induction a as [|x a IH]; [reflexivity|]. cbn. rewrite IH. now destruct (is_digit x). Qed.
Lemma digits_written l : Forall (fun d => 0 <= d <= 9)%Z l -> digits (written l) = written l /\ all_digits (written l) = true.
Proof.
  induction 1 as [|d l Hd _ IH]; [now split|]. cbn [written digits all_digits]. unfold is_digit. rewrite digit_char by exact Hd. cbn [andb].
  destruct IH as [-> ->]. now split.
Qed.
Lemma value_written l n : Forall (fun d => 0 <= d <= 9)%Z l -> value (written l) n = fold_left (fun a d => 10 * a + d)%Z l n.
Proof. intros H. revert n. induction H as [|d l Hd _ IH]; intros n; [reflexivity|]. cbn [written value fold_left]. now rewrite digit_char, IH. Qed.

Lemma count_digits c l : Forall (fun d => 0 <= d <= 9)%Z l -> digit_value c = None -> count c (written l) = 0.
Proof.
  intros H K. induction H as [|d l Hd _ IH]; [reflexivity|]. cbn [written count].
  destruct (ascii_dec _ c) as [e|]; [|exact IH]. rewrite <- e, digit_char in K by exact Hd. discriminate.
Qed.

Lemma numeral_int oi s n : numeral s n -> py_int oi s = Ok n.
Proof.
  intros [l [Hne [Hl [-> ->]]]]. unfold py_int. destruct l as [|d l]; [contradiction|].
  destruct (digits_written _ Hl) as [_ E]. rewrite E, value_written by exact Hl. reflexivity.
Qed.
Lemma numeral_digits p s n : digits p = EmptyString -> numeral s n -> int_digits (p ++ s) = Ok n.
Proof.
  intros Hp [l [Hne [Hl [-> ->]]]]. unfold int_digits. rewrite digits_app, Hp. destruct (digits_written _ Hl) as [-> _].
  destruct l as [|d l]; [contradiction|]. cbn [String.append]. rewrite <- value_written by exact Hl. reflexivity.
Qed.
Lemma numeral_count c s n : numeral s n -> digit_value c = None -> count c s = 0.
Proof. intros [l [_ [Hl [-> _]]]]. now apply count_digits. Qed.
Lemma numeral_fun s n n' : numeral s n -> numeral s n' -> n = n'.
Proof. intros H K. apply (numeral_int (fun _ => None)) in H, K. congruence. Qed.

Lemma digits_has s : has_digit s -> digits s <> EmptyString.
Proof.
  induction s as [|a s IH]; cbn [has_digit digits]; [tauto|]. unfold is_digit. intros [[d [Hd ->]]|H].
  - rewrite digit_char by exact Hd. discriminate.
  - destruct (digit_value a); [discriminate|]. now apply IH.
Qed.
Lemma room_ok s : has_digit s -> exists n, int_digits s = Ok n.
Proof. intros H. apply digits_has in H. unfold int_digits. destruct (digits s); [contradiction|eauto]. Qed.

Lemma prefixed_iff p s : prefixed p s = true <-> exists r, s = (p ++ r)%string.
Proof.
  revert s. induction p as [|a p IH]; intros s.
  - split; [intros _; now exists s|reflexivity].
  - destruct s as [|b s]; cbn [prefixed].
    + split; [discriminate|]. intros [r [=]].
    + rewrite andb_true_iff, IH, Ascii.eqb_eq. split.
      * intros [-> [r ->]]. now exists r.
      * intros [r [= -> ->]]. split; [reflexivity|now exists r].
Qed.
Lemma ends_iff e s : ends e s = true <-> exists p, s = (p ++ e)%string.
Proof.
  induction s as [|a s IH].
  - cbn [ends]. rewrite orb_true_iff, String.eqb_eq. split.
    + intros [->|[=]]. now exists ""%string.
    + intros [[|x p] H]; [|discriminate]. left. now rewrite H.
  - cbn [ends]. rewrite orb_true_iff, String.eqb_eq, IH. split.
    + intros [->|[p ->]]; [now exists ""%string|]. now exists (String a p).
    + intros [[|x p] H]; [left; now rewrite H|]. right. injection H as -> ->. now exists p.
Qed.
Lemma substring_full s : substring 0 (String.length s) s = s.
Proof. induction s as [|a s IH]; [reflexivity|]. cbn. now rewrite IH. Qed.
Lemma substring_skip p s : substring (String.length p) (String.length s) (p ++ s) = s.
Proof. induction p as [|a p IH]; [apply substring_full|]. cbn. exact IH. Qed.
Lemma substring_first p s : substring 0 (String.length p) (p ++ s) = p.
Proof. induction p as [|a p IH]; cbn; [now destruct s|]. now rewrite IH. Qed.
Lemma globbed_iff p e s : globbed p e s = true <-> exists mid, s = (p ++ mid ++ e)%string.
Proof.
  unfold globbed. rewrite andb_true_iff, prefixed_iff. split.
  - intros [[r ->] H]. rewrite length_app in H. replace (String.length p + String.length r - String.length p) with (String.length r) in H by lia.
    rewrite substring_skip in H. apply ends_iff in H. destruct H as [q ->]. now exists q.
  - intros [mid ->]. split; [now exists (mid ++ e)%string|]. rewrite length_app.
    replace (String.length p + String.length (mid ++ e) - String.length p) with (String.length (mid ++ e)) by lia.
    rewrite substring_skip. apply ends_iff. now exists mid.
Qed.

(** Names of files. *)
Lemma parts_ok name h sensor category : file_name name h sensor category ->
  exists home room, parts name = Ok (("home" ++ home)%string, room, ("sensor" ++ sensor)%string, category) /\ numeral home h /\ has_digit room.
Proof.
  intros [home [room [subtype [Hh [Hr [Cr [Cs [Cc [Ct ->]]]]]]]]]. exists home, room. split; [|now split].
  unfold parts.
  replace ("home" ++ home ++ "_" ++ room ++ "_" ++ "sensor" ++ sensor ++ "_" ++ category ++ "_" ++ subtype ++ ".csv.gz")%string
    with (("home" ++ home) ++ String "_" (room ++ String "_" (("sensor" ++ sensor) ++ String "_" (category ++ String "_" (subtype ++ ".csv.gz")))))%string
    by (rewrite !app_assoc_s; reflexivity).
  rewrite !split_sep.
  - rewrite split_one; [reflexivity|]. rewrite count_app, Ct. reflexivity.
  - exact Cc.
  - rewrite count_app, Cs. reflexivity.
  - exact Cr.
  - rewrite count_app, (numeral_count _ _ _ Hh); reflexivity.
Qed.
Lemma parts_fun name h s c h' s' c' : file_name name h s c -> file_name name h' s' c' -> h = h' /\ s = s' /\ c = c'.
Proof.
  intros H K. destruct (parts_ok _ _ _ _ H) as [hm [r [E [N _]]]]. destruct (parts_ok _ _ _ _ K) as [hm' [r' [E' [N' _]]]].
  rewrite E in E'. injection E' as Eh _ Es Ec. subst. repeat split. exact (numeral_fun _ _ _ N N').
Qed.
Lemma name_globbed name h s c : file_name name h s c -> globbed "home" ".csv.gz" name = true.
Proof.
  intros [home [room [subtype [_ [_ [_ [_ [_ [_ ->]]]]]]]]]. apply globbed_iff.
  exists (home ++ "_" ++ room ++ "_" ++ "sensor" ++ s ++ "_" ++ c ++ "_" ++ subtype)%string.
  now rewrite !app_assoc_s.
Qed.
Lemma parts_err name e : parts name = Err e -> e = ValueError.
Proof. unfold parts. destruct (split_on "_" name) as [|? [|? [|? [|? [|? [|]]]]]]; congruence. Qed.
Lemma parts_bad name : count "_" name <> 4 -> parts name = Err ValueError.
Proof.
  intros H. unfold parts. pose proof (split_count "_" name) as L.
  destruct (split_on "_" name) as [|? [|? [|? [|? [|? [|]]]]]]; try reflexivity. cbn in L. lia.
Qed.

Lemma sensor_first m s : first_number s m -> exists p, numeral p m /\ hd EmptyString (split_on "c" s) = p.
Proof.
  intros [p [N [->|[r ->]]]]; exists p; (split; [exact N|]).
  - rewrite split_one; [reflexivity|]. now apply (numeral_count _ _ _ N).
  - cbn [String.append]. rewrite split_sep; [reflexivity|]. now apply (numeral_count _ _ _ N).
Qed.
Lemma first_number_fun s m m' : first_number s m -> first_number s m' -> m = m'.
Proof. intros H K. apply sensor_first in H, K. destruct H as [p [N E]], K as [p' [N' E']]. rewrite E in E'. subst. exact (numeral_fun _ _ _ N N'). Qed.

(** Lists. *)
Lemma mapM_F2 {A B} (f : A -> res B) l : forall ys, mapM f l = Ok ys <-> Forall2 (fun x y => f x = Ok y) l ys.
Proof.
  induction l as [|x l IH]; intros ys; cbn [mapM].
  - split; [intros [= <-]; constructor|]. inversion 1. reflexivity.
  - split.
    + destruct (f x) as [y|] eqn:E; cbn [bind]; [|discriminate]. destruct (mapM f l) as [zs|]; cbn [bind]; [|discriminate]. intros [= <-].
      constructor; [exact E|]. now apply IH.
    + intros H. inversion H as [|? y ? zs E F]; subst. rewrite E. cbn [bind]. apply IH in F. now rewrite F.
Qed.
Lemma mapM_all {A B} (f : A -> res B) l : (forall x, In x l -> exists y, f x = Ok y) -> exists ys, mapM f l = Ok ys.
Proof.
  induction l as [|x l IH]; intros H; cbn [mapM]; [eauto|].
  destruct (H x (or_introl eq_refl)) as [y ->]. cbn [bind]. destruct IH as [ys ->]; [intros z Hz; apply H; now right|]. cbn [bind]. eauto.
Qed.
Lemma mapM_err {A B} (f : A -> res B) e l : (forall x e', In x l -> f x = Err e' -> e' = e) -> (exists x, In x l /\ exists e', f x = Err e') -> mapM f l = Err e.
Proof.
  induction l as [|x l IH]; intros H [y [Hy [e' E]]]; cbn [mapM]; [destruct Hy|].
  destruct (f x) as [z|e''] eqn:Ex; cbn [bind].
  - destruct Hy as [->|Hy]; [congruence|]. rewrite IH; [reflexivity| |eauto]. intros u v Hu. apply H. now right.
  - f_equal. apply (H x); [now left|exact Ex].
Qed.
Lemma concat_F2 {A B} (f : A -> res (list B)) l ys y : Forall2 (fun x y => f x = Ok y) l ys ->
  (In y (concat ys) <-> exists x zs, In x l /\ f x = Ok zs /\ In y zs).
Proof.
  intros H. induction H as [|x z l ys E _ IH]; cbn [concat].
  - split; [intros []|]. intros [x [_ [[] _]]].
  - rewrite in_app_iff, IH. split.
    + intros [K|[u [zs [Hu K]]]]; [exists x, z; repeat split; [now left|exact E|exact K]|]. exists u, zs. split; [now right|exact K].
    + intros [u [zs [[->|Hu] [Eu K]]]]; [left; rewrite Eu in E; injection E as ->; exact K|]. right. exists u, zs. now split.
Qed.
Lemma nodup_fst {A B} (l : list (A * B)) k x y : NoDup (map fst l) -> In (k, x) l -> In (k, y) l -> x = y.
Proof.
  induction l as [|[a b] l IH]; cbn [map fst]; intros N Hx Hy; [destruct Hx|]. inversion N as [|? ? Na N']; subst.
  destruct Hx as [Ex|Hx], Hy as [Ey|Hy]; [congruence| | |now apply IH].
  - injection Ex as -> ->. destruct Na. apply (in_map fst) in Hy. exact Hy.
  - injection Ey as -> ->. destruct Na. apply (in_map fst) in Hx. exact Hx.
Qed.

Section Store.
  Context {V : Type}.
  Implicit Types s : store V.

  Lemma key_eqb_eq a b : key_eqb a b = true <-> a = b.
  Proof.
    destruct a as [a1 a2], b as [b1 b2]. unfold key_eqb. cbn [fst snd]. rewrite andb_true_iff, !Z.eqb_eq. split.
    - now intros [-> ->].
    - now intros [= -> ->].
  Qed.
  Lemma key_eqb_refl a : key_eqb a a = true.
  Proof. now apply key_eqb_eq. Qed.
  Lemma get_put s k t k' : get (put s k t) k' = if key_eqb k' k then Some t else get s k'.
  Proof.
    induction s as [|[k0 t0] s IH]; cbn [put get]; [reflexivity|].
    destruct (key_eqb k k0) eqn:E; cbn [get].
    - apply key_eqb_eq in E. subst k0. now destruct (key_eqb k' k).
    - destruct (key_eqb k' k0) eqn:E0; [|exact IH]. destruct (key_eqb k' k) eqn:E1; [|reflexivity].
      apply key_eqb_eq in E0, E1. subst. rewrite key_eqb_refl in E. discriminate.
  Qed.

  Definition exact_for s (P : Z * Z -> actype * rows V -> Prop) : Prop := forall k t, get s k = Some t <-> P k t.

  Lemma write_all_exact {X} (f : X -> res ((Z * Z) * (actype * rows V))) (l : list X) : forall s P,
    exact_for s P ->
    (forall x, In x l -> exists kt, f x = Ok kt) ->
    (forall k t t', (P k t \/ exists x, In x l /\ f x = Ok (k, t)) -> (P k t' \/ exists x, In x l /\ f x = Ok (k, t')) -> t = t') ->
    snd (write_all f l s) = None /\
    exact_for (fst (write_all f l s)) (fun k t => P k t \/ exists x, In x l /\ f x = Ok (k, t) /\ snd t <> []).
  Proof.
    induction l as [|x l IH]; intros s P HP Hok Hf; cbn [write_all].
    - split; [reflexivity|]. intros k t. rewrite (HP k t). cbn [fst]. split; [now left|]. intros [H|[x [[] _]]]. exact H.
    - destruct (Hok x (or_introl eq_refl)) as [[k t] E]. rewrite E.
      destruct (IH (write k t s) (fun k' t' => P k' t' \/ (k', t') = (k, t) /\ snd t <> [])) as [I1 I2].
      + intros k' t'. unfold write. destruct (snd t) as [|r0 rest] eqn:Et.
        * rewrite (HP k' t'). split; [now left|]. intros [H|[_ []]]; [exact H|reflexivity].
        * rewrite get_put. destruct (key_eqb k' k) eqn:Ek.
          -- apply key_eqb_eq in Ek. subst k'. split.
             ++ intros [= <-]. right. split; [reflexivity|discriminate].
             ++ intros H. f_equal. apply (Hf k).
                ** right. exists x. split; [now left|exact E].
                ** destruct H as [H|[H _]]; [now left|]. injection H as ->. right. exists x. split; [now left|exact E].
          -- rewrite (HP k' t'). split; [now left|]. intros [H|[H _]]; [exact H|]. injection H as -> ->. rewrite key_eqb_refl in Ek. discriminate.
      + intros y Hy. apply Hok. now right.
      + intros k0 t0 t0' H H'. apply (Hf k0).
        * destruct H as [[H|[H _]]|[y [Hy Ey]]]; [now left| |right; exists y; split; [now right|exact Ey]].
          injection H as -> ->. right. exists x. split; [now left|exact E].
        * destruct H' as [[H'|[H' _]]|[y [Hy Ey]]]; [now left| |right; exists y; split; [now right|exact Ey]].
          injection H' as -> ->. right. exists x. split; [now left|exact E].
      + split; [exact I1|]. intros k0 t0. rewrite (I2 k0 t0). split.
        * intros [[H|[H K]]|[y [Hy [Ey K]]]]; [now left| |right; exists y; repeat split; [now right|exact Ey|exact K]].
          injection H as -> ->. right. exists x. repeat split; [now left|exact E|exact K].
        * intros [H|[y [[->|Hy] [Ey K]]]]; [left; now left| |right; exists y; repeat split; assumption].
          rewrite E in Ey. injection Ey as <- <-. left. right. split; [reflexivity|exact K].
  Qed.

  Lemma entry_in n (l : listing V) t : NoDup (map fst l) -> (entry n l = Some t <-> In (n, t) l).
  Proof.
    intros N. induction l as [|[k x] l IH]; cbn [entry]; [split; [discriminate|intros []]|].
    cbn [map fst] in N. inversion N as [|? ? Na N']; subst. destruct (String.eqb n k) eqn:E.
    - apply String.eqb_eq in E. subst k. split.
      + intros [= ->]. now left.
      + intros [[= ->]|H]; [reflexivity|]. destruct Na. apply (in_map fst) in H. exact H.
    - apply String.eqb_neq in E. rewrite IH by exact N'. split; [now right|]. intros [[= -> ->]|H]; [contradiction|exact H].
  Qed.
End Store.
