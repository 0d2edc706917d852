From Coq Require Import String Ascii Permutation Lia DecimalString DecimalZ DecimalPos.
From Verif Require Import Base LabelModel LabelSpec.
Import List. Open Scope list_scope. Open Scope nat_scope.

Lemma sapp_assoc a b c : ((a ++ b) ++ c = a ++ b ++ c)%string.
Proof. induction a as [|x a IH]; [reflexivity|]. cbn. now rewrite IH. Qed.
Lemma sapp_nil a : (a ++ "" = a)%string.
Proof. induction a as [|x a IH]; [reflexivity|]. cbn. now rewrite IH. Qed.
Lemma sapp_inj a x y : (a ++ x = a ++ y)%string -> x = y.
Proof. induction a as [|c a IH]; [easy|]. cbn. intros [= H]. now apply IH. Qed.

Lemma cut_at c a b x y : has_char c a = false -> has_char c b = false -> (a ++ String c x = b ++ String c y)%string -> a = b /\ x = y.
Proof.
  revert b. induction a as [|h a IH]; intros [|k b]; cbn [has_char String.append]; intros Ha Hb E.
  - injection E as ->. now split.
  - injection E as -> _. rewrite Ascii.eqb_refl in Hb. discriminate.
  - injection E as -> _. rewrite Ascii.eqb_refl in Ha. discriminate.
  - injection E as -> E. apply orb_false_iff in Ha, Hb. destruct (IH b (proj2 Ha) (proj2 Hb) E) as [-> ->]. now split.
Qed.
Lemma has_char_app c a b : has_char c (a ++ b) = has_char c a || has_char c b.
Proof. induction a as [|h a IH]; [reflexivity|]. cbn. now rewrite IH, orb_assoc. Qed.
(** The last [c]. *)
Lemma cut_last c a b x y : has_char c x = false -> has_char c y = false -> (a ++ String c x = b ++ String c y)%string -> a = b /\ x = y.
Proof.
  revert b. induction a as [|h a IH]; intros [|k b]; cbn [String.append]; intros Hx Hy E.
  - injection E as ->. now split.
  - injection E as -> ->. rewrite has_char_app in Hx. cbn [has_char] in Hx. rewrite Ascii.eqb_refl, orb_true_r in Hx. discriminate.
  - injection E as -> E. rewrite <- E, has_char_app in Hy. cbn [has_char] in Hy. rewrite Ascii.eqb_refl, orb_true_r in Hy. discriminate.
  - injection E as -> E. destruct (IH b Hx Hy E) as [-> ->]. now split.
Qed.

(** Numbers. *)
Lemma int_nonnil z : Z.to_int z <> Decimal.Pos Decimal.Nil /\ Z.to_int z <> Decimal.Neg Decimal.Nil.
Proof.
  destruct z as [|p|p]; cbn; (split; [|]); try discriminate; intros [= H]; revert H; apply Unsigned.to_uint_nonnil.
Qed.
Lemma str_int_inj a b : str_int a = str_int b -> a = b.
Proof.
  unfold str_int. intros H. destruct (int_nonnil a) as [A1 A2], (int_nonnil b) as [B1 B2].
  pose proof (NilZero.isi _ A1 A2) as EA. pose proof (NilZero.isi _ B1 B2) as EB. rewrite H, EB in EA. injection EA as EA.
  rewrite <- (of_to a), <- (of_to b). now rewrite EA.
Qed.
Definition num_char (c : ascii) : bool := let n := nat_of_ascii c in (48 <=? n) && (n <=? 57) || (n =? 45).
Fixpoint all_num (s : string) : bool := match s with EmptyString => true | String c r => num_char c && all_num r end.
Lemma uint_num d : all_num (NilEmpty.string_of_uint d) = true.
Proof. induction d; cbn [NilEmpty.string_of_uint all_num]; try rewrite IHd; reflexivity. Qed.
Lemma str_int_num n : all_num (str_int n) = true.
Proof.
  unfold str_int, NilZero.string_of_int. destruct (Z.to_int n) as [d|d].
  - unfold NilZero.string_of_uint. destruct d; try reflexivity; apply uint_num.
  - cbn [all_num]. change (num_char _) with true. cbn [andb]. unfold NilZero.string_of_uint. destruct d; try reflexivity; apply uint_num.
Qed.
Lemma num_no_char c s : all_num s = true -> num_char c = false -> has_char c s = false.
Proof.
  intros H K. induction s as [|a s IH]; [reflexivity|]. cbn [all_num has_char] in *. apply andb_true_iff in H. destruct H as [H1 H2].
  rewrite (IH H2), orb_false_r. apply Ascii.eqb_neq. intros ->. congruence.
Qed.
Lemma str_int_ne n : str_int n <> EmptyString.
Proof.
  intros H. destruct (int_nonnil n) as [A B]. pose proof (NilZero.isi _ A B) as E. fold (str_int n) in E. rewrite H in E. discriminate.
Qed.

(** [repr] can be read back. *)
Definition unhex (c : ascii) : nat := let n := nat_of_ascii c in if n <? 58 then n - 48 else n - 87.
Definition dec (s : string) : option (ascii * string) :=
  match s with
  | EmptyString => None
  | String c r =>
      if Ascii.eqb c backslash then
        match r with
        | EmptyString => None
        | String k r' =>
            if Ascii.eqb k "t" then Some (ascii_of_nat 9, r')
            else if Ascii.eqb k "n" then Some (ascii_of_nat 10, r')
            else if Ascii.eqb k "r" then Some (ascii_of_nat 13, r')
            else if Ascii.eqb k "x" then
              match r' with String h (String l r'') => Some (ascii_of_nat (16 * unhex h + unhex l), r'') | _ => None end
            else Some (k, r')
        end
      else Some (c, r)
  end.
Definition a_quote (q : ascii) : Prop := q = quote \/ q = dquote.
Lemma dec_escape q c r : a_quote q -> dec (escape q c ++ r) = Some (c, r).
Proof. intros [-> | ->]; destruct c as [[] [] [] [] [] [] [] []]; reflexivity. Qed.
Lemma escape_first q c : a_quote q -> exists x r, escape q c = String x r /\ x <> q.
Proof. intros [-> | ->]; destruct c as [[] [] [] [] [] [] [] []]; (eexists; eexists; split; [reflexivity|discriminate]). Qed.
Lemma escapes_cut q s s' x y : a_quote q -> (escapes q s ++ String q x = escapes q s' ++ String q y)%string -> s = s' /\ x = y.
Proof.
  intros Q. revert s'. induction s as [|c s IH]; intros [|c' s']; cbn [escapes]; intros E.
  - injection E as ->. now split.
  - destruct (escape_first q c' Q) as [u [r [Eu Hu]]]. rewrite Eu in E. injection E as E _. congruence.
  - destruct (escape_first q c Q) as [u [r [Eu Hu]]]. rewrite Eu in E. injection E as E _. congruence.
  - rewrite !sapp_assoc in E. apply (f_equal dec) in E. rewrite !dec_escape in E by exact Q. injection E as -> E.
    destruct (IH s' E) as [-> ->]. now split.
Qed.
Lemma repr_cut s s' x y : (repr s ++ x = repr s' ++ y)%string -> s = s' /\ x = y.
Proof.
  unfold repr. set (q := if has_char quote s && negb (has_char dquote s) then dquote else quote).
  set (q' := if has_char quote s' && negb (has_char dquote s') then dquote else quote).
  cbn [String.append]. intros [= Eq E]. rewrite !sapp_assoc in E. cbn [String.append] in E.
  assert (Q : a_quote q) by (unfold q; destruct (_ && _); [now right|now left]). rewrite <- Eq in E.
  exact (escapes_cut q s s' x y Q E).
Qed.
Lemma repr_first s : exists r, repr s = String quote r \/ repr s = String dquote r.
Proof. unfold repr. destruct (_ && _); eexists; [right|left]; reflexivity. Qed.
Lemma type_cut t t' x y : (str_opt repr t ++ x = str_opt repr t' ++ y)%string -> t = t' /\ x = y.
Proof.
  destruct t as [s|], t' as [s'|]; cbn [str_opt]; intros E.
  - apply repr_cut in E. destruct E as [-> ->]. now split.
  - destruct (repr_first s) as [r [H|H]]; rewrite H in E; discriminate.
  - destruct (repr_first s') as [r [H|H]]; rewrite H in E; discriminate.
  - apply sapp_inj in E. now split.
Qed.

Definition str_inst (i : option Z) : string := match i with None => "None" | Some n => str_int n end.
Lemma inst_no_paren i : has_char ")" (str_inst i) = false.
Proof. destruct i as [n|]; [|reflexivity]. apply num_no_char; [apply str_int_num|reflexivity]. Qed.
Lemma inst_inj i j : str_inst i = str_inst j -> i = j.
Proof.
  destruct i as [n|], j as [k|]; cbn [str_inst]; intros E.
  - apply str_int_inj in E. now subst.
  - pose proof (str_int_num n) as K. rewrite E in K. discriminate.
  - pose proof (str_int_num k) as K. rewrite <- E in K. discriminate.
  - reflexivity.
Qed.
Lemma id_cut a b x y : (str_id a ++ x = str_id b ++ y)%string -> identifier a = identifier b /\ x = y.
Proof.
  unfold str_id. fold (str_inst (a_instance a)). fold (str_inst (a_instance b)). rewrite !sapp_assoc. cbn [String.append]. intros [= E].
  apply type_cut in E. destruct E as [Et E]. injection E as E.
  apply cut_at in E; [|apply inst_no_paren|apply inst_no_paren]. destruct E as [Ei ->]. apply inst_inj in Ei.
  unfold identifier. now rewrite Et, Ei.
Qed.

Theorem label_identifies a b s : appliance_label false a = Ok s -> appliance_label false b = Ok s ->
  identifier a = identifier b /\ (a_type a = Some "unknown"%string -> str_opt (fun x => x) (a_original a) = str_opt (fun x => x) (a_original b)).
Proof.
  unfold appliance_label. cbn [bind]. intros [= A] [= B]. rewrite <- B in A. clear B s.
  assert (I : identifier a = identifier b).
  { destruct (is_unknown a), (is_unknown b).
    - apply id_cut in A. apply A.
    - rewrite <- (sapp_nil (str_id b)) in A. apply id_cut in A. apply A.
    - rewrite <- (sapp_nil (str_id a)) in A. apply id_cut in A. apply A.
    - rewrite <- (sapp_nil (str_id a)), <- (sapp_nil (str_id b)) in A. apply id_cut in A. apply A. }
  split; [exact I|]. intros U. injection I as It Ii.
  assert (Ua : is_unknown a = true) by (unfold is_unknown; rewrite U; reflexivity).
  assert (Ub : is_unknown b = true) by (unfold is_unknown; rewrite <- It, U; reflexivity). rewrite Ua, Ub in A.
  apply id_cut in A. destruct A as [_ A]. now injection A.
Qed.

(** Case. *)
Lemma lower_upper_char c : lower_char (upper_char c) = lower_char c.
Proof. destruct c as [[] [] [] [] [] [] [] []]; reflexivity. Qed.
Definition lower := map_chars lower_char.
Lemma lower_upper s : lower (upper s) = lower s.
Proof. induction s as [|c s IH]; [reflexivity|]. unfold lower, upper in *. cbn [map_chars]. now rewrite lower_upper_char, IH. Qed.
Lemma lower_lower_char c : lower_char (lower_char c) = lower_char c.
Proof. destruct c as [[] [] [] [] [] [] [] []]; reflexivity. Qed.
Lemma lower_lower s : lower (lower s) = lower s.
Proof. induction s as [|c s IH]; [reflexivity|]. unfold lower in *. cbn [map_chars]. now rewrite lower_lower_char, IH. Qed.
Lemma lower_app a b : lower (a ++ b) = (lower a ++ lower b)%string.
Proof. induction a as [|c a IH]; [reflexivity|]. unfold lower in *. cbn [map_chars String.append]. now rewrite IH. Qed.
Lemma lower_space x : lower (String " " x) = String " " (lower x).
Proof. reflexivity. Qed.
Lemma lower_capitalize s : lower (capitalize s) = lower s.
Proof. destruct s as [|c s]; [reflexivity|]. unfold lower, capitalize. cbn [map_chars]. fold (lower s). fold (lower (lower s)). now rewrite lower_upper_char, lower_lower. Qed.
Lemma lower_num s : all_num s = true -> lower s = s.
Proof.
  induction s as [|c s IH]; [reflexivity|]. cbn [all_num]. intros H. apply andb_true_iff in H. destruct H as [H1 H2]. unfold lower in *. cbn [map_chars]. rewrite (IH H2). f_equal.
  clear - H1. unfold lower_char, num_char in *. destruct (Nat.leb_spec 65 (nat_of_ascii c)), (Nat.leb_spec (nat_of_ascii c) 90); cbn [andb]; try reflexivity.
  exfalso. apply orb_true_iff in H1. rewrite andb_true_iff, !Nat.leb_le, Nat.eqb_eq in H1. lia.
Qed.
Lemma plain_lower_char c : plain_char c -> lower_char c = c.
Proof.
  unfold plain_char, lower_char. intros H. destruct (Nat.leb_spec 65 (nat_of_ascii c)), (Nat.leb_spec (nat_of_ascii c) 90); cbn [andb]; try reflexivity. lia.
Qed.
Lemma plain_lower s : plain s -> lower s = s.
Proof. induction s as [|c s IH]; [reflexivity|]. cbn [plain]. intros [H1 H2]. unfold lower in *. cbn [map_chars]. now rewrite (IH H2), plain_lower_char. Qed.
Lemma plain_escape q c : a_quote q -> plain_char c -> escape q c = String c EmptyString.
Proof.
  intros Q H. assert (N : c <> q /\ c <> backslash).
  { unfold plain_char in H. split; intros ->; [destruct Q as [-> | ->]|]; vm_compute in H; lia. }
  unfold escape. destruct N as [N1 N2]. apply Ascii.eqb_neq in N1, N2. rewrite N1, N2. cbn [orb].
  unfold plain_char in H. destruct (Nat.eqb_spec (nat_of_ascii c) 9); [lia|]. destruct (Nat.eqb_spec (nat_of_ascii c) 10); [lia|].
  destruct (Nat.eqb_spec (nat_of_ascii c) 13); [lia|]. destruct (Nat.ltb_spec (nat_of_ascii c) 32); [lia|]. destruct (Nat.eqb_spec (nat_of_ascii c) 127); [lia|]. reflexivity.
Qed.
Lemma plain_escapes q s : a_quote q -> plain s -> escapes q s = s.
Proof. intros Q. induction s as [|c s IH]; [reflexivity|]. cbn [plain escapes]. intros [H1 H2]. rewrite (plain_escape q c Q H1), (IH H2). reflexivity. Qed.
Lemma lower_repr s : plain s -> lower (repr s) = repr s.
Proof.
  intros H. unfold repr. set (q := if has_char quote s && negb (has_char dquote s) then dquote else quote). assert (Q : a_quote q) by (unfold q; destruct (_ && _); [now right|now left]).
  rewrite (plain_escapes q s Q H). change (String q (s ++ String q "")) with (String q "" ++ s ++ String q "")%string.
  rewrite !lower_app, (plain_lower s H). destruct Q as [-> | ->]; reflexivity.
Qed.
Lemma lower_id a t n : complete a t n -> lower (str_id a) = str_id a.
Proof.
  intros [Ht [Hn [Hp _]]]. unfold str_id. rewrite Ht, Hn. cbn [str_opt]. rewrite !lower_app, (lower_repr t Hp), (lower_num _ (str_int_num n)). reflexivity.
Qed.

Lemma join_listed l : join ", " l = listed l.
Proof. induction l as [|x [|y r] IH]; [reflexivity|cbn; now rewrite sapp_nil|]. change (join ", " (x :: y :: r)) with (x ++ ", " ++ join ", " (y :: r))%string. rewrite IH. reflexivity. Qed.
Lemma lower_listed l : lower (listed l) = listed (map lower l).
Proof. induction l as [|x [|y r] IH]; [reflexivity|cbn [listed map]; now rewrite lower_app|]. cbn [listed map] in *. rewrite !lower_app. cbn [listed map] in IH. rewrite <- IH, ?lower_app. reflexivity. Qed.
Lemma ids_listed l : forall l', listed (map str_id l) = listed (map str_id l') -> map identifier l = map identifier l'.
Proof.
  induction l as [|a l IH]; intros [|b l']; cbn [map listed]; intros E; [reflexivity|unfold str_id in E; discriminate|unfold str_id in E; discriminate|].
  apply id_cut in E. destruct E as [-> E]. f_equal. apply IH.
  destruct l as [|a' l], l' as [|b' l']; cbn [map] in *; [reflexivity|discriminate|discriminate|]. now apply sapp_inj in E.
Qed.
Lemma not_unknown a t n : complete a t n -> is_unknown a = false.
Proof. intros [Ht [_ [_ N]]]. unfold is_unknown. rewrite Ht. now apply String.eqb_neq. Qed.
Lemma names_ok m : exists l, appliance_names m = Ok l /\
  ((forall a, In a (m_appliances m) -> exists t n, complete a t n) -> map lower l = map str_id (m_appliances m)).
Proof.
  unfold appliance_names. generalize (m_appliances m). intros L. induction L as [|a L [l [E H]]]; cbn [mapM]; [exists []; now split|].
  unfold appliance_label at 1. cbn [bind]. rewrite E. cbn [bind]. eexists. split; [reflexivity|]. intros C.
  destruct (C a (or_introl eq_refl)) as [t [n K]]. rewrite (not_unknown a t n K). cbn [map]. rewrite H by (intros b Hb; apply C; now right). f_equal.
  destruct (a_dominant a); rewrite ?lower_upper; exact (lower_id a t n K).
Qed.
Theorem meter_identifies m m' s : by_appliances m -> by_appliances m' ->
  (forall a, In a (m_appliances m) \/ In a (m_appliances m') -> exists t n, complete a t n) ->
  meter_label false m = Ok s -> meter_label false m' = Ok s -> map identifier (m_appliances m) = map identifier (m_appliances m').
Proof.
  intros [N S] [N' S'] C. unfold meter_label. rewrite N, S, N', S'. destruct (names_ok m) as [l [-> H]], (names_ok m') as [l' [-> H']]. cbn [bind].
  intros [= E] [= E']. rewrite <- E' in E. rewrite !join_listed in E. apply (f_equal lower) in E. rewrite !lower_listed in E.
  rewrite H, H' in E by (intros a Ha; apply C; tauto). now apply ids_listed.
Qed.

Theorem pretty_identifies a b t u n k s : complete a t n -> complete b u k -> (1 <= n)%Z -> (1 <= k)%Z -> unnumbered t -> unnumbered u ->
  appliance_label true a = Ok s -> appliance_label true b = Ok s -> identifier a = identifier b.
Proof.
  intros Ca Cb Hn Hk Ut Uu. pose proof Ca as [Ta [Ia [Pa _]]]. pose proof Cb as [Tb [Ib [Pb _]]].
  unfold appliance_label. rewrite (not_unknown a t n Ca), (not_unknown b u k Cb), Ta, Ia, Tb, Ib. cbn [str_opt bind].
  intros [= A] [= B]. rewrite <- B in A. clear B s. unfold identifier. rewrite Ta, Ia, Tb, Ib.
  apply (f_equal lower) in A. revert A. destruct (Z.ltb_spec 1 n), (Z.ltb_spec 1 k); rewrite ?lower_app, ?lower_space, !lower_capitalize, (plain_lower t Pa), (plain_lower u Pb), ?(lower_num _ (str_int_num n)), ?(lower_num _ (str_int_num k)); intros A.
  - change (lower " ") with " "%string in A. cbn [String.append] in A. apply cut_last in A; try (apply num_no_char; [apply str_int_num|reflexivity]).
    destruct A as [-> A]. apply str_int_inj in A. now subst.
  - exfalso. symmetry in A. exact (Uu t n A).
  - exfalso. exact (Ut u k A).
  - assert (n = 1%Z) as -> by lia. assert (k = 1%Z) as -> by lia. now subst.
Qed.

(** Capital letters. *)
Lemma upper_capital c r : capital (String c r) (String (upper_char c) r).
Proof.
  exists c, (upper_char c), r. split; [reflexivity|]. split; [reflexivity|]. unfold upper_char.
  destruct (Nat.leb_spec 97 (nat_of_ascii c)), (Nat.leb_spec (nat_of_ascii c) 122); cbn [andb]; try (right; split; [lia|reflexivity]).
  left. split; [lia|]. rewrite nat_ascii_embedding by lia. lia.
Qed.
Lemma capital_fun s x y : capital s x -> capital s y -> x = y.
Proof.
  intros [c [c' [r [-> [-> H]]]]] [d [d' [r' [E [-> H']]]]]. injection E as <- <-. f_equal.
  cbv zeta in H, H'. destruct H as [[A B]|[A ->]], H' as [[A' B']|[A' ->]]; try lia; try reflexivity.
  assert (nat_of_ascii c' = nat_of_ascii d') as E by lia. rewrite <- (ascii_nat_embedding c'), E. apply ascii_nat_embedding.
Qed.
Lemma cap_ok s s' : capitalise_first_letter (Some s) = Ok s' <-> capital s s'.
Proof.
  destruct s as [|c r]; cbn [capitalise_first_letter].
  - split; [discriminate|]. intros [c [c' [r [[=] _]]]].
  - split; [intros [= <-]; apply upper_capital|]. intros H. f_equal. exact (capital_fun _ _ _ (upper_capital c r) H).
Qed.

Lemma dominant_in m a : dominant_appliance m = Some a -> In a (m_appliances m) /\
  (a_dominant a = true \/ m_appliances m = [a] \/ hd_error (m_appliances m) = Some a /\ forall b, In b (m_appliances m) -> a_dominant b = false).
Proof.
  unfold dominant_appliance. destruct (m_appliances m) as [|x [|y r]] eqn:E; [discriminate| |].
  - intros [= ->]. split; [now left|]. right. now left.
  - destruct (find a_dominant (x :: y :: r)) as [b|] eqn:F; intros [= <-].
    + apply find_some in F. split; [apply F|]. left. apply F.
    + split; [now left|]. right. right. split; [reflexivity|]. intros b Hb. exact (find_none _ _ F b Hb).
Qed.
Lemma dominant_some m : m_appliances m <> [] -> exists a, dominant_appliance m = Some a.
Proof.
  unfold dominant_appliance. destruct (m_appliances m) as [|x [|y r]]; [contradiction|eauto|]. intros _. destruct (find _ _); eauto.
Qed.

Theorem pretty_meter m s : by_appliances m -> m_appliances m <> [] ->
  (meter_label true m = Ok s <->
   exists a t, In a (m_appliances m) /\
     (find a_dominant (m_appliances m) = Some a \/ hd_error (m_appliances m) = Some a /\ forall b, In b (m_appliances m) -> a_dominant b = false) /\
     a_type a = Some t /\ capital t s).
Proof.
  intros [N S] NE. unfold meter_label, pretty_label. rewrite N, S.
  assert (D : forall a, dominant_appliance m = Some a <-> In a (m_appliances m) /\
     (find a_dominant (m_appliances m) = Some a \/ hd_error (m_appliances m) = Some a /\ forall b, In b (m_appliances m) -> a_dominant b = false)).
  { intros a. unfold dominant_appliance. destruct (m_appliances m) as [|x [|y r]]; [contradiction| |].
    - cbn [find hd_error]. split.
      + intros [= ->]. split; [now left|]. destruct (a_dominant a) eqn:E; [now left|]. right. split; [reflexivity|]. intros b [<-|[]]. exact E.
      + intros [[->|[]] _]. reflexivity.
    - destruct (find a_dominant (x :: y :: r)) as [b|] eqn:F.
      + split.
        * intros [= <-]. split; [apply (find_some _ _ F)|now left].
        * intros [_ [E|[E K]]]; [exact E|]. apply find_some in F. rewrite (K b (proj1 F)) in F. destruct F. discriminate.
      + split.
        * intros [= <-]. split; [now left|]. right. split; [reflexivity|]. intros b Hb. exact (find_none _ _ F b Hb).
        * intros [_ [E|[E _]]]; [discriminate|]. exact E. }
  destruct (dominant_some m NE) as [a Ha]. rewrite Ha. split.
  - intros E. destruct (a_type a) as [t|] eqn:Et; [|discriminate]. apply cap_ok in E. exists a, t. apply D in Ha. destruct Ha as [H1 H2]. repeat split; assumption.
  - intros [b [t [H1 [H2 [Et C]]]]]. assert (E : dominant_appliance m = Some b) by (apply D; now split). rewrite Ha in E. injection E as ->.
    rewrite Et. now apply cap_ok.
Qed.

(** Groups. *)
Lemma distinct_nodup l : NoDup (distinct l) /\ forall x, In x (distinct l) <-> In x l.
Proof.
  assert (EX : forall x r, existsb (String.eqb x) r = true <-> In x r).
  { intros x r. rewrite existsb_exists. split; [intros [y [Hy E]]; apply String.eqb_eq in E; now subst|]. intros H. exists x. split; [exact H|apply String.eqb_refl]. }
  induction l as [|x l [N I]]; cbn [distinct]; [split; [constructor|reflexivity]|].
  destruct (existsb (String.eqb x) l) eqn:E.
  - apply EX in E. split; [exact N|]. intros y. rewrite I. cbn [In]. split; [now right|]. intros [<-|H]; assumption.
  - split.
    + constructor; [|exact N]. rewrite I. intros H. apply EX in H. congruence.
    + intros y. cbn [In]. rewrite I. reflexivity.
Qed.
Lemma mapM_id {A} (l : list (res A)) ys : mapM (fun x => x) l = Ok ys <-> Forall2 (fun x y => x = Ok y) l ys.
Proof.
  revert ys. induction l as [|x l IH]; intros ys; cbn [mapM].
  - split; [intros [= <-]; constructor|]. inversion 1. reflexivity.
  - split.
    + destruct x as [y|]; cbn [bind]; [|discriminate]. destruct (mapM _ l) as [zs|]; cbn [bind]; [|discriminate]. intros [= <-]. constructor; [reflexivity|]. now apply IH.
    + intros H. inversion H as [|? y ? zs E F]; subst. cbn [bind]. apply IH in F. now rewrite F.
Qed.
Lemma mapM_F2 {A B} (f : A -> res B) l : forall ys, mapM f l = Ok ys <-> Forall2 (fun x y => f x = Ok y) l ys.
Proof.
  induction l as [|x l IH]; intros ys; cbn [mapM].
  - split; [intros [= <-]; constructor|]. inversion 1. reflexivity.
  - split.
    + destruct (f x) as [y|] eqn:E; cbn [bind]; [|discriminate]. destruct (mapM f l) as [zs|]; cbn [bind]; [|discriminate]. intros [= <-].
      constructor; [exact E|]. now apply IH.
    + intros H. inversion H as [|? y ? zs E F]; subst. rewrite E. cbn [bind]. apply IH in F. now rewrite F.
Qed.
Lemma F2_in {A} (f : A -> res string) (l : list A) ys : Forall2 (fun x y => x = Ok y) (map f l) ys -> forall y, In y ys <-> exists x, In x l /\ f x = Ok y.
Proof.
  revert ys. induction l as [|x l IH]; intros ys H y; cbn [map] in H; inversion H as [|? z ? zs E F]; subst.
  - split; [intros []|]. intros [x [[] _]].
  - cbn [In]. rewrite (IH zs F y). split.
    + intros [->|[x' [Hx K]]]; [exists x; split; [now left|exact E]|]. exists x'. split; [now right|exact K].
    + intros [x' [[->|Hx] K]]; [left; congruence|]. right. now exists x'.
Qed.
Theorem group_label order pretty items s name : arbitrary order -> (name = None \/ name = Some ""%string) ->
  item_label order pretty (Group name items) = Ok s ->
  exists l, NoDup l /\ (forall x, In x l <-> exists i, In i items /\ item_label order pretty i = Ok x) /\ s = listed l.
Proof.
  intros O N. assert (E : item_label order pretty (Group name items) = (do l <- mapM (fun x => x) (map (item_label order pretty) items); Ok (join ", " (order (distinct l))))) by (destruct N as [-> | ->]; reflexivity).
  rewrite E. clear E. destruct (mapM _ _) as [ys|] eqn:M; cbn [bind]; [|discriminate]. intros [= <-]. apply mapM_id in M.
  exists (order (distinct ys)). destruct (distinct_nodup ys) as [ND I]. split; [|split].
  - exact (Permutation_NoDup (Permutation_sym (O _)) ND).
  - intros x. rewrite <- (F2_in _ _ _ M x), <- I. split; [apply (Permutation_in _ (O _))|apply (Permutation_in _ (Permutation_sym (O _)))].
  - apply join_listed.
Qed.
Theorem labels_of {K} order (lookup : K -> res item) pretty ids ls :
  get_labels order lookup pretty ids = Ok ls <-> Forall2 (fun i l => exists it, lookup i = Ok it /\ item_label order (Some pretty) it = Ok l) ids ls.
Proof.
  unfold get_labels. split.
  - destruct (mapM lookup ids) as [ms|] eqn:E; cbn [bind]; [|discriminate]. intros F. apply mapM_F2 in E, F. revert ls F.
    induction E as [|i it ids ms Ei _ IH]; intros ls F; inversion F as [|? l ? ls' El F']; subst; constructor; [now exists it|now apply IH].
  - intros H. assert (exists ms, mapM lookup ids = Ok ms /\ mapM (item_label order (Some pretty)) ms = Ok ls) as [ms [E1 E2]]; [|rewrite E1; exact E2].
    induction H as [|i l ids ls [it [Ei El]] _ [ms [E F]]]; [exists []; now split|]. exists (it :: ms). cbn [mapM]. rewrite Ei, El, E, F. now split.
Qed.

(** Failures. *)
Theorem appliance_fails pretty a e : appliance_label pretty a = Err e <-> pretty = true /\ a_instance a = None /\ e = TypeError.
Proof.
  unfold appliance_label. destruct pretty; cbn [bind]; [|split; [discriminate|intros [[=] _]]].
  destruct (a_instance a) as [n|]; cbn [bind].
  - split; [discriminate|intros [_ [[=] _]]].
  - split; [intros [= <-]; auto|]. intros [_ [_ ->]]. reflexivity.
Qed.
Theorem meter_fails pretty m e : meter_label pretty m = Err e <->
  pretty = true /\ (m_name m = None \/ m_name m = Some ""%string) /\ m_site m = false /\
  exists a, dominant_appliance m = Some a /\ (a_type a = None /\ e = TypeError \/ a_type a = Some ""%string /\ e = IndexError).
Proof.
  unfold meter_label. destruct (names_ok m) as [l [El _]]. destruct pretty.
  - unfold pretty_label. destruct (m_name m) as [[|c r]|]; [| cbn; split; [discriminate|intros [_ [[[=]|[=]] _]]]|].
    + destruct (m_site m); [cbn; split; [discriminate|intros [_ [_ [[=] _]]]]|].
      destruct (dominant_appliance m) as [a|]; [|rewrite El; cbn; split; [discriminate|intros [_ [_ [_ [a [[=] _]]]]]]].
      destruct (a_type a) as [[|c r]|] eqn:T; cbn [capitalise_first_letter]; split.
      * intros [= <-]. split; [reflexivity|]. split; [now right|]. split; [reflexivity|]. exists a. split; [reflexivity|]. right. now split.
      * intros [_ [_ [_ [b [[= <-] [[K _]|[_ ->]]]]]]]; [congruence|reflexivity].
      * discriminate.
      * intros [_ [_ [_ [b [[= <-] [[K _]|[K _]]]]]]]; congruence.
      * intros [= <-]. split; [reflexivity|]. split; [now right|]. split; [reflexivity|]. exists a. split; [reflexivity|]. left. now split.
      * intros [_ [_ [_ [b [[= <-] [[_ ->]|[K _]]]]]]]; [reflexivity|congruence].
    + destruct (m_site m); [cbn; split; [discriminate|intros [_ [_ [[=] _]]]]|].
      destruct (dominant_appliance m) as [a|]; [|rewrite El; cbn; split; [discriminate|intros [_ [_ [_ [a [[=] _]]]]]]].
      destruct (a_type a) as [[|c r]|] eqn:T; cbn [capitalise_first_letter]; split.
      * intros [= <-]. split; [reflexivity|]. split; [now left|]. split; [reflexivity|]. exists a. split; [reflexivity|]. right. now split.
      * intros [_ [_ [_ [b [[= <-] [[K _]|[_ ->]]]]]]]; [congruence|reflexivity].
      * discriminate.
      * intros [_ [_ [_ [b [[= <-] [[K _]|[K _]]]]]]]; congruence.
      * intros [= <-]. split; [reflexivity|]. split; [now left|]. split; [reflexivity|]. exists a. split; [reflexivity|]. left. now split.
      * intros [_ [_ [_ [b [[= <-] [[_ ->]|[K _]]]]]]]; [reflexivity|congruence].
  - split; [|intros [[=] _]]. destruct (m_site m); [discriminate|]. destruct (m_name m); [discriminate|]. rewrite El. discriminate.
Qed.

Lemma label_original a :
  (a_type a <> Some "unknown"%string -> appliance_label false a =
     Ok ("(" ++ match a_type a with None => "None" | Some t => repr t end ++ ", " ++ match a_instance a with None => "None" | Some n => str_int n end ++ ")")%string) /\
  (a_type a = Some "unknown"%string -> forall pretty s, appliance_label pretty a = Ok s ->
     exists label, s = (label ++ ", original name = " ++ match a_original a with None => "None" | Some o => o end)%string).
Proof.
  split.
  - intros N. unfold appliance_label, is_unknown. cbn [bind]. destruct (a_type a) as [t|] eqn:T.
    + assert (E : String.eqb t "unknown" = false) by (apply String.eqb_neq; intros ->; apply N; reflexivity). rewrite E. unfold str_id. rewrite T. reflexivity.
    + unfold str_id. rewrite T. reflexivity.
  - intros U pretty s H. unfold appliance_label in H. assert (E : is_unknown a = true) by (unfold is_unknown; rewrite U; reflexivity). rewrite E in H.
    match type of H with bind ?x _ = _ => destruct x as [label|] end; [|discriminate H]. cbn [bind] in H. injection H as <-. exists label. reflexivity.
Qed.
