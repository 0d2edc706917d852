(** C79: importing the HES data. *)
From Coq Require Import Sorted Permutation String.
From Verif Require Import Base HesModel HesSpec HesProofs.
Import List. Open Scope list_scope. Open Scope Z_scope.

(** The rows of two houses in two chunks: house 7 with a freezer (code 2), a
    kettle (code 91) and mains (240), house 9 with a freezer and a lamp (101). *)
Definition k1 : chunk := [mkRow 7 2 (Some 120) 3; mkRow 7 2 (Some 0) 4; mkRow 7 240 (Some 0) 50; mkRow 9 2 (Some 0) 5].
Definition k2 : chunk := [mkRow 7 91 (Some 240) 6; mkRow 9 101 (Some 120) 7].
Definition hes_names : list (Z * (string * string)) :=
  [(2, ("chest freezer 1", "freezer")); (91, ("kettle", "kettle")); (101, ("lamp 1", "light")); (102, ("lamp 2", "light"))]%string.
Fixpoint ins (r : Z * Z) (l : table) : table :=
  match l with [] => [r] | x :: l' => if fst r <=? fst x then r :: l else x :: ins r l' end.
Definition sort_table (l : table) : table := fold_right ins [] l.

Lemma sort_table_sorts : sorts sort_table.
Proof.
  intros l. unfold sort_table. induction l as [|r l [P S1]]; cbn [fold_right]; [split; constructor|].
  set (k := fold_right ins [] l) in *. clearbody k.
  assert (Pi : Permutation (ins r k) (r :: k)).
  { clear. induction k as [|x k IH]; cbn; [constructor; constructor|]. destruct (fst r <=? fst x); [apply Permutation_refl|].
    eapply Permutation_trans; [apply perm_skip; exact IH | apply perm_swap]. }
  split; [eapply Permutation_trans; [exact Pi | apply perm_skip; exact P]|]. clear P Pi.
  induction k as [|x k IH]; cbn [ins]; [repeat constructor|]. destruct (Z.leb_spec (fst r) (fst x)).
  - cbn [map] in *. inversion S1 as [|? ? S2 F]; subst. constructor; [exact S1|]. constructor; [assumption|].
    eapply Forall_impl; [|exact F]. cbn. intros. lia.
  - cbn [map] in *. inversion S1 as [|? ? S2 F]; subst. constructor; [apply IH; exact S2|].
    assert (Pi : Permutation (ins r k) (r :: k)).
    { clear. induction k as [|y k IH]; cbn; [constructor; constructor|]. destruct (fst r <=? fst y); [apply Permutation_refl|].
      eapply Permutation_trans; [apply perm_skip; exact IH | apply perm_swap]. }
    apply Forall_forall. intros z Z1. apply (Permutation_in _ (Permutation_map fst Pi)) in Z1. cbn in Z1.
    destruct Z1 as [<-|Z1]; [lia|]. rewrite Forall_forall in F. apply F. exact Z1.
Qed.

(** With a pandas older than 2.0: houses and appliances that have readings in one
    chunk get a meter of their own, with the readings of [content], and nothing
    else is written. The metadata name the houses, and describe those meters
    whose codes, and all codes numbered before them in their house, are codes of
    appliances. *)
Theorem C79_imported : forall sorter {name type} (same : type -> type -> bool) (names : list (Z * (name * type))) limit fs,
  Forall timed (chunks limit fs) ->
  exists s bs e building meter, convert_hes sorter same false names limit (readable fs) = (s, bs, e) /\
    numbering (chunks limit fs) building meter /\ holds (chunks limit fs) building meter s (content sorter (chunks limit fs)) /\
    (forall b, bs = Some b -> e = None /\ described (chunks limit fs) building meter names same b) /\ (bs = None -> e <> None).
Proof. exact @conversion. Qed.
Print Assumptions C79_imported.

Example C79_imported_ex :
  Forall timed (chunks (Some 1) [Some [k1; k2]; None; Some [k2]]) /\ chunks (Some 1) [Some [k1; k2]; None; Some [k2]] = [k1; k2] /\
  convert_hes sort_table String.eqb false hes_names (Some 1) (readable [Some [k1; k2]; None; Some [k2]]) =
    ([((1, 1)%nat, [(0, 40); (0, 500); (120, 30)]); ((1, 2)%nat, [(0, 40); (0, 500); (120, 30)]);
      ((2, 1)%nat, [(0, 50)]); ((2, 2)%nat, [(0, 50)]);
      ((1, 3)%nat, [(240, 60)]); ((1, 4)%nat, [(240, 60)]); ((2, 3)%nat, [(120, 70)]); ((2, 4)%nat, [(120, 70)])],
     Some [(1%nat, 7, [1%nat], [("chest freezer 1"%string, "freezer"%string, 1%nat, 1%nat)]);
           (2%nat, 9, [1%nat], [("chest freezer 1"%string, "freezer"%string, 1%nat, 1%nat)])], None).
Proof. split; [repeat constructor; discriminate | split; reflexivity]. Qed.

(** The property, where each chunk holds readings of one appliance only: each
    meter holds the readings of its appliance in its house, chunk by chunk. *)
Theorem C79_own_partial : forall sorter {name type} (same : type -> type -> bool) (names : list (Z * (name * type))) limit fs,
  sorts sorter -> Forall timed (chunks limit fs) ->
  (forall c r r', In c (chunks limit fs) -> In r c -> In r' c -> code r = code r') ->
  exists s bs e building meter, convert_hes sorter same false names limit (readable fs) = (s, bs, e) /\
    numbering (chunks limit fs) building meter /\
    holds (chunks limit fs) building meter s (fun h a => flat_map (fun c => sorter (of_appliance h a c)) (chunks limit fs)).
Proof.
  intros sorter name type same names limit fs S1 T One. destruct (conversion sorter same names limit fs T) as (s & bs & e & b & m & E & N & [H1 H2] & _).
  exists s, bs, e, b, m. split; [exact E|]. split; [exact N|]. split; [|exact H2].
  intros h a T1. rewrite (H1 h a T1). f_equal. apply content_own; assumption.
Qed.
Print Assumptions C79_own_partial.

Example C79_own_ex :
  let c := [mkRow 7 2 (Some 120) 3; mkRow 9 2 (Some 0) 5] in let c' := [mkRow 7 91 (Some 0) 1] in
  sorts sort_table /\ Forall timed [c; c'] /\ (forall k r r', In k [c; c'] -> In r k -> In r' k -> code r = code r') /\
  of_appliance 7 2 c = [(120, 30)].
Proof.
  cbn zeta. split; [exact sort_table_sorts|]. split; [repeat constructor; discriminate|]. split; [|reflexivity].
  intros k r r' [<-|[<-|[]]] R R'; cbn in R, R'; intuition; subst; reflexivity.
Qed.

(** Not so otherwise: the meter of an appliance also holds the readings of every
    other appliance of the house in the chunks where the appliance occurs, be it
    in another house. *)
Theorem C79_mixed_refuted : forall sorter {name type} (same : type -> type -> bool) (names : list (Z * (name * type))) limit fs,
  sorts sorter -> Forall timed (chunks limit fs) ->
  exists s bs e building meter, convert_hes sorter same false names limit (readable fs) = (s, bs, e) /\
    numbering (chunks limit fs) building meter /\
    forall c r t a, In c (chunks limit fs) -> In r c -> moment r = Some t -> has_code a c = true ->
      exists u, get (building (house r), meter (house r) a) s = Some u /\ In (t, 10 * data r) u.
Proof.
  intros sorter name type same names limit fs S1 T. destruct (conversion sorter same names limit fs T) as (s & bs & e & b & m & E & N & [H1 _] & _).
  exists s, bs, e, b, m. split; [exact E|]. split; [exact N|]. intros c r t a C R M A.
  exists (content sorter (chunks limit fs) (house r) a). split.
  - apply H1. exists c. split; [exact C|]. split; [|exact A]. apply existsb_exists. exists r. split; [exact R | apply Z.eqb_refl].
  - eapply content_all; eauto.
Qed.
Print Assumptions C79_mixed_refuted.

(** House 7 has a lamp in the output (building 1, meter 4), which it never had;
    its kettle (meter 3) has data but is not described. *)
Theorem C79_witness_refuted : exists s bs, convert_hes sort_table String.eqb false hes_names None (readable [Some [k1; k2]]) = (s, Some bs, None) /\
  of_appliance 7 101 (k1 ++ k2) = [] /\ get (1, 4)%nat s = Some [(240, 60)] /\
  of_appliance 7 91 (k1 ++ k2) = [(240, 60)] /\ get (1, 3)%nat s = Some [(240, 60)] /\
  (forall b, In b bs -> fst (fst (fst b)) = 1%nat -> ~ In 3%nat (snd (fst b))).
Proof.
  eexists _, _. split; [vm_compute; reflexivity|]. repeat split.
  intros b [<-|[<-|[]]]; cbn; intros E; [intros [F|[]]; discriminate | discriminate].
Qed.
Print Assumptions C79_witness_refuted.

(** When a chunk cannot be read, or holds a time that cannot be read, the
    conversion raises; what was imported before stays in the file, without
    metadata. *)
Theorem C79_interrupted : forall sorter {name type} (same : type -> type -> bool) (names : list (Z * (name * type))) fs cs bad rest more,
  Forall timed (chunks None fs) -> Forall timed cs -> (forall c, bad = Ok c -> ~ timed c) ->
  exists s bs e', convert_hes sorter same false names None (readable (fs ++ [Some cs])) = (s, bs, e') /\
    convert_hes sorter same false names None (readable fs ++ Some (map Ok cs ++ bad :: rest) :: more) =
      (s, None, Some (match bad with Err e => e | Ok _ => ValueError end)).
Proof.
  intros sorter name type same names fs cs [c|e] rest more T1 T2 B.
  - apply untimed; [exact T1 | exact T2 | exact (B c eq_refl)].
  - apply interrupted; assumption.
Qed.
Print Assumptions C79_interrupted.
Example C79_interrupted_ex : Forall timed (chunks None [Some [k1]]) /\ Forall timed [k2] /\ (forall c, Ok [mkRow 7 2 None 1] = Ok c -> ~ timed c).
Proof.
  split; [repeat constructor; discriminate|]. split; [repeat constructor; discriminate|].
  intros c [= <-] T. inversion T as [|? ? N]; subst. apply N. reflexivity.
Qed.

(** With pandas 2.0 or later, which the project asks for, nothing is imported and
    what was in the output file is lost. *)
Theorem C79_pandas_refuted : forall sorter {name type} (same : type -> type -> bool) (names : list (Z * (name * type))) limit fs,
  exists e, convert_hes sorter same true names limit fs = ([], None, Some e).
Proof. intros. exists TypeError. reflexivity. Qed.
Print Assumptions C79_pandas_refuted.
