(** A way of pickling, for the examples: numbers in a row, after how many they are. *)
From Coq Require Import String Ascii Lia Arith.
From Verif Require Import Base PickleModel PickleSpec.
Import List. Open Scope list_scope. Open Scope nat_scope.

(** What [put] writes [take] takes away again. *)
Definition codec {A} (put : A -> list nat) (take : list nat -> option (A * list nat)) : Prop :=
  forall a r, take (put a ++ r) = Some (a, r).

Definition put_nat (n : nat) : list nat := [n].
Definition take_nat (l : list nat) : option (nat * list nat) := match l with [] => None | n :: r => Some (n, r) end.
Lemma codec_nat : codec put_nat take_nat. Proof. intros a r. reflexivity. Qed.

Section Codec.
  Context {A B C : Type} (pa : A -> list nat) (ta : list nat -> option (A * list nat)) (pb : B -> list nat) (tb : list nat -> option (B * list nat)).
  Definition put_pair (p : A * B) : list nat := pa (fst p) ++ pb (snd p).
  Definition take_pair (l : list nat) : option ((A * B) * list nat) :=
    match ta l with None => None | Some (a, l) => match tb l with None => None | Some (b, l) => Some ((a, b), l) end end.
  Lemma codec_pair : codec pa ta -> codec pb tb -> codec put_pair take_pair.
  Proof. intros HA HB [a b] r. unfold put_pair, take_pair. cbn [fst snd]. rewrite <- app_assoc, HA, HB. reflexivity. Qed.

  Definition put_list (l : list A) : list nat := length l :: flat_map pa l.
  Fixpoint take_n (n : nat) (l : list nat) : option (list A * list nat) :=
    match n with
    | O => Some ([], l)
    | S n => match ta l with None => None | Some (a, l) => match take_n n l with None => None | Some (r, l) => Some (a :: r, l) end end
    end.
  Definition take_list (l : list nat) : option (list A * list nat) := match l with [] => None | n :: r => take_n n r end.
  Lemma codec_list : codec pa ta -> codec put_list take_list.
  Proof.
    intros HA l r. unfold put_list, take_list. cbn [List.app]. induction l as [|a l IH]; [reflexivity|].
    cbn [length flat_map take_n]. rewrite <- app_assoc, HA, IH. reflexivity.
  Qed.

  (** By way of another type. *)
  Definition put_as (f : C -> A) (c : C) : list nat := pa (f c).
  Definition take_as (g : A -> C) (l : list nat) : option (C * list nat) := match ta l with None => None | Some (a, l) => Some (g a, l) end.
  Lemma codec_as : forall f g, (forall c, g (f c) = c) -> codec pa ta -> codec (put_as f) (take_as g).
  Proof. intros f g H HA c r. unfold put_as, take_as. now rewrite HA, H. Qed.

  Definition dump (a : A) : list nat := length (pa a) :: pa a.
  Definition load (l : list nat) : option A :=
    match l with
    | [] => None
    | n :: r => if Nat.eqb (length r) n then match ta r with Some (a, []) => Some a | _ => None end else None
    end.
  Lemma codec_pickles : codec pa ta -> pickles dump load.
  Proof.
    intros HA. split.
    - intros a. unfold dump, load. rewrite Nat.eqb_refl. specialize (HA a []). rewrite app_nil_r in HA. now rewrite HA.
    - intros a n H. unfold dump in *. cbn [length] in H. destruct n as [|n]; [reflexivity|]. cbn [firstn load].
      destruct (Nat.eqb_spec (length (firstn n (pa a))) (length (pa a))) as [E|]; [|reflexivity]. rewrite firstn_length in E. lia.
  Qed.
End Codec.

Definition put_string := put_as (put_list put_nat) (fun s => map nat_of_ascii (list_ascii_of_string s)).
Definition take_string := take_as (take_list take_nat) (fun l => string_of_list_ascii (map ascii_of_nat l)).
Lemma codec_string : codec put_string take_string.
Proof.
  apply codec_as; [|apply codec_list, codec_nat]. intros s. rewrite map_map.
  rewrite (map_ext _ (fun c => c)) by apply ascii_nat_embedding. rewrite map_id. apply string_of_list_ascii_of_string.
Qed.

Definition obj := object nat nat.
Definition of_obj (o : obj) : nat * (nat * (string * nat)) :=
  (payload o, match o_store o with Store (Hdf f w) => (0, (f, w)) | Store (Csv f w) => (1, (f, w)) | Path f => (2, (f, 0)) | Absent => (3, (EmptyString, 0)) end).
Definition to_obj (t : nat * (nat * (string * nat))) : obj :=
  let '(p, (k, (f, w))) := t in mkObj p (match k with 0 => Store (Hdf f w) | 1 => Store (Csv f w) | 2 => Path f | _ => Absent end).
Definition put_obj := put_as (put_pair put_nat (put_pair put_nat (put_pair put_string put_nat))) of_obj.
Definition take_obj := take_as (take_pair take_nat (take_pair take_nat (take_pair take_string take_nat))) to_obj.
Lemma codec_obj : codec put_obj take_obj.
Proof.
  apply codec_as; [now intros [p [[f w|f w]|f|]]|].
  repeat (apply codec_pair; [try apply codec_nat; try apply codec_string|]). apply codec_nat.
Qed.

Definition put_models := put_list (put_pair put_nat put_obj).
Definition take_models := take_list (take_pair take_nat take_obj).
Lemma codec_models : codec put_models take_models.
Proof. apply codec_list, codec_pair; [apply codec_nat|apply codec_obj]. Qed.

Definition put_co := put_as (put_pair put_models (put_pair put_nat put_nat)) (fun c : co_file nat nat nat nat => (cf_model c, (cf_combos c, cf_min c))).
Definition take_co := take_as (take_pair take_models (take_pair take_nat take_nat)) (fun t => mkCoFile (fst t) (fst (snd t)) (snd (snd t))).
Definition dump_co : co_file nat nat nat nat -> list nat := dump put_co.
Definition load_co : list nat -> option (co_file nat nat nat nat) := load take_co.
Lemma pickles_co : pickles dump_co load_co.
Proof.
  apply codec_pickles, codec_as; [now intros []|]. apply codec_pair; [apply codec_models|]. apply codec_pair; apply codec_nat.
Qed.

Definition put_fhmm := put_as (put_pair put_models put_nat) (fun c : fhmm_file nat nat nat nat => (ff_individual c, ff_model c)).
Definition take_fhmm := take_as (take_pair take_models take_nat) (fun t => mkFhmmFile (snd t) (fst t)).
Definition dump_fhmm : fhmm_file nat nat nat nat -> list nat := dump put_fhmm.
Definition load_fhmm : list nat -> option (fhmm_file nat nat nat nat) := load take_fhmm.
Lemma pickles_fhmm : pickles dump_fhmm load_fhmm.
Proof. apply codec_pickles, codec_as; [now intros []|]. apply codec_pair; [apply codec_models|apply codec_nat]. Qed.

Definition dump_hart : hart_dict nat -> list nat := dump (put_list (put_pair put_string put_nat)).
Definition load_hart : list nat -> option (hart_dict nat) := load (take_list (take_pair take_string take_nat)).
Lemma pickles_hart : pickles dump_hart load_hart.
Proof. apply codec_pickles, codec_list, codec_pair; [apply codec_string|apply codec_nat]. Qed.
