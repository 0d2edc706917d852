(** Proofs about importing the ECO data set: what is stored. *)
From Coq Require Import String Ascii Permutation Sorted.
From Verif Require Import Base EcoModel EcoSpec.
Import List. Open Scope list_scope. Open Scope nat_scope.

(** ** Names *)
Lemma contains_has sub s : sub <> ""%string -> (contains sub s = true <-> has sub s).
Proof.
  intros N. unfold contains, has. destruct (index 0 sub s) as [p|] eqn:E.
  - split; [intros _; exists p; exact (index_correct1 _ _ _ _ E)|reflexivity].
  - split; [discriminate|]. intros [p K]. exfalso. exact (index_correct3 0 p sub s E N (Nat.le_0_l p) K).
Qed.
Lemma contains_has_not sub s : sub <> ""%string -> (contains sub s = false <-> ~ has sub s).
Proof. intros N. rewrite <- (contains_has sub s N). destruct (contains sub s); split; congruence. Qed.

Lemma insert_perm x l : Permutation (insert_name x l) (x :: l).
Proof.
  induction l as [|y l IH]; cbn [insert_name]; [reflexivity|]. destruct (String.leb x y); [reflexivity|].
  rewrite IH. apply perm_swap.
Qed.
Lemma sort_perm l : Permutation (sort_names l) l.
Proof. induction l as [|x l IH]; cbn [sort_names fold_right]; [reflexivity|]. rewrite insert_perm. constructor. exact IH. Qed.
Lemma sort_in l x : In x (sort_names l) <-> In x l.
Proof. split; apply Permutation_in; [|symmetry]; apply sort_perm. Qed.
Lemma sort_nodup l : NoDup l -> NoDup (sort_names l).
Proof. apply Permutation_NoDup. symmetry. apply sort_perm. Qed.
Lemma sort_length l : List.length (sort_names l) = List.length l.
Proof. apply Permutation_length, sort_perm. Qed.

Section Proofs.
  Context {V : Type}.
  Variable gone : V -> bool.
  Variable reactive : V -> V -> V.
  Variable nan : V.
  Variable day : string -> option Z.
  Variable py_int : string -> option Z.
  Notation rows := (list (Z * list V)).

  (** ** Directories *)
  Lemma entry_in n (l : listing V) t : unique l -> (entry n l = Some t <-> In (n, t) l).
  Proof.
    unfold unique. induction l as [|[a x] l IH]; cbn [entry map fst]; intros ND; [split; [discriminate|intros []]|].
    apply NoDup_cons_iff in ND. destruct ND as [NI ND]. destruct (String.eqb n a) eqn:E.
    - apply String.eqb_eq in E. subst a. split; [intros [= ->]; left; reflexivity|]. intros [[= ->]|K]; [reflexivity|].
      exfalso. apply NI. apply in_map_iff. exists (n, t). split; [reflexivity|exact K].
    - rewrite (IH ND). split; [right; assumption|]. intros [[= -> ->]|K]; [rewrite String.eqb_refl in E; discriminate|exact K].
  Qed.
  Lemma listdir_in n (l l' : listing V) : unique l -> (listdir l n = Ok l' <-> In (n, Dir l') l).
  Proof.
    intros U. unfold listdir. rewrite <- (entry_in n l (Dir l') U). destruct (entry n l) as [[c|x]|]; split; try discriminate; intros [= ->]; reflexivity.
  Qed.
  Lemma read_in n (l : listing V) c : unique l -> (read_csv l n = Ok c <-> In (n, File (Ok c)) l).
  Proof.
    intros U. unfold read_csv. rewrite <- (entry_in n l (File (Ok c)) U). destruct (entry n l) as [[c'|x]|]; split; try discriminate; intros [= ->]; reflexivity.
  Qed.
  Lemma dirs_in n (l : listing V) : In n (dirs l) <-> exists l', In (n, Dir l') l.
  Proof.
    unfold dirs. rewrite in_map_iff. split.
    - intros ([a [c|x]] & <- & K); apply filter_In in K; destruct K as [K E]; [discriminate|]. exists x. exact K.
    - intros [l' K]. exists (n, Dir l'). split; [reflexivity|]. apply filter_In. split; [exact K|reflexivity].
  Qed.
  Lemma dirs_count (l : listing V) : List.length (dirs l) = n_dirs l.
  Proof. unfold dirs, n_dirs. rewrite map_length. reflexivity. Qed.
  Lemma csv_names_in fi (files : listing V) : In fi (csv_names files) <-> has ".csv" fi /\ exists t, In (fi, t) files.
  Proof.
    unfold csv_names. rewrite sort_in, filter_In, in_map_iff. rewrite (contains_has ".csv" fi) by discriminate. split.
    - intros [([a t] & <- & K) H]. split; [exact H|]. exists t. exact K.
    - intros [H [t K]]. split; [|exact H]. exists (fi, t). split; [reflexivity|exact K].
  Qed.

  (** ** The store *)
  Lemma key_eqb_spec (a b : Z * Z) : key_eqb a b = true <-> a = b.
  Proof. unfold key_eqb. rewrite Bool.andb_true_iff, !Z.eqb_eq. destruct a, b; cbn [fst snd]; split; [intros [-> ->]; reflexivity|intros [= -> ->]; split; reflexivity]. Qed.
  Lemma key_eqb_refl (a : Z * Z) : key_eqb a a = true.
  Proof. apply key_eqb_spec. reflexivity. Qed.
  Lemma get_put (s : store V) k t k' : get (put s k t) k' = if key_eqb k' k then Some t else get s k'.
  Proof.
    induction s as [|[a x] s IH]; cbn [put get]; [reflexivity|]. destruct (key_eqb k a) eqn:E; cbn [get].
    - apply key_eqb_spec in E. subst a. destruct (key_eqb k' k); reflexivity.
    - destruct (key_eqb k' a) eqn:E2; [|exact IH]. apply key_eqb_spec in E2. subst a.
      destruct (key_eqb k' k) eqn:E3; [|reflexivity]. apply key_eqb_spec in E3. subst k'. rewrite key_eqb_refl in E. discriminate.
  Qed.

  Definition tab (s : store V) (k : Z * Z) : rows := match get s k with None => [] | Some (_, r) => r end.

  Lemma write_tab k c new (s s' : store V) : write k c new s = (s', None) -> forall k', tab s' k' = tab s k' ++ (if key_eqb k' k then new else []).
  Proof.
    unfold write, tab. destruct new as [|x new].
    - intros [= <-] k'. destruct (key_eqb k' k); rewrite app_nil_r; reflexivity.
    - destruct (get s k) as [[c' old]|] eqn:G.
      + destruct (kind_eqb c' c); [|discriminate]. intros [= <-] k'. rewrite get_put. destruct (key_eqb k' k) eqn:E; [|rewrite app_nil_r; reflexivity].
        apply key_eqb_spec in E. subst k'. rewrite G. reflexivity.
      + intros [= <-] k'. rewrite get_put. destruct (key_eqb k' k) eqn:E; [|rewrite app_nil_r; reflexivity].
        apply key_eqb_spec in E. subst k'. rewrite G. reflexivity.
  Qed.

  Notation T st := (tab (e_store st)).
  Lemma loop_tab {X} (f : X -> state -> state * option exn) (P : X -> Prop) (c : X -> Z * Z -> rows) :
    (forall x st st', f x st = (st', None) -> P x /\ forall k, T st' k = T st k ++ c x k) ->
    forall l st st', loop f l st = (st', None) -> (forall x, In x l -> P x) /\ forall k, T st' k = T st k ++ flat_map (fun x => c x k) l.
  Proof.
    intros H. induction l as [|x l IH]; intros st st'; cbn [loop flat_map].
    - intros [= <-]. split; [intros x []|intros k; rewrite app_nil_r; reflexivity].
    - destruct (f x st) as [st1 [e|]] eqn:E; [discriminate|]. intros L. destruct (H _ _ _ E) as [Px Tx]. destruct (IH _ _ L) as [Pl Tl]. split.
      + intros y [<-|K]; [exact Px|exact (Pl y K)].
      + intros k. rewrite Tl, Tx, app_assoc. reflexivity.
  Qed.

  (** ** What each part adds *)
  Definition okr (r : res rows) : rows := match r with Ok x => x | Err _ => [] end.
  Definition is_ok {X} (r : res X) : Prop := exists x, r = Ok x.

  Notation day_rows := (day_rows gone nan day).
  Notation phase_row := (phase_row reactive nan).
  Notation column := (column nan).

  Definition phase_rows fi l (phase : nat) := day_rows (but_last_four fi) (map (phase_row phase) l).
  Definition c_phase b fi l (phase : nat) k := if key_eqb k (b, Z.of_nat phase) then okr (phase_rows fi l phase) else [].
  Definition c_sm b (files : listing V) fi k := match read_csv files fi with Ok l => flat_map (fun p => c_phase b fi l p k) [1; 2; 3] | Err _ => [] end.
  Definition P_sm (files : listing V) fi := exists l, read_csv files fi = Ok l /\ forall p, In p [1; 2; 3] -> is_ok (phase_rows fi l p).
  Definition plug_rows (files : listing V) fi := (do l <- read_csv files fi; day_rows (colons (but_last_four fi)) (map (fun r => [column 1 r]) l)).
  Definition c_plug b m (files : listing V) fi k := if key_eqb k (b, m) then okr (plug_rows files fi) else [].

  Lemma phase_step b fi l phase st st' : eco_phase gone reactive nan day b fi l phase st = (st', None) ->
    is_ok (phase_rows fi l phase) /\ forall k, T st' k = T st k ++ c_phase b fi l phase k.
  Proof.
    unfold eco_phase, c_phase. fold (phase_rows fi l phase). destruct (check_key b (Z.of_nat phase)); [|discriminate]. cbn [bind].
    destruct (phase_rows fi l phase) as [new|e]; [|discriminate]. unfold set_store. destruct (write _ _ _ _) as [s o] eqn:W. cbn [fst snd]. intros [= <- ->].
    split; [exists new; reflexivity|]. intros k. cbn [e_store okr]. exact (write_tab _ _ _ _ _ W k).
  Qed.
  Lemma sm_step b files fi st st' : eco_sm_file gone reactive nan day b files fi st = (st', None) ->
    P_sm files fi /\ forall k, T st' k = T st k ++ c_sm b files fi k.
  Proof.
    unfold eco_sm_file, P_sm, c_sm. destruct (read_csv files fi) as [l|e]; [|discriminate]. intros L.
    destruct (loop_tab _ _ _ (phase_step b fi l) _ _ _ L) as [P TT]. split; [exists l; split; [reflexivity|exact P]|exact TT].
  Qed.
  Lemma plug_step b m files fi st st' : eco_plug_file gone nan day b m files fi st = (st', None) ->
    is_ok (plug_rows files fi) /\ forall k, T st' k = T st k ++ c_plug b m files fi k.
  Proof.
    unfold eco_plug_file, c_plug. fold (plug_rows files fi). destruct (plug_rows files fi) as [new|e]; [|discriminate].
    unfold set_store. destruct (write _ _ _ _) as [s o] eqn:W. cbn [fst snd]. intros [= <- ->].
    split; [exists new; reflexivity|]. intros k. cbn [e_store okr]. exact (write_tab _ _ _ _ _ W k).
  Qed.

  Definition c_sub b kd (l : listing V) fl k :=
    match listdir l fl with
    | Err _ => []
    | Ok files => match kd with
                  | Sm => flat_map (fun fi => c_sm b files fi k) (csv_names files)
                  | Plugs => match py_int fl with
                             | None => []
                             | Some n => flat_map (fun fi => c_plug b (n + 3) files fi k) (csv_names files)
                             end
                  end
    end.
  Definition P_sub kd (l : listing V) fl := exists files, listdir l fl = Ok files /\
    match kd with
    | Sm => forall fi, In fi (csv_names files) -> P_sm files fi
    | Plugs => (exists n, py_int fl = Some n) /\ forall fi, In fi (csv_names files) -> is_ok (plug_rows files fi)
    end.
  Lemma sub_step b kd l fl st st' : eco_sub gone reactive nan day py_int b kd l fl st = (st', None) ->
    P_sub kd l fl /\ forall k, T st' k = T st k ++ c_sub b kd l fl k.
  Proof.
    unfold eco_sub, P_sub, c_sub. destruct (listdir l fl) as [files|e]; [|discriminate]. destruct kd.
    - intros L. destruct (loop_tab _ _ _ (sm_step b files) _ _ _ L) as [P TT]. split; [exists files; split; [reflexivity|exact P]|exact TT].
    - destruct (py_int fl) as [n|]; [|discriminate]. destruct (check_key b (n + 3)); [|discriminate].
      destruct (csv_names files) as [|x r] eqn:C; [discriminate|]. intros L. destruct (loop_tab _ _ _ (plug_step b (n + 3) files) _ _ _ L) as [P TT].
      split; [exists files; split; [reflexivity|]; split; [exists n; reflexivity|rewrite C; exact P]|exact TT].
  Qed.

  Definition folder_kind folder : option kind := if contains "sm_csv" folder then Some Sm else if contains "plugs" folder then Some Plugs else None.
  Definition skipped folder := (String.eqb (substring 0 1 folder) "." || String.eqb (last_three folder) ".h5")%bool.
  Definition parts kd (d : listing V) folder := (do l <- listdir d folder; subfolders kd folder l).
  Definition c_folder (d : listing V) folder k :=
    if skipped folder then [] else
    match py_int (first_two folder), folder_kind folder with
    | Some b, Some kd => match parts kd d folder with Err _ => [] | Ok (l, names) => flat_map (fun fl => c_sub b kd l fl k) names end
    | _, _ => []
    end.
  Definition P_folder (d : listing V) folder := skipped folder = false -> (exists b, py_int (first_two folder) = Some b) /\
    forall kd, folder_kind folder = Some kd -> exists l names, parts kd d folder = Ok (l, names) /\ forall fl, In fl names -> P_sub kd l fl.
  Lemma folder_step d folder st st' : eco_folder gone reactive nan day py_int d folder st = (st', None) ->
    P_folder d folder /\ forall k, T st' k = T st k ++ c_folder d folder k.
  Proof.
    unfold eco_folder, P_folder, c_folder. fold (skipped folder). destruct (skipped folder).
    - intros [= <-]. split; [discriminate|]. intros k. rewrite app_nil_r. reflexivity.
    - destruct (py_int (first_two folder)) as [b|]; [|discriminate].
      assert (G : forall kd, match parts kd d folder with Err e => (st, Some e) | Ok (l, names) => loop (eco_sub gone reactive nan day py_int b kd l) names st end = (st', None) ->
        (exists l names, parts kd d folder = Ok (l, names) /\ forall fl, In fl names -> P_sub kd l fl) /\
        forall k, T st' k = T st k ++ match parts kd d folder with Err _ => [] | Ok (l, names) => flat_map (fun fl => c_sub b kd l fl k) names end).
      { intros kd. destruct (parts kd d folder) as [[l names]|e]; [|discriminate]. intros L. destruct (loop_tab _ _ _ (sub_step b kd l) _ _ _ L) as [P TT].
        split; [exists l, names; split; [reflexivity|exact P]|exact TT]. }
      unfold folder_kind. destruct (contains "sm_csv" folder).
      + intros L. destruct (G Sm L) as [P TT]. split; [|exact TT]. intros _. split; [exists b; reflexivity|]. intros kd [= <-]. exact P.
      + destruct (contains "plugs" folder).
        * intros L. destruct (G Plugs L) as [P TT]. split; [|exact TT]. intros _. split; [exists b; reflexivity|]. intros kd [= <-]. exact P.
        * intros [= <-]. split; [|intros k; rewrite app_nil_r; reflexivity]. intros _. split; [exists b; reflexivity|discriminate].
  Qed.

  Definition folders (d : listing V) := sort_names (filter (fun s => negb (contains ".txt" s)) (map fst d)).
  Lemma convert_tab d s : convert_eco gone reactive nan day py_int d = (s, None) ->
    (forall f, In f (folders d) -> P_folder d f) /\ forall k, tab s k = flat_map (fun f => c_folder d f k) (folders d).
  Proof.
    unfold convert_eco. fold (folders d). destruct (loop _ _ _) as [st [e|]] eqn:L; [discriminate|]. intros [= <- _].
    destruct (loop_tab _ _ _ (folder_step d) _ _ _ L) as [P TT]. split; [exact P|]. intros k. rewrite TT. reflexivity.
  Qed.

  (** ** Rows of a day *)
  Lemma seconds_in dd (l : list (list V)) t v : In (t, v) (seconds dd l) <-> exists i, nth_error l i = Some v /\ t = (dd + Z.of_nat i)%Z.
  Proof. clear gone reactive nan day py_int.
    revert dd. induction l as [|x l IH]; intros dd; cbn [seconds In].
    - split; [intros []|]. intros (i & K & _). destruct i; discriminate.
    - rewrite IH. split.
      + intros [[= <- <-]|(i & K & ->)]; [exists 0; split; [reflexivity|lia]|]. exists (S i). split; [exact K|lia].
      + intros ([|i] & K & ->); [left; cbn in K; injection K as ->; f_equal; lia|]. right. exists i. split; [exact K|lia].
  Qed.

  Lemma day_rows_in start (l : list (list V)) t v : is_ok (day_rows start l) ->
    (In (t, v) (okr (day_rows start l)) <-> exists midnight i, day start = Some midnight /\ nth_error l i = Some v /\ t = (midnight + Z.of_nat i)%Z /\ gone (hd nan v) = false).
  Proof. clear reactive py_int.
    intros [x E]. unfold EcoModel.day_rows in *. destruct (day start) as [dd|]; [|discriminate]. destruct (_ =? _)%Z; [|discriminate]. cbn [okr].
    rewrite filter_In, seconds_in. cbn [snd]. rewrite Bool.negb_true_iff. split.
    - intros [(i & K & ->) G]. exists dd, i. auto.
    - intros (m & i & [= <-] & K & E2 & G). split; [exists i|]; auto.
  Qed.

  Lemma nth_map_some {X Y} (f : X -> Y) l i y : nth_error (map f l) i = Some y <-> exists x, nth_error l i = Some x /\ y = f x.
  Proof.
    rewrite nth_error_map. destruct (nth_error l i) as [x|]; cbn [option_map]; split.
    - intros [= <-]. exists x. split; reflexivity.
    - intros (x' & [= <-] & ->). reflexivity.
    - discriminate.
    - intros (x' & K & _). discriminate.
  Qed.

  Lemma sm_rows_in b files fi k t v : unique files -> P_sm files fi ->
    (In (t, v) (c_sm b files fi k) <-> exists p line lines midnight i, In p [1; 2; 3] /\ k = (b, Z.of_nat p) /\ In (fi, File (Ok lines)) files /\ day (but_last_four fi) = Some midnight /\
       nth_error lines i = Some line /\ t = (midnight + Z.of_nat i)%Z /\ v = phase_row p line /\ gone (column (1 + p) line) = false).
  Proof.
    intros U (l & R & P). unfold c_sm. rewrite R. rewrite in_flat_map. apply (read_in _ _ _ U) in R. split.
    - intros (p & Hp & K). unfold c_phase in K. destruct (key_eqb k (b, Z.of_nat p)) eqn:E; [|destruct K]. apply key_eqb_spec in E.
      apply (day_rows_in _ _ _ _ (P p Hp)) in K. destruct K as (m & i & D & K & -> & G). apply nth_map_some in K. destruct K as (line & K & ->).
      exists p, line, l, m, i. repeat (split; [assumption||reflexivity|]). exact G.
    - intros (p & line & lines & m & i & Hp & E & F & D & K & -> & -> & G).
      assert (X : Ok lines = Ok l :> res (list (list V))).
      { apply (entry_in _ _ _ U) in F. apply (entry_in _ _ _ U) in R. rewrite F in R. injection R as ->. reflexivity. }
      injection X as ->. exists p. split; [exact Hp|]. unfold c_phase. rewrite E, key_eqb_refl. apply (day_rows_in _ _ _ _ (P p Hp)).
      exists m, i. split; [exact D|]. split; [apply nth_map_some; exists line; auto|]. split; [reflexivity|exact G].
  Qed.

  Lemma plug_rows_in b m files fi k t v : unique files -> is_ok (plug_rows files fi) ->
    (In (t, v) (c_plug b m files fi k) <-> exists line lines midnight i, k = (b, m) /\ In (fi, File (Ok lines)) files /\ day (colons (but_last_four fi)) = Some midnight /\
       nth_error lines i = Some line /\ t = (midnight + Z.of_nat i)%Z /\ v = [column 1 line] /\ gone (column 1 line) = false).
  Proof.
    intros U P. unfold c_plug. unfold plug_rows in *. destruct (read_csv files fi) as [l|e] eqn:R; [|destruct P as [? P]; discriminate]. cbn [bind] in *.
    apply (read_in _ _ _ U) in R. split.
    - intros K. destruct (key_eqb k (b, m)) eqn:E; [|destruct K]. apply key_eqb_spec in E.
      apply (day_rows_in _ _ _ _ P) in K. destruct K as (dd & i & D & K & -> & G). apply nth_map_some in K. destruct K as (line & K & ->).
      exists line, l, dd, i. repeat (split; [assumption||reflexivity|]). exact G.
    - intros (line & lines & dd & i & E & F & D & K & -> & -> & G).
      assert (X : Ok lines = Ok l :> res (list (list V))).
      { apply (entry_in _ _ _ U) in F. apply (entry_in _ _ _ U) in R. rewrite F in R. injection R as ->. reflexivity. }
      injection X as ->. rewrite E, key_eqb_refl. apply (day_rows_in _ _ _ _ P).
      exists dd, i. split; [exact D|]. split; [apply nth_map_some; exists line; auto|]. split; [reflexivity|exact G].
  Qed.

  Lemma colons_with s : colons s = with_colons s.
  Proof. induction s as [|c s IH]; cbn; [reflexivity|]. rewrite IH. reflexivity. Qed.

  (** ** Folders *)
  Lemma folders_in d f : In f (folders d) <-> (exists t, In (f, t) d) /\ ~ has ".txt" f.
  Proof.
    unfold folders. rewrite sort_in, filter_In, in_map_iff, Bool.negb_true_iff, contains_has_not by discriminate. split.
    - intros [([a t] & <- & K) H]. split; [exists t; exact K|exact H].
    - intros [[t K] H]. split; [exists (f, t); auto|exact H].
  Qed.
  Lemma considered_skipped f : considered f <-> ~ has ".txt" f /\ skipped f = false.
  Proof. clear gone reactive nan day py_int.
    unfold considered, skipped, last_three. rewrite Bool.orb_false_iff, !String.eqb_neq. tauto.
  Qed.
  Lemma kind_sm f : folder_kind f = Some Sm <-> has "sm_csv" f.
  Proof. clear gone reactive nan day py_int. unfold folder_kind. rewrite <- (contains_has "sm_csv" f) by discriminate. destruct (contains "sm_csv" f); [tauto|]. destruct (contains "plugs" f); split; congruence. Qed.
  Lemma kind_plugs f : folder_kind f = Some Plugs <-> ~ has "sm_csv" f /\ has "plugs" f.
  Proof. clear gone reactive nan day py_int.
    unfold folder_kind. rewrite <- (contains_has "plugs" f), <- (contains_has_not "sm_csv" f) by discriminate.
    destruct (contains "sm_csv" f); [split; [discriminate|intros [K _]; discriminate]|]. destruct (contains "plugs" f); split; try tauto; try discriminate. intros [_ K]; discriminate.
  Qed.

  Variable d : listing V.
  Hypothesis W : well_named d.
  Let U1 : unique d := proj1 W.
  Lemma U2 n l : In (n, Dir l) d -> unique l.
  Proof. intros K. exact (proj1 (proj2 W n l K)). Qed.
  Lemma U3 n l n' l' : In (n, Dir l) d -> In (n', Dir l') l -> unique l'.
  Proof. intros K K'. exact (proj1 (proj2 (proj2 W n l K) n' l' K')). Qed.
  Lemma U4 n l n' l' n'' l'' : In (n, Dir l) d -> In (n', Dir l') l -> In (n'', Dir l'') l' -> unique l''.
  Proof. intros K K' K''. exact (proj2 (proj2 (proj2 W n l K) n' l' K') n'' l'' K''). Qed.

  (** The folders of the specification are those that are visited. *)
  Lemma sm_parts f l names : parts Sm d f = Ok (l, names) <-> In (f, Dir l) d /\ names = sort_names (dirs l).
  Proof.
    unfold parts. rewrite <- (listdir_in f d l U1). destruct (listdir d f) as [l0|e]; cbn [bind subfolders]; split.
    - intros [= <- <-]. auto.
    - intros [[= ->] ->]. reflexivity.
    - discriminate.
    - intros [K _]. discriminate.
  Qed.
  Lemma plug_parts f l names : parts Plugs d f = Ok (l, names) <->
    exists l0, In (f, Dir l0) d /\ (3 <= n_dirs l0 /\ l = l0 /\ names = sort_names (dirs l) \/ n_dirs l0 < 3 /\ In (substring 0 2 f, Dir l) l0 /\ names = dirs l).
  Proof. clear gone reactive nan day py_int.
    unfold parts. destruct (listdir d f) as [l0|e] eqn:L; cbn [bind].
    - apply (listdir_in f d l0 U1) in L. cbn [subfolders]. rewrite sort_length, dirs_count. destruct (n_dirs l0 <? 3) eqn:C.
      + apply Nat.ltb_lt in C. unfold first_two. destruct (listdir l0 (substring 0 2 f)) as [l'|e] eqn:L'; cbn [bind].
        * apply (listdir_in _ _ _ (U2 _ _ L)) in L'. split.
          -- intros [= <- <-]. exists l0. split; [exact L|]. right. auto.
          -- intros (l1 & K & [(X & _)|(X & K2 & ->)]).
             ++ apply (listdir_in f d l1 U1) in K. apply (listdir_in f d l0 U1) in L. rewrite K in L. injection L as ->. lia.
             ++ pose proof K as K'. apply (listdir_in f d l1 U1) in K. apply (listdir_in f d l0 U1) in L. rewrite K in L. injection L as ->.
                apply (listdir_in _ _ _ (U2 _ _ K')) in K2. apply (listdir_in _ _ _ (U2 _ _ K')) in L'. rewrite K2 in L'. injection L' as ->. reflexivity.
        * split; [discriminate|]. intros (l1 & K & [(X & _)|(X & K2 & ->)]).
          -- apply (listdir_in f d l1 U1) in K. apply (listdir_in f d l0 U1) in L. rewrite K in L. injection L as ->. lia.
          -- pose proof K as K'. apply (listdir_in f d l1 U1) in K. apply (listdir_in f d l0 U1) in L. rewrite K in L. injection L as ->.
             apply (listdir_in _ _ _ (U2 _ _ K')) in K2. rewrite K2 in L'. discriminate.
      + apply Nat.ltb_ge in C. split.
        * intros [= <- <-]. exists l0. split; [exact L|]. left. auto.
        * intros (l1 & K & [(X & -> & ->)|(X & _)]); apply (listdir_in f d l1 U1) in K; apply (listdir_in f d l0 U1) in L; rewrite K in L; injection L as ->; [reflexivity|lia].
    - split; [discriminate|]. intros (l1 & K & _). apply (listdir_in f d l1 U1) in K. rewrite K in L. discriminate.
  Qed.

  Lemma plug_unique f l0 l sub files : In (f, Dir l0) d -> (l = l0 \/ In (substring 0 2 f, Dir l) l0) -> unique l /\ (In (sub, Dir files) l -> unique files).
  Proof.
    intros K [->|K']; split.
    - exact (U2 _ _ K).
    - intros K2. exact (U3 _ _ _ _ K K2).
    - exact (U3 _ _ _ _ K K').
    - intros K2. exact (U4 _ _ _ _ _ _ K K' K2).
  Qed.

  Theorem readings s b m t v : convert_eco gone reactive nan day py_int d = (s, None) ->
    (In (t, v) (stored s b m) <-> sm_reading gone reactive nan day py_int d b m t v \/ plug_reading gone nan day py_int d b (m - 3) t v).
  Proof.
    intros C. destruct (convert_tab d s C) as [P TT]. change (stored s b m) with (tab s (b, m)). rewrite TT, in_flat_map. split.
    - intros (f & Hf & K). specialize (P f Hf). apply folders_in in Hf. destruct Hf as [[t0 Hf] NT]. unfold c_folder in K.
      destruct (skipped f) eqn:SK; [destruct K|]. destruct (P SK) as [[b0 HB] PK]. rewrite HB in K. destruct (folder_kind f) as [kd|] eqn:FK; [|destruct K].
      destruct (PK kd eq_refl) as (l & names & EP & PS). rewrite EP in K. apply in_flat_map in K. destruct K as (fl & Hfl & K).
      destruct (PS fl Hfl) as (files & LD & PF). unfold c_sub in K. rewrite LD in K.
      assert (CO : considered f) by (apply considered_skipped; auto). destruct kd.
      + left. apply kind_sm in FK. apply sm_parts in EP. destruct EP as [Hl ->]. apply in_flat_map in K. destruct K as (fi & Hfi & K).
        apply (listdir_in _ _ _ (U2 _ _ Hl)) in LD.
        apply (sm_rows_in _ _ _ _ _ _ (U3 _ _ _ _ Hl LD) (PF fi Hfi)) in K. destruct K as (p & line & lines & mid & i & Hp & [= -> ->] & F & D & N & -> & -> & G).
        apply csv_names_in in Hfi. exists f, l, fl, files, fi, line. split; [split; [exact Hl|]; auto|]. split; [exact LD|].
        split; [exists lines, mid, i; split; [split; [exact F|apply Hfi]|]; auto|]. split; [destruct Hp as [<-|[<-|[<-|[]]]]; lia|].
        rewrite Nat2Z.id. split; [exact G|reflexivity].
      + right. apply kind_plugs in FK. apply plug_parts in EP. destruct EP as (l0 & Hl0 & EP). destruct PF as [[n HN] PF]. rewrite HN in K.
        apply in_flat_map in K. destruct K as (fi & Hfi & K).
        assert (UU : l = l0 \/ In (substring 0 2 f, Dir l) l0) by (destruct EP as [(_ & -> & _)|(_ & K2 & _)]; auto).
        destruct (plug_unique f l0 l fl files Hl0 UU) as [Ul Uf]. apply (listdir_in _ _ _ Ul) in LD.
        apply (plug_rows_in _ _ _ _ _ _ _ (Uf LD) (PF fi Hfi)) in K. destruct K as (line & lines & mid & i & [= -> ->] & F & D & N & -> & -> & G).
        apply csv_names_in in Hfi. exists f, l, fl, files, fi, line. split.
        { split; [exact CO|]. split; [apply FK|]. split; [apply FK|]. split; [exact HB|]. exists l0. split; [exact Hl0|]. destruct EP as [(X & -> & _)|(X & K2 & _)]; auto. }
        split; [exact LD|]. split; [rewrite HN; f_equal; lia|]. split; [|split; [exact G|reflexivity]].
        exists lines, mid, i. split; [split; [exact F|apply Hfi]|]. rewrite <- colons_with. auto.
    - intros [(f & l & fl & files & fi & line & (Hl & CO & HS & HB) & LD & (lines & mid & i & (F & HC) & D & N & ->) & Hm & G & ->)|
              (f & l & fl & files & fi & line & (CO & NS & HS & HB & l0 & Hl0 & EP) & LD & HN & (lines & mid & i & (F & HC) & D & N & ->) & G & ->)].
      + assert (Hf : In f (folders d)) by (apply folders_in; split; [exists (Dir l); exact Hl|apply CO]).
        exists f. split; [exact Hf|]. specialize (P f Hf). apply considered_skipped in CO. unfold c_folder. destruct CO as [_ SK]. rewrite SK. destruct (P SK) as [_ PK].
        unfold of_building in HB. change (substring 0 2 f) with (first_two f) in HB. rewrite HB. apply kind_sm in HS. rewrite HS.
        destruct (PK Sm HS) as (l1 & names & EP & PS). rewrite EP. apply sm_parts in EP. destruct EP as [Hl1 ->].
        assert (l1 = l) as -> by (apply (listdir_in f d l1 U1) in Hl1; apply (listdir_in f d l U1) in Hl; rewrite Hl1 in Hl; congruence).
        apply in_flat_map. exists fl.
        assert (Hfl : In fl (sort_names (dirs l))) by (apply sort_in, dirs_in; exists files; exact LD). split; [exact Hfl|].
        destruct (PS fl Hfl) as (files1 & LD1 & PF). unfold c_sub. rewrite LD1. pose proof (proj2 (listdir_in fl l files (U2 _ _ Hl)) LD) as LD2. rewrite LD2 in LD1. injection LD1 as ->.
        apply in_flat_map. exists fi. assert (Hfi : In fi (csv_names files1)) by (apply csv_names_in; split; [exact HC|eexists; exact F]). split; [exact Hfi|].
        apply (sm_rows_in _ _ _ _ _ _ (U3 _ _ _ _ Hl LD) (PF fi Hfi)). exists (Z.to_nat m), line, lines, mid, i.
        split; [assert (m = 1 \/ m = 2 \/ m = 3)%Z as [->|[->| ->]] by lia; cbn; tauto|]. split; [f_equal; lia|]. split; [exact F|]. split; [exact D|]. split; [exact N|]. split; [reflexivity|]. split; [reflexivity|exact G].
      + assert (Hf : In f (folders d)) by (apply folders_in; split; [exists (Dir l0); exact Hl0|apply CO]).
        exists f. split; [exact Hf|]. specialize (P f Hf). apply considered_skipped in CO. unfold c_folder. destruct CO as [_ SK]. rewrite SK. destruct (P SK) as [_ PK].
        unfold of_building in HB. change (substring 0 2 f) with (first_two f) in HB. rewrite HB.
        pose proof (proj2 (kind_plugs f) (conj NS HS)) as FK. rewrite FK. destruct (PK Plugs FK) as (l1 & names & EP1 & PS). rewrite EP1.
        assert (X : exists ns, parts Plugs d f = Ok (l, ns) /\ forall x, In x ns <-> In x (dirs l)).
        { destruct EP as [(X & ->)|(X & K2)].
          - exists (sort_names (dirs l0)). split; [apply plug_parts; exists l0; split; [exact Hl0|left; auto]|apply sort_in].
          - exists (dirs l). split; [apply plug_parts; exists l0; split; [exact Hl0|right; auto]|reflexivity]. }
        destruct X as (ns & EX & IX). rewrite EX in EP1. injection EP1 as <- <-.
        assert (UU : l = l0 \/ In (substring 0 2 f, Dir l) l0) by (destruct EP as [(_ & ->)|(_ & K2)]; auto).
        destruct (plug_unique f l0 l fl files Hl0 UU) as [Ul Uf].
        apply in_flat_map. exists fl. assert (Hfl : In fl ns) by (apply IX, dirs_in; exists files; exact LD). split; [exact Hfl|].
        destruct (PS fl Hfl) as (files1 & LD1 & [_ PF]). unfold c_sub. rewrite LD1. pose proof (proj2 (listdir_in fl l files Ul) LD) as LD2. rewrite LD2 in LD1. injection LD1 as ->.
        rewrite HN. apply in_flat_map. exists fi. assert (Hfi : In fi (csv_names files1)) by (apply csv_names_in; split; [exact HC|eexists; exact F]). split; [exact Hfi|].
        apply (plug_rows_in _ _ _ _ _ _ _ (Uf LD) (PF fi Hfi)). exists line, lines, mid, i. split; [f_equal; lia|]. split; [exact F|]. split; [rewrite colons_with; exact D|]. auto.
  Qed.

End Proofs.
