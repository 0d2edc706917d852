(** Vocabulary for importing the ECO data set. *)
From Coq Require Import String Ascii.
From Verif Require Import Base EcoModel.
Import List. Open Scope list_scope. Open Scope nat_scope.

Section Spec.
  Context {V : Type}.
  Variable gone : V -> bool.
  Variable reactive : V -> V -> V.
  Variable nan : V.
  Variable day : string -> option Z.
  Variable py_int : string -> option Z.
  Variable d : listing V.

  (** [sub] occurs in [s]. *)
  Definition has (sub s : string) : Prop := exists p, substring p (String.length sub) s = sub.

  (** No directory has two entries of one name. *)
  Definition unique (l : listing V) : Prop := NoDup (map fst l).
  Definition well_named : Prop :=
    unique d /\ forall n l, In (n, Dir l) d -> unique l /\ forall n' l', In (n', Dir l') l -> unique l' /\ forall n'' l'', In (n'', Dir l'') l' -> unique l''.

  (** A folder that is not skipped because of its name. *)
  Definition considered (f : string) : Prop :=
    ~ has ".txt" f /\ substring 0 1 f <> "."%string /\ substring (String.length f - 3) 3 f <> ".h5"%string.
  Definition of_building (f : string) (b : Z) : Prop := py_int (substring 0 2 f) = Some b.
  Definition n_dirs (l : listing V) : nat := List.length (filter (fun e => match snd e with Dir _ => true | File _ => false end) l).

  (** [l] has the subfolders with the readings of the smart meter, of the
      plugs, of building [b]. *)
  Definition sm_folder (b : Z) (f : string) (l : listing V) : Prop :=
    In (f, Dir l) d /\ considered f /\ has "sm_csv" f /\ of_building f b.
  Definition plug_folder (b : Z) (f : string) (l : listing V) : Prop :=
    considered f /\ ~ has "sm_csv" f /\ has "plugs" f /\ of_building f b /\
    exists l0, In (f, Dir l0) d /\ (3 <= n_dirs l0 /\ l = l0 \/ n_dirs l0 < 3 /\ In (substring 0 2 f, Dir l) l0).

  (** The file of a day, without and with its date. *)
  Definition day_file (files : listing V) (fi : string) (lines : list (list V)) : Prop :=
    In (fi, File (Ok lines)) files /\ has ".csv" fi.
  Definition date (fi : string) : string := substring 0 (String.length fi - 4) fi.
  (** Full stops written as colons. *)
  Fixpoint with_colons (s : string) : string :=
    match s with
    | EmptyString => EmptyString
    | String c r => String (if Ascii.eqb c "."%char then ":"%char else c) (with_colons r)
    end.

  Definition cell (i : nat) (line : list V) : V := nth (i - 1) line nan.

  (** The file [fi] in [files] has a line for the time [t]. *)
  Definition line_at (start : string -> string) (files : listing V) (fi : string) (t : Z) (line : list V) : Prop :=
    exists lines midnight i, day_file files fi lines /\ day (start (date fi)) = Some midnight /\
      nth_error lines i = Some line /\ t = (midnight + Z.of_nat i)%Z.

  (** Phase [m] of the smart meter of building [b] was read at [t]. *)
  Definition sm_reading (b m t : Z) (v : list V) : Prop :=
    exists f l sub files fi line, sm_folder b f l /\ In (sub, Dir files) l /\ line_at (fun s => s) files fi t line /\
      (1 <= m <= 3)%Z /\ let n := Z.to_nat m in
      let p := cell (1 + n) line in let a := cell (13 + n) line in
      gone p = false /\ v = [p; cell (5 + n) line; cell (8 + n) line; a; reactive p a].
  (** Plug [n] of building [b] was read at [t]. *)
  Definition plug_reading (b n t : Z) (v : list V) : Prop :=
    exists f l sub files fi line, plug_folder b f l /\ In (sub, Dir files) l /\ py_int sub = Some n /\ line_at with_colons files fi t line /\
      gone (cell 1 line) = false /\ v = [cell 1 line].

  (** The rows of a table. *)
  Definition stored (s : store V) (b m : Z) : list (Z * list V) := match get s (b, m) with None => [] | Some (_, r) => r end.

  (** A directory of days as it should be. *)
  Definition good_days (start : string -> string) (files : listing V) : Prop :=
    forall fi t, In (fi, t) files -> has ".csv" fi -> exists lines, t = File (Ok lines) /\ Z.of_nat (List.length lines) = 86400%Z /\ day (start (date fi)) <> None.
  (** A data set as it should be. *)
  Record good : Prop := {
    g_names : well_named;
    g_number : forall f t, In (f, t) d -> considered f -> exists b, of_building f b /\ (has "sm_csv" f \/ has "plugs" f -> (1 <= b)%Z /\ exists l, t = Dir l);
    g_sm : forall b f l sub files, sm_folder b f l -> In (sub, Dir files) l -> good_days (fun s => s) files;
    g_nested : forall f l, In (f, Dir l) d -> considered f -> ~ has "sm_csv" f -> has "plugs" f -> n_dirs l < 3 -> exists l', In (substring 0 2 f, Dir l') l;
    g_plugs : forall b f l sub files, plug_folder b f l -> In (sub, Dir files) l ->
      (exists n, py_int sub = Some n /\ (1 <= n)%Z) /\ good_days with_colons files /\ exists fi t, In (fi, t) files /\ has ".csv" fi;
    g_some_sm : exists b f l sub files fi t, sm_folder b f l /\ In (sub, Dir files) l /\ In (fi, t) files /\ has ".csv" fi;
    g_some_plug : exists b f l sub files fi t, plug_folder b f l /\ In (sub, Dir files) l /\ In (fi, t) files /\ has ".csv" fi
  }.

  (** The days of a directory come in the order of their names. *)
  Definition in_order (start : string -> string) (files : listing V) : Prop :=
    forall fi fj x y, In fi (map fst files) -> In fj (map fst files) -> has ".csv" fi -> has ".csv" fj -> String.leb fi fj = true -> fi <> fj ->
      day (start (date fi)) = Some x -> day (start (date fj)) = Some y -> (x + 86400 <= y)%Z.

  (** Each smart meter and each plug has one directory, with the days in order. *)
  Definition one_each : Prop :=
    (forall b f l sub files f' l' sub' files', sm_folder b f l -> In (sub, Dir files) l -> sm_folder b f' l' -> In (sub', Dir files') l' ->
       f = f' /\ sub = sub' /\ in_order (fun s => s) files) /\
    (forall b n f l sub files f' l' sub' files', plug_folder b f l -> In (sub, Dir files) l -> py_int sub = Some n ->
       plug_folder b f' l' -> In (sub', Dir files') l' -> py_int sub' = Some n ->
       f = f' /\ sub = sub' /\ in_order with_colons files) /\
    (* the numbers of plugs and of phases do not meet *)
    (forall b f l sub files n, plug_folder b f l -> In (sub, Dir files) l -> py_int sub = Some n -> (1 <= n)%Z).
End Spec.
