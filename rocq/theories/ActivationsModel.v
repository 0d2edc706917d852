(** Model of [get_activations] (nilmtk/electric.py:899-981).

    A power series is a list of (timestamp in seconds, optional power); NaN is
    [None].  [border] is a number of rows (not negative).  Positions are natural
    numbers, as returned by [np.where]. *)
From Verif Require Import Base.
Open Scope nat_scope.

Definition sample := (Z * option Z)%type.

(** electric.py:926: [chunk >= on_power_threshold]; NaN is never on. *)
Definition is_on (threshold : Z) (s : sample) : bool :=
  match snd s with Some v => (threshold <=? v)%Z | None => false end.
Definition when_on (threshold : Z) (chunk : list sample) : list bool := map (is_on threshold) chunk.

(** electric.py:929-932: positions [i >= 1] where the state changes to [target]
    ([diff] is NaN at position 0, so there is no event there). *)
Fixpoint switches (target : bool) (i : nat) (flags : list bool) : list nat :=
  match flags with
  | a :: (b :: _) as tl => (if Bool.eqb a (negb target) && Bool.eqb b target then [S i] else []) ++ switches target (S i) tl
  | _ => []
  end.
Definition switch_on_events (flags : list bool) : list nat := switches true 0 flags.
Definition switch_off_events (flags : list bool) : list nat := switches false 0 flags.

(** electric.py:935-948: events without partner are removed; [None] stands for
    the three places that return the empty list. *)
Definition align (ons offs : list nat) : option (list nat * list nat) :=
  match ons, offs with
  | on0 :: _, off0 :: offs' =>
      let offs := if off0 <? on0 then offs' else offs in
      match last_opt ons, last_opt offs with
      | Some lon, Some loff =>
          let ons := if loff <? lon then removelast ons else ons in
          match ons with [] => None | _ => Some (ons, offs) end
      | _, _ => None
      end
  | _, _ => None
  end.

(** [array[i]] *)
Definition at_ {A} (l : list A) (i : nat) : res A :=
  match nth_error l i with Some x => Ok x | None => Err IndexError end.
Definition time_at (chunk : list sample) (i : nat) : res Z := do s <- at_ chunk i; Ok (fst s).

(** [np.where(cond)[0]] *)
Fixpoint where_from (i : nat) (cond : list bool) : list nat :=
  match cond with
  | [] => []
  | c :: r => (if c then [i] else []) ++ where_from (S i) r
  end.

(** electric.py:951-968: off periods shorter than [min_off] are bridged. *)
Definition smooth (chunk : list sample) (min_off : Z) (ons offs : list nat) : res (list nat * list nat) :=
  if (0 <? min_off)%Z then
    do t_on <- mapM (time_at chunk) (tl ons);
    do t_off <- mapM (time_at chunk) (removelast offs);
    let off_durations := map (fun p => (fst p - snd p)%Z) (combine t_on t_off) in
    let above := where_from 0 (map (fun d => (min_off <=? d)%Z) off_durations) in
    do offs' <- mapM (at_ offs) (above ++ [length offs - 1]);
    do ons' <- mapM (at_ ons) (0 :: map S above);
    Ok (ons', offs')
  else Ok (ons, offs).

(** [chunk.iloc[on:off]] *)
Definition iloc (chunk : list sample) (on off : nat) : list sample := firstn (off - on) (skipn on chunk).

(** [activation.isnull()] *)
Definition missing (s : sample) : bool := match snd s with None => true | Some _ => false end.

(** electric.py:971-985: one pair of events; [on - (1 + border)] is set to 0 if
    negative, as natural subtraction does. *)
Definition activation (chunk : list sample) (min_on : Z) (border : nat) (p : nat * nat) : res (list (list sample)) :=
  let '(on, off) := p in
  do t_off <- time_at chunk off;
  do t_on <- time_at chunk on;
  if (t_off - t_on <? min_on)%Z then Ok []
  else
    let a := iloc chunk (on - (1 + border)) (off + border) in
    if existsb missing a then Ok [] else Ok [a].

(** electric.py:899-987, [get_activations]. *)
Definition get_activations (chunk : list sample) (min_off min_on : Z) (border : nat) (threshold : Z) : res (list (list sample)) :=
  let flags := when_on threshold chunk in
  match align (switch_on_events flags) (switch_off_events flags) with
  | None => Ok []
  | Some (ons, offs) =>
      if negb (length ons =? length offs) then Err AssertionError
      else
        do (ons, offs) <- smooth chunk min_off ons offs;
        if negb (length ons =? length offs) then Err AssertionError
        else do l <- mapM (activation chunk min_on border) (combine ons offs); Ok (concat l)
  end.
