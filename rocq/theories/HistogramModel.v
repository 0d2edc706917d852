(** Model of nilmtk/stats/histogram.py.

    Simplifications: values are rationals; rounding of [np.linspace] is not
    modelled; [np.histogram] is modelled from its documentation (half-open bins,
    last bin closed, NaN never counted); keyword arguments such as [weights] and
    [density] are not modelled; chunks are pandas Series, whose [min] and [max]
    skip NaN and are NaN when there is no value. *)
From Verif Require Import Base.
From Coq Require Import QArith Qround.
Open Scope nat_scope.

(** NaN is [None]. *)
Definition chunk := list (option Q).

(** [Series.min()] / [Series.max()]. *)
Definition opt_join (f : Q -> Q -> Q) (a b : option Q) : option Q :=
  match a, b with Some x, Some y => Some (f x y) | Some x, None => Some x | None, y => y end.
Definition qmin (x y : Q) : Q := if Qle_bool x y then x else y.
Definition qmax (x y : Q) : Q := if Qle_bool x y then y else x.
Definition series_min (c : chunk) : option Q := fold_right (opt_join qmin) None c.
Definition series_max (c : chunk) : option Q := fold_right (opt_join qmax) None c.

(** The [bins] argument: absent, a number of bins, or the array of edges. *)
Inductive bins_arg := NoBins | NBins (n : Z) | Edges (es : list Q).

(** The edges of [n] equal bins between [lo] and [hi] ([np.linspace]). *)
Definition linspace (lo hi : Q) (n : nat) : list Q :=
  map (fun i => (lo + inject_Z (Z.of_nat i) * ((hi - lo) / inject_Z (Z.of_nat n)))%Q) (seq 0 (S n)).

(** The values of the bins between consecutive edges; the last bin includes its
    upper edge. *)
Definition in_bin (a b : Q) (closed : bool) (v : option Q) : bool :=
  match v with
  | None => false
  | Some x => Qle_bool a x && (if closed then Qle_bool x b else negb (Qle_bool b x))
  end.
Fixpoint counts (es : list Q) (c : chunk) : list nat :=
  match es with
  | a :: (b :: rest) as tl =>
      length (filter (in_bin a b (match rest with [] => true | _ => false end)) c) :: counts tl c
  | _ => []
  end.

Fixpoint nondecreasing (es : list Q) : bool :=
  match es with a :: (b :: _) as tl => Qle_bool a b && nondecreasing tl | _ => true end.

(** [np.histogram(chunk, bins, range)]: counts and edges.  With an array of
    edges the range is ignored.  A NaN range, an inverted range,
    fewer than one bin and decreasing edges raise ValueError; with equal range
    ends the range is widened by 1/2 on both sides. *)
Definition np_histogram (c : chunk) (bins : bins_arg) (lo hi : option Q) : res (list nat * list Q) :=
  match bins, lo, hi with
  | Edges es, _, _ => if nondecreasing es then Ok (counts es c, es) else Err ValueError
  | NBins n, Some l, Some h =>
      if (n <? 1)%Z then Err ValueError
      else if negb (Qle_bool l h) then Err ValueError
      else let '(l, h) := if Qeq_bool l h then ((l - (1 # 2))%Q, (h + (1 # 2))%Q) else (l, h) in
           let es := linspace l h (Z.to_nat n) in Ok (counts es c, es)
  | _, _, _ => Err ValueError
  end.

(** [range]: absent or a pair whose elements may be [None] ... *)
Definition range_arg := option (option Q * option Q).

(** histogram.py:26-33: missing ends are taken from the chunk.  The ends can be
    NaN afterwards ([None] of [series_min]). *)
Definition fill_range (range : range_arg) (c : chunk) : option Q * option Q :=
  match range with
  | None => (series_min c, series_max c)
  | Some (l, h) => ((match l with Some x => Some x | None => series_min c end),
                    (match h with Some x => Some x | None => series_max c end))
  end.

(** [int(x)]: truncation. *)
Definition q_trunc (x : Q) : Z := Z.quot (Qnum x) (Zpos (Qden x)).

(** histogram.py:34-35; [int(nan)] raises ValueError. *)
Definition fill_bins (bins : bins_arg) (r : option Q * option Q) : res bins_arg :=
  match bins with
  | NoBins => match r with (Some l, Some h) => Ok (NBins (q_trunc (h - l))) | _ => Err ValueError end
  | b => Ok b
  end.

(** [histogram_cumulator += hist]; different shapes cannot be added. *)
Fixpoint add_counts (a b : list nat) : res (list nat) :=
  match a, b with
  | [], [] => Ok []
  | x :: a, y :: b => do r <- add_counts a b; Ok (x + y :: r)
  | _, _ => Err ValueError
  end.

(** histogram.py:24-42: the loop.  The range filled in from the first chunk and
    the edges it led to are kept for all later chunks.  A range end that is NaN
    ([None], like an end still missing) makes [np.histogram] raise unless the
    edges are given, in which case the range does not matter. *)
Fixpoint histogram_loop (chunks : list chunk) (bins : bins_arg) (range : range_arg) (cum : option (list nat))
  : res (option (list nat) * bins_arg) :=
  match chunks with
  | [] => Ok (cum, bins)
  | c :: rest =>
      let r := fill_range range c in
      do b <- fill_bins bins r;
      do (hist, es) <- np_histogram c b (fst r) (snd r);
      do cum' <- match cum with None => Ok hist | Some h => add_counts h hist end;
      histogram_loop rest (Edges es) (Some r) (Some cum')
  end.

(** histogram.py:5-42, [histogram_from_generator]. *)
Definition histogram_from_generator (chunks : list chunk) (bins : bins_arg) (range : range_arg)
  : res (option (list nat) * bins_arg) :=
  histogram_loop chunks bins range None.
