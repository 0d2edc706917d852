(** Model of loading a meter's data through preprocessing nodes: the objects a caller
    can share between several loads (the list of nodes, the dictionary of resampling
    options, the nodes), and the laziness of generators (nilmtk/elecmeter.py,
    nilmtk/electric.py, nilmtk/node.py, nilmtk/preprocessing).

    Simplifications:
    - a chunk is of any type [C]; what a user's node does to a chunk is a function
      [user k], resampling is [resample period limit], the sum over the AC types in
      [load_series] is [series];
    - of the resampling options only 'limit' is kept; 'how' and 'fill_method' get the
      same defaults at every call, and 'rule' is set just before it is used;
    - the chunks a store delivers are given with the load (for changing windows see C68);
    - the requirements of the nodes are met (C24). *)
From Verif Require Import Base.
Import List. Open Scope Z_scope.

(** What a node does: a node of the user, or [Apply(func=resample_func)] with its sample
    period and the dictionary it closes over (electric.py:141-146). *)
Inductive nfun := User (k : nat) | Resample (period : Z) (opts : nat).
(** The attribute [upstream] of a node: another node or the source node of a load. *)
Inductive ref := RNode (n : nat) | RSource (s : nat).

Section Prep.
Context {C : Type}.

(** The arguments of one call of [load] or [power_series]: 'preprocessing' (a list
    object), 'sample_period', 'resample', 'resample_kwargs' (a dictionary object); the
    meter's own sample period and its device's max_sample_period; and what asking the
    store for the columns gives. *)
Record args := mkArgs { a_prep : option nat; a_period : option Z; a_resample : option bool; a_opts : option nat;
  a_default : Z; a_max : Z; a_src : res (list C) }.

(** A generator: not started, with the last node; running, with the nodes and the source
    it is bound to ([load_series] if [series]); [load_series] not started; finished. *)
Inductive gst := GWait (n : nat) (series : bool) | GRun (fs : list nfun) (series : bool) (s : nat) | GLazy (a : args) | GDone.

Record state := mkState { lists : list (list nat); dicts : list (option Z); nodes : list (option ref * nfun);
  sources : list (list C); gens : list gst }.

Fixpoint set_nth {A} (l : list A) (i : nat) (v : A) : list A :=
  match l, i with [], _ => [] | _ :: r, O => v :: r | x :: r, S i => x :: set_nth r i v end.

(** elecmeter.py:418-419 and electric.py:131-135: whether the data are resampled, and
    the period. *)
Definition resampling (a : args) : bool :=
  match a_resample a with Some b => b | None => match a_period a with Some _ => true | None => false end end.
Definition period (a : args) : Z := match a_period a with Some p => p | None => a_default a end.
(** elecmeter.py:435-436. *)
Definition ceil_div (m p : Z) : Z := - ((- m) / p).

(** elecmeter.py:421-437: the dictionary, the caller's or a new one, gets a 'limit' if it
    has none. *)
Definition prepare_opts (st : state) (a : args) : res (state * nat) :=
  let '(ds, d) := match a_opts a with Some d => (dicts st, d) | None => (dicts st ++ [None], length (dicts st)) end in
  match nth_error ds d with
  | None => Err NameError
  | Some (Some _) => Ok (mkState (lists st) ds (nodes st) (sources st) (gens st), d)
  | Some None => if period a =? 0 then Err ZeroDivisionError
                 else Ok (mkState (lists st) (set_nth ds d (Some (ceil_div (a_max a) (period a)))) (nodes st) (sources st) (gens st), d)
  end.

(** electric.py:137-146: a new [Apply] is appended to the list, the caller's or a new one. *)
Definition append_apply (st : state) (a : args) (d : nat) : res (state * nat) :=
  let '(ls, l) := match a_prep a with Some l => (lists st, l) | None => (lists st ++ [[]], length (lists st)) end in
  match nth_error ls l with
  | None => Err NameError
  | Some ns => Ok (mkState (set_nth ls l (ns ++ [length (nodes st)])) (dicts st) (nodes st ++ [(None, Resample (period a) d)])
                           (sources st) (gens st), l)
  end.

(** elecmeter.py:455-457: each node gets the one before it as upstream. *)
Fixpoint connect (nds : list (option ref * nfun)) (last : ref) (ns : list nat) : res (list (option ref * nfun) * ref) :=
  match ns with
  | [] => Ok (nds, last)
  | n :: r => match nth_error nds n with
              | None => Err NameError
              | Some (_, f) => connect (set_nth nds n (Some last, f)) (RNode n) r
              end
  end.

(** elecmeter.py:449-460 and 571-579: the source node is made and the nodes of the list
    [ns] are connected; the result is the generator. *)
Definition connect_source (st : state) (ns : list nat) (src : res (list C)) : state * res gst :=
  match src with
  | Err e => (st, Err e)
  | Ok cs =>
      let s := length (sources st) in
      match connect (nodes st) (RSource s) ns with
      | Err e => (st, Err e)
      | Ok (nds, last) =>
          (mkState (lists st) (dicts st) nds (sources st ++ [cs]) (gens st),
           Ok (match last with RSource s => GRun [] false s | RNode n => GWait n false end))
      end
  end.

(** elecmeter.py:418-460, [ElecMeter.load]. *)
Definition load (st : state) (a : args) : state * res gst :=
  if resampling a then
    match prepare_opts st a with
    | Err e => (st, Err e)
    | Ok (st1, d) =>
        match append_apply st1 a d with
        | Err e => (st1, Err e)
        | Ok (st2, l) => match nth_error (lists st2) l with
                         | None => (st2, Err NameError)
                         | Some ns => connect_source st2 ns (a_src a)
                         end
        end
    end
  else
    match a_prep a with
    | None => connect_source st [] (a_src a)
    | Some l => match nth_error (lists st) l with
                | None => (st, Err NameError)
                | Some ns => connect_source st ns (a_src a)
                end
    end.

(** node.py:38-39, apply.py:11-19, clip.py:26-43: when the first chunk is asked for, each
    node asks its upstream of that moment, down to the source.  More steps than there
    are nodes: a circle, which ends in RecursionError, a RuntimeError. *)
Fixpoint chain (fuel : nat) (nds : list (option ref * nfun)) (r : ref) : res (list nfun * nat) :=
  match r with
  | RSource s => Ok ([], s)
  | RNode n =>
      match fuel with
      | O => Err RuntimeError
      | S fuel =>
          match nth_error nds n with
          | None => Err NameError
          | Some (None, _) => Err AttributeError
          | Some (Some up, f) => do p <- chain fuel nds up; Ok (fst p ++ [f], snd p)
          end
      end
  end.

Section Functions.
Variable user : nat -> C -> C.
Variable resample : Z -> Z -> C -> C.
Variable series : C -> C.

(** What one node makes of a chunk; the options are read when the chunk is processed
    (electric.py:141-143). *)
Definition apply_node (ds : list (option Z)) (c : res C) (f : nfun) : res C :=
  do c <- c;
  match f with
  | User k => Ok (user k c)
  | Resample p d => match nth_error ds d with Some (Some l) => Ok (resample p l c) | _ => Err KeyError end
  end.
Definition apply_nodes (ds : list (option Z)) (fs : list nfun) (c : C) : res C := fold_left (apply_node ds) fs (Ok c).

Definition set_gen (st : state) (g : nat) (x : gst) : state :=
  mkState (lists st) (dicts st) (nodes st) (sources st) (set_nth (gens st) g x).

(** The next chunk of a running generator. *)
Definition advance (st : state) (g : nat) (fs : list nfun) (ser : bool) (s : nat) : state * res C :=
  match nth_error (sources st) s with
  | None => (st, Err NameError)
  | Some [] => (set_gen st g GDone, Err StopIteration)
  | Some (c :: r) =>
      let st' := mkState (lists st) (dicts st) (nodes st) (set_nth (sources st) s r) (gens st) in
      match apply_nodes (dicts st) fs c with
      | Err e => (set_gen st' g GDone, Err e)
      | Ok c' => (set_gen st' g (GRun fs ser s), Ok (if ser then series c' else c'))
      end
  end.

(** The first chunk of a generator: its nodes and source are found now. *)
Definition start (st : state) (g : nat) (x : gst) (ser : bool) : state * res C :=
  match x with
  | GRun fs _ s => advance st g fs ser s
  | GWait n _ =>
      match chain (S (length (nodes st))) (nodes st) (RNode n) with
      | Err e => (set_gen st g GDone, Err e)
      | Ok (fs, s) => advance st g fs ser s
      end
  | _ => (set_gen st g GDone, Err StopIteration)
  end.

(** [next] on a generator; electric.py:622-634, [load_series], calls [load] at the first
    [next] only. *)
Definition pull (st : state) (g : nat) : state * res C :=
  match nth_error (gens st) g with
  | None => (st, Err NameError)
  | Some GDone => (st, Err StopIteration)
  | Some (GRun fs ser s) => advance st g fs ser s
  | Some (GWait n ser) => start st g (GWait n ser) ser
  | Some (GLazy a) =>
      match load st a with
      | (st', Err e) => (set_gen st' g GDone, Err e)
      | (st', Ok x) => start st' g x true
      end
  end.

(** A program: load, power_series (electric.py:637-653), next.  A call that makes a generator returns its
    number. *)
Inductive op := Load (a : args) | Series (a : args) | Pull (g : nat).
Inductive answer := Made (g : nat) | Got (c : C) | Raised (e : exn).

Definition step (st : state) (o : op) : state * answer :=
  match o with
  | Load a => match load st a with
              | (st', Ok x) => (mkState (lists st') (dicts st') (nodes st') (sources st') (gens st' ++ [x]), Made (length (gens st')))
              | (st', Err e) => (st', Raised e)
              end
  | Series a => (mkState (lists st) (dicts st) (nodes st) (sources st) (gens st ++ [GLazy a]), Made (length (gens st)))
  | Pull g => match pull st g with (st', Ok c) => (st', Got c) | (st', Err e) => (st', Raised e) end
  end.
Fixpoint run (st : state) (ops : list op) : state * list answer :=
  match ops with
  | [] => (st, [])
  | o :: r => let '(st1, x) := step st o in let '(st2, xs) := run st1 r in (st2, x :: xs)
  end.
End Functions.
End Prep.
Arguments args C : clear implicits.
Arguments gst C : clear implicits.
Arguments state C : clear implicits.
Arguments op C : clear implicits.
Arguments answer C : clear implicits.
