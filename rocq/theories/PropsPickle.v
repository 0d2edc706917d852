(** C100: a trained legacy disaggregator survives being exported and imported. *)
From Coq Require Import String Lia.
From Verif Require Import Base PickleModel PickleSpec PickleProofs PickleProofs2 PickleExample.
Import List. Open Scope list_scope. Open Scope nat_scope.

(** Two meters of one file, the second through a window of its own; a meter of a CSV folder. *)
Definition ex_heap : heap nat nat :=
  [mkObj 70 (Store (Hdf "redd.h5" 0)); mkObj 71 (Store (Hdf "redd.h5" 5)); mkObj 72 (Store (Csv "redd" 0)); mkObj 73 Absent].
Definition ex_co : co nat nat := mkCo [(11, 0); (12, 1)] 99 100.
Definition ex_objs : list (object nat nat) := [mkObj 70 (Store (Hdf "redd.h5" 0)); mkObj 71 (Store (Hdf "redd.h5" 5))].
Definition fresh : co nat nat := mkCo [] 0 0.
Definition anything (_ : string) : bool := true.

(** ** Exporting leaves what is exported as it was *)

(** CombinatorialOptimisation whose meters are distinct and on HDF files: whether or not writing
    fails the meters have their stores again, no other file changed, and it raises just when
    writing failed; when the file cannot be opened no file changed. *)
Theorem C100_co_unharmed : forall {Payload Window States Combos} (dumps : co_file Payload Window States Combos -> list nat) o h objs f l d,
  refers h (co_model o) objs -> Forall on_hdf objs -> NoDup (map snd (co_model o)) ->
  exists d' e, export_co dumps o h f l d = (h, d', e) /\ (forall g, g <> f -> get d' g = get d g) /\ (e = None <-> l = Fine) /\ (l = Refused -> d' = d).
Proof. exact @co_restored. Qed.
Print Assumptions C100_co_unharmed.

Example C100_ex_refers : refers ex_heap (co_model ex_co) ex_objs /\ Forall on_hdf ex_objs /\ NoDup (map snd (co_model ex_co)).
Proof.
  split; [repeat constructor|]. split; [repeat constructor; eexists _, _; reflexivity|].
  repeat (apply NoDup_cons; [cbn; intuition discriminate|]). apply NoDup_nil.
Qed.
Example C100_ex_stopped : fst (fst (export_co dump_co ex_co ex_heap "model" (Stopped 3) [])) = ex_heap /\ snd (export_co dump_co ex_co ex_heap "model" (Stopped 3) []) = Some GenericException.
Proof. split; reflexivity. Qed.

(** The same of FHMM, whose list of meters is there again as well. *)
Theorem C100_fhmm_unharmed : forall {Payload Window Hmm Combined} (dumps : fhmm_file Payload Window Hmm Combined -> list nat) c individual meters h objs f l d,
  refers h individual objs -> Forall on_hdf objs -> NoDup (map snd individual) ->
  exists d' e, export_fhmm dumps (mkFhmm c (Some (individual, meters))) h f l d = (mkFhmm c (Some (individual, meters)), h, d', e)
    /\ (forall g, g <> f -> get d' g = get d g) /\ (e = None <-> l = Fine) /\ (l = Refused -> d' = d).
Proof. exact @fhmm_restored. Qed.
Print Assumptions C100_fhmm_unharmed.

Example C100_ex_fhmm_stopped :
  let o := mkFhmm 5 (Some ([(11, 0); (12, 1)], Some [0; 1])) in
  fst (fst (export_fhmm dump_fhmm o ex_heap "model" (Stopped 3) [])) = (o, ex_heap) /\ snd (export_fhmm dump_fhmm o ex_heap "model" Refused []) = Some GenericException.
Proof. split; reflexivity. Qed.

(** ** What was exported is imported *)

(** The states in their order, the combinations and the least length; the meters are new objects,
    the same but for their stores, which are of the same files with no window. *)
Theorem C100_co_kept_partial : forall {Payload Window} (unbounded : Window) can_open {States Combos} (dumps : co_file Payload Window States Combos -> list nat) loads o o2 h h2 objs f d d2,
  pickles dumps loads -> refers h (co_model o) objs -> Forall (reopens can_open) objs -> NoDup (map snd (co_model o)) ->
  get d2 f = get (snd (fst (export_co dumps o h f Fine d))) f ->
  exists o2' news, import_co unbounded can_open loads o2 h2 f d2 = (o2', h2 ++ news, None)
    /\ map fst (co_model o2') = map fst (co_model o) /\ co_combos o2' = co_combos o /\ co_min o2' = co_min o
    /\ refers (h2 ++ news) (co_model o2') news /\ Forall2 (same_file unbounded) objs news.
Proof. exact @co_kept. Qed.
Print Assumptions C100_co_kept_partial.

Example C100_ex_kept :
  pickles dump_co load_co /\ Forall (reopens anything) ex_objs
  /\ import_co 0 anything load_co fresh [] "model" (snd (fst (export_co dump_co ex_co ex_heap "model" Fine [])))
     = (mkCo [(11, 0); (12, 1)] 99 100, [mkObj 70 (Store (Hdf "redd.h5" 0)); mkObj 71 (Store (Hdf "redd.h5" 0))], None).
Proof.
  split; [exact pickles_co|]. split; [repeat constructor; eexists _, _; split; reflexivity|]. vm_compute. reflexivity.
Qed.

(** The learnt models in their order and the combined one; the list of meters is that of the meters
    they belong to. *)
Theorem C100_fhmm_kept_partial : forall {Payload Window} (unbounded : Window) can_open {Hmm Combined} (dumps : fhmm_file Payload Window Hmm Combined -> list nat) loads
    c individual meters o2 h h2 objs f d d2,
  pickles dumps loads -> refers h individual objs -> Forall (reopens can_open) objs -> NoDup (map snd individual) ->
  get d2 f = get (snd (fst (export_fhmm dumps (mkFhmm c (Some (individual, meters))) h f Fine d))) f ->
  exists individual2 news, import_fhmm unbounded can_open loads o2 h2 f d2 = (mkFhmm c (Some (individual2, Some (map snd individual2))), h2 ++ news, None)
    /\ map fst individual2 = map fst individual
    /\ refers (h2 ++ news) individual2 news /\ Forall2 (same_file unbounded) objs news.
Proof. exact @fhmm_kept. Qed.
Print Assumptions C100_fhmm_kept_partial.

Example C100_ex_fhmm_kept :
  let o := mkFhmm 5 (Some ([(11, 1); (12, 0)], Some [1; 0])) in
  pickles dump_fhmm load_fhmm
  /\ import_fhmm 0 anything load_fhmm (mkFhmm 0 None) ex_heap "model" (snd (fst (export_fhmm dump_fhmm o ex_heap "model" Fine [])))
     = (mkFhmm 5 (Some ([(11, 4); (12, 5)], Some [4; 5])), ex_heap ++ [mkObj 71 (Store (Hdf "redd.h5" 0)); mkObj 70 (Store (Hdf "redd.h5" 0))], None).
Proof. split; [exact pickles_fhmm|]. vm_compute. reflexivity. Qed.

(** Hart85 that was trained: the model and each of its six parts; other attributes stay. *)
Theorem C100_hart_kept : forall {Value} (dumps : hart_dict Value -> list nat) loads o o2 f d d2,
  pickles dumps loads -> (forall k, In k hart_parts -> value_of (ha_model o) k <> None) ->
  get d2 f = get (fst (export_hart dumps o f Fine d)) f ->
  exists attrs, import_hart loads o2 f d2 = (mkHart (ha_model o) attrs, None)
    /\ (forall k, In k hart_parts -> value_of attrs k = value_of (ha_model o) k) /\ (forall k, ~ In k hart_parts -> value_of attrs k = value_of (ha_attrs o2) k).
Proof. exact @hart_kept. Qed.
Print Assumptions C100_hart_kept.

Example C100_ex_hart :
  let m := combine hart_parts [1; 2; 3; 4; 5; 6] in
  pickles dump_hart load_hart /\ (forall k, In k hart_parts -> value_of m k <> None)
  /\ snd (import_hart load_hart (mkHart [] [("pair_df", 9)]%string) "m" (fst (export_hart dump_hart (mkHart m []) "m" Fine []))) = None.
Proof.
  split; [exact pickles_hart|]. split; [|vm_compute; reflexivity].
  cbn. intuition (subst; discriminate).
Qed.

(** ** What is lost *)

(** A meter read through a window is imported with a store that has another, so that training or
    disaggregating again reads data that were shut out. *)
Theorem C100_window_refuted : forall {Payload Window} (unbounded : Window) can_open {States Combos} (dumps : co_file Payload Window States Combos -> list nat) loads o o2 h h2 objs i x g w f d d2,
  pickles dumps loads -> refers h (co_model o) objs -> Forall (reopens can_open) objs -> NoDup (map snd (co_model o)) ->
  nth_error objs i = Some x -> o_store x = Store (Hdf g w) -> w <> unbounded ->
  get d2 f = get (snd (fst (export_co dumps o h f Fine d))) f ->
  exists o2' h2' m n, import_co unbounded can_open loads o2 h2 f d2 = (o2', h2', None)
    /\ nth_error (co_model o2') i = Some m /\ nth_error h2' (snd m) = Some n /\ o_store n <> o_store x.
Proof. exact @co_window. Qed.
Print Assumptions C100_window_refuted.

Example C100_ex_window : nth_error ex_objs 1 = Some (mkObj 71 (Store (Hdf "redd.h5" 5))) /\ 5 <> 0.
Proof. split; [reflexivity|discriminate]. Qed.

(** An export that ends early, over a file that may have held an earlier export, leaves a file that
    cannot be imported. *)
Theorem C100_truncated_refuted : forall {Payload Window} (unbounded : Window) can_open {States Combos} (dumps : co_file Payload Window States Combos -> list nat) loads o o2 h h2 objs f n d b,
  pickles dumps loads -> refers h (co_model o) objs -> Forall on_hdf objs -> NoDup (map snd (co_model o)) ->
  get (snd (fst (export_co dumps o h f Fine d))) f = Some b -> n < length b ->
  import_co unbounded can_open loads o2 h2 f (snd (fst (export_co dumps o h f (Stopped n) d))) = (o2, h2, Some GenericException).
Proof. exact @co_stopped. Qed.
Print Assumptions C100_truncated_refuted.

Example C100_ex_truncated :
  let d := snd (fst (export_co dump_co ex_co ex_heap "model" Fine [])) in
  snd (import_co 0 anything load_co fresh [] "model" d) = None
  /\ snd (import_co 0 anything load_co fresh [] "model" (snd (fst (export_co dump_co ex_co ex_heap "model" (Stopped 3) d)))) = Some GenericException.
Proof. split; vm_compute; reflexivity. Qed.

(** With a meter that is not on an HDF file (of a CSV folder, or a group of meters) exporting raises,
    writes nothing, and takes the stores from the meters before it; from then on exporting raises
    whatever is done about that meter. *)
Theorem C100_other_store_refuted : forall {Payload Window States Combos} (dumps : co_file Payload Window States Combos -> list nat) o h pre m post objs f l d,
  co_model o = pre ++ m :: post -> refers h pre objs -> Forall on_hdf objs -> NoDup (map snd pre) ->
  (forall x, nth_error h (snd m) = Some x -> ~ on_hdf x) ->
  exists h' news, export_co dumps o h f l d = (h', d, Some AttributeError)
    /\ refers h' pre news /\ Forall2 only_name objs news /\ (forall q, ~ In q (map snd pre) -> nth_error h' q = nth_error h q)
    /\ (pre <> [] -> forall f' l' d', export_co dumps o h' f' l' d' = (h', d', Some AttributeError)).
Proof. exact @co_failed. Qed.
Print Assumptions C100_other_store_refuted.

Example C100_ex_other_store :
  export_co dump_co (mkCo [(11, 0); (12, 2); (13, 1)] 99 100) ex_heap "model" Fine []
  = (mkObj 70 (Path "redd.h5") :: tl ex_heap, [], Some AttributeError)
  /\ (forall x, nth_error ex_heap 2 = Some x -> ~ on_hdf x).
Proof. split; [reflexivity|]. intros x [= <-] (f & w & B). discriminate B. Qed.

(** … and FHMM is left without its list of meters, too: always so after training across buildings,
    where names of appliances take the places of meters. *)
Theorem C100_fhmm_other_store_refuted : forall {Payload Window Hmm Combined} (dumps : fhmm_file Payload Window Hmm Combined -> list nat) c individual meters h pre m post objs f l d,
  individual = pre ++ m :: post -> refers h pre objs -> Forall on_hdf objs -> NoDup (map snd pre) ->
  (forall x, nth_error h (snd m) = Some x -> ~ on_hdf x) ->
  exists h' news, export_fhmm dumps (mkFhmm c (Some (individual, meters))) h f l d = (mkFhmm c (Some (individual, None)), h', d, Some AttributeError)
    /\ refers h' pre news /\ Forall2 only_name objs news /\ (forall q, ~ In q (map snd pre) -> nth_error h' q = nth_error h q).
Proof. exact @fhmm_failed. Qed.
Print Assumptions C100_fhmm_other_store_refuted.

Example C100_ex_names :
  export_fhmm dump_fhmm (mkFhmm 5 (Some ([(11, 3)], Some [0]))) ex_heap "model" Fine [] = (mkFhmm 5 (Some ([(11, 3)], None)), ex_heap, [], Some AttributeError).
Proof. reflexivity. Qed.

(** When the file of a meter cannot be opened importing raises, and leaves the imported states with
    the combinations and the least length there were before; from that meter on the meters have
    file names for stores. *)
Theorem C100_not_opened_refuted : forall {Payload Window} (unbounded : Window) can_open {States Combos} (dumps : co_file Payload Window States Combos -> list nat) loads o o2 h h2 pre x g w post f d d2,
  pickles dumps loads -> refers h (co_model o) (pre ++ x :: post) -> Forall (reopens can_open) pre -> o_store x = Store (Hdf g w) -> can_open g = false ->
  Forall on_hdf post -> NoDup (map snd (co_model o)) ->
  get d2 f = get (snd (fst (export_co dumps o h f Fine d))) f ->
  exists o2' news1 news2, import_co unbounded can_open loads o2 h2 f d2 = (o2', h2 ++ news1 ++ news2, Some GenericException)
    /\ map fst (co_model o2') = map fst (co_model o) /\ co_combos o2' = co_combos o2 /\ co_min o2' = co_min o2
    /\ refers (h2 ++ news1 ++ news2) (co_model o2') (news1 ++ news2) /\ Forall2 (same_file unbounded) pre news1 /\ Forall2 only_name (x :: post) news2.
Proof. exact @co_not_opened. Qed.
Print Assumptions C100_not_opened_refuted.

Example C100_ex_not_opened :
  import_co 0 (fun _ => false) load_co (mkCo [] 7 8) [] "model" (snd (fst (export_co dump_co ex_co ex_heap "model" Fine [])))
  = (mkCo [(11, 0); (12, 1)] 7 8, [mkObj 70 (Path "redd.h5"); mkObj 71 (Path "redd.h5")], Some GenericException).
Proof. vm_compute. reflexivity. Qed.

(** Hart85 that was not trained is exported without a word; importing that raises, and takes the
    model from an object that had one, whose parts stay. *)
Theorem C100_untrained_refuted : forall {Value} (dumps : hart_dict Value -> list nat) loads o o2 f d d2,
  pickles dumps loads -> ha_model o = [] -> get d2 f = get (fst (export_hart dumps o f Fine d)) f ->
  snd (export_hart dumps o f Fine d) = None /\ import_hart loads o2 f d2 = (mkHart [] (ha_attrs o2), Some KeyError).
Proof. exact @hart_untrained. Qed.
Print Assumptions C100_untrained_refuted.

Example C100_ex_untrained :
  let m := combine hart_parts [1; 2; 3; 4; 5; 6] in
  import_hart load_hart (mkHart m m) "m" (fst (export_hart dump_hart (mkHart [] []) "m" Fine [])) = (mkHart [] m, Some KeyError).
Proof. vm_compute. reflexivity. Qed.
