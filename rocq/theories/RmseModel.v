(** Model of the root mean square errors of a disaggregation
    (nilmtk/utils.py:388-457, [compute_rmse]), with the text of a meter
    (nilmtk/elecmeter.py:288-306, nilmtk/hashable.py:18-21).

    Simplifications:
    - a DataFrame is its index and its columns, which are as long as the index; a column is named by
      a meter or by a string, which has no method [label];
    - readings are rationals, [None] is NaN; the square root is taken over the reals;
    - two indexes with the same instants are identical to pandas;
    - strings are as in LabelModel; the dataset of a meter is a string. *)
From Coq Require Import String Ascii QArith Reals Qreals.
From Verif Require Import Base LabelModel.
Import List. Open Scope list_scope. Open Scope nat_scope.

Record emeter := mkEM { e_instance : Z; e_building : Z; e_dataset : string; e_room : string; e_meta : LabelModel.meter }.
Inductive column := Met (m : emeter) | Name (s : string).

(** hashable.py:6-10: meters are equal if their identifiers are. *)
Definition same (a b : column) : bool :=
  match a, b with
  | Met m, Met n => Z.eqb (e_instance m) (e_instance n) && Z.eqb (e_building m) (e_building n) && String.eqb (e_dataset m) (e_dataset n)
  | Name s, Name t => String.eqb s t
  | _, _ => false
  end.

(** hashable.py:18-21, of an appliance: [Appliance(type='fridge', instance=1)]. *)
Definition repr_appliance (a : appliance) : string :=
  ("Appliance(type=" ++ str_opt repr (a_type a) ++ ", instance=" ++ match a_instance a with None => "None" | Some n => str_int n end ++ ")")%string.
(** elecmeter.py:288-306, [ElecMeter.__repr__]. *)
Definition repr_meter (m : emeter) : string :=
  ("ElecMeter(instance=" ++ str_int (e_instance m) ++ ", building=" ++ str_int (e_building m) ++ ", dataset=" ++ repr (e_dataset m)
   ++ (if m_site (e_meta m) then ", site_meter" else "")
   ++ ", appliances=[" ++ join ", " (map repr_appliance (m_appliances (e_meta m))) ++ "]"
   ++ match e_room m with EmptyString => "" | r => ", room=" ++ r end ++ ")")%string.
(** [format] of a bound method: [building] (elecmeter.py:72) and [instance] (69) are methods. *)
Definition bound (method : string) (m : emeter) : string := ("<bound method ElecMeter." ++ method ++ " of " ++ repr_meter m ++ ">")%string.

Record frame := mkFrame { index : list Z; cols : list (column * list (option Q)) }.

(** [series.reindex(index)]: nothing happens to an identical index, and one with repetitions
    cannot be reindexed. *)
Fixpoint lookup (t : Z) (ix : list Z) (c : list (option Q)) : option Q :=
  match ix, c with
  | u :: ix, v :: c => if Z.eqb t u then v else lookup t ix c
  | _, _ => None
  end.
Fixpoint has_repeats (l : list Z) : bool := match l with [] => false | t :: r => existsb (Z.eqb t) r || has_repeats r end.
Definition reindex (to from : list Z) (c : list (option Q)) : res (list (option Q)) :=
  if list_eq_dec Z.eq_dec to from then Ok c
  else if has_repeats from then Err ValueError
  else Ok (map (fun t => lookup t from c) to).

(** [pd.DataFrame({'gt': gt_app, 'pr': pred_app}, …).dropna()] *)
Fixpoint dropna (l : list (option Q * option Q)) : list (Q * Q) :=
  match l with
  | [] => []
  | (Some g, Some p) :: r => (g, p) :: dropna r
  | _ :: r => dropna r
  end.
Fixpoint squares (l : list (Q * Q)) : Q := match l with [] => 0 | (g, p) :: r => ((g - p) * (g - p) + squares r)%Q end.
(** utils.py:430-435; NaN is [None]. *)
Definition column_error (ix : list Z) (g : list (option Q)) (ix' : list Z) (p : list (option Q)) : res (option R) :=
  do p' <- reindex ix ix' p;
  match dropna (combine g p') with
  | [] => Ok None
  | l => Ok (Some (sqrt (Q2R (squares l / inject_Z (Z.of_nat (length l))))))
  end.

(** [app.label()], of which any exception is caught (419-424). *)
Definition label_of (c : column) : res string :=
  match c with Met m => meter_label true (e_meta m) | Name _ => Err AttributeError end.

(** An entry of [rms_error]: the column, its label, the error. *)
Notation entry := (column * column * option R)%type.
(** utils.py:417-442: the loop over the columns; [pretty] as it is left, the entries. *)
Fixpoint loop (gt_index pred_index : list Z) (pretty : bool) (gts preds : list (column * list (option Q))) : res (bool * list entry) :=
  match gts with
  | [] => Ok (pretty, [])
  | (app, g) :: gts =>
      let '(pretty, app_label) :=
        if pretty then match label_of app with Ok s => (true, Name s) | Err _ => (false, app) end else (false, app) in
      match preds with
      | [] => Err IndexError
      | (_, p) :: preds =>
          match pred_index with
          | [] => loop gt_index pred_index pretty gts preds
          | _ =>
              do e <- column_error gt_index g pred_index p;
              do r <- loop gt_index pred_index pretty gts preds;
              Ok (fst r, (app, app_label, e) :: snd r)
          end
      end
  end.

(** utils.py:415, 439-440: how often each label occurs, in the order of first occurrence. *)
Fixpoint add_count (l : column) (counts : list (column * nat)) : list (column * nat) :=
  match counts with
  | [] => [(l, 1)]
  | (k, n) :: r => if same l k then (k, S n) :: r else (k, n) :: add_count l r
  end.
Definition app_counts (es : list entry) : list (column * nat) := fold_left (fun c e => add_count (snd (fst e)) c) es [].

(** utils.py:449-458: the entries with a label that occurs twice. *)
Definition rename (current : column) (e : entry) : res entry :=
  let '(app, label, v) := e in
  if same label current then
    match app, current with
    | Met m, Name s => Ok (app, Name (s ++ " (" ++ bound "building" m ++ ", " ++ bound "instance" m ++ ")")%string, v)
    | _, _ => Err AttributeError
    end
  else Ok e.
(** utils.py:444-458. *)
Definition differentiate (es : list entry) : res (list entry) :=
  foldM (fun es c => if snd c <? 2 then Ok es else mapM (rename (fst c)) es) (app_counts es) es.

(** utils.py:460-462: [dict(…)]; a key that comes again keeps its place and takes the new value. *)
Fixpoint dict_set (k : column) (v : option R) (d : list (column * option R)) : list (column * option R) :=
  match d with
  | [] => [(k, v)]
  | (k', v') :: r => if same k k' then (k', v) :: r else (k', v') :: dict_set k v r
  end.
(** utils.py:388-462, [compute_rmse]. *)
Definition compute_rmse (ground_truth predictions : frame) (pretty : bool) : res (list (column * option R)) :=
  do r <- loop (index ground_truth) (index predictions) pretty (cols ground_truth) (cols predictions);
  do es <- (if fst r then differentiate (snd r) else Ok (snd r));
  Ok (fold_left (fun d e => dict_set (snd (fst e)) (snd e) d) es []).
