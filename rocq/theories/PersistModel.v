(** Model of saving and loading trained models: [save_model] and [load_model] of
    nilmtk/disaggregate/mean.py, with the training and prediction of all appliances, and
    the JSON text in between.

    Simplifications:
    - a text is a list of code points; [json.dumps] and [json.loads] are modelled for the
      values that Mean saves (objects with strings as keys, and integers) and for strings;
      other JSON values (floats, lists, true, false, null) are errors here;
    - the scanner of [json.loads] is an automaton with a stack of open objects: it accepts
      the same texts and builds the same values as json/decoder.py, but only the kind of
      exception, not its message, is kept;
    - the disk is a map from paths to texts.  While a file is being written it has a
      prefix of its final contents; a directory is only its files. *)
From Coq Require Import String Ascii QArith.
From Coq Require Decimal.
From Verif Require Import Base NearestModel.
Import List. Open Scope list_scope. Open Scope Z_scope.

Definition text := list Z.
(** Literals. *)
Fixpoint lit (s : string) : text :=
  match s with EmptyString => [] | String c r => Z.of_N (N_of_ascii c) :: lit r end.
Fixpoint text_eqb (a b : text) : bool :=
  match a, b with [], [] => true | x :: a, y :: b => (x =? y) && text_eqb a b | _, _ => false end.
(** Python's dict: a list of pairs with different keys, in order of insertion. *)
Fixpoint dget {A} (d : list (text * A)) (k : text) : option A :=
  match d with [] => None | (k', v) :: r => if text_eqb k' k then Some v else dget r k end.
Fixpoint dput {A} (d : list (text * A)) (k : text) (v : A) : list (text * A) :=
  match d with [] => [(k, v)] | (k', v') :: r => if text_eqb k' k then (k', v) :: r else (k', v') :: dput r k v end.

(** ** json.dumps, with its defaults (mean.py:42) *)
(** Hexadecimal digits ('{0:04x}'). *)
Definition hexc (d : Z) : Z := if d <? 10 then 48 + d else 87 + d.
Definition hex4 (n : Z) : text := [hexc (n / 4096 mod 16); hexc (n / 256 mod 16); hexc (n / 16 mod 16); hexc (n mod 16)].
(** py_encode_basestring_ascii: everything but the printable ASCII characters is
    escaped; characters outside of the basic plane as two surrogates. *)
Definition esc (c : Z) : text :=
  if c =? 34 then [92; 34]
  else if c =? 92 then [92; 92]
  else if c =? 10 then [92; 110]
  else if c =? 13 then [92; 114]
  else if c =? 9 then [92; 116]
  else if c =? 12 then [92; 102]
  else if c =? 8 then [92; 98]
  else if (32 <=? c) && (c <=? 126) then [c]
  else if c <? 65536 then 92 :: 117 :: hex4 c
  else let n := c - 65536 in 92 :: 117 :: hex4 (55296 + n / 1024 mod 1024) ++ 92 :: 117 :: hex4 (56320 + n mod 1024).
Definition quote (s : text) : text := 34 :: flat_map esc s ++ [34].
(** [int.__repr__]. *)
Fixpoint digits (d : Decimal.uint) : text :=
  match d with
  | Decimal.Nil => [] | Decimal.D0 d => 48 :: digits d | Decimal.D1 d => 49 :: digits d | Decimal.D2 d => 50 :: digits d
  | Decimal.D3 d => 51 :: digits d | Decimal.D4 d => 52 :: digits d | Decimal.D5 d => 53 :: digits d | Decimal.D6 d => 54 :: digits d
  | Decimal.D7 d => 55 :: digits d | Decimal.D8 d => 56 :: digits d | Decimal.D9 d => 57 :: digits d
  end.
Definition int_text (z : Z) : text := if z <? 0 then 45 :: digits (N.to_uint (Z.abs_N z)) else digits (N.to_uint (Z.abs_N z)).

(** A model: for each appliance 'sum' and 'n_elem' (mean.py:22-26). *)
Definition model := list (text * mean_model).
Definition entry (e : text * mean_model) : text :=
  quote (fst e) ++ lit ": {""sum"": " ++ int_text (fst (snd e)) ++ lit ", ""n_elem"": " ++ int_text (Z.of_nat (snd (snd e))) ++ lit "}".
Fixpoint joined (l : list text) : text := match l with [] => [] | [t] => t | t :: r => t ++ lit ", " ++ joined r end.
Definition dumps (m : model) : text := lit "{" ++ joined (map entry m) ++ lit "}".

(** ** json.loads (mean.py:50) *)
Inductive json := JInt (z : Z) | JStr (s : text) | JObj (d : list (text * json)).
(** An open object: its members so far and the key of the member that is being read. *)
Definition stack := list (list (text * json) * text).
(** What a string is for: a key of an object, or a value. *)
Inductive purpose := Key (d : list (text * json)) | Val.
Inductive mode := Plain | Escape | Hex (left : nat) (value : Z).
Inductive scan :=
| Value (s : stack)                                     (* a value must follow *)
| First (d : list (text * json)) (s : stack)            (* after '{' *)
| Next (d : list (text * json)) (s : stack)             (* after ',' *)
| InString (acc : text) (m : mode) (p : purpose) (s : stack) (* characters in reverse *)
| Colon (d : list (text * json)) (k : text) (s : stack)
| InInt (neg : bool) (n : option Z) (s : stack)
| After (v : json) (s : stack)
| Bad.
(** WHITESPACE of json/decoder.py. *)
Definition white (c : Z) : bool := (c =? 32) || (c =? 9) || (c =? 10) || (c =? 13).
Definition hexv (c : Z) : option Z :=
  if (48 <=? c) && (c <=? 57) then Some (c - 48) else if (97 <=? c) && (c <=? 102) then Some (c - 87) else if (65 <=? c) && (c <=? 70) then Some (c - 55) else None.
(** A character given as \uXXXX; the second half of a pair of surrogates completes the
    first. *)
Definition add_unit (acc : text) (v : Z) : text :=
  match acc with
  | h :: r => if (56320 <=? v) && (v <=? 57343) && (55296 <=? h) && (h <=? 56319) then (65536 + (h - 55296) * 1024 + (v - 56320)) :: r else v :: acc
  | [] => [v]
  end.
Definition unescape (c : Z) : option Z :=
  if c =? 34 then Some 34 else if c =? 92 then Some 92 else if c =? 47 then Some 47 else if c =? 98 then Some 8
  else if c =? 102 then Some 12 else if c =? 110 then Some 10 else if c =? 114 then Some 13 else if c =? 116 then Some 9 else None.
(** A string is complete. *)
Definition close (acc : text) (p : purpose) (s : stack) : scan :=
  match p with Key d => Colon d (rev acc) s | Val => After (JStr (rev acc)) s end.
Definition in_string (acc : text) (m : mode) (p : purpose) (s : stack) (c : Z) : scan :=
  match m with
  | Plain => if c =? 34 then close acc p s else if c =? 92 then InString acc Escape p s else if c <? 32 then Bad else InString (c :: acc) Plain p s
  | Escape => if c =? 117 then InString acc (Hex 4 0) p s else match unescape c with Some x => InString (x :: acc) Plain p s | None => Bad end
  | Hex n v => match hexv c with
               | None => Bad
               | Some d => match n with S (S n) => InString acc (Hex (S n) (v * 16 + d)) p s | _ => InString (add_unit acc (v * 16 + d)) Plain p s end
               end
  end.
(** After a value: the next member of the object that is open, or its end. *)
Definition after (v : json) (s : stack) (c : Z) : scan :=
  if white c then After v s
  else match s with
       | [] => Bad
       | (d, k) :: r => if c =? 44 then Next (dput d k v) r else if c =? 125 then After (JObj (dput d k v)) r else Bad
       end.
Definition step (st : scan) (c : Z) : scan :=
  match st with
  | Value s =>
      if white c then Value s
      else if c =? 123 then First [] s
      else if c =? 34 then InString [] Plain Val s
      else if c =? 45 then InInt true None s
      else if (48 <=? c) && (c <=? 57) then InInt false (Some (c - 48)) s
      else Bad
  | First d s => if white c then First d s else if c =? 34 then InString [] Plain (Key d) s else if c =? 125 then After (JObj d) s else Bad
  | Next d s => if white c then Next d s else if c =? 34 then InString [] Plain (Key d) s else Bad
  | InString acc m p s => in_string acc m p s c
  | Colon d k s => if white c then Colon d k s else if c =? 58 then Value ((d, k) :: s) else Bad
  | InInt neg n s =>
      if (48 <=? c) && (c <=? 57) then
        match n with
        | None => InInt neg (Some (c - 48)) s
        | Some v => if v =? 0 then Bad else InInt neg (Some (v * 10 + (c - 48))) s
        end
      else match n with None => Bad | Some v => after (JInt (if neg then - v else v)) s c end
  | After v s => after v s c
  | Bad => Bad
  end.
Definition loads (t : text) : res json :=
  match fold_left step t (Value []) with
  | After v [] => Ok v
  | InInt neg (Some v) [] => Ok (JInt (if neg then - v else v))
  | _ => Err ValueError
  end.

(** The loaded dict as a model; the first use of anything else raises. *)
Definition entry_of (e : text * json) : res (text * mean_model) :=
  match snd e with
  | JObj o => match dget o (lit "sum"), dget o (lit "n_elem") with
              | Some (JInt s), Some (JInt n) => if n <? 0 then Err TypeError else Ok (fst e, (s, Z.to_nat n))
              | None, _ | _, None => Err KeyError
              | _, _ => Err TypeError
              end
  | _ => Err TypeError
  end.
Definition as_model (j : json) : res model := match j with JObj d => mapM entry_of d | _ => Err AttributeError end.

(** [str.strip] (mean.py:50). *)
Definition space (c : Z) : bool :=
  ((9 <=? c) && (c <=? 13)) || ((28 <=? c) && (c <=? 32)) || (c =? 133) || (c =? 160) || (c =? 5760) || ((8192 <=? c) && (c <=? 8202)) ||
  (c =? 8232) || (c =? 8233) || (c =? 8239) || (c =? 8287) || (c =? 12288).
Fixpoint lstrip (t : text) : text := match t with [] => [] | c :: r => if space c then lstrip r else t end.
Definition strip (t : text) : text := rev (lstrip (rev (lstrip t))).

(** ** Files *)
Definition disk := list (text * text).
Definition model_file (folder : text) : text := folder ++ lit "/model.txt".
(** What happens to a write: it is complete; makedirs or open raises; or it raises after
    some characters (a full disk), leaving these. *)
Inductive luck := Fine | Refused | Full (n : nat).
(** mean.py:41-45, [save_model]; OSError is [GenericException]. *)
Definition save_model (m : model) (folder : text) (l : luck) (fs : disk) : disk * option exn :=
  let t := dumps m in
  match l with
  | Fine => (dput fs (model_file folder) t, None)
  | Refused => (fs, Some GenericException)
  | Full n => (dput fs (model_file folder) (firstn n t), Some GenericException)
  end.
(** mean.py:41-45: what is on the disk at each moment of [save_model], in order: before
    open, and after [n] characters of the text. *)
Definition moments (m : model) (folder : text) (fs : disk) : list disk :=
  fs :: map (fun n => dput fs (model_file folder) (firstn n (dumps m))) (seq 0 (S (length (dumps m)))).
(** mean.py:47-50, [load_model]. *)
Definition load_model (folder : text) (fs : disk) : res model :=
  match dget fs (model_file folder) with
  | None => Err GenericException
  | Some t => do j <- loads (strip t); as_model j
  end.

(** ** The classifier *)
Record mean := mkMean { m_model : model; m_save : option text; m_load : option text }.
(** mean.py:9-16, [__init__]. *)
Definition new_mean (save load : option text) (fs : disk) : res mean :=
  match load with
  | Some (c :: r) => do m <- load_model (c :: r) fs; Ok (mkMean m save load)
  | _ => Ok (mkMean [] save load)
  end.
(** mean.py:20-26: the appliances of one call; pd.concat of an empty list raises. *)
Definition call := list (text * list (list (option Q))).
Fixpoint fit_all (m : model) (c : call) : model * option exn :=
  match c with
  | [] => (m, None)
  | (_, []) :: _ => (m, Some ValueError)
  | (name, power) :: r =>
      fit_all (dput m name (mean_partial_fit (match dget m name with Some e => e | None => (0, 0%nat) end) power)) r
  end.
(** mean.py:18-28, [partial_fit]. *)
Definition partial_fit (o : mean) (c : call) (l : luck) (fs : disk) : mean * disk * option exn :=
  match fit_all (m_model o) c with
  | (m, Some e) => (mkMean m (m_save o) (m_load o), fs, Some e)
  | (m, None) =>
      let o := mkMean m (m_save o) (m_load o) in
      match m_save o with
      | Some (p :: r) => let '(fs, e) := save_model m (p :: r) l fs in (o, fs, e)
      | _ => (o, fs, None)
      end
  end.
(** Several calls, on a disk that works; an exception ends them. *)
Fixpoint fit_calls (o : mean) (cs : list call) (fs : disk) : mean * disk * option exn :=
  match cs with
  | [] => (o, fs, None)
  | c :: r => match partial_fit o c Fine fs with
              | (o, fs, None) => fit_calls o r fs
              | (o, fs, Some e) => (o, fs, Some e)
              end
  end.
(** mean.py:30-39, [disaggregate_chunk] for one frame: a column for each appliance. *)
Definition disaggregate (o : mean) (rows : nat) : res (list (text * list Q)) :=
  mapM (fun e => do p <- mean_predict (snd e) rows; Ok (fst e, p)) (m_model o).
