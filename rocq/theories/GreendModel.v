(** Model of splitting a GREEND file into blocks (nilmtk/dataset_converters/greend/convert_greend.py:16-99,
    [_get_blocks]).

    A file is the list of its lines, each with its line break, as iterating over it gives them; characters are
    those of Latin-1.  [read] is what becomes of the text of a block: pd.read_csv and the conversion of the index
    (convert_greend.py:41-54).  The types of the columns, which are collected on the way (lines 34-35, 79-81),
    are left out: those of a block's own columns are always there when it is read.  [special] tells whether the
    file is one of the two of [special_check] (lines 57-60). *)
From Coq Require Import String Ascii.
From Verif Require Import Base HtmlModel.
Import List. Open Scope list_scope. Open Scope nat_scope.

(** [line.strip(c)] for the characters [c]. *)
Fixpoint lstrip_of (c : ascii -> bool) (s : list ascii) : list ascii :=
  match s with x :: r => if c x then lstrip_of c r else s | [] => [] end.
Definition strip_of (c : ascii -> bool) (s : list ascii) : list ascii := rev (lstrip_of c (rev (lstrip_of c s))).
(** [line.strip('\0')], convert_greend.py:65, and [line.strip()]. *)
Definition no_nulls : list ascii -> list ascii := strip_of (fun c => Ascii.eqb c "000").
Definition strip : list ascii -> list ascii := strip_of blank.

(** [line[line.find('time'):]] for a line with 'time' in it, convert_greend.py:70. *)
Fixpoint from_time (s : list ascii) : list ascii :=
  match s with [] => [] | _ :: r => if starts (lit "time") s then s else from_time r end.

(** convert_greend.py:89-92: broken lines of two files. *)
Definition text_eqb (a b : list ascii) : bool := if list_eq_dec ascii_dec a b then true else false.
Definition dropped (line : list ascii) : bool :=
  contains (lit "0.072.172091508705606") line || text_eqb line (lit "1409660828.0753369,NULL,NUL").

(** [block_data], [previous_header] and [dfs]. *)
Record blocks {F : Type} := mkBlocks { b_data : option (list ascii); b_header : option (list ascii); b_dfs : list F }.
Arguments blocks F : clear implicits.
Arguments mkBlocks {F} _ _ _.

Section Greend.
  Context {F : Type}.
  Variable read : list ascii -> res F.
  Variable special : bool.

  (** convert_greend.py:37-55, [_process_block]. *)
  Definition process_block (st : blocks F) : res (list F) :=
    match b_data st with
    | None => Ok (b_dfs st)
    | Some text => do f <- read text; Ok (b_dfs st ++ [f])
    end.

  (** convert_greend.py:89-94: [None] has no write(). *)
  Definition write_line (st : blocks F) (line : list ascii) : res (blocks F) :=
    if special && dropped line then Ok st else
    match b_data st with
    | None => Err AttributeError
    | Some text => Ok (mkBlocks (Some (text ++ line)) (b_header st) (b_dfs st))
    end.

  (** convert_greend.py:63-94, one line. *)
  Definition do_line (st : blocks F) (line : list ascii) : res (blocks F) :=
    let line := no_nulls line in
    if contains (lit "time") line then
      let line := if starts (lit "time") line then line else from_time line in
      match b_header st with
      | Some h =>
          if text_eqb h (strip line) then Ok st
          else do dfs <- process_block st; write_line (mkBlocks (Some []) (Some (strip line)) dfs) line
      | None => do dfs <- process_block st; write_line (mkBlocks (Some []) (Some (strip line)) dfs) line
      end
    else write_line st line.

  (** convert_greend.py:16-99. *)
  Fixpoint do_lines (st : blocks F) (lines : list (list ascii)) : res (list F) :=
    match lines with
    | [] => process_block st
    | line :: rest => do st <- do_line st line; do_lines st rest
    end.
  Definition get_blocks (lines : list (list ascii)) : res (list F) := do_lines (mkBlocks None None []) lines.
End Greend.
