(** Model of nilmtk/datastore/csvdatastore.py:get_timeframe.  The rest of the
    CSV store's row delivery is in StoreModel; the HDF store's counterpart is
    [hdf_get_timeframe] there. *)
From Verif Require Import Base TimeFrameModel StoreModel.
Open Scope nat_scope.

(** csvdatastore.py:225-229: the loop over the blocks of the file.  [st] holds
    the variables [start] and [end]. *)
Fixpoint csv_ends {A} (fuel csize : nat) (rest : list (sample A)) (st : option Z * option Z)
  : res (option Z * option Z) :=
  match fuel with
  | O => Err OutOfFuel
  | S fuel' =>
      match rest with
      | [] => Ok st
      | _ =>
          let df := firstn csize rest in
          do start <- match fst st with
                      | Some s => Ok (Some s)
                      | None => match df with [] => Err IndexError | x :: _ => Ok (Some (fst x)) end
                      end;
          do end_ <- match last_opt df with None => Err IndexError | Some y => Ok (Some (fst y)) end;
          csv_ends fuel' csize (skipn csize rest) (start, end_)
      end
  end.

(** csvdatastore.py:215-231, [get_timeframe].  [csize] stands for
    MAX_MEM_ALLOWANCE_IN_BYTES, the constant block size.  pandas delivers one
    empty block for a file without rows, whose [index[0]] raises
    [IndexError]. *)
Definition csv_get_timeframe {A} (rows : list (sample A)) (window : tf) (csize : nat) : res tf :=
  match rows with
  | [] => Err IndexError
  | _ =>
      do p <- csv_ends (S (length rows)) csize rows (None, None);
      do t <- mk (fst p) (snd p);
      intersection window t
  end.
