(** C109: splitting a GREEND file into blocks. *)
From Coq Require Import String Ascii Lia.
From Verif Require Import Base HtmlModel GreendModel GreendSpec GreendProofs.
Import List. Open Scope list_scope. Open Scope nat_scope.

(** What a header is: the line has "time" in it, the header begins there. *)
Theorem C109_heading : forall l, (heading l = None <-> ~ has (lit "time") (no_nulls l)) /\
  (forall h, heading l = Some h -> exists front rest, no_nulls l = front ++ h /\ h = lit "time" ++ rest).
Proof. exact heading_spec. Qed.
Print Assumptions C109_heading.
Example C109_heading_example : heading (lit "14156058,NUtimestamp,a") = Some (lit "timestamp,a") /\ heading (lit "14156058,1.0") = None.
Proof. split; reflexivity. Qed.

(** If a file begins with a header and is read, then the frames are those of blocks which have every reading of
    the file once, in order, under the last header before it; each block begins with its header, which is
    not that of the block before. *)
Theorem C109_blocks : forall F (read : list ascii -> res F) first lines h frames, heading first = Some h -> get_blocks read false (first :: lines) = Ok frames ->
  exists bs, Forall2 (fun b f => read (block_text b) = Ok f) bs frames /\ flat_map block_readings bs = readings (strip h) lines /\ new_headers None bs /\ bs <> [].
Proof. intros F read first lines h frames. apply blocks_keep. Qed.
Print Assumptions C109_blocks.
(** The example: a header repeated, and another one; a null character and garbage before a header. *)
Definition nl : list ascii := ["010"%char].
Definition ex_first : list ascii := lit "timestamp,a" ++ nl.
Definition ex_lines : list (list ascii) :=
  [lit "1,5" ++ nl; lit "timestamp,a" ++ nl; ["000"%char] ++ lit "2,6" ++ nl; lit "3,NUtimestamp,a,b" ++ nl; lit "4,7,8" ++ nl; lit "timestamp,a" ++ nl; lit "5,9"].
Example C109_blocks_example : heading ex_first = Some ex_first /\
  get_blocks (fun t => Ok t) false (ex_first :: ex_lines) =
    Ok [lit "timestamp,a" ++ nl ++ lit "1,5" ++ nl ++ lit "2,6" ++ nl; lit "timestamp,a,b" ++ nl ++ lit "4,7,8" ++ nl; lit "timestamp,a" ++ nl ++ lit "5,9"].
Proof. split; vm_compute; reflexivity. Qed.

(** The only errors then are those of reading a block; a file that begins with anything else is refused. *)
Theorem C109_errors : forall F (read : list ascii -> res F) first lines h e, heading first = Some h -> get_blocks read false (first :: lines) = Err e -> exists t, read t = Err e.
Proof. intros F read first lines h e. apply blocks_errors. Qed.
Print Assumptions C109_errors.
Theorem C109_no_header : forall F (read : list ascii -> res F) first lines, heading first = None -> get_blocks read false (first :: lines) = Err AttributeError.
Proof. intros F read first lines. apply blocks_none. Qed.
Print Assumptions C109_no_header.
Example C109_errors_example : heading (lit "1,5") = None /\
  get_blocks (fun t => if Nat.ltb 15 (List.length t) then Err ValueError else Ok t) false (ex_first :: ex_lines) = Err ValueError.
Proof. split; vm_compute; reflexivity. Qed.

(** The broken lines of the two special files are left out, and nothing else changes. *)
Theorem C109_special : forall F (read : list ascii -> res F) lines, (forall l h, In l lines -> heading l = Some h -> dropped (no_nulls l) = false /\ dropped h = false) ->
  get_blocks read true lines = get_blocks read false (filter (fun l => negb (dropped (no_nulls l))) lines).
Proof. intros F read lines. apply special_go. Qed.
Print Assumptions C109_special.
Example C109_special_example : get_blocks (fun t => Ok t) true [ex_first; lit "1,5" ++ nl; lit "0.072.172091508705606,1" ++ nl; lit "2,6" ++ nl] =
  Ok [lit "timestamp,a" ++ nl ++ lit "1,5" ++ nl ++ lit "2,6" ++ nl].
Proof. vm_compute. reflexivity. Qed.

(** The second of the broken lines is left out only at the very end of the file: it is compared with its
    line break. *)
Theorem C109_break_refuted : dropped (lit "1409660828.0753369,NULL,NUL") = true /\ dropped (lit "1409660828.0753369,NULL,NUL" ++ nl) = false.
Proof. split; vm_compute; reflexivity. Qed.
Print Assumptions C109_break_refuted.

(** With the pandas that pyproject.toml asks for no file can be converted: read_csv has no argument
    error_bad_lines any more and raises TypeError for every block. *)
Theorem C109_pandas_refuted : forall F (read : list ascii -> res F) first lines h, (forall t, read t = Err TypeError) -> heading first = Some h ->
  get_blocks read false (first :: lines) = Err TypeError.
Proof. intros F read first lines h. apply blocks_refused. Qed.
Print Assumptions C109_pandas_refuted.
Example C109_pandas_example : heading ex_first <> None.
Proof. vm_compute. discriminate. Qed.

(** Null characters are removed from both ends of a line, blanks from both ends of a header, and nothing else. *)
Theorem C109_trimmed : forall s, trimmed (fun c => Ascii.eqb c "000") s (no_nulls s) /\ trimmed blank s (strip s).
Proof. intros s. split; apply strip_ok. Qed.
Print Assumptions C109_trimmed.
Example C109_trimmed_example : no_nulls (["000"%char] ++ lit "2,6" ++ ["000"%char]) = lit "2,6" /\ strip (lit " a b " ++ nl) = lit "a b".
Proof. split; vm_compute; reflexivity. Qed.
