(** C31: histograms over chunks. *)
From Verif Require Import Base HistogramModel HistogramSpec HistogramProofs HistogramProofs2.
From Coq Require Import QArith.
Open Scope nat_scope.

(** Whatever bins and range are asked for, the result is the histogram of the
    concatenated chunks over the returned edges. *)
Theorem C31_additive : forall chunks bins range h es, histogram_from_generator chunks bins range = Ok (Some h, Edges es) ->
  is_histogram es (concat chunks) h /\ ordered es.
Proof. exact hist_additive. Qed.
Print Assumptions C31_additive.

(** The counts add up to the number of samples between the outer edges. *)
Theorem C31_total : forall chunks bins range h a b es, histogram_from_generator chunks bins range = Ok (Some h, Edges (a :: b :: es)) ->
  number_of (fun x => (a <= x)%Q /\ (x <= last (b :: es) b)%Q) (concat chunks) (fold_right plus 0 h).
Proof. exact hist_total. Qed.
Print Assumptions C31_total.

(** With given edges, or a given number of bins and range, the result does not
    depend on how the data is cut into chunks. *)
Theorem C31_chunking_partial : forall a b bins range, a <> [] -> b <> [] -> concat a = concat b ->
  (exists es, bins = Edges es /\ ordered es) \/ (exists n l h, bins = NBins n /\ range = Some (Some l, Some h) /\ (0 < n)%Z /\ (l < h)%Q) ->
  histogram_from_generator a bins range = histogram_from_generator b bins range.
Proof. exact hist_chunking. Qed.
Print Assumptions C31_chunking_partial.

(** A number of bins gives that many bins of equal width over the range. *)
Theorem C31_equal_bins : forall chunks n l h, chunks <> [] -> (0 < n)%Z -> (l < h)%Q ->
  exists out es, histogram_from_generator chunks (NBins n) (Some (Some l, Some h)) = Ok (Some out, Edges es) /\
    length es = S (Z.to_nat n) /\
    forall i, i <= Z.to_nat n -> exists e, nth_error es i = Some e /\ (e == l + inject_Z (Z.of_nat i) * ((h - l) / inject_Z n))%Q.
Proof. exact hist_equal_bins. Qed.
Print Assumptions C31_equal_bins.

(** Only the first chunk can make the call fail. *)
Theorem C31_failure : forall c chunks bins range e, histogram_from_generator (c :: chunks) bins range = Err e ->
  histogram_from_generator [c] bins range = Err e.
Proof. exact hist_fails. Qed.
Print Assumptions C31_failure.

(** Without a number of bins there are as many as whole units fit into the range. *)
Theorem C31_default_bins : forall chunks n l h, chunks <> [] -> (1 <= n)%Z -> (inject_Z n <= h - l)%Q -> (h - l < inject_Z (n + 1))%Q ->
  histogram_from_generator chunks NoBins (Some (Some l, Some h)) = histogram_from_generator chunks (NBins n) (Some (Some l, Some h)).
Proof. exact default_bins. Qed.
Print Assumptions C31_default_bins.
Theorem C31_narrow : forall chunks l h, chunks <> [] -> (h - l < 1)%Q ->
  histogram_from_generator chunks NoBins (Some (Some l, Some h)) = Err ValueError.
Proof. exact too_narrow. Qed.
Print Assumptions C31_narrow.

(** A range of one point is widened by one half on both sides. *)
Theorem C31_flat : forall chunks n l h, chunks <> [] -> (0 < n)%Z -> (l == h)%Q ->
  exists out es, histogram_from_generator chunks (NBins n) (Some (Some l, Some h)) = Ok (Some out, Edges es) /\
    length es = S (Z.to_nat n) /\
    forall i, i <= Z.to_nat n -> exists e, nth_error es i = Some e /\ (e == l - (1 # 2) + inject_Z (Z.of_nat i) / inject_Z n)%Q.
Proof. exact flat_range. Qed.
Print Assumptions C31_flat.

(** Ends of the range that are left open are the lowest and the highest value of
    the first chunk; without a value there ValueError is raised. *)
Theorem C31_open_range : forall c chunks bins x, In (Some x) c ->
  exists lo hi, lowest c lo /\ highest c hi /\
    histogram_from_generator (c :: chunks) bins None = histogram_from_generator (c :: chunks) bins (Some (Some lo, Some hi)) /\
    (forall h, histogram_from_generator (c :: chunks) bins (Some (None, Some h)) = histogram_from_generator (c :: chunks) bins (Some (Some lo, Some h))) /\
    (forall l, histogram_from_generator (c :: chunks) bins (Some (Some l, None)) = histogram_from_generator (c :: chunks) bins (Some (Some l, Some hi))).
Proof. exact open_range. Qed.
Print Assumptions C31_open_range.
Theorem C31_open_empty : forall c chunks bins, (forall x, ~ In (Some x) c) -> (forall es, bins <> Edges es) ->
  histogram_from_generator (c :: chunks) bins None = Err ValueError.
Proof. exact open_empty. Qed.
Print Assumptions C31_open_empty.

(** With the range left open, the first chunk decides which samples count, so
    the chunking matters and later samples are lost. *)
Theorem C31_open_range_refuted : exists a b ha hb ea eb, concat a = concat b /\
  histogram_from_generator a NoBins None = Ok (Some ha, ea) /\ histogram_from_generator b NoBins None = Ok (Some hb, eb) /\
  fold_right plus 0 ha = length (concat a) /\ fold_right plus 0 hb < length (concat b).
Proof.
  exists [[Some 0; Some 2; Some 5]]%Q, [[Some 0; Some 2]; [Some 5]]%Q. do 4 eexists.
  split; [reflexivity|]. split; [vm_compute; reflexivity|]. split; [vm_compute; reflexivity|]. split; [reflexivity|]. cbn. lia.
Qed.
Print Assumptions C31_open_range_refuted.

Example C31_example :
  let chunks := [[Some 0; Some 1; None]; []; [Some 4; Some 2; Some 9]]%Q in
  histogram_from_generator chunks (Edges [0; 2; 4]%Q) None = Ok (Some [2; 2], Edges [0; 2; 4]%Q) /\
  (exists es, histogram_from_generator chunks (NBins 2) (Some (Some 0, Some 4)%Q) = Ok (Some [2; 2], Edges es)) /\
  (exists h es, histogram_from_generator chunks (NBins 3) (Some (None, Some 4)%Q) = Ok (Some h, Edges es)) /\
  histogram_from_generator ([] :: chunks) (NBins 3) None = Err ValueError /\
  histogram_from_generator [] (NBins 3) None = Ok (None, NBins 3).
Proof.
  cbv zeta. split; [reflexivity|]. split; [eexists; vm_compute; reflexivity|]. split; [do 2 eexists; vm_compute; reflexivity|]. split; reflexivity.
Qed.
Example C31_example_open :
  (inject_Z 2 <= (5 # 2) - 0)%Q /\ ((5 # 2) - 0 < inject_Z (2 + 1))%Q /\
  (exists es, histogram_from_generator [[Some 1; Some 2]]%Q NoBins (Some (Some 0, Some (5 # 2))%Q) = Ok (Some [1; 1], Edges es)) /\
  (exists es, histogram_from_generator [[Some 1; Some 1]]%Q (NBins 2) None = Ok (Some [0; 2], Edges es)) /\
  histogram_from_generator [[Some 1; Some 1]]%Q NoBins None = Err ValueError.
Proof.
  split; [discriminate|]. split; [reflexivity|]. split; [eexists; vm_compute; reflexivity|]. split; [eexists; vm_compute; reflexivity|reflexivity].
Qed.
