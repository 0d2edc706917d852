(** C78: what Mean saves is what it loads, and what is left when saving is interrupted. *)
From Coq Require Import String QArith Lia.
From Verif Require Import Base NearestModel PersistModel PersistSpec PersistProofs.
Import List. Open Scope list_scope. Open Scope Z_scope.

(** A saved model is loaded as it was, with any names and any sums. *)
Theorem C78_roundtrip : forall m folder fs, proper m -> exists fs', save_model m folder Fine fs = (fs', None) /\ load_model folder fs' = Ok m.
Proof. exact roundtrip_ok. Qed.
Print Assumptions C78_roundtrip.

(** Training may be spread over any number of processes, each starting from what the one
    before has saved: the model, the file and the predictions are those of training in
    one process. *)
Theorem C78_sessions : forall folder first later fs, folder <> [] -> first <> [] -> Forall valid_call (first ++ concat later) ->
  exists o fs', sessions folder first later fs = Ok (o, fs') /\ m_model o = m_model (in_one (first ++ concat later)) /\ load_model folder fs' = Ok (m_model o).
Proof. exact sessions_ok. Qed.
Print Assumptions C78_sessions.
Theorem C78_predictions : forall folder first later fs rows, folder <> [] -> first <> [] -> Forall valid_call (first ++ concat later) ->
  exists o fs', sessions folder first later fs = Ok (o, fs') /\ m_model o = m_model (in_one (first ++ concat later)) /\
    disaggregate o rows = disaggregate (in_one (first ++ concat later)) rows.
Proof. exact sessions_predict. Qed.
Print Assumptions C78_predictions.

(** Whenever saving is interrupted, loading gives what it gave before, or the new model,
    or raises: never anything else, and no other file changes. *)
Theorem C78_crash_partial : forall m folder fs st, proper m -> In st (moments m folder fs) ->
  (load_model folder st = load_model folder fs \/ load_model folder st = Ok m \/ load_model folder st = Err ValueError) /\
  (forall path, path <> model_file folder -> dget st path = dget fs path).
Proof. exact crash_ok. Qed.
Print Assumptions C78_crash_partial.

(** Refuted: from the moment the file is opened until its last character is written,
    neither the old nor the new model can be loaded. *)
Theorem C78_lost_refuted : forall m folder fs k st, proper m -> nth_error (moments m folder fs) (S k) = Some st -> (k < length (dumps m))%nat ->
  load_model folder st = Err ValueError.
Proof. exact lost_ok. Qed.
Print Assumptions C78_lost_refuted.
(** So too if the disk is full. *)
Theorem C78_full_refuted : forall m folder fs fs' e n, proper m -> save_model m folder (Full n) fs = (fs', Some e) -> (n < length (dumps m))%nat ->
  load_model folder fs' = Err ValueError.
Proof. exact full_ok. Qed.
Print Assumptions C78_full_refuted.

(** Examples.  A name with a quote, a newline, an accent and an emoji; a negative sum. *)
Definition ex_name : text := lit "a ""b""" ++ [10; 233; 128268].
Definition ex_model : model := [(lit "fridge", (12345, 678%nat)); (ex_name, (-70, 0%nat))].
Example C78_example_text : proper ex_model /\
  dumps ex_model = lit "{""fridge"": {""sum"": 12345, ""n_elem"": 678}, ""a \""b\""\n\u00e9\ud83d\udd0c"": {""sum"": -70, ""n_elem"": 0}}" /\
  loads (strip (dumps ex_model)) = Ok (JObj [(lit "fridge", JObj [(lit "sum", JInt 12345); (lit "n_elem", JInt 678)]); (ex_name, JObj [(lit "sum", JInt (-70)); (lit "n_elem", JInt 0)])]).
Proof.
  split; [|split; vm_compute; reflexivity]. split; [repeat constructor; cbn; intuition discriminate|]. repeat (apply Forall_cons; [apply name_ok; reflexivity|]). apply Forall_nil.
Qed.
(* loads with white space, repeated keys and errors *)
Example C78_example_loads : loads (lit " { ""a"" : -0 , ""a"": ""x\/\u0041"" } ") = Ok (JObj [(lit "a", JStr (lit "x/A"))]) /\ loads (lit "{""a"": 01}") = Err ValueError /\
  loads (lit "{""a"": 1,}") = Err ValueError /\ loads (lit "{} {}") = Err ValueError /\ loads [] = Err ValueError /\ loads (lit "12") = Ok (JInt 12).
Proof. repeat split; vm_compute; reflexivity. Qed.

Definition ex_call (name : string) (q : Z) : call := [(lit name, [[Some (inject_Z q); None]; [Some (1 # 2)%Q]])].
Definition ex_first := [ex_call "fridge" 90; ex_call "kettle" 2000].
Definition ex_later := [[ex_call "fridge" 100]; []; [ex_call "kettle" 1900 ++ ex_call "fridge" 80; ex_call "lamp" 9]].
Example C78_example_sessions : Forall valid_call (ex_first ++ concat ex_later) /\
  match sessions (lit "models") ex_first ex_later [] with
  | Ok (o, fs) => m_model o = [(lit "fridge", (270, 9%nat)); (lit "kettle", (3900, 6%nat)); (lit "lamp", (9, 3%nat))] /\ load_model (lit "models") fs = Ok (m_model o)
  | Err _ => False
  end.
Proof.
  split; [|vm_compute; auto]. cbn. repeat (apply Forall_cons; [repeat (apply Forall_cons; [split; [apply name_ok; reflexivity|discriminate]|]); apply Forall_nil|]). apply Forall_nil.
Qed.
(* a second call of partial_fit is interrupted: the model of the first is lost *)
Example C78_example_crash : let fs := snd (fst (partial_fit (mkMean [] (Some (lit "m")) None) (ex_call "fridge" 90) Fine [])) in
  let m := [(lit "fridge", (180, 6%nat))] in
  load_model (lit "m") fs = Ok [(lit "fridge", (90, 3%nat))] /\ length (moments m (lit "m") fs) = 39%nat /\
  map (load_model (lit "m")) (moments m (lit "m") fs) = Ok [(lit "fridge", (90, 3%nat))] :: repeat (Err ValueError) 37 ++ [Ok m].
Proof. repeat split; vm_compute; reflexivity. Qed.

(** A model followed by blanks is read, a model followed by anything else is refused. *)
Theorem C78_trailing : forall m t, proper m ->
  (Forall (fun c => In c [9; 10; 13; 32]) t -> loads (dumps m ++ t) = loads (dumps m)) /\
  ((exists c, In c t /\ ~ In c [9; 10; 13; 32]) -> loads (dumps m ++ t) = Err ValueError).
Proof. exact trailing. Qed.
Print Assumptions C78_trailing.
Example C78_trailing_example : proper ex_model /\ loads (dumps ex_model ++ [10; 32]) = loads (dumps ex_model) /\ loads (dumps ex_model) <> Err ValueError /\
  loads (dumps ex_model ++ [10; 1]) = Err ValueError.
Proof. split; [apply C78_example_text|]. split; [vm_compute; reflexivity|]. split; [vm_compute; discriminate|vm_compute; reflexivity]. Qed.
