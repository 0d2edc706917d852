(** Model of the download of Dataport
    (nilmtk/dataset_converters/dataport/download_dataport.py:98-175, 325-657).

    Simplifications:
    - the database is its views (with the rows in the order of time, as the queries ask for them)
      and the first and last time that its metadata gives for a building; those times are in the time
      zone of the database (without a zone, line 499 raises TypeError), those of the rows are what
      clocks show;
    - "SELECT ... WHERE dataid=26and ..." is read as it is meant (PostgreSQL before version 15 does);
    - times are whole nanoseconds; the time zone US/Central is any one, as in LocalModel;
    - readings are rational numbers, a missing one is [None];
    - printed messages and the static metadata files are left out, and so is what is left in the file
      if an exception is raised. *)
From Coq Require Import String QArith.
From Verif Require Import Base LocalModel.
Import List. Open Scope list_scope. Open Scope Z_scope.

(** download_dataport.py:96-172: [feed_mapping], with 'type' and 'room'. *)
Definition feed_mapping : list (string * (option string * option string)) :=
  ([("air1", (Some "air conditioner", None)); ("air2", (Some "air conditioner", None)); ("air3", (Some "air conditioner", None));
   ("airwindowunit1", (Some "air conditioner", None)); ("aquarium1", (Some "appliance", None)); ("bathroom1", (Some "sockets", Some "bathroom"));
   ("bathroom2", (Some "sockets", Some "bathroom")); ("bedroom1", (Some "sockets", Some "bedroom")); ("bedroom2", (Some "sockets", Some "bedroom"));
   ("bedroom3", (Some "sockets", Some "bedroom")); ("bedroom4", (Some "sockets", Some "bedroom")); ("bedroom5", (Some "sockets", Some "bedroom"));
   ("battery1", (None, None)); ("car1", (Some "electric vehicle", None)); ("circpump1", (None, None));
   ("clotheswasher1", (Some "washing machine", None)); ("clotheswasher_dryg1", (Some "washer dryer", None)); ("diningroom1", (Some "sockets", Some "dining room"));
   ("diningroom2", (Some "sockets", Some "dining room")); ("dishwasher1", (Some "dish washer", None)); ("disposal1", (Some "waste disposal unit", None));
   ("drye1", (Some "spin dryer", None)); ("dryg1", (Some "spin dryer", None)); ("freezer1", (Some "freezer", None));
   ("furnace1", (Some "electric furnace", None)); ("furnace2", (Some "electric furnace", None)); ("garage1", (Some "sockets", Some "dining room"));
   ("garage2", (Some "sockets", Some "dining room")); ("grid", (None, None)); ("heater1", (Some "electric space heater", None));
   ("heater2", (Some "electric space heater", None)); ("heater3", (Some "electric space heater", None)); ("housefan1", (Some "electric space heater", None));
   ("icemaker1", (Some "appliance", None)); ("jacuzzi1", (Some "electric hot tub heater", None)); ("kitchen1", (Some "sockets", Some "kitchen"));
   ("kitchen2", (Some "sockets", Some "kitchen")); ("kitchenapp1", (Some "sockets", Some "kitchen")); ("kitchenapp2", (Some "sockets", Some "kitchen"));
   ("lights_plugs1", (Some "light", None)); ("lights_plugs2", (Some "light", None)); ("lights_plugs3", (Some "light", None));
   ("lights_plugs4", (Some "light", None)); ("lights_plugs5", (Some "light", None)); ("lights_plugs6", (Some "light", None));
   ("livingroom1", (Some "sockets", Some "living room")); ("livingroom2", (Some "sockets", Some "living room")); ("microwave1", (Some "microwave", None));
   ("office1", (Some "sockets", Some "office")); ("outsidelights_plugs1", (Some "sockets", Some "outside")); ("outsidelights_plugs2", (Some "sockets", Some "outside"));
   ("oven1", (Some "oven", None)); ("oven2", (Some "oven", None)); ("pool1", (Some "electric swimming pool heater", None));
   ("pool2", (Some "electric swimming pool heater", None)); ("poollight1", (Some "light", None)); ("poolpump1", (Some "electric swimming pool heater", None));
   ("pump1", (Some "appliance", None)); ("range1", (Some "stove", None)); ("refrigerator1", (Some "fridge", None));
   ("refrigerator2", (Some "fridge", None)); ("security1", (Some "security alarm", None)); ("sewerpump1", (None, None));
   ("shed1", (Some "sockets", Some "shed")); ("solar", (None, None)); ("solar2", (None, None));
   ("sprinkler1", (Some "appliance", None)); ("sumppump1", (None, None)); ("utilityroom1", (Some "sockets", Some "utility room"));
   ("venthood1", (Some "appliance", None)); ("waterheater1", (Some "electric water heating appliance", None)); ("waterheater2", (Some "electric water heating appliance", None));
   ("wellpump1", (None, None)); ("winecooler1", (Some "appliance", None)); ("leg1v", (None, None));
   ("leg2v", (None, None))])%string.
(** download_dataport.py:175-176: [feed_ignore]. *)
Definition feed_ignore : list string :=
  (["solar"; "solar2"; "grid"; "leg1v"; "leg2v"; "battery1"; "circpump1"; "sewerpump1"; "sumppump1"; "wellpump1"])%string.
(** download_dataport.py:179-202: the tables that [database_assert] accepts. *)
Definition compatible : list string :=
  (["eg_angle_15min"; "eg_angle_1hr"; "eg_angle_1min"; "eg_angle_1s"; "eg_apparentpower_15min"; "eg_apparentpower_1hr"; "eg_apparentpower_1min"; "eg_apparentpower_1s"; "eg_current_15min"; "eg_current_1hr"; "eg_current_1min"; "eg_current_1s"; "eg_realpower_15min"; "eg_realpower_1hr"; "eg_realpower_1min"; "eg_realpower_1s"; "eg_thd_15min"; "eg_thd_1hr"; "eg_thd_1min"; "eg_thd_1s"; "eg_realpower_1s_40homes_dataset"])%string.
Definition listed (x : string) (l : list string) : bool := existsb (String.eqb x) l.

(** [s.find(x) > 0]: the place of the first occurrence, or -1. *)
Definition found_later (x s : string) : bool := match String.index 0 x s with Some n => Nat.ltb 0 n | None => false end.
(** [x in s]. *)
Definition occurs (x s : string) : bool := match String.index 0 x s with Some _ => true | None => false end.

Record row := mkRow { r_id : Z; r_stamp : Z; r_cell : string -> option Q }.
Record view := mkView { v_name : string; v_columns : list string; v_rows : list row }.
(** The views; the first and last time of a building in the metadata, for the tables of one second
    and for the others (lines 447-475). *)
Record database := mkDb { d_views : list view; d_span : bool -> Z -> option (Z * Z) }.

(** Metadata of a building. *)
Record appliance := mkApp { a_name : string; a_meter : nat; a_type : string; a_room : option string; a_instance : nat }.
Record meta := mkMeta { b_instance : nat; b_name : Z; b_meters : list (nat * bool); b_apps : list appliance }.
(** A table of the HDF file: its column and its rows.  The file by building and meter, and the
    metadata files by building. *)
Record tab := mkTab { t_column : string * string; t_rows : list (Z * option Q) }.
Record out := mkOut { o_tables : list ((nat * nat) * tab); o_yaml : list (nat * meta) }.

Fixpoint dget {K V} (eqb : K -> K -> bool) (d : list (K * V)) (k : K) : option V :=
  match d with [] => None | (k', v) :: r => if eqb k' k then Some v else dget eqb r k end.
Fixpoint dset {K V} (eqb : K -> K -> bool) (d : list (K * V)) (k : K) (v : V) : list (K * V) :=
  match d with [] => [(k, v)] | (k', v') :: r => if eqb k' k then (k', v) :: r else (k', v') :: dset eqb r k v end.
Definition key_eqb (a b : nat * nat) : bool := Nat.eqb (fst a) (fst b) && Nat.eqb (snd a) (snd b).

(** download_dataport.py:607-618: [store.put(key, feed_dataframe, format='table', append=True)],
    with the column ('power', 'active') whatever the table. *)
Definition put (t : list ((nat * nat) * tab)) (k : nat * nat) (rs : list (Z * option Q)) : list ((nat * nat) * tab) :=
  dset key_eqb t k (mkTab ("power", "active")%string (match dget key_eqb t k with Some old => t_rows old ++ rs | None => rs end)).

(** What the loop over the columns updates (lines 598-602). *)
Record feeds := mkFeeds { f_tables : list ((nat * nat) * tab); f_meters : list (nat * bool); f_apps : list appliance; f_counter : list (string * nat) }.

(** download_dataport.py:603-643: the columns from meter [m] on; [n] is the building. *)
Fixpoint feed_columns (n m : nat) (cs : list string) (rs : list (Z * (string -> option Q))) (s : feeds) : res feeds :=
  match cs with
  | [] => Ok s
  | c :: r =>
      if existsb (fun x => match snd x c with Some _ => true | None => false end) rs && negb (listed c feed_ignore) then
        let t := put (f_tables s) (n, m) (map (fun x => (fst x, snd x c)) rs) in
        if String.eqb c "use" then
          feed_columns n (S m) r rs (mkFeeds t (f_meters s ++ [(m, true)]) (f_apps s) (f_counter s))
        else
          match dget String.eqb feed_mapping c with
          | Some (Some ty, room) =>
              let k := S (match dget String.eqb (f_counter s) ty with Some k => k | None => O end) in
              feed_columns n (S m) r rs (mkFeeds t (f_meters s ++ [(m, false)]) (f_apps s ++ [mkApp c m ty room k]) (dset String.eqb (f_counter s) ty k))
          | _ => Err KeyError
          end
      else feed_columns n m r rs s
  end.

(** download_dataport.py:591-592: kW to W. *)
Definition scaled (table : string) (x : option Q) : option Q :=
  if found_later "_realpower_" table then option_map (fun q => q * 1000)%Q x else x.

(** download_dataport.py:568-651, [_dataport_dataframe_to_hdf]. *)
Definition to_hdf (z : zone) (table : string) (cs : list string) (rs : list row) (n : nat) (b : Z) (o : out) : res out :=
  do us <- mapM (fun r => localize z (r_stamp r)) rs;
  let frame := combine us (map (fun r => fun c => scaled table (r_cell r c)) rs) in
  do s <- feed_columns n 1 cs frame (mkFeeds (o_tables o) [] [] []);
  Ok (mkOut (f_tables s) (dset Nat.eqb (o_yaml o) n (mkMeta n b (f_meters s) (f_apps s)))).

Definition sec : Z := 1000000000.
(** Line 509: ten days. *)
Definition chunk_size : Z := 10 * 86400 * sec.
(** [strftime('%Y-%m-%d %H:%M:%S')]. *)
Definition shown (t : Z) : Z := t / sec * sec.

(** download_dataport.py:508-515, 551: the first and last instants of the chunks. *)
Fixpoint chunks (fuel : nat) (start end_ : Z) : res (list (Z * Z)) :=
  if start <? end_ then
    match fuel with
    | O => Err OutOfFuel
    | S k =>
        let e := start + chunk_size in
        let e := if end_ <? e then end_ else e in
        do r <- chunks k (start + chunk_size) end_;
        Ok ((start, e - sec) :: r)
    end
  else Ok [].

(** download_dataport.py:518-528. *)
Definition query (z : zone) (b : Z) (rows : list row) (ch : Z * Z) : list row :=
  filter (fun r => (r_id r =? b) && (shown (wall z (fst ch)) <=? r_stamp r) && (r_stamp r <=? shown (wall z (snd ch)))) rows.

(** download_dataport.py:417. *)
Definition matching (db : database) (table : string) : list view := filter (fun v => occurs table (v_name v)) (d_views db).

(** download_dataport.py:419-430: the buildings; [sort_ids] is "DISTINCT", "UNION" and "ORDER BY". *)
Fixpoint insert_id (x : Z) (l : list Z) : list Z :=
  match l with [] => [x] | y :: r => if x <? y then x :: l else if x =? y then l else y :: insert_id x r end.
Definition sort_ids (l : list Z) : list Z := fold_right insert_id [] l.
Notation period := (option Z * option Z)%type.
Definition buildings (db : database) (table : string) (periods : list (Z * period)) : res (list Z) :=
  match periods with
  | _ :: _ => Ok (map fst periods)
  | [] => match matching db table with
          | [] => Err GenericException
          | vs => Ok (sort_ids (map r_id (concat (map v_rows vs))))
          end
  end.

(** download_dataport.py:482-489: the ends asked for, in the time zone of the database. *)
Definition requested (z : zone) (periods : list (Z * period)) (b : Z) : res (option Z * option Z) :=
  match dget Z.eqb periods b with
  | None => Ok (None, None)
  | Some (s, e) =>
      do s <- match s with Some t => do u <- localize z t; Ok (Some u) | None => Ok None end;
      do e <- match e with Some t => do u <- localize z t; Ok (Some u) | None => Ok None end;
      Ok (s, e)
  end.

(** [buildings_to_load.index(building_id)]. *)
Fixpoint position (b : Z) (l : list Z) : nat :=
  match l with [] => O | x :: r => if x =? b then O else S (position b r) end.

(** download_dataport.py:516-551: one chunk of a building. *)
Definition one_chunk (z : zone) (db : database) (table : string) (ids : list Z) (b : Z) (o : out) (ch : Z * Z) : res out :=
  match find (fun v => String.eqb (v_name v) table) (d_views db) with
  | None => Err GenericException
  | Some v => to_hdf z table (v_columns v) (query z b (v_rows v) ch) (S (position b ids)) b o
  end.

(** download_dataport.py:442-551: one view for a building.  Comparing with [None] raises TypeError. *)
Definition one_view (z : zone) (db : database) (table : string) (periods : list (Z * period)) (ids : list Z) (b : Z) (o : out) : res out :=
  match d_span db (found_later "_1s" table) b with
  | None => Ok o
  | Some (first, last) =>
      do req <- requested z periods b;
      match req with
      | (Some s, Some e) =>
          if e <? s then Ok o
          else
            let start := Z.max s first in
            let end_ := Z.min e last in
            do chs <- chunks (S (Z.to_nat ((end_ - start) / chunk_size))) start end_;
            foldM (one_chunk z db table ids b) chs o
      | _ => Err TypeError
      end
  end.

(** download_dataport.py:433-551: one building, each of the views found. *)
Definition one_building (z : zone) (db : database) (table : string) (periods : list (Z * period)) (ids : list Z) (o : out) (b : Z) : res out :=
  foldM (fun o _ => one_view z db table periods ids b o) (matching db table) o.

(** download_dataport.py:325-565, [download_dataport]; no [periods_to_load] is [[]], as an empty one is. *)
Definition download (z : zone) (db : database) (table : string) (periods : list (Z * period)) : res out :=
  if negb (listed table compatible) then Err AssertionError
  else
    do ids <- buildings db table periods;
    foldM (one_building z db table periods ids) ids (mkOut [] []).
