(** Model of the wiring of meters: the global list of meters
    (nilmtk/elecmeter.py:50-63), ElecMeter.upstream_meter (elecmeter.py:101-134),
    MeterGroup.upstream_meter, mains, wiring_graph and
    meters_directly_downstream_of_mains (nilmtk/metergroup.py:578-597, 777-830) and
    tree_root, nodes_adjacent_to_root (nilmtk/utils.py:68-90).

    Instances in identifiers are positive numbers (the instance 0 and tuples are
    keys with a special meaning in [MeterGroup.__getitem__], metergroup.py:209-225,
    not identifiers of meters). *)
From Verif Require Import Base.
Open Scope nat_scope.

(** elecmeter.py:18, [ElecMeterID]. *)
Record mid := mkMid { i_instance : nat; i_building : nat; i_dataset : nat }.
Definition mid_eqb (a b : mid) : bool :=
  (i_instance a =? i_instance b) && (i_building a =? i_building b) && (i_dataset a =? i_dataset b).

(** A meter object: [w_object] tells two objects with equal identifiers apart
    (two [DataSet] objects of the same name). *)
Record wmeter := mkWmeter {
  w_object : nat;
  w_id : mid;
  w_site : bool;                       (* metadata 'site_meter' *)
  w_submeter_of : option Z;            (* metadata 'submeter_of' *)
  w_upstream_building : option nat     (* metadata 'upstream_meter_in_building' *)
}.

(** hashable.py:6-10: meters are equal when their identifiers are. *)
Definition same_meter (a b : wmeter) : bool := mid_eqb (w_id a) (w_id b).

(** elecmeter.py:58-63: a new meter is put in [nilmtk.global_meter_group] unless an
    equal one is there. *)
Definition register (reg : list wmeter) (m : wmeter) : list wmeter :=
  if existsb (same_meter m) reg then reg else reg ++ [m].
Definition register_all (ms : list wmeter) : list wmeter := fold_left register ms [].

(** What an upstream meter can be: a meter, or a group of meters (the mains of a
    building with several site meters). *)
Inductive wnode := WMeter (m : wmeter) | WGroup (ms : list wmeter).

(** metergroup.py:304-383, [select(building=, dataset=)] of the global group;
    KeyError without a match; metergroup.py:777-796, [mains] of the result. *)
Definition mains_of (site : list wmeter) : option wnode :=
  match filter w_site site with
  | [] => None
  | [m] => Some (WMeter m)
  | l => Some (WGroup l)
  end.
Definition building_mains (reg : list wmeter) (id : mid) : res (option wnode) :=
  match filter (fun m => (i_building (w_id m) =? i_building id) && (i_dataset (w_id m) =? i_dataset id)) reg with
  | [] => Err KeyError
  | l => Ok (mains_of l)
  end.

(** metergroup.py:209-230, [global_meter_group[ElecMeterID(...)]]. *)
Definition global_item (reg : list wmeter) (id : mid) : res (option wnode) :=
  if i_instance id =? 0 then building_mains reg id
  else match find (fun m => mid_eqb (w_id m) id) reg with
       | Some m => Ok (Some (WMeter m))
       | None => Err KeyError
       end.

(** elecmeter.py:101-134, [ElecMeter.upstream_meter]. *)
Definition upstream (reg : list wmeter) (m : wmeter) : res (option wnode) :=
  if w_site m then Ok None
  else match w_submeter_of m with
  | None => Err ValueError
  | Some k =>
      if (k <? 0)%Z then Err ValueError
      else match w_upstream_building m with
      | Some b =>
          if negb (b =? i_building (w_id m)) then Err GenericException (* NotImplementedError *)
          else global_item reg (mkMid (Z.to_nat k) (i_building (w_id m)) (i_dataset (w_id m)))
      | None => global_item reg (mkMid (Z.to_nat k) (i_building (w_id m)) (i_dataset (w_id m)))
      end
  end.

(** metergroup.py:477-481 and hashable.py:6-10, [==] of nodes. *)
Definition subset (a b : list wmeter) : bool := forallb (fun x => existsb (same_meter x) b) a.
Definition same_node (a b : wnode) : bool :=
  match a, b with
  | WMeter x, WMeter y => same_meter x y
  | WGroup x, WGroup y => subset x y && subset y x
  | _, _ => false
  end.

(** networkx: a DiGraph is its nodes and its edges, in order of insertion; equal
    nodes and edges are there once. *)
Record graph := mkGraph { g_nodes : list wnode; g_edges : list (wnode * wnode) }.
Definition add_node (n : wnode) (l : list wnode) : list wnode := if existsb (same_node n) l then l else l ++ [n].
Definition add_edge (g : graph) (a b : wnode) : graph :=
  mkGraph (add_node b (add_node a (g_nodes g)))
          (if existsb (fun e => same_node a (fst e) && same_node b (snd e)) (g_edges g) then g_edges g else g_edges g ++ [(a, b)]).

(** metergroup.py:578-597, [wiring_graph]; a group holds meters and groups.  The
    search for an equal node in the graph changes the object only. *)
Inductive wtree := WLeaf (m : wmeter) | WNested (ms : list wtree).
Fixpoint leaves (t : wtree) : list wmeter :=
  match t with WLeaf m => [m] | WNested ms => flat_map leaves ms end.
Definition existing (g : graph) (n : wnode) : wnode :=
  match find (same_node n) (g_nodes g) with Some n' => n' | None => n end.
Definition wire (reg : list wmeter) (g : graph) (m : wmeter) : res graph :=
  do u <- upstream reg m;
  match u with
  | None => Ok g
  | Some n => Ok (add_edge g (existing g n) (WMeter m))
  end.
Definition wiring_graph (reg : list wmeter) (ms : list wtree) : res graph :=
  foldM (wire reg) (flat_map leaves ms) (mkGraph [] []).

(** utils.py:68-90. *)
Definition tree_root (g : graph) : res wnode :=
  match filter (fun n => negb (existsb (fun e => same_node n (snd e)) (g_edges g))) (g_nodes g) with
  | [] => Err RuntimeError
  | [r] => Ok r
  | _ => Err RuntimeError
  end.
Definition successors (g : graph) (n : wnode) : list wnode :=
  map snd (filter (fun e => same_node n (fst e)) (g_edges g)).

(** metergroup.py:827-830, [meters_directly_downstream_of_mains]. *)
Definition downstream_of_mains (reg : list wmeter) (ms : list wtree) : res (list wnode) :=
  do g <- wiring_graph reg ms;
  do r <- tree_root g;
  Ok (successors g r).

(** metergroup.py:814-825, [MeterGroup.upstream_meter] of a group of meters; the
    set removes equal nodes ([None] equals [None] only). *)
Definition same_opt (a b : option wnode) : bool :=
  match a, b with Some x, Some y => same_node x y | None, None => true | _, _ => false end.
Definition add_opt (l : list (option wnode)) (n : option wnode) : list (option wnode) :=
  if existsb (same_opt n) l then l else l ++ [n].
Definition group_upstream (reg : list wmeter) (ms : list wmeter) : res (option wnode) :=
  do us <- mapM (upstream reg) ms;
  match fold_left add_opt us [] with
  | [] => Err IndexError
  | [u] => Ok u
  | _ => Err RuntimeError
  end.
