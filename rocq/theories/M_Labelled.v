(** Model of [incremental_outcome_xr] of meridian/analysis/analyzer.py: the incremental outcome as
    an array with labelled dimensions. *)
From Coq Require Import String Reals ZArith List Bool Arith.
From Verif Require Import M_Base M_Aggregate M_Analyzer.
From Verif Require M_ArgBuilder M_ChannelMaps.
Import ListNotations.
Local Open Scope string_scope.
Local Open Scope list_scope.

(** The array: names of the dimensions after "chain" and "draw", their labels ([None]: the
    dimension has no labels, or is not there), and the values draw by draw. *)
Record labelled := mkLabelled {
  lb_dims : list string;
  lb_geo : option (list string);
  lb_time : option (list string);
  lb_channel : list string;
  lb_values : list tensor
}.

(** input_data.py:1049-1066 [get_all_channels]; :962-980 [get_all_paid_channels] is
    [M_ArgBuilder.all_paid]. *)
Definition opt_names (o : option (list string)) : list string := match o with Some l => l | None => [] end.
Definition get_all_channels (d : M_ChannelMaps.name_data) : result (list string) :=
  rbind (M_ArgBuilder.all_paid (M_ChannelMaps.nd_channels d)) (fun paid =>
  Ok (paid ++ opt_names (M_ArgBuilder.cn_organic_media (M_ChannelMaps.nd_channels d))
           ++ opt_names (M_ArgBuilder.cn_organic_rf (M_ChannelMaps.nd_channels d))
           ++ opt_names (M_ChannelMaps.nd_non_media d))).

(** analyzer.py:1515-1522 [_get_dims]. *)
Definition xr_dims (o : options) : list string :=
  (if o_aggregate_geos o then [] else ["geo"]) ++ (if o_aggregate_times o then [] else ["time"]) ++ ["channel"].

(** analyzer.py:1551-1561: labels of the geos ([np.isin]). *)
Definition xr_geo (x : model) (o : options) : option (list string) :=
  if o_aggregate_geos o then None
  else Some (match o_selected_geos o with
             | None => x_geo x
             | Some s => filter (fun g => mem g s) (x_geo x)
             end).

(** A list indexed by a boolean array of the same length. *)
Definition select {A} (l : list A) (mask : list bool) : list A :=
  map fst (filter snd (combine l mask)).

(** analyzer.py:1563-1584: labels of the periods, if their number is that of the array;
    [all(isinstance(t, str) for t in [])] holds.  The dates of the new data are not looked at. *)
Definition xr_time (x : model) (o : options) (shp : list nat) : option (list string) :=
  if o_aggregate_times o then None
  else
    let size := nth (if o_aggregate_geos o then 0 else 1)%nat shp 0%nat in
    match o_selected_times o with
    | None => if Nat.eqb size (length (x_time x)) then Some (x_time x) else None
    | Some (TDates l) =>
        let kept := filter (fun t => mem t l) (x_time x) in
        if Nat.eqb (length kept) size then Some kept else None
    | Some (TBools []) => if Nat.eqb 0 size then Some [] else None
    | Some (TBools l) => if Nat.eqb (length (x_time x)) (length l) then Some (select (x_time x) l) else None
    end.

(** [xr.DataArray(data, dims, coords)]: the labels have the sizes of the dimensions. *)
Definition sizes_fit (o : options) (shp : list nat) (geo time : option (list string)) (channel : list string) : bool :=
  M_Budget.shape_eqb shp
    ((match geo with Some l => [length l] | None => if o_aggregate_geos o then [] else firstn 1 shp end)
     ++ (match time with
         | Some l => [length l]
         | None => if o_aggregate_times o then [] else firstn 1 (skipn (if o_aggregate_geos o then 0 else 1) shp)
         end)
     ++ [length channel]).

(** analyzer.py:1443-1599 [incremental_outcome_xr]; [new_time] are the dates of the new data
    ([DataTensors.time]), which matter for selections by date only: such requests have
    [new_time = None] here. *)
Definition incremental_outcome_xr (x : model) (names : M_ChannelMaps.name_data) (new_data : data)
    (new_time : option (list string)) (o : options) (batch_size : Z) (draws : list draw) : result labelled :=
  rbind (incremental_outcome x new_data o batch_size draws) (fun values =>
  let shp := match values with y :: _ => shape y | [] => [] end in
  rbind (if o_include_non_paid o then get_all_channels names else M_ArgBuilder.all_paid (M_ChannelMaps.nd_channels names))
    (fun channels =>
  let geo := xr_geo x o in
  let time := xr_time x o shp in
  raise_if (negb (sizes_fit o shp geo time channels)) ValueError
    (Ok (mkLabelled (xr_dims o) geo time channels values)))).
