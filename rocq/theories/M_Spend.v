(** Model of [get_aggregated_spend] of meridian/analysis/analyzer.py.  New data has the periods
    of the model here. *)
From Coq Require Import Reals ZArith String List Bool Arith.
From Verif Require Import Lib_Sum M_Base M_AdstockHill M_Equations M_Transformers M_Aggregate M_Analyzer M_Stats M_Summary.
Import ListNotations.
Local Open Scope R_scope.

(** The [xr.DataArray] returned: labels and values ([None]: not a finite number). *)
Record spend_table := mkTable {
  tb_channel : list string;
  tb_time : option (list string);
  tb_at : list nat -> option R
}.
Definition empty_table (time : option (list string)) : spend_table := mkTable [] time (fun _ => None).

(** [xr.concat([a, b], dim=CHANNEL)]; the channel is the last dimension. *)
Definition concat_tables (a b : spend_table) : spend_table :=
  let n := length (tb_channel a) in
  mkTable (tb_channel a ++ tb_channel b) (tb_time a)
    (fun idx => let c := last idx 0%nat in
                if (c <? n)%nat then tb_at a idx else tb_at b (removelast idx ++ [(c - n)%nat])).

(** analyzer.py:4574-4656 [_impute_and_aggregate_spend]. *)
Definition impute_and_aggregate (x : model) (execution : T3) (s : spend) (names : list string)
    (geo_indices time_indices : option (list nat)) (aggregate_times : bool)
    (time_dims : option (list string)) : result spend_table :=
  let fa (y : T3) := filter_and_aggregate (counts x) (x_n_geos x) (x_n_times x) (of3 y) geo_indices
                       time_indices true aggregate_times true true in
  rbind (match s with
         | Spend3 y => rbind (fa y) (fun t => Ok (shape t, fun idx => Some (at_ t idx)))
         | Spend1 n u =>
             let exe := if Nat.eqb (times execution) (x_n_media_times x)
                        then last_times (x_n_times x) execution else execution in
             rbind (fa exe) (fun t =>
             raise_if (negb (Nat.eqb n (chans exe))) ValueError (
             let cpmu := fun c => fdiv (u c) (rsum (geos exe) (fun g => rsum (times exe) (fun v => val exe g v c))) in
             Ok (shape t, fun idx => option_map (fun r => at_ t idx * r) (cpmu (last idx 0%nat)))))
         end) (fun r =>
  raise_if (negb (coords_fit [time_dims; Some names] (fst r))) ValueError (
  Ok (mkTable names time_dims (snd r)))).

(** analyzer.py:4443-4572 [get_aggregated_spend].  The names of the paid channels are those of the
    media channels followed by those of the channels with reach and frequency. *)
Definition get_aggregated_spend (f : fitted) (nd : new_tensors) (gs : option (list string))
    (ts : option time_sel) (aggregate_times include_media include_rf : bool) : result spend_table :=
  let x := f_x f in
  raise_if (negb include_media && negb include_rf) ValueError (
  let d := fill_missing x (nt_data nd) false false in
  let s := fill_spend f (nt_spend nd) in
  rbind (package x d gs ts None []) (fun i =>
  let time_dims := if aggregate_times then None
                   else Some (match i_time i with
                              | None => x_time x
                              | Some l => map (fun t => nth t (x_time x) ""%string) l
                              end) in
  let n := n_chans (d_media (x_data x)) in
  rbind (if negb include_media then Ok (empty_table time_dims)
         else match d_media (x_data x), s_media (f_spend f), d_media d, s_media s with
              | Some _, Some _, Some y, Some u =>
                  impute_and_aggregate x y u (firstn n (f_paid_names f)) (i_geo i) (i_time i)
                    aggregate_times time_dims
              | _, _, _, _ => Ok (empty_table time_dims)
              end) (fun media =>
  rbind (if negb include_rf then Ok (empty_table time_dims)
         else match d_reach (x_data x), d_frequency (x_data x), s_rf (f_spend f), d_reach d, d_frequency d, s_rf s with
              | Some _, Some _, Some _, Some r, Some q, Some u =>
                  rbind (times3 r q) (fun y =>
                  impute_and_aggregate x y u (skipn n (f_paid_names f)) (i_geo i) (i_time i)
                    aggregate_times time_dims)
              | _, _, _, _, _, _ => Ok (empty_table time_dims)
              end) (fun rf =>
  Ok (concat_tables media rf))))).
