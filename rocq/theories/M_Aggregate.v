(** Model of the selection and aggregation step of meridian/analysis/analyzer.py
    ([filter_and_aggregate_by_indices]), of how selected geos and times become indices
    (meridian/analysis/tensors.py), and of the batching of posterior draws. *)
From Coq Require Import Reals ZArith String List Bool Arith.
From Verif Require Import Lib_Sum M_Base.
From Verif Require M_Budget.
Import ListNotations.
Local Open Scope R_scope.

(** A tensor of any rank. *)
Notation tensor := M_Budget.tensor.
Notation mkTensor := M_Budget.mkTensor.
Notation shape := M_Budget.shape.
Notation at_ := M_Budget.at_.
Notation ndim := M_Budget.ndim.
Notation shape_eqb := M_Budget.shape_eqb.

(** The numbers of channels of the model, by kind (model_context.n_media_channels, ...). *)
Record channel_counts := mkCounts {
  n_media : nat; n_rf : nat; n_non_media : nat; n_organic_media : nat; n_organic_rf : nat
}.

(** analyzer.py:643-656: allowed sizes of the channel dimension. *)
Definition allowed_n_channels (k : channel_counts) : list nat :=
  [n_media k; n_rf k; n_media k + n_rf k;
   n_media k + n_rf k + n_non_media k + n_organic_media k + n_organic_rf k]%nat.
Definition allowed_channel_dim (k : channel_counts) : list nat :=
  allowed_n_channels k ++ map S (allowed_n_channels k).

(** [shape[-k:]] (the whole shape when it is shorter). *)
Definition last_dims (k : nat) (s : list nat) : list nat := skipn (length s - k) s.

(** analyzer.py:657-662 and [tensor.shape[-3:] in expected_shapes_w_media]. *)
Definition shape_with_media (k : channel_counts) (n_geos n_times : nat) (s : list nat) : bool :=
  existsb (fun c => shape_eqb s [n_geos; n_times; c]) (allowed_channel_dim k).

(** [backend.gather(x, idxs, axis)]: out-of-range indices raise. *)
Definition replace_at (axis v : nat) (idx : list nat) : list nat :=
  firstn axis idx ++ v :: skipn (S axis) idx.
Definition gather (x : tensor) (idxs : list nat) (axis : nat) : result tensor :=
  if forallb (fun i => i <? nth axis (shape x) 0)%nat idxs
  then Ok (mkTensor (replace_at axis (length idxs) (shape x))
             (fun idx => at_ x (replace_at axis (nth (nth axis idx 0%nat) idxs 0%nat) idx)))
  else Err ValueError.

(** Sum over one axis, which disappears. *)
Definition insert_at (axis v : nat) (idx : list nat) : list nat :=
  firstn axis idx ++ v :: skipn axis idx.
Definition remove_at (axis : nat) (s : list nat) : list nat :=
  firstn axis s ++ skipn (S axis) s.
Definition sum_axis (x : tensor) (axis : nat) : tensor :=
  mkTensor (remove_at axis (shape x))
    (fun idx => rsum (nth axis (shape x) 0%nat) (fun i => at_ x (insert_at axis i idx))).

(** analyzer.py:632-682: checks of the shape, and whether there is a channel dimension. *)
Definition resolve_media_dim (k : channel_counts) (n_geos n_times : nat) (x : tensor)
    (flexible_time_dim has_media_dim : bool) : result bool :=
  if flexible_time_dim then
    raise_if ((has_media_dim && (ndim x <? 3)%nat)
              || (negb has_media_dim && (ndim x <? 2)%nat)) ValueError (
    let n_t := if has_media_dim then nth (ndim x - 2) (shape x) 0%nat
               else nth (ndim x - 1) (shape x) 0%nat in
    raise_if (has_media_dim
              && negb (shape_with_media k n_geos n_t (last_dims 3 (shape x)))) ValueError (
    raise_if (negb has_media_dim
              && negb (shape_eqb (last_dims 2 (shape x)) [n_geos; n_t])) ValueError (
    Ok has_media_dim)))
  else if shape_with_media k n_geos n_times (last_dims 3 (shape x)) then Ok true
  else if shape_eqb (last_dims 2 (shape x)) [n_geos; n_times] then Ok false
  else Err ValueError.

(** analyzer.py:595-701 [filter_and_aggregate_by_indices].  [gather] on [None] indices is
    skipped; the final einsum sums the time axis and/or the geo axis. *)
Definition gather_opt (x : tensor) (idxs : option (list nat)) (axis : nat) : result tensor :=
  match idxs with Some l => gather x l axis | None => Ok x end.

Definition filter_and_aggregate (k : channel_counts) (n_geos n_times : nat) (x : tensor)
    (geo_indices time_indices : option (list nat)) (aggregate_geos aggregate_times : bool)
    (flexible_time_dim has_media_dim : bool) : result tensor :=
  rbind (resolve_media_dim k n_geos n_times x flexible_time_dim has_media_dim) (fun media_dim =>
  let m := if media_dim then 1%nat else 0%nat in
  let geo_dim := (ndim x - 2 - m)%nat in
  let time_dim := (ndim x - 1 - m)%nat in
  rbind (gather_opt x geo_indices geo_dim) (fun x1 =>
  rbind (gather_opt x1 time_indices time_dim) (fun x2 =>
  let x3 := if aggregate_times then sum_axis x2 time_dim else x2 in
  Ok (if aggregate_geos then sum_axis x3 geo_dim else x3)))).

(** tensors.py:918-944 [_resolve_geo_indices]: positions, in the order of the input data. *)
Definition mem (a : string) (l : list string) : bool := existsb (String.eqb a) l.
Definition positions {A} (f : A -> bool) (l : list A) : list nat :=
  map fst (filter (fun p => f (snd p)) (combine (seq 0 (length l)) l)).
Definition resolve_geo_indices (geo : list string) (selected : option (list string))
    : result (option (list nat)) :=
  match selected with
  | None => Ok None
  | Some s => raise_if (existsb (fun g => negb (mem g geo)) s) ValueError
                (Ok (Some (positions (fun g => mem g s) geo)))
  end.

(** [selected_times]: a list of dates (normalised strings) or of booleans. *)
Inductive time_sel := TDates (l : list string) | TBools (l : list bool).

(** tensors.py:133-173 [_validate_selected_times]: an empty list is accepted ([not selected_times]). *)
Definition validate_selected_times (selected : time_sel) (input_times : list string) (n_times : nat)
    : result unit :=
  match selected with
  | TBools [] | TDates [] => Ok tt
  | TBools l => raise_if (negb (Nat.eqb (length l) n_times)) ValueError (Ok tt)
  | TDates l => raise_if (existsb (fun d => negb (mem d input_times)) l) ValueError (Ok tt)
  end.

(** tensors.py:946-982 [_resolve_time_indices]. *)
Definition resolve_time_indices (input_times : list string) (n_times : nat)
    (selected : option time_sel) : result (option (list nat)) :=
  match selected with
  | None => Ok None
  | Some s =>
      rbind (validate_selected_times s input_times n_times) (fun _ =>
      Ok (Some (match s with
                | TDates l => positions (fun t => mem t l) input_times
                | TBools l => positions (fun b => b) l
                end)))
  end.

(** Left-to-right evaluation, stopping at the first exception. *)
Fixpoint mapM {A B} (f : A -> result B) (l : list A) : result (list B) :=
  match l with
  | [] => Ok []
  | a :: r => rbind (f a) (fun b => rbind (mapM f r) (fun bs => Ok (b :: bs)))
  end.

(** analyzer.py:191-231 [_yield_batched_distribution_tensors] on the draws of one chain (every
    chain is sliced alike): [np.arange(n_draws, step=batch_size)] and
    [x[:, start : min(n_draws, start + batch_size), ...]]. *)
Definition batch_starts (n bs : nat) : list nat := map (fun k => (k * bs)%nat) (seq 0 ((n + bs - 1) / bs)).
Definition batches {A} (bs : nat) (l : list A) : list (list A) :=
  map (fun s => firstn (Nat.min (length l) (s + bs) - s) (skipn s l)) (batch_starts (length l) bs).

(** The loop over batches and [backend.concatenate(temps, axis=1)] (which raises on no batch). *)
Definition run_batched {A B} (batch_size : Z) (f : list A -> result (list B)) (draws : list A)
    : result (list B) :=
  raise_if (batch_size <=? 0)%Z ValueError (
  rbind (mapM f (batches (Z.to_nat batch_size) draws)) (fun temps =>
  match temps with [] => Err ValueError | _ => Ok (concat temps) end)).
