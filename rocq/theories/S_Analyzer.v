(** Specification vocabulary for the outcome calculations: valid models and draws, the two
    scenarios compared by the incremental outcome. *)
From Coq Require Import Reals ZArith String List Bool Arith.
From Verif Require Import Lib_Sum M_Base M_AdstockHill M_Equations M_Transformers M_Aggregate
  S_Aggregate S_Adstock S_Media M_Analyzer.
Import ListNotations.
Local Open Scope R_scope.

Definition dims (o : option T3) (G T : nat) : Prop :=
  match o with Some y => geos y = G /\ times y = T | None => True end.

(** Reach and frequency come together, with the same channels. *)
Definition paired (reach frequency : option T3) : Prop :=
  match reach, frequency with
  | Some r, Some f => chans r = chans f
  | None, None => True
  | _, _ => False
  end.

(** A channel kind has admissible decay and saturation settings. *)
Definition kind_ok (o : option T3) (df : decay_arg) (s : sat_arg) : Prop :=
  match o with Some y => decay_ok df (chans y) /\ sat_ok s (chans y) | None => True end.

(** A model as [Meridian(input_data, model_spec)] builds it: consistent dimensions. *)
Record well_formed (x : model) : Prop := {
  wf_times : (1 <= x_n_times x <= x_n_media_times x)%nat;
  wf_lag : (0 <= ctx_max_lag (x_cx x))%Z;
  wf_time : length (x_time x) = x_n_times x;
  wf_paid : d_media (x_data x) <> None \/ d_reach (x_data x) <> None;
  wf_media : dims (d_media (x_data x)) (x_n_geos x) (x_n_media_times x);
  wf_reach : dims (d_reach (x_data x)) (x_n_geos x) (x_n_media_times x);
  wf_freq : dims (d_frequency (x_data x)) (x_n_geos x) (x_n_media_times x);
  wf_om : dims (d_organic_media (x_data x)) (x_n_geos x) (x_n_media_times x);
  wf_or : dims (d_organic_reach (x_data x)) (x_n_geos x) (x_n_media_times x);
  wf_of : dims (d_organic_frequency (x_data x)) (x_n_geos x) (x_n_media_times x);
  wf_nm : dims (d_non_media (x_data x)) (x_n_geos x) (x_n_times x);
  wf_controls : dims (d_controls (x_data x)) (x_n_geos x) (x_n_times x);
  wf_rpk : match d_revenue_per_kpi (x_data x) with
           | Some r => geos2 r = x_n_geos x /\ times2 r = x_n_times x
           | None => x_kpi_is_revenue x = false end;
  wf_rf : paired (d_reach (x_data x)) (d_frequency (x_data x));
  wf_orf : paired (d_organic_reach (x_data x)) (d_organic_frequency (x_data x));
  wf_kinds : kind_ok (d_media (x_data x)) (x_decay_media x) (x_sat_media x) /\
             kind_ok (d_reach (x_data x)) (x_decay_rf x) (x_sat_rf x) /\
             kind_ok (d_organic_media (x_data x)) (x_decay_organic_media x) (x_sat_organic_media x) /\
             kind_ok (d_organic_reach (x_data x)) (x_decay_organic_rf x) (x_sat_organic_rf x);
  wf_population : forall g c, (g < x_n_geos x)%nat -> non_media_factor x g c <> 0
}.

(** A posterior draw for the model: parameters in their documented domains. *)
Definition draw_ok (x : model) (w : draw) : Prop :=
  let d := x_data x in
  (d_media d <> None -> n_par (w_media w) = n_chans (d_media d)) /\
  (d_reach d <> None -> n_par (w_rf w) = n_chans (d_reach d)) /\
  (d_organic_media d <> None -> n_par (w_organic_media w) = n_chans (d_organic_media d)) /\
  (d_organic_reach d <> None -> n_par (w_organic_rf w) = n_chans (d_organic_reach d)) /\
  params_ok (w_media w) /\ params_ok (w_rf w) /\ params_ok (w_organic_media w) /\
  params_ok (w_organic_rf w).

(** Baseline values given by the user: one number per non-media channel; or none, with valid
    settings in the model specification. *)
Definition baseline_ok (x : model) (v : option (list baseline_value)) : Prop :=
  match v with
  | Some l => length l = n_chans (d_non_media (x_data x)) /\ Forall (fun b => exists r, b = BNum r) l
  | None => match x_non_media_baseline_values x with
            | Some l => length l = n_chans (d_non_media (x_data x)) /\ Forall (fun b => b <> BOther) l
            | None => True
            end
  end.

Definition geos_ok (x : model) (s : option (list string)) : Prop :=
  match s with Some l => Forall (fun g => In g (x_geo x)) l | None => True end.
Definition times_ok (x : model) (s : option time_sel) : Prop :=
  match s with
  | Some (TDates l) => Forall (fun t => In t (x_time x)) l
  | Some (TBools l) => l = [] \/ length l = x_n_times x
  | None => True
  end.

(** Is period [t] of the media data executed? *)
Definition executed (selected : option (list bool)) (t : nat) : bool :=
  match selected with Some l => nth t l true | None => true end.

(** Data in which the treatments of the selected periods are multiplied by [f]; for reach and
    frequency, one of the two is multiplied. *)
Definition times_f (f : R) (sel : option (list bool)) (y : T3) : T3 :=
  mkT3 (geos y) (times y) (chans y)
    (fun g t c => if executed sel t then f * val y g t c else val y g t c).
Definition scenario (x : model) (f : R) (sel : option (list bool)) (by_reach : bool)
    (non_media : option T3) : data :=
  let d := x_data x in
  let m := option_map (times_f f sel) in
  mkData (m (d_media d))
    (if by_reach then m (d_reach d) else d_reach d)
    (if by_reach then d_frequency d else m (d_frequency d))
    (m (d_organic_media d))
    (if by_reach then m (d_organic_reach d) else d_organic_reach d)
    (if by_reach then d_organic_frequency d else m (d_organic_frequency d))
    non_media None None.

(** Non-media treatments held at [b c] (per capita for the population-scaled channels). *)
Definition held_at (x : model) (b : nat -> R) : option T3 :=
  option_map (fun n => mkT3 (geos n) (times n) (chans n) (fun g _ c => b c * non_media_factor x g c))
    (d_non_media (x_data x)).

(** The baseline value of a non-media channel: the number given, else the one of the model
    specification, else the smallest (per capita) value seen. *)
Definition per_capita (x : model) (c : nat) : list R :=
  match d_non_media (x_data x) with
  | Some n => flat_map (fun g => map (fun t => val n g t c / non_media_factor x g c) (seq 0 (times n)))
                (seq 0 (geos n))
  | None => []
  end.
Definition is_baseline_value (x : model) (v : option (list baseline_value)) (c : nat) (b : R) : Prop :=
  let chosen := match v with
                | Some l => nth c l BOther
                | None => match x_non_media_baseline_values x with
                          | Some l => nth c l BOther | None => BMin end
                end in
  match chosen with
  | BNum r => b = r
  | BMin => In b (per_capita x c) /\ forall v', In v' (per_capita x c) -> b <= v'
  | BMax => In b (per_capita x c) /\ forall v', In v' (per_capita x c) -> v' <= b
  | BOther => False
  end.

(** A call of [incremental_outcome] on the historical data with admissible arguments. *)
Record valid_request (x : model) (o : options) (batch_size : Z) (draws : list draw) : Prop := {
  vr_draws : Forall (draw_ok x) draws;
  vr_some : draws <> [];
  vr_batch : (0 < batch_size)%Z;
  vr_paid : o_include_non_paid o = true;
  vr_factors : 0 <= o_scaling_factor0 o < o_scaling_factor1 o;
  vr_geos : geos_ok x (o_selected_geos o);
  vr_times : times_ok x (o_selected_times o);
  vr_media_times : forall l, o_media_selected_times o = Some l -> length l = x_n_media_times x;
  vr_baseline : baseline_ok x (o_baseline_values o);
  vr_units : o_inverse o = true \/ (o_use_kpi o = true /\ x_kpi_is_revenue x = false)
}.

(** One treatment of the model, and its place in the channel dimension of the results. *)
Inductive channel :=
  ChMedia (c : nat) | ChRf (c : nat) | ChOrganicMedia (c : nat) | ChOrganicRf (c : nat)
| ChNonMedia (c : nat).
Definition is_channel (x : model) (ch : channel) : Prop :=
  let d := x_data x in
  match ch with
  | ChMedia c => (c < n_chans (d_media d))%nat
  | ChRf c => (c < n_chans (d_reach d))%nat
  | ChOrganicMedia c => (c < n_chans (d_organic_media d))%nat
  | ChOrganicRf c => (c < n_chans (d_organic_reach d))%nat
  | ChNonMedia c => (c < n_chans (d_non_media d))%nat
  end.
Definition channel_index (x : model) (ch : channel) : nat :=
  let d := x_data x in
  let m := n_chans (d_media d) in
  let r := n_chans (d_reach d) in
  let om := n_chans (d_organic_media d) in
  match ch with
  | ChMedia c => c
  | ChRf c => m + c
  | ChOrganicMedia c => m + r + c
  | ChOrganicRf c => m + r + om + c
  | ChNonMedia c => m + r + om + n_chans (d_organic_reach d) + c
  end%nat.

(** The historical data with a single channel changed: multiplied by [f] in the executed
    periods, or, for a non-media treatment, held at [b] when one is given. *)
Definition only (f : R) (sel : option (list bool)) (c : nat) (y : T3) : T3 :=
  mkT3 (geos y) (times y) (chans y)
    (fun g t c' => if Nat.eqb c' c && executed sel t then f * val y g t c' else val y g t c').
Definition treatment (x : model) (ch : channel) (f : R) (sel : option (list bool)) (by_reach : bool)
    (b : option R) : data :=
  let d := x_data x in
  let change (y : option T3) (c : nat) := option_map (only f sel c) y in
  mkData
    (match ch with ChMedia c => change (d_media d) c | _ => d_media d end)
    (match ch with ChRf c => if by_reach then change (d_reach d) c else d_reach d | _ => d_reach d end)
    (match ch with ChRf c => if by_reach then d_frequency d else change (d_frequency d) c
     | _ => d_frequency d end)
    (match ch with ChOrganicMedia c => change (d_organic_media d) c | _ => d_organic_media d end)
    (match ch with ChOrganicRf c => if by_reach then change (d_organic_reach d) c else d_organic_reach d
     | _ => d_organic_reach d end)
    (match ch with ChOrganicRf c => if by_reach then d_organic_frequency d
                                    else change (d_organic_frequency d) c
     | _ => d_organic_frequency d end)
    (match ch, b with
     | ChNonMedia c, Some v =>
         option_map (fun n => mkT3 (geos n) (times n) (chans n)
           (fun g t c' => if Nat.eqb c' c then v * non_media_factor x g c' else val n g t c'))
           (d_non_media d)
     | _, _ => d_non_media d
     end)
    None None.
