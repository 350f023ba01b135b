(** What the reach and frequency optimization processor and the planner's tables of it promise, without reference to
    how they compute it. *)
From Coq Require Import ZArith QArith Qabs String List Bool Arith Sorted.
From Verif Require Import Lib_QSum M_Base M_BudgetSpec S_BudgetSpec M_MarketingSpec S_MarketingSpec M_RfSpec.
Import ListNotations.
Local Open Scope string_scope.
Local Open Scope list_scope.

(** A tenth: [y] is the tenth nearest to [x]; between two of them the even one. *)
Definition nearest_tenth (x y : Q) : Prop :=
  exists k, y = (k # 10) /\ (Qabs (x - y) <= 1 # 20)%Q /\ ((Qabs (x - y) == 1 # 20)%Q -> Z.Even k).
(** The tenths that satisfy a condition, ascending. *)
Definition tenths (P : Q -> Prop) (l : list Q) : Prop :=
  StronglySorted Qlt l /\ forall f, In f l <-> (exists k, f = (k # 10)) /\ P f.

(** [f] is the first frequency of [l] with the largest finite mean ROI. *)
Definition best_frequency (roi : Q -> option Q) (l : list Q) (f : Q) : Prop :=
  In f l /\ exists v, roi f = Some v /\ forall g w, In g l -> roi g = Some w -> (w <= v)%Q /\ ((g < f)%Q -> (w < v)%Q).

(** A valid spec. *)
Definition valid_rf (s : rf_spec) : Prop :=
  named (q_name s) /\ named (q_grid_name s) /\ (0 <= q_level s <= 1)%Q /\ (0 <= q_min s)%Q /\
  (forall m, q_max s = Some m -> (q_min s <= m)%Q) /\ (forall a b, q_start s = Some a -> q_end s = Some b -> (a <= b)%Z).

Section S.
Variable channels : list string.
Variable model_coords : coords.
Variables kpi_only revenue_type : bool.
Variables geos_n times_n : nat.
Variables frequency reach : nat -> nat -> nat -> Q.
Variable roi_at : option (list Z) -> bool -> Q -> Q -> string -> summary oq.
Variable metrics_at : option (list Z) -> bool -> Q -> list Q -> string -> metrics oq.
Variable curve_at : option (list Z) -> bool -> list Q -> string -> list (Q * Q).
Variable spend_of : option (list Z) -> list (string * Q).

(** Whether the KPI is counted instead of revenue: asked for and the KPI is not revenue, or there is no revenue. *)
Definition counts_kpi (revenue : bool) (kpi : bool) : Prop :=
  kpi = if revenue then kpi_only else negb revenue_type.
(** [m] is the largest of the frequencies of the data. *)
Definition largest (m : Q) : Prop :=
  (exists g t c, (g < geos_n)%nat /\ (t < times_n)%nat /\ (c < length channels)%nat /\ m = frequency g t c) /\
  (forall g t c, (g < geos_n)%nat -> (t < times_n)%nat -> (c < length channels)%nat -> (frequency g t c <= m)%Q).
(** The upper limit of a spec: as given; if not given, or 0, the largest frequency of the data. *)
Definition limit (s : rf_spec) (m : Q) : Prop :=
  (q_max s = Some m /\ ~ (m == 0)%Q) \/ ((q_max s = None \/ exists z, q_max s = Some z /\ (z == 0)%Q) /\ largest m).
(** The periods selected, as the analyzer takes them: [None] if and only if it is all of them. *)
Definition rf_selects (s : rf_spec) (times : option (list Z)) : Prop :=
  on_calendar model_coords (q_start s) (q_end s) /\
  exists l, periods model_coords (q_start s) (q_end s) l /\
    ((l = tc_dates model_coords /\ times = None) \/ (l <> tc_dates model_coords /\ times = Some l)).
(** Impressions of a channel, all geos and media periods. *)
Definition impressions (c : nat) : Q := qsum geos_n (fun g => qsum times_n (fun t => frequency g t c * reach g t c)%Q).
Definition all_spend (times : option (list Z)) : Q := S_BudgetSpec.qtotal (map snd (spend_of times)).

(** The interval of dates of a spec. *)
Definition starts (s : rf_spec) (a : Z) : Prop :=
  match q_start s with Some x => a = x | None => hd_error (tc_dates model_coords) = Some a end.
Definition ends (s : rf_spec) (b : Z) : Prop :=
  match q_end s with Some x => b = x | None => hd_error (rev (tc_dates model_coords)) = Some (b - tc_days model_coords)%Z end.

(** The frequencies to choose from, what is chosen, and the frequencies behind the response curves. *)
Record chosen (s : rf_spec) (times : option (list Z)) (kpi : bool) (lo hi : Q) (grid best curve : list Q) : Prop := {
  ch_times : rf_selects s times;
  ch_kpi : counts_kpi (q_revenue s) kpi;
  ch_lo : nearest_tenth (q_min s) lo;
  ch_hi : exists m, limit s m /\ nearest_tenth m hi;
  ch_grid : tenths (fun f => lo <= f <= hi)%Q grid;
  ch_positive : (0 < lo)%Q;
  ch_best : Forall2 (fun c => best_frequency (fun f => m_mean (roi_at times kpi (q_level s) f c)) grid) channels best;
  ch_curve : exists top below, largest top /\ tenths (fun f => 1 <= f /\ f < top)%Q below /\
    Forall2 (fun c => best_frequency (fun f => m_mean (roi_at times kpi (9 # 10) f c)) below) channels curve;
  ch_spend : forall c, In c channels -> In c (map fst (spend_of times))
}.

(** What is said of one channel. *)
Definition media_told (s : rf_spec) (times : option (list Z)) (kpi : bool) (best curve : list Q) (c : string) (m : rf_media) : Prop :=
  v_channel m = c /\ dget (spend_of times) c = Some (v_spend m) /\
  (((all_spend times == 0)%Q /\ v_share m = None) \/
   exists x, v_share m = Some x /\ ~ (all_spend times == 0)%Q /\ (x * all_spend times == 100 * v_spend m)%Q) /\
  v_curve m = curve_at times kpi curve c /\
  exists o, v_outcomes m = [o] /\ M_BudgetSpec.o_revenue o = negb kpi /\ tells o (metrics_at times kpi (9 # 10) best c) (q_level s).
Definition cell_told (s : rf_spec) (times : option (list Z)) (kpi : bool) (i : nat) (c : string) (f : Q) (x : rf_cell) : Prop :=
  x_frequency x = f /\ S_BudgetSpec.estimates (x_outcome x) (roi_at times kpi (q_level s) f c) (q_level s) /\
  ((0 <= impressions i)%Q -> (inject_Z (x_reach x) * f <= impressions i /\ impressions i < (inject_Z (x_reach x) + 1) * f)%Q).
(** One result tells of one spec. *)
Definition rf_told (s : rf_spec) (r : rf_result) : Prop :=
  exists times kpi lo hi grid best curve, chosen s times kpi lo hi grid best curve /\
  z_name r = q_name s /\ z_group r = match q_group s with Some i => i | None => "" end /\
  starts s (p_start (z_spec r)) /\ ends s (p_end (z_spec r)) /\ p_tag (z_spec r) = q_tag s /\ p_revenue (z_spec r) = q_revenue s /\
  p_constraints (z_spec r) = map (fun c => (c, (lo, hi))) channels /\
  z_frequencies r = combine channels best /\
  w_start (z_analysis r) = p_start (z_spec r) /\ w_end (z_analysis r) = p_end (z_spec r) /\
  Forall2 (media_told s times kpi best curve) channels (w_media (z_analysis r)) /\
  y_name (z_grid r) = q_grid_name s /\ y_step (z_grid r) = (1 # 10) /\ map fst (y_cells (z_grid r)) = channels /\
  (forall i c row, nth_error channels i = Some c -> nth_error (y_cells (z_grid r)) i = Some (c, row) ->
     Forall2 (cell_told s times kpi i c) grid row).
End S.

(** The planner's rows. *)
Section Rows.
Variable historical : Z -> Z -> list (string * Q).
Definition spent (r : rf_result) (c : string) : Q :=
  match dget (historical (p_start (z_spec r)) (p_end (z_spec r))) c with Some x => x | None => 0 end.
Definition wanted_rf_spec (r : rf_result) (e : string * (Q * Q)) (w : rf_spec_row) : Prop :=
  sw_group w = z_group r /\ sw_start w = p_start (z_spec r) /\ sw_end w = p_end (z_spec r) /\ sw_objective w = "ROI" /\
  sw_spend w = spent r (fst e) /\ sw_channel w = fst e /\ sw_min w = fst (snd e) /\ sw_max w = snd (snd e).
Definition wanted_rf_result (r : rf_result) (m : rf_media) (w : rf_result_row) : Prop :=
  exists o f, v_outcomes m = [o] /\ In (v_channel m, f) (z_frequencies r) /\
  tw_group w = z_group r /\ tw_channel w = v_channel m /\ tw_revenue w = M_BudgetSpec.o_revenue o /\ tw_spend w = spent r (v_channel m) /\
  tw_frequency w = f /\ tw_effectiveness w = M_BudgetSpec.e_value (M_BudgetSpec.o_effectiveness o) /\ tw_roi w = M_BudgetSpec.e_value (M_BudgetSpec.o_roi o) /\
  tw_mroi w = M_BudgetSpec.e_value (M_BudgetSpec.o_mroi o) /\ tw_cpc w = M_BudgetSpec.e_value (M_BudgetSpec.o_cost o).
Definition wanted_rf_grid (r : rf_result) (e : string * rf_cell) (w : rf_grid_row) : Prop :=
  gr_group w = z_group r /\ gr_channel w = fst e /\ gr_frequency w = x_frequency (snd e) /\ gr_roi w = M_BudgetSpec.e_value (x_outcome (snd e)).
Definition cells_of (r : rf_result) : list (string * rf_cell) := flat_map (fun e => map (fun c => (fst e, c)) (snd e)) (y_cells (z_grid r)).
End Rows.
