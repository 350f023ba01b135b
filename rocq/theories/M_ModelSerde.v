(** Model of meridian/schema/serde/meridian_serde.py ([MeridianSerde]), eda_spec.py and inference_data.py:
    how a whole model is written to a message and read back.

    Simplifications: the checks of the constructor of [Meridian] other than the number of knots are the
    parameter [accepts]; the automatic selection of knots and the two legacy versions of it are parameters;
    messages are values (their bytes are the subject of M_SaveFile); convergence information, the model id
    and the ArviZ version are not modelled as nothing reads them; a semantic version is its three numbers. *)
From Coq Require Import Reals ZArith String List Bool.
From Verif Require Import M_Base M_Time M_Spec M_Knots M_Hyper M_DistSerde M_InputData M_Marketing.
Import ListNotations.
Local Open Scope string_scope.
Local Open Scope nat_scope.
Local Open Scope list_scope.

(** eda_spec.py (model/eda):38-156: the configuration of the data checks.  Functions are identities, maps are
    lists with distinct keys.  [None] given instead of a map is the empty map here. *)
Record vif_spec := mkVif { vif_geo : R; vif_overall : R; vif_national : R; vif_std : R }.
Record corr_spec := mkCorr { corr_overall : R; corr_geo : R; corr_national : R }.
Record std_spec := mkStd { std_geo : R; std_national : R }.
Record eda := mkEda {
  e_controls : list (string * nat); e_non_media : list (string * nat);
  e_vif : vif_spec; e_corr : corr_spec; e_kpi_std : R; e_std : std_spec }.

(** eda/constants.py:37-45 and model/eda/eda_spec.py:33: the defaults. *)
Definition default_std : R := (1 / 10000)%R.
Definition default_corr : R := (999 / 1000)%R.
Definition default_vif : vif_spec := mkVif 1000 1000 1000 default_std.
Definition default_eda : eda :=
  mkEda [] [] default_vif (mkCorr default_corr default_corr default_corr) default_std (mkStd default_std default_std).

(** proto/.../eda_spec.proto: fields with presence are options. *)
Record vif_proto := mkVifProto { pvif_geo : R; pvif_overall : R; pvif_national : R; pvif_std : option R }.
Record corr_proto := mkCorrProto { pcorr_overall : option R; pcorr_geo : option R; pcorr_national : option R }.
Record std_proto := mkStdProto { pstd_geo : option R; pstd_national : option R }.
Record eda_proto := mkEdaProto {
  pe_config : option (list (string * string) * list (string * string));
  pe_vif : option vif_proto; pe_corr : option corr_proto; pe_kpi_std : option (option R); pe_std : option std_proto;
  pe_registry : list (string * string) }.
Definition or_default {A} (d : A) (o : option A) : A := match o with Some x => x | None => d end.

(** An [xarray.Dataset] of samples: attributes, coordinates and variables. *)
Inductive nc_array := NcFloats (l : list (option R)) | NcInts (l : list Z) | NcStrings (l : list string) | NcBools (l : list bool).
Definition nc_size (a : nc_array) : nat :=
  match a with NcFloats l => length l | NcInts l => length l | NcStrings l => length l | NcBools l => length l end.
Record dataset := mkDataset {
  ds_attrs : list (string * string); ds_coords : list (string * nc_array); ds_vars : list (string * (list string * nc_array)) }.
(** An [az.InferenceData]: its groups. *)
Record samples := mkSamples { s_prior : option dataset; s_posterior : option dataset; s_aux : list (string * dataset) }.

(** inference_data.py:31-35 [_remove_created_at_attribute]. *)
Definition remove_created_at (d : dataset) : dataset :=
  mkDataset (filter (fun a => negb (String.eqb (fst a) "created_at")) (ds_attrs d)) (ds_coords d) (ds_vars d).
(** [to_netcdf(format="NETCDF3_64BIT")]: version 3 has no 64-bit integers; xarray stores them in 32 bits and
    raises a ValueError when one does not fit.  Reading gives the same dataset. *)
Definition nc3_array (a : nc_array) : result nc_array :=
  match a with
  | NcInts l => raise_if (existsb (fun z => negb ((-2147483648 <=? z) && (z <=? 2147483647))%Z) l) ValueError (Ok a)
  | _ => Ok a
  end.
Definition to_netcdf (d : dataset) : result dataset :=
  rbind (all_ok (fun c => rbind (nc3_array (snd c)) (fun a => Ok (fst c, a))) (ds_coords d)) (fun cs =>
  rbind (all_ok (fun v => rbind (nc3_array (snd (snd v))) (fun a => Ok (fst v, (fst (snd v), a)))) (ds_vars d)) (fun vs =>
  Ok (mkDataset (ds_attrs d) cs vs))).

(** inference_data.py:47-74 [InferenceDataSerde.serialize]; the message has the same three fields. *)
Definition write_group (d : dataset) : result dataset := to_netcdf (remove_created_at d).
Definition serialize_samples (s : samples) : result samples :=
  rbind (optional write_group (s_prior s)) (fun prior =>
  rbind (optional write_group (s_posterior s)) (fun posterior =>
  rbind (all_ok (fun g => rbind (write_group (snd g)) (fun d => Ok (fst g, d))) (s_aux s)) (fun aux =>
  Ok (mkSamples prior posterior aux)))).
(** inference_data.py:76-105 [InferenceDataSerde.deserialize]. *)
Definition deserialize_samples (s : samples) : samples := s.

Section Serde.
Variable source : nat -> option string.
Variable hash : string -> string.

(** serde/eda_spec.py:241-253 [_to_aggregation_function_proto], 222-239 [_to_aggregation_config_proto]. *)
Definition aggregation_to_proto (reg : registry) (l : list (string * nat)) : result (list (string * string)) :=
  all_ok (fun e => match get_function_key reg (snd e) with Some k => Ok (fst e, k) | None => Err ValueError end) l.
(** serde/eda_spec.py:148-163 [EDASpecSerde.serialize], with 46-55, 70-78, 92-98, 110-117. *)
Definition serialize_eda (reg : registry) (e : eda) : result eda_proto :=
  rbind (aggregation_to_proto reg (e_controls e)) (fun cs =>
  rbind (aggregation_to_proto reg (e_non_media e)) (fun ns =>
  rbind (hashed_registry source hash reg) (fun h =>
  let v := e_vif e in let c := e_corr e in let s := e_std e in
  Ok (mkEdaProto (Some (cs, ns))
    (Some (mkVifProto (vif_geo v) (vif_overall v) (vif_national v) (Some (vif_std v))))
    (Some (mkCorrProto (Some (corr_overall c)) (Some (corr_geo c)) (Some (corr_national c))))
    (Some (Some (e_kpi_std e))) (Some (mkStdProto (Some (std_geo s)) (Some (std_national s)))) h)))).

(** serde/eda_spec.py:272-289 [_from_aggregation_function_proto], 255-270 [_from_aggregation_config_proto]. *)
Definition aggregation_from_proto (reg : registry) (l : list (string * string)) : result (list (string * nat)) :=
  all_ok (fun e => raise_if (String.eqb (snd e) "") ValueError (
                   match lookup (snd e) reg with Some f => Ok (fst e, f) | None => Err ValueError end)) l.
(** serde/eda_spec.py:165-220 [EDASpecSerde.deserialize], with 58-67, 81-89, 101-107, 120-127. *)
Definition deserialize_eda (reg : registry) (force : bool) (p : eda_proto) : result eda :=
  rbind (if force then Ok tt else match validate source hash reg (pe_registry p) with Ok _ => Ok tt | Err _ => Err ValueError end) (fun _ =>
  rbind (match pe_config p with
         | None => Ok ([], [])
         | Some (cs, ns) => rbind (aggregation_from_proto reg cs) (fun c => rbind (aggregation_from_proto reg ns) (fun n => Ok (c, n)))
         end) (fun agg =>
  let vif := match pe_vif p with
             | None => default_vif
             | Some v => mkVif (pvif_geo v) (pvif_overall v) (pvif_national v) (or_default default_std (pvif_std v))
             end in
  let corr := match pe_corr p with
              | None => e_corr default_eda
              | Some c => mkCorr (or_default default_corr (pcorr_overall c)) (or_default default_corr (pcorr_geo c)) (or_default default_corr (pcorr_national c))
              end in
  let kpi_std := match pe_kpi_std p with None => default_std | Some o => or_default default_std o end in
  let std := match pe_std p with
             | None => e_std default_eda
             | Some s => mkStd (or_default default_std (pstd_geo s)) (or_default default_std (pstd_national s))
             end in
  Ok (mkEda (fst agg) (snd agg) vif corr kpi_std std))).

(** The sizes the samples are checked against (context.py:502-560, knots.py:161-239). *)
Definition names_of (o : option panel) : nat := match o with Some p => length (p_names p) | None => 0 end.
Variable aks_locations : input -> list Z.
Variable legacy_170 legacy_171 : input -> list Z.
Definition knots_of (d : input) (h : hyper) : knots_arg :=
  if h_enable_aks h then KnList (aks_locations d)
  else match h_knots h with KsNone => KnNone | KsInt k => KnInt k | KsList l => KnList l end.
Definition count_knots (d : input) (h : hyper) : result nat :=
  rbind (get_knot_info (length (m_times (i_kpi d))) (knots_of d h) (Nat.eqb (length (m_geos (i_kpi d))) 1)) (fun k => Ok (n_knots k)).
(** context.py:563-575 [_inject_legacy_knot_info_for_serde]. *)
Definition inject_knots (d : input) (locations : list Z) : result nat :=
  if Nat.eqb (length locations) 1 then Ok 1
  else rbind (l1_distance_weights (length (m_times (i_kpi d))) locations) (fun _ => Ok (length locations)).

(** model.py:576-605 [_validate_injected_inference_data_group_coord]. *)
Definition coord_size (g : dataset) (coord : string) : nat := match lookup coord (ds_coords g) with Some a => nc_size a | None => 0 end.
(** model.py:607-669 [_validate_injected_inference_data_group]. *)
Definition expected_sizes (d : input) (knots : nat) : list (string * nat) :=
  [("geo", length (m_geos (i_kpi d))); ("control_variable", names_of (i_controls d)); ("knots", knots);
   ("time", length (m_times (i_kpi d))); ("media_channel", names_of (i_media d)); ("rf_channel", names_of (i_reach d));
   ("organic_media_channel", names_of (i_organic_media d)); ("organic_rf_channel", names_of (i_organic_reach d));
   ("non_media_channel", names_of (i_non_media d))].
Definition group_ok (d : input) (knots : nat) (g : dataset) : bool :=
  forallb (fun e => Nat.eqb (coord_size g (fst e)) (snd e)) (expected_sizes d knots).
(** model.py:561-574 [_validate_injected_inference_data]. *)
Definition validate_samples (d : input) (knots : nat) (s : samples) : result unit :=
  raise_if (match s_prior s with Some g => negb (group_ok d knots g) | None => false end) ValueError (
  raise_if (match s_posterior s with Some g => negb (group_ok d knots g) | None => false end) ValueError (Ok tt)).

(** The parts of a [Meridian] object (model.py:200-231).  [mm_review] is whether it has a health summary;
    enumerations are numbers, 0 is unspecified. *)
Record meridian := mkMeridian {
  mm_input : input; mm_spec : hyper; mm_prior : list (string * value); mm_eda : eda; mm_samples : samples;
  mm_knots : nat; mm_backend : Z; mm_precision : Z; mm_review : bool }.

(** meridian_model.proto:611-640 and mmm_kernel.proto; [Legacy] is the type of the deprecated messages. *)
Variable Legacy : Type.
Definition version := (Z * Z * Z)%type.
Definition version_le (a b : version) : bool :=
  match a, b with (a1, a2, a3), (b1, b2, b3) =>
    (a1 <? b1)%Z || ((a1 =? b1)%Z && ((a2 <? b2)%Z || ((a2 =? b2)%Z && (a3 <=? b3)%Z))) end.
Record model_proto := mkModelProto {
  mp_version : option version;  (* None: not a semantic version *)
  mp_hyper : hyper_proto; mp_legacy_prior : option Legacy; mp_prior : option prior_proto;
  mp_samples : samples; mp_eda : option eda_proto; mp_backend : Z; mp_precision : Z }.
Inductive any := AnyModel (m : model_proto) | AnyOther.
Record kernel := mkKernel { k_marketing : marketing; k_model : any }.

Variables f32 fbk : R -> R.
Variable known_dist known_bij : string -> bool.
Variable default_of : bool -> string -> string -> option (option nat).
Variable read_legacy : Legacy -> result (list (string * value)).
(** The remaining checks of the constructor (context.py:92-111, model.py:671-720). *)
Variable accepts : input -> hyper -> list (string * value) -> eda -> result unit.

(** meridian_serde.py:84-135 [serialize], 137-210 [_make_meridian_model_proto]; version.py:17. *)
Definition current_version : version := (1, 8, 0)%Z.
Definition serialize_model (v : version) (dist_reg eda_reg : registry) (m : meridian) : result kernel :=
  rbind (serialize f32 (mm_spec m)) (fun h =>
  rbind (serialize_prior f32 known_dist known_bij default_of source hash dist_reg (mm_prior m)) (fun p =>
  rbind (serialize_samples (mm_samples m)) (fun s =>
  rbind (serialize_eda eda_reg (mm_eda m)) (fun e =>
  rbind (save (mm_input m)) (fun mk =>
  Ok (mkKernel mk (AnyModel (mkModelProto (Some v) h None (Some p) s (Some e) (mm_backend m) (mm_precision m))))))))).

(** model.py:185-231 [Meridian.__init__]. *)
Definition construct (backend precision : Z) (d : input) (h : hyper) (p : list (string * value)) (e : eda) : result meridian :=
  rbind (accepts d h p e) (fun _ => rbind (count_knots d h) (fun k =>
  Ok (mkMeridian d h p e (mkSamples None None []) k backend precision false))).

Inductive warning := OtherBackend | OtherPrecision | NoEdaSpec.

(** meridian_serde.py:256-411 [deserialize]; [backend] and [precision] are the current ones. *)
Definition deserialize_model (backend precision : Z) (dist_reg eda_reg : registry) (force : bool) (k : kernel) : result (meridian * list warning) :=
  match k_model k with
  | AnyOther => Err ValueError
  | AnyModel mp =>
      match mp_version mp with
      | None => Err ValueError
      | Some v =>
          let w1 := if negb (Z.eqb (mp_backend mp) 0) && negb (Z.eqb (mp_backend mp) backend) then [OtherBackend] else [] in
          let w2 := if negb (Z.eqb (mp_precision mp) 0) && negb (Z.eqb (mp_precision mp) precision) then [OtherPrecision] else [] in
          rbind (deserialize (mp_hyper mp)) (fun h =>
          rbind (match mp_legacy_prior mp, mp_prior mp with
                 | Some l, _ => read_legacy l
                 | None, Some p => deserialize_prior fbk known_dist known_bij default_of source hash dist_reg force p
                 | None, None => Err ValueError
                 end) (fun p =>
          rbind (load (k_marketing k)) (fun d =>
          rbind (match mp_eda mp with
                 | Some e => rbind (deserialize_eda eda_reg force e) (fun e => Ok (e, []))
                 | None => Ok (default_eda, [NoEdaSpec])
                 end) (fun ew =>
          rbind (construct backend precision d h p (fst ew)) (fun m =>
          rbind (if h_enable_aks h then
                   if version_le v (1, 7, 0)%Z then inject_knots d (legacy_170 d)
                   else if version_le v (1, 7, 1)%Z then inject_knots d (legacy_171 d) else Ok (mm_knots m)
                 else Ok (mm_knots m)) (fun knots =>
          let s := deserialize_samples (mp_samples mp) in
          rbind (validate_samples d knots s) (fun _ =>
          Ok (mkMeridian d h p (fst ew) s knots backend precision false, w1 ++ w2 ++ snd ew))))))))
      end
  end.
End Serde.
