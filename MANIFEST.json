{
 "claims": [
  {
   "property": "C01",
   "status": "proved",
   "theorems": [
    "C01_only_limited_controls_reach_dynamics",
    "C01_control_saturation"
   ],
   "note": ""
  },
  {
   "property": "C02",
   "status": "proved",
   "theorems": [
    "C02_warning_exact",
    "C02_in_range_untouched",
    "C02_interior_unchanged"
   ],
   "note": "Bit-for-bit for values strictly inside the limits; a zero that coincides with a limit may change sign, so there the theorem says numerically equal."
  },
  {
   "property": "C03",
   "status": "proved",
   "theorems": [
    "C03_dict_sets_named_actuators",
    "C03_dict_order_irrelevant",
    "C03_dict_unknown_name",
    "C03_dict_without_map"
   ],
   "note": ""
  },
  {
   "property": "C04",
   "status": "proved",
   "theorems": [
    "C04_default_action",
    "C04_default_never_changes"
   ],
   "note": ""
  },
  {
   "property": "C05",
   "status": "partial",
   "theorems": [
    "C05_list_is_array_partial",
    "C05_list_is_rounded_array",
    "C05_refuted"
   ],
   "note": "Full statement refuted: list actions are rounded to float32. Proved: lists equal arrays when the values are float32 numbers; dict equals array is C03."
  },
  {
   "property": "C06",
   "status": "proved",
   "theorems": [
    "C06_failed_step",
    "C06_unsupported_action"
   ],
   "note": ""
  },
  {
   "property": "C07",
   "status": "proved",
   "theorems": [
    "C07_value_semantics"
   ],
   "note": ""
  },
  {
   "property": "C08",
   "status": "proved",
   "theorems": [
    "C08_state_limits",
    "C08_state_limits_with_failures"
   ],
   "note": ""
  },
  {
   "property": "C09",
   "status": "partial",
   "theorems": [
    "C09_wrap_zero_center",
    "C09_nan_center_untouched",
    "C09_wrap_idempotent",
    "C09_wrap_range_binary64",
    "C09_half_open_binary64_refuted"
   ],
   "note": "Exact arithmetic: full statement. Binary64: closed interval proved, half-open interval refuted."
  },
  {
   "property": "C10",
   "status": "partial",
   "theorems": [
    "C10_wrap_center_partial",
    "C10_refuted"
   ],
   "note": "Full statement refuted for nonzero centers; range and the exact relation to the input proved."
  },
  {
   "property": "C11",
   "status": "partial",
   "theorems": [
    "C11_limits_survive_wrapping_partial",
    "C11_limits_survive_wrapping_binary64_partial",
    "C11_refuted"
   ],
   "note": "Full statement refuted for limits beyond [-pi,pi); inside it proved in exact arithmetic and in binary64."
  },
  {
   "property": "C12",
   "status": "partial",
   "theorems": [
    "C12_derivative_limits_partial",
    "C12_refuted"
   ],
   "note": "Full statement refuted when both limits coincide; proved otherwise."
  },
  {
   "property": "C13",
   "status": "partial",
   "theorems": [
    "C13_reported_derivative_partial",
    "C13_refuted"
   ],
   "note": "Full statement refuted for Euler; for RK45 proved when limits and wrapping did not change the end state."
  },
  {
   "property": "C14",
   "status": "proved",
   "theorems": [
    "C14_euler_step",
    "C14_euler_step_saturates",
    "C14_rejected_configurations",
    "C14_constructor_accepts"
   ],
   "note": ""
  },
  {
   "property": "C15",
   "status": "partial",
   "theorems": [
    "C15_sample_times",
    "C15_sample_times_increasing",
    "C15_trajectory_recorded",
    "C15_refuted"
   ],
   "note": "Sampling times proved; that the last row is the final state is refuted."
  },
  {
   "property": "C16",
   "status": "partial",
   "theorems": [
    "C16_wrong_length_partial",
    "C16_library_equations_reject",
    "C16_refuted"
   ],
   "note": "Length-1 arrays are broadcast (refuted); other wrong lengths are rejected (solver must evaluate the derivative at the initial state)."
  },
  {
   "property": "C17",
   "status": "proved",
   "theorems": [
    "C17_equations",
    "C17_euler_step"
   ],
   "note": ""
  },
  {
   "property": "C18",
   "status": "proved",
   "theorems": [
    "C18_planar_restriction",
    "C18_other_modes_rejected",
    "C18_zero_mass_rejected"
   ],
   "note": ""
  },
  {
   "property": "C19",
   "status": "proved",
   "theorems": [
    "C19_first_integral",
    "C19_explicit_rk_methods"
   ],
   "note": ""
  },
  {
   "property": "C20",
   "status": "proved",
   "theorems": [
    "C20_closed_form_solves",
    "C20_unique",
    "C20_energies"
   ],
   "note": ""
  },
  {
   "property": "C21",
   "status": "proved",
   "theorems": [
    "C21_superposition",
    "C21_euler_runs"
   ],
   "note": ""
  },
  {
   "property": "C22",
   "status": "proved",
   "theorems": [
    "C22_equations",
    "C22_ideal_equations",
    "C22_thrust_magnitude",
    "C22_euler_step"
   ],
   "note": ""
  },
  {
   "property": "C23",
   "status": "proved",
   "theorems": [
    "C23_combined_limits",
    "C23_rate_limits",
    "C23_moment_never_limited",
    "C23_heading_range",
    "C23_heading_range_binary64"
   ],
   "note": ""
  },
  {
   "property": "C24",
   "status": "proved",
   "theorems": [
    "C24_dubins2d_derivative",
    "C24_dubins3d_derivative",
    "C24_dubins2d_runs",
    "C24_dubins3d_runs",
    "C24_rotation2d_derivative",
    "C24_rotation2d_runs"
   ],
   "note": "Derivative for all methods; whole runs for Euler (scipy's adaptive error norm depends on the raw angle)."
  },
  {
   "property": "C25",
   "status": "proved",
   "theorems": [
    "C25_equations",
    "C25_orthogonal",
    "C25_exact_norm",
    "C25_euler_norm",
    "C25_run_norm"
   ],
   "note": ""
  },
  {
   "property": "C26",
   "status": "proved",
   "theorems": [
    "C26_rotation",
    "C26_zero",
    "C26_laws"
   ],
   "note": ""
  },
  {
   "property": "C27",
   "status": "partial",
   "theorems": [
    "C27_default_attitude_refuted",
    "C27_zero_attitude_inert",
    "C27_identity_attitude"
   ],
   "note": "Refuted: the default zero quaternion has no rotation and makes thrust ineffective. Identity attitude works."
  },
  {
   "property": "C28",
   "status": "proved",
   "theorems": [
    "C28_euler_equations",
    "C28_conserved"
   ],
   "note": ""
  },
  {
   "property": "C29",
   "status": "partial",
   "theorems": [
    "C29_acceleration_limit_refuted",
    "C29_equal_inertia"
   ],
   "note": "Refuted for unequal moments of inertia; proved for equal ones (Euler)."
  },
  {
   "property": "C30",
   "status": "proved",
   "theorems": [
    "C30_sixdof_rotation2d",
    "C30_sixdof_cwh",
    "C30_rotation2d_cwh"
   ],
   "note": ""
  },
  {
   "property": "C31",
   "status": "proved",
   "theorems": [
    "C31_rate_limits",
    "C31_limits"
   ],
   "note": ""
  },
  {
   "property": "C32",
   "status": "proved",
   "theorems": [
    "C32_sun_angle",
    "C32_sun_steps_succeed"
   ],
   "note": ""
  },
  {
   "property": "C33",
   "status": "partial",
   "theorems": [
    "C33_same_angle_equal_partial",
    "C33_refuted"
   ],
   "note": "Full statement refuted: any two suns compare equal. Proved: suns at the same angle are equal."
  },
  {
   "property": "C34",
   "status": "proved",
   "theorems": [
    "C34_equations",
    "C34_other_modes_rejected",
    "C34_zero_mass_rejected",
    "C34_euler_step",
    "C34_damped_never_faster",
    "C34_coasting",
    "C34_constructors"
   ],
   "note": "Includes the Euler step, undamped coasting for every Runge-Kutta type solver and monotone damping."
  },
  {
   "property": "C35",
   "status": "partial",
   "theorems": [
    "C35_constructible_partial",
    "C35_refuted",
    "C35_no_integrator_constructible",
    "C35_user_subclass"
   ],
   "note": "Full statement refuted: the three integrator classes leave orientation abstract and cannot be instantiated. Proved for the six other classes, and for user classes that add orientation."
  },
  {
   "property": "C36",
   "status": "partial",
   "theorems": [
    "C36_distinct_actuators_partial",
    "C36_refuted",
    "C36_other_axes_unreachable"
   ],
   "note": "Full statement refuted for the 2d and 3d integrators (all actuator names drive element 0). Proved for every other entity with actuators."
  },
  {
   "property": "C37",
   "status": "partial",
   "theorems": [
    "C37_1d_partial",
    "C37_reflexive_refuted",
    "C37_symmetric_refuted"
   ],
   "note": "Refuted: 2d and 3d integrators are not equal to themselves; 2d == 1d can differ from 1d == 2d. Proved for 1d."
  },
  {
   "property": "C38",
   "status": "proved",
   "theorems": [
    "C38_dubins2d",
    "C38_dubins3d"
   ],
   "note": ""
  },
  {
   "property": "C39",
   "status": "proved",
   "theorems": [
    "C39_dubins2d_derivative",
    "C39_dubins3d_derivative",
    "C39_finite_in_limits"
   ],
   "note": ""
  },
  {
   "property": "C40",
   "status": "partial",
   "theorems": [
    "C40_parallel_2d",
    "C40_parallel_3d",
    "C40_derivative_2d_partial",
    "C40_derivative_3d_partial",
    "C40_is_derivative_refuted"
   ],
   "note": "Parallel with magnitude v': proved. Time derivative of the velocity: refuted, only the tangential part is reported; exact missing term proved."
  },
  {
   "property": "C41",
   "status": "proved",
   "theorems": [
    "C41_speed_2d",
    "C41_speed_3d",
    "C41_displacement_2d",
    "C41_displacement_3d"
   ],
   "note": "Speed: exact and binary64, any method. Displacement: exact arithmetic with arbitrary float32 cast, Euler."
  },
  {
   "property": "C42",
   "status": "partial",
   "theorems": [
    "C42_dubins2d_partial",
    "C42_dubins3d_partial",
    "C42_constructor_refuted",
    "C42_setter_refuted"
   ],
   "note": "Refuted: neither constructors nor setters check or wrap. Proved for configurations inside the limits."
  },
  {
   "property": "C43",
   "status": "partial",
   "theorems": [
    "C43_cwh",
    "C43_rot2d",
    "C43_rot2d_wrapped",
    "C43_sixdof",
    "C43_dubins3d_sound",
    "C43_dubins2d_sound_partial",
    "C43_dubins3d_complete",
    "C43_dubins2d_complete",
    "C43_different_classes",
    "C43_never_raises_refuted",
    "C43_dubins_at_rest_refuted",
    "C43_dubins3d_at_rest",
    "C43_dubins2d_float32_refuted",
    "C43_rot2d_whole_turn_refuted"
   ],
   "note": "Refuted parts: comparing fresh SixDOF spacecraft raises, Dubins aircraft at rest are unequal to themselves, Dubins2d misses speed differences below float32, theta and theta + 2 pi are unequal. Everything else proved; scipy's as_euler is an oracle."
  },
  {
   "property": "C44",
   "status": "proved",
   "theorems": [
    "C44_value",
    "C44_laws",
    "C44_unknown_name",
    "C44_no_simulator",
    "C44_sun_has_no_position"
   ],
   "note": ""
  },
  {
   "property": "C45",
   "status": "proved",
   "theorems": [
    "C45_conversion",
    "C45_rejects",
    "C45_plain_numbers",
    "C45_view_roundtrip"
   ],
   "note": "Exact arithmetic with an arbitrary float32 rounding; unit texts are assumed to identify units."
  },
  {
   "property": "C46",
   "status": "partial",
   "theorems": [
    "C46_layout",
    "C46_length",
    "C46_name_required",
    "C46_unknown_rejected_partial",
    "C46_foreign_rejected",
    "C46_refuted",
    "C46_setters"
   ],
   "note": "Full statement refuted: Dubins2d accepts a z it ignores (the lower integrators likewise). Layout, defaults, lengths, setters and rejection of foreign names proved."
  },
  {
   "property": "C47",
   "status": "partial",
   "theorems": [
    "C47_number",
    "C47_number_exact",
    "C47_array",
    "C47_other_rejected",
    "C47_list_values_lost",
    "C47_refuted",
    "C47_float_lists_rejected"
   ],
   "note": "Refuted for lists: np.ndarray(list) treats the list as a shape. Numbers, arrays and other types proved."
  },
  {
   "property": "C48",
   "status": "proved",
   "theorems": [
    "C48_no_index_error",
    "C48_finite_angles",
    "C48_thrust"
   ],
   "note": "Binary64 with arbitrary libm; thrust needs 5*mach not to overflow (then OverflowError, never IndexError)."
  },
  {
   "property": "C49",
   "status": "proved",
   "theorems": [
    "C49_bilinear",
    "C49_cz",
    "C49_dampp",
    "C49_grid_points",
    "C49_between_neighbours"
   ],
   "note": "Exact arithmetic; tables of the specification transcribed separately from the model's."
  },
  {
   "property": "C50",
   "status": "proved",
   "theorems": [
    "C50_lookups_continuous",
    "C50_dampp_continuous"
   ],
   "note": "Exact arithmetic, joint continuity."
  },
  {
   "property": "C51",
   "status": "proved",
   "theorems": [
    "C51_cl_odd",
    "C51_cn_odd",
    "C51_zero_sideslip"
   ],
   "note": "Exact arithmetic."
  },
  {
   "property": "C52",
   "status": "proved",
   "theorems": [
    "C52_power_lag",
    "C52_rtau"
   ],
   "note": "Exact arithmetic; Euler step of the power state."
  },
  {
   "property": "C53",
   "status": "partial",
   "theorems": [
    "C53_range_partial",
    "C53_increasing_partial",
    "C53_increasing_refuted",
    "C53_continuous_refuted"
   ],
   "note": "Range and onto proved; increasing and continuous refuted at throttle 0.77 (50.0038 then 50.0026)."
  },
  {
   "property": "C54",
   "status": "proved",
   "theorems": [
    "C54_thrust_lines",
    "C54_continuous_in_power",
    "C54_continuous",
    "C54_below_sea_level"
   ],
   "note": "Exact arithmetic."
  },
  {
   "property": "C55",
   "status": "proved",
   "theorems": [
    "C55_air_data",
    "C55_temperature",
    "C55_above_range"
   ],
   "note": "Exact arithmetic, real power as exp/ln; range of the model is alt < 142247 ft, nan from 142248."
  },
  {
   "property": "C56",
   "status": "partial",
   "theorems": [
    "C56_limits_or_nan_partial",
    "C56_limits_moderate_partial",
    "C56_limits_refuted",
    "C56_feedback",
    "C56_trim",
    "C56_trim_f64",
    "C56_arguments_kept"
   ],
   "note": "Binary64: each output in its limits or nan, always; in its limits when the entries read are at most 2^500 in magnitude; refuted for arbitrary finite states (overflow to inf-inf gives a nan elevator). Closed form, decoupling, trim and no writes to any existing array proved."
  },
  {
   "property": "C57",
   "status": "partial",
   "theorems": [
    "C57_structure",
    "C57_roll_rate_partial",
    "C57_roll_rate_refuted"
   ],
   "note": "Shape proved in any arithmetic for both roll rate variants. The roll rate is not about the stability axis: the controller's alpha is measured from trim (refuted with a witness); the axis actually used is proved."
  },
  {
   "property": "C58",
   "status": "proved",
   "theorems": [
    "C58_navigation"
   ],
   "note": "Exact arithmetic."
  },
  {
   "property": "C59",
   "status": "proved",
   "theorems": [
    "C59_forces"
   ],
   "note": "Exact arithmetic; vt, cos beta, cos theta nonzero, alt < 142247 ft (domain of the air data model)."
  },
  {
   "property": "C60",
   "status": "proved",
   "theorems": [
    "C60_symmetric"
   ],
   "note": "Exact arithmetic, both models, adjust_cy either way."
  },
  {
   "property": "C61",
   "status": "proved",
   "theorems": [
    "C61_polynomial",
    "C61_saturates",
    "C61_symmetric"
   ],
   "note": "Exact arithmetic; the specification restates the published polynomials in Horner-free form."
  },
  {
   "property": "C62",
   "status": "partial",
   "theorems": [
    "C62_rejects",
    "C62_method",
    "C62_idle",
    "C62_time_f64_partial",
    "C62_terminates_f64_refuted",
    "C62_raises",
    "C62_start_kept"
   ],
   "note": "Exact arithmetic: the run is the Euler method on an explicit grid, with termination, strict time and exact end, for every length-preserving derivative function that does not raise; time_tol >= 0. Binary64: time is monotone and bounded, but termination is refuted (absorption at 2^53). Start vector kept: memory model; a derivative function that writes into y is not modelled."
  },
  {
   "property": "C63",
   "status": "partial",
   "theorems": [
    "C63_interpolates_partial",
    "C63_keeps_denoting_refuted",
    "C63_after_failure_refuted",
    "C63_right_end_f64_refuted"
   ],
   "note": "Interpolation proved in exact arithmetic right after the step and one step later; refuted two steps later (the closure reads the object's current tprev and yprev), after a step that raised (nan), and at the right end up to rounding in binary64."
  },
  {
   "property": "C64",
   "status": "partial",
   "theorems": [
    "C64_before",
    "C64_freeze",
    "C64_existing",
    "C64_new_rejected",
    "C64_history_partial",
    "C64_assign_flag_refuted",
    "C64_delete_flag_refuted"
   ],
   "note": "Every history that does not assign or delete _frozen; with those operations refuted. Names visible on the class count as existing."
  },
  {
   "property": "C65",
   "status": "partial",
   "theorems": [
    "C65_accepts_partial",
    "C65_safe_accepted_partial",
    "C65_speed_refuted",
    "C65_sideslip_refuted",
    "C65_without_controller_refuted"
   ],
   "note": "The accepted set is characterised exactly (exact arithmetic); safe runs are accepted. Refuted: speed limit never checked, sideslip and roll rate compared with their sign in radians against degrees, no run accepted without a controller."
  },
  {
   "property": "C66",
   "status": "proved",
   "theorems": [
    "C66_columns",
    "C66_one",
    "C66_together"
   ],
   "note": "Any element type; rows of 16 columns per aircraft."
  },
  {
   "property": "C67",
   "status": "partial",
   "theorems": [
    "C67_constraints",
    "C67_cost",
    "C67_unknown_rejected",
    "C67_conf16_unknown_refuted"
   ],
   "note": "Exact arithmetic. conf16 itself accepts an unknown orientation (refuted); clf16 never returns for one. Cost: zero iff all weighted residuals vanish."
  },
  {
   "property": "C68",
   "status": "proved",
   "theorems": [
    "C68_fix_truncates",
    "C68_toward_zero",
    "C68_fix_raises",
    "C68_sign",
    "C68_sign_special",
    "C68_neighbour"
   ],
   "note": "Binary64."
  },
  {
   "property": "C69",
   "status": "partial",
   "theorems": [
    "C69_flag_has_no_influence",
    "C69_refuted"
   ],
   "note": "The success flag is ignored; refuted."
  },
  {
   "property": "C70",
   "status": "partial",
   "theorems": [
    "C70_refuted"
   ],
   "note": "Refuted: state_dot is handed out by reference."
  },
  {
   "property": "C71",
   "status": "partial",
   "theorems": [
    "C71_full_inertia_refuted",
    "C71_only_diagonal"
   ],
   "note": "Refuted: only the diagonal is used (proved for all inputs)."
  },
  {
   "property": "C72",
   "status": "partial",
   "theorems": [
    "C72_representable_partial",
    "C72_refuted"
   ],
   "note": "Refuted in binary64 with the default limits: float32 rounding of roll_max. Proved when the limits are float32 numbers."
  },
  {
   "property": "C73",
   "status": "partial",
   "theorems": [
    "C73_thrust_monotone_partial",
    "C73_thrust_monotone_refuted"
   ],
   "note": "Refuted at 50000 ft, Mach 0 (idle 1860 lb, military 1400 lb); proved to 40000 ft."
  },
  {
   "property": "C74",
   "status": "partial",
   "theorems": [
    "C74_continuous_partial",
    "C74_continuous_refuted",
    "C74_dynamic_pressure_falls"
   ],
   "note": "Refuted at 35000 ft (temperature jumps to 390); proved elsewhere, and everywhere for dynamic pressure."
  },
  {
   "property": "C75",
   "status": "proved",
   "theorems": [
    "C75_euler_angles"
   ],
   "note": "Exact arithmetic."
  },
  {
   "property": "C76",
   "status": "proved",
   "theorems": [
    "C76_moments"
   ],
   "note": "Exact arithmetic, same hypotheses as C59."
  },
  {
   "property": "C77",
   "status": "partial",
   "theorems": [
    "C77_finite_partial",
    "C77_vertical_refuted",
    "C77_at_rest_refuted"
   ],
   "note": "Proved off the vertical, moving, with cos beta nonzero and below 142247 ft. Refuted straight up (ZeroDivisionError) and at rest (nan)."
  },
  {
   "property": "C78",
   "status": "partial",
   "theorems": [
    "C78_damped_once_refuted",
    "C78_no_rates_partial"
   ],
   "note": "Refuted for the polynomial model with a pitch rate of 1 rad/s; true without rates."
  },
  {
   "property": "C79",
   "status": "proved",
   "theorems": [
    "C79_turn",
    "C79_pull_up",
    "C79_climb"
   ],
   "note": "Exact arithmetic. Pull up heading and climb statements need zero bank (and zero sideslip for the climb rate)."
  },
  {
   "property": "C80",
   "status": "partial",
   "theorems": [
    "C80_y_value_refuted",
    "C80_only_y_partial"
   ],
   "note": "Refuted: later steps write into the same array; nothing else is written."
  },
  {
   "property": "C81",
   "status": "partial",
   "theorems": [
    "C81_negative_refuted",
    "C81_beyond_refuted"
   ],
   "note": "Refuted for -1 and for an index past the last aircraft; a result of a single aircraft rejects every index but 0 (C66_one)."
  },
  {
   "property": "C82",
   "status": "partial",
   "theorems": [
    "C82_same_equation_refuted",
    "C82_unlimited_partial",
    "C82_solvers_exist"
   ],
   "note": "Proved for dynamics without state or derivative limits; refuted with limits: RK45_JAX integrates the raw derivative."
  },
  {
   "property": "C83",
   "status": "partial",
   "theorems": [
    "C83_noticed_refuted",
    "C83_poisons",
    "C83_contagious_binary64",
    "C83_silent"
   ],
   "note": "Refuted in binary64. The poisoning law is proved for the CWH spacecraft with Euler integration, the missing warning for every entity."
  },
  {
   "property": "C84",
   "status": "proved",
   "theorems": [
    "C84_closed_form_solves",
    "C84_unique",
    "C84_times_add",
    "C84_steps",
    "C84_step_sizes_do_not_matter",
    "C84_exact_solver_exists"
   ],
   "note": ""
  },
  {
   "property": "C85",
   "status": "proved",
   "theorems": [
    "C85_euler_converges"
   ],
   "note": ""
  },
  {
   "property": "C86",
   "status": "proved",
   "theorems": [
    "C86_drift_per_orbit",
    "C86_closed_iff",
    "C86_bounded_iff"
   ],
   "note": ""
  },
  {
   "property": "C87",
   "status": "proved",
   "theorems": [
    "C87_terminal_speed",
    "C87_speed_gain",
    "C87_approaches_terminal"
   ],
   "note": ""
  },
  {
   "property": "C88",
   "status": "proved",
   "theorems": [
    "C88_slew"
   ],
   "note": ""
  },
  {
   "property": "C89",
   "status": "proved",
   "theorems": [
    "C89_turn2d",
    "C89_circle2d",
    "C89_straight2d",
    "C89_steps2d",
    "C89_exact_solver_exists",
    "C89_turn3d"
   ],
   "note": ""
  },
  {
   "property": "C90",
   "status": "proved",
   "theorems": [
    "C90_closed_form_solves",
    "C90_unique",
    "C90_steps",
    "C90_times_add",
    "C90_turn",
    "C90_exact_solver_exists"
   ],
   "note": "Exact arithmetic and casts. Uniqueness for equal inertias; RK45 steps with a solver without error."
  },
  {
   "property": "C91",
   "status": "partial",
   "theorems": [
    "C91_thrust_bounded_refuted",
    "C91_thrust_magnitude"
   ],
   "note": "Refuted with Euler integration for every bound (the stored quaternion's norm grows and scales the thrust); exact law proved."
  },
  {
   "property": "C92",
   "status": "partial",
   "theorems": [
    "C92_equations_keep_amplitudes",
    "C92_euler_growth",
    "C92_small_steps_partial",
    "C92_bounded_refuted"
   ],
   "note": "Refuted for the Euler method for every bound; exact growth law proved, and that it vanishes with the step size. The equations themselves keep both amplitudes."
  },
  {
   "property": "C93",
   "status": "proved",
   "theorems": [
    "C93_closed_form_solves",
    "C93_unique",
    "C93_steps",
    "C93_exact_solver_exists",
    "C93_terminal_velocity"
   ],
   "note": "Exact arithmetic, any float32 cast. RK45 steps with a solver without error."
  },
  {
   "property": "C94",
   "status": "proved",
   "theorems": [
    "C94_dubins2d",
    "C94_dubins3d",
    "C94_cwh",
    "C94_rotation2d",
    "C94_sixdof",
    "C94_integrator1d",
    "C94_integrator2d",
    "C94_integrator3d",
    "C94_runge_kutta"
   ],
   "note": "Exact arithmetic, casts included as identity; adaptive step control relative to |state| is outside blind_solver."
  },
  {
   "property": "C95",
   "status": "proved",
   "theorems": [
    "C95_energy"
   ],
   "note": "Exact arithmetic."
  },
  {
   "property": "C96",
   "status": "partial",
   "theorems": [
    "C96_mirror_partial",
    "C96_steady_partial",
    "C96_engine_refuted",
    "C96_polynomial_refuted",
    "C96_table_refuted"
   ],
   "note": "Proved without sideslip or with centred lateral controls (table model), the engine's gyroscopic moment taken out. Refuted by the engine, by even powers of sideslip in the Morelli polynomials and by asymmetric aileron tables."
  },
  {
   "property": "C97",
   "status": "proved",
   "theorems": [
    "C97_fleet",
    "C97_independent"
   ],
   "note": "Any numeric instance and solver; reading state_dot by reference (C70) is not among the operations."
  },
  {
   "property": "C98",
   "status": "partial",
   "theorems": [
    "C98_refuted",
    "C98_unhashable_partial"
   ],
   "note": "Refuted: __eq__ is defined without __hash__, so Python sets __hash__ to None for every vehicle. Exactly the classes comparing by identity are hashable."
  },
  {
   "property": "C99",
   "status": "partial",
   "theorems": [
    "C99_refuted",
    "C99_undocumented_partial",
    "C99_jax_partial"
   ],
   "note": "Refuted by an unknown method, samples with Euler, and RK45_JAX for vehicles without use_jax; every undocumented combination fails at every step and changes nothing."
  },
  {
   "property": "C100",
   "status": "proved",
   "theorems": [
    "C100_dubins2d",
    "C100_runge_kutta",
    "C100_dubins3d"
   ],
   "note": "Exact arithmetic. Dubins3d: Euler steps, positive speeds and roll limits below a quarter turn (at a quarter turn the turn rate is not finite)."
  },
  {
   "property": "C101",
   "status": "proved",
   "theorems": [
    "C101_dubins2d",
    "C101_dubins3d",
    "C101_cwh",
    "C101_rotation2d",
    "C101_sixdof",
    "C101_integrator1d",
    "C101_integrator2d",
    "C101_integrator3d",
    "C101_runge_kutta"
   ],
   "note": "Exact arithmetic, symmetric limits. Dubins3d: Euler steps. Integrators: the bodies of the abstract classes (C35)."
  },
  {
   "property": "C102",
   "status": "partial",
   "theorems": [
    "C102_stevens",
    "C102_closed_loop_stevens",
    "C102_default_model_refuted"
   ],
   "note": "Holds for the tabulated model to within 0.001 ft/s^2, 3e-5 rad/s, 3e-5 rad/s^2. Refuted for the polynomial model, which controlled_f16 uses by default: it is trimmed elsewhere."
  },
  {
   "property": "C103",
   "status": "proved",
   "theorems": [
    "C103_equations",
    "C103_step",
    "C103_coasting",
    "C103_euler_error"
   ],
   "note": "The adaptive solver is a parameter of the model; the step theorems assume it makes no error."
  },
  {
   "property": "C104",
   "status": "proved",
   "theorems": [
    "C104_equations",
    "C104_conserved",
    "C104_step"
   ],
   "note": "Rates strictly below the limits along the solution; diagonal inertia. The step theorem assumes an adaptive solver without error. Euler steps do not keep the angular momentum (C104_euler_ex)."
  },
  {
   "property": "C105",
   "status": "proved",
   "theorems": [
    "C105_dubins2d_euler",
    "C105_dubins3d_euler",
    "C105_dubins2d_any_solver",
    "C105_dubins3d_any_solver"
   ],
   "note": ""
  },
  {
   "property": "C106",
   "status": "proved",
   "theorems": [
    "C106_step",
    "C106_run",
    "C106_long"
   ],
   "note": ""
  },
  {
   "property": "C107",
   "status": "proved",
   "theorems": [
    "C107_dubins2d",
    "C107_dubins3d",
    "C107_rot2d"
   ],
   "note": ""
  },
  {
   "property": "C108",
   "status": "proved",
   "theorems": [
    "C108_autonomous",
    "C108_split",
    "C108_run",
    "C108_rest_euler",
    "C108_rest_rk45",
    "C108_rest_dubins2d"
   ],
   "note": "Splitting assumes an adaptive solver without error; for Euler it fails (C108_euler_differs)."
  },
  {
   "property": "C109",
   "status": "partial",
   "theorems": [
    "C109_accepted_partial",
    "C109_mass_refuted",
    "C109_crossed_speeds",
    "C109_negative_inertia"
   ],
   "note": "Refuted: only zero masses (and zero inertia of the planar spacecraft) are rejected. Negative mass reverses thrust; crossed speed limits end every step below the minimum; negative inertia turns the spacecraft uncommanded."
  },
  {
   "property": "C110",
   "status": "partial",
   "theorems": [
    "C110_step",
    "C110_restore",
    "C110_rebuild_partial",
    "C110_rebuild_refuted"
   ],
   "note": "Restoring through the state setter is proved for all number types and solvers. Rebuilding through the constructor is refuted: the constructor rounds to float32."
  },
  {
   "property": "C111",
   "status": "proved",
   "theorems": [
    "C111_motion",
    "C111_partner",
    "C111_none"
   ],
   "note": ""
  },
  {
   "property": "C112",
   "status": "proved",
   "theorems": [
    "C112_step",
    "C112_any_order",
    "C112_integrator",
    "C112_run"
   ],
   "note": ""
  },
  {
   "property": "C113",
   "status": "proved",
   "theorems": [
    "C113_pi",
    "C113_wrap",
    "C113_fly"
   ],
   "note": ""
  },
  {
   "property": "C114",
   "status": "proved",
   "theorems": [
    "C114_fly3"
   ],
   "note": ""
  },
  {
   "property": "C115",
   "status": "partial",
   "theorems": [
    "C115_refuted",
    "C115_fly_partial",
    "C115_dot3",
    "C115_fly3_partial"
   ],
   "note": "Refuted: the first Euler step of a new aircraft is single precision. Proved with the corresponding extra error, for both aircraft and runs of any length."
  },
  {
   "property": "C116",
   "status": "partial",
   "theorems": [
    "C116_refuted",
    "C116_rot2d_partial",
    "C116_sixdof_partial"
   ],
   "note": "Refuted: rates are cast to float32 in every step. Proved for every Euler step of CWHRotation2dSpacecraft and SixDOFSpacecraft with single-precision error bounds."
  },
  {
   "property": "C117",
   "status": "proved",
   "theorems": [
    "C117_orbit"
   ],
   "note": "Euler integration, from a new CWHSpacecraft (float32 state, float64 matrices). The adaptive solver is external code; C84 says what holds when it makes no error."
  },
  {
   "property": "C118",
   "status": "proved",
   "theorems": [
    "C118_moves",
    "C118_path"
   ],
   "note": "Euler integration, two-dimensional aircraft, state assigned as a float64 array (C121 has the new aircraft) and within the speed limits."
  },
  {
   "property": "C119",
   "status": "proved",
   "theorems": [
    "C119_coast"
   ],
   "note": "Euler integration. The classes Integrator1d/2d/3d cannot be instantiated (C35); the theorem is about any entity with IntegratorDynamics and scalar control limits, which is what a working subclass has."
  },
  {
   "property": "C120",
   "status": "proved",
   "theorems": [
    "C120_moves",
    "C120_path"
   ],
   "note": "Euler integration, three-dimensional aircraft, state assigned as a float64 array (C121 has the new aircraft) and within the limits."
  },
  {
   "property": "C121",
   "status": "proved",
   "theorems": [
    "C121_path2",
    "C121_path3"
   ],
   "note": "Euler integration; the constructor arguments are taken at their float32 values, which is what the aircraft stores. Three dimensions: speeds of at least 1 ft/s."
  },
  {
   "property": "C122",
   "status": "proved",
   "theorems": [
    "C122_steer"
   ],
   "note": "Euler integration, positive moment of inertia, rotation rate within its limit at the start, attitude compared modulo whole turns. The comparison is with the exact Euler flight, not with the continuous motion."
  },
  {
   "property": "C123",
   "status": "partial",
   "theorems": [
    "C123_position",
    "C123_velocity",
    "C123_rotation",
    "C123_aliases",
    "C123_zeros",
    "C123_unknown",
    "C123_flat_partial",
    "C123_three_numbers_refuted",
    "C123_quaternion_partial",
    "C123_quaternion_refuted"
   ],
   "note": "Proved for position (6 classes), velocity (4 classes; the velocity of an aircraft is computed from heading and speed, C38), angular velocity, the planar quaternion, aliases and zero components. Refuted: Integrator1d/2d return one and two elements; the quaternion of a SixDOFSpacecraft is normalised while q1..q4 are not."
  },
  {
   "property": "C124",
   "status": "proved",
   "theorems": [
    "C124_isinstance",
    "C124_interface",
    "C124_user_class"
   ],
   "note": "Single inheritance; user classes add members and do not declare abstract ones."
  },
  {
   "property": "C125",
   "status": "proved",
   "theorems": [
    "C125_rates",
    "C125_commands",
    "C125_six_rates",
    "C125_six_commands"
   ],
   "note": "Only the angular rates and the command limits; the six-degree-of-freedom angular acceleration is not limited by the code beyond its command limits."
  },
  {
   "property": "C126",
   "status": "proved",
   "theorems": [
    "C126_point",
    "C126_rotational",
    "C126_sun"
   ],
   "note": "Exact arithmetic; the rotational equations while the spin is below its limit and the moment within its limit."
  }
 ]
}