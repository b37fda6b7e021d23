(** Test vectors of the planar rotating spacecraft. See Golden.v. *)
From Coq Require Import String List Bool ZArith SpecFloat.
From Verif Require Import PyBase Num Arr BaseModel Cwh Utils Rot2d SixDof Sun Dubins Classes Units Golden.
Import List ListNotations.
Local Open Scope string_scope.
Local Open Scope list_scope.
Local Hint Extern 0 (Num sf) => exact SF : typeclass_instances.

(** test/test_cases/CWHRotation2dSpacecraft_test_cases.yaml. *)
Definition rot2d_cases : list case := [
  (* At_origin_stationary *)
   mk_case (mk_spec CWHRotation2dSpacecraftC p_rot2d [] (Some [(fl 0 1); (fl 0 1); (fl 0 1); (fl 0 1); (fl 0 1); (fl 0 1)]))
     ANone 10
     [("position", [(fl 0 1); (fl 0 1); (fl 0 1)], false); ("theta", [(fl 0 1)], false); ("velocity", [(fl 0 1); (fl 0 1); (fl 0 1)], false); ("wz", [(fl 0 1)], false)] (fl 1 10000) (fl 0 1);
  (* At_origin_moving_positive_x *)
   mk_case (mk_spec CWHRotation2dSpacecraftC p_rot2d [] (Some [(fl 0 1); (fl 0 1); (fl 0 1); (fl 2 1); (fl 0 1); (fl 0 1)]))
     ANone 10
     [("position", [(fl 19999648425520753 1000000000000000); (fl (-1026990973310217) 5000000000000000); (fl 0 1)], false); ("theta", [(fl 0 1)], false); ("velocity", [(fl 1999894528027041 1000000000000000); (fl (-2053963893300981) 50000000000000000); (fl 0 1)], false); ("wz", [(fl 0 1)], false)] (fl 1 10000) (fl 0 1);
  (* At_origin_moving_negative_x *)
   mk_case (mk_spec CWHRotation2dSpacecraftC p_rot2d [] (Some [(fl 0 1); (fl 0 1); (fl 0 1); (fl (-2) 1); (fl 0 1); (fl 0 1)]))
     ANone 10
     [("position", [(fl (-19999648425520753) 1000000000000000); (fl 1026990973310217 5000000000000000); (fl 0 1)], false); ("theta", [(fl 0 1)], false); ("velocity", [(fl (-1999894528027041) 1000000000000000); (fl 2053963893300981 50000000000000000); (fl 0 1)], false); ("wz", [(fl 0 1)], false)] (fl 1 10000) (fl 0 1);
  (* At_origin_moving_positive_y *)
   mk_case (mk_spec CWHRotation2dSpacecraftC p_rot2d [] (Some [(fl 0 1); (fl 0 1); (fl 0 1); (fl 0 1); (fl 2 1); (fl 0 1)]))
     ANone 10
     [("position", [(fl 1026990973310217 5000000000000000); (fl 1999859370208301 100000000000000); (fl 0 1)], false); ("theta", [(fl 0 1)], false); ("velocity", [(fl 2053963893300981 50000000000000000); (fl 9997890560540821 5000000000000000); (fl 0 1)], false); ("wz", [(fl 0 1)], false)] (fl 1 10000) (fl 0 1);
  (* At_origin_moving_negative_y *)
   mk_case (mk_spec CWHRotation2dSpacecraftC p_rot2d [] (Some [(fl 0 1); (fl 0 1); (fl 0 1); (fl 0 1); (fl (-2) 1); (fl 0 1)]))
     ANone 10
     [("position", [(fl (-1026990973310217) 5000000000000000); (fl (-1999859370208301) 100000000000000); (fl 0 1)], false); ("theta", [(fl 0 1)], false); ("velocity", [(fl (-2053963893300981) 50000000000000000); (fl (-9997890560540821) 5000000000000000); (fl 0 1)], false); ("wz", [(fl 0 1)], false)] (fl 1 10000) (fl 0 1);
  (* At_origin_rotating_positive_z *)
   mk_case (mk_spec CWHRotation2dSpacecraftC p_rot2d [] (Some [(fl 0 1); (fl 0 1); (fl 0 1); (fl 0 1); (fl 0 1); (fl 1 50)]))
     ANone 10
     [("position", [(fl 0 1); (fl 0 1); (fl 0 1)], false); ("theta", [(fl 1 5)], false); ("velocity", [(fl 0 1); (fl 0 1); (fl 0 1)], false); ("wz", [(fl 1 50)], false)] (fl 1 10000) (fl 0 1);
  (* At_origin_rotating_negative_z *)
   mk_case (mk_spec CWHRotation2dSpacecraftC p_rot2d [] (Some [(fl 0 1); (fl 0 1); (fl 0 1); (fl 0 1); (fl 0 1); (fl (-1) 50)]))
     ANone 10
     [("position", [(fl 0 1); (fl 0 1); (fl 0 1)], false); ("theta", [(fl (-1) 5)], false); ("velocity", [(fl 0 1); (fl 0 1); (fl 0 1)], false); ("wz", [(fl (-1) 50)], false)] (fl 1 10000) (fl 0 1);
  (* At_origin_moving_all_directions *)
   mk_case (mk_spec CWHRotation2dSpacecraftC p_rot2d [] (Some [(fl 0 1); (fl 0 1); (fl 0 1); (fl 3 1); (fl (-4) 1); (fl 0 1)]))
     ANone 10
     [("position", [(fl 29588676248957043 1000000000000000); (fl (-10076321174039771) 250000000000000); (fl 0 1)], false); ("theta", [(fl 0 1)], false); ("velocity", [(fl 29176832363085223 10000000000000000); (fl (-2030387570507679) 500000000000000); (fl 0 1)], false); ("wz", [(fl 0 1)], false)] (fl 1 10000) (fl 0 1);
  (* At_positive_point_1_stationary *)
   mk_case (mk_spec CWHRotation2dSpacecraftC p_rot2d [] (Some [(fl 1795 1); (fl 293 1); (fl 0 1); (fl 0 1); (fl 0 1); (fl 0 1)]))
     ANone 10
     [("position", [(fl 224410497910899 125000000000); (fl 1464990278271289 5000000000000); (fl 0 1)], false); ("theta", [(fl 0 1)], false); ("velocity", [(fl 5679615822846139 100000000000000000); (fl (-2916508359461817) 5000000000000000000); (fl 0 1)], false); ("wz", [(fl 0 1)], false)] (fl 1 5000) (fl 0 1);
  (* At_positive_point_2_stationary *)
   mk_case (mk_spec CWHRotation2dSpacecraftC p_rot2d [] (Some [(fl (-424) 1); (fl (-342) 1); (fl 0 1); (fl 0 1); (fl 0 1); (fl 0 1)]))
     ANone 10
     [("position", [(fl (-4240670801748019) 10000000000000); (fl (-683999081445577) 2000000000000); (fl 0 1)], false); ("theta", [(fl 0 1)], false); ("velocity", [(fl (-13415917041151883) 1000000000000000000); (fl 6889133952154933 50000000000000000000); (fl 0 1)], false); ("wz", [(fl 0 1)], false)] (fl 1 10000) (fl 0 1);
  (* At_positive_point_3_stationary *)
   mk_case (mk_spec CWHRotation2dSpacecraftC p_rot2d [] (Some [(fl (-241) 1); (fl 1932 1); (fl 0 1); (fl 0 1); (fl 0 1); (fl 0 1)]))
     ANone 10
     [("position", [(fl (-6025953202955617) 25000000000000); (fl 19320002610514339 10000000000000); (fl 0 1)], false); ("theta", [(fl 0 1)], false); ("velocity", [(fl (-476597288755543) 62500000000000000); (fl 3915757741672969 50000000000000000000); (fl 0 1)], false); ("wz", [(fl 0 1)], false)] (fl 1 5000) (fl 0 1);
  (* At_positive_point_1_moving *)
   mk_case (mk_spec CWHRotation2dSpacecraftC p_rot2d [] (Some [(fl 1795 1); (fl 293 1); (fl 0 1); (fl 140824763 50000000); (fl (-441614603) 100000000); (fl 0 1)]))
     ANone 10
     [("position", [(fl 911497453286151 500000000000); (fl 24855044904190027 100000000000000); (fl 0 1)], false); ("theta", [(fl 0 1)], false); ("velocity", [(fl 27824368426408657 10000000000000000); (fl (-8947295136199017) 2000000000000000); (fl 0 1)], false); ("wz", [(fl 0 1)], false)] (fl 1 10000) (fl 0 1);
  (* At_positive_point_2_moving *)
   mk_case (mk_spec CWHRotation2dSpacecraftC p_rot2d [] (Some [(fl (-424) 1); (fl (-342) 1); (fl 0 1); (fl 33033103 10000000); (fl (-1706746379) 100000000); (fl 0 1)]))
     ANone 10
     [("position", [(fl (-19639368548978203) 50000000000000); (fl (-5130014246394147) 10000000000000); (fl 0 1)], false); ("theta", [(fl 0 1)], false); ("velocity", [(fl 29391606358827103 10000000000000000); (fl (-8565787265003987) 500000000000000); (fl 0 1)], false); ("wz", [(fl 0 1)], false)] (fl 1 10000) (fl 0 1);
  (* At_positive_point_3_moving *)
   mk_case (mk_spec CWHRotation2dSpacecraftC p_rot2d [] (Some [(fl (-241) 1); (fl 1932 1); (fl 0 1); (fl (-565837819) 50000000); (fl (-1437759259) 100000000); (fl 0 1)]))
     ANone 10
     [("position", [(fl (-35568026835764533) 100000000000000); (fl 17893966654056303 10000000000000); (fl 0 1)], false); ("theta", [(fl 0 1)], false); ("velocity", [(fl (-290477392420829) 25000000000000); (fl (-14142039318793397) 1000000000000000); (fl 0 1)], false); ("wz", [(fl 0 1)], false)] (fl 1 10000) (fl 0 1);
  (* At_origin_stationary_max_trans_control *)
   mk_case (mk_spec CWHRotation2dSpacecraftC p_rot2d [] (Some [(fl 0 1); (fl 0 1); (fl 7853981633974483 10000000000000000); (fl 0 1); (fl 0 1); (fl 0 1)]))
     (AList [(fl 1 1); (fl 0 1); (fl 0 1)]) 10
     [("position", [(fl 29664244377394007 10000000000000000); (fl 29260025924353887 10000000000000000); (fl 0 1)], false); ("theta", [(fl 7853981633974483 10000000000000000)], false); ("velocity", [(fl 5952968949717463 10000000000000000); (fl 5831626151936727 10000000000000000); (fl 0 1)], false); ("wz", [(fl 0 1)], false)] (fl 1 10000) (fl 0 1);
  (* At_origin_stationary_min_trans_control *)
   mk_case (mk_spec CWHRotation2dSpacecraftC p_rot2d [] (Some [(fl 0 1); (fl 0 1); (fl 7853981633974483 10000000000000000); (fl 0 1); (fl 0 1); (fl 0 1)]))
     (AList [(fl (-1) 1); (fl 0 1); (fl 0 1)]) 10
     [("position", [(fl (-29664244377394007) 10000000000000000); (fl (-29260025924353887) 10000000000000000); (fl 0 1)], false); ("theta", [(fl 7853981633974483 10000000000000000)], false); ("velocity", [(fl (-5952968949717463) 10000000000000000); (fl (-5831626151936727) 10000000000000000); (fl 0 1)], false); ("wz", [(fl 0 1)], false)] (fl 1 10000) (fl 0 1);
  (* At_origin_stationary_max_trans_control_exceeded *)
   mk_case (mk_spec CWHRotation2dSpacecraftC p_rot2d [] (Some [(fl 0 1); (fl 0 1); (fl 7853981633974483 10000000000000000); (fl 0 1); (fl 0 1); (fl 0 1)]))
     (AList [(fl 11 10); (fl 0 1); (fl 0 1)]) 10
     [("position", [(fl 29664244377394007 10000000000000000); (fl 29260025924353887 10000000000000000); (fl 0 1)], false); ("theta", [(fl 7853981633974483 10000000000000000)], false); ("velocity", [(fl 5952968949717463 10000000000000000); (fl 5831626151936727 10000000000000000); (fl 0 1)], false); ("wz", [(fl 0 1)], false)] (fl 1 10000) (fl 0 1);
  (* At_origin_stationary_min_trans_control_exceeded *)
   mk_case (mk_spec CWHRotation2dSpacecraftC p_rot2d [] (Some [(fl 0 1); (fl 0 1); (fl 7853981633974483 10000000000000000); (fl 0 1); (fl 0 1); (fl 0 1)]))
     (AList [(fl (-11) 10); (fl 0 1); (fl 0 1)]) 10
     [("position", [(fl (-29664244377394007) 10000000000000000); (fl (-29260025924353887) 10000000000000000); (fl 0 1)], false); ("theta", [(fl 7853981633974483 10000000000000000)], false); ("velocity", [(fl (-5952968949717463) 10000000000000000); (fl (-5831626151936727) 10000000000000000); (fl 0 1)], false); ("wz", [(fl 0 1)], false)] (fl 1 10000) (fl 0 1);
  (* At_origin_stationary_max_rot_control *)
   mk_case (mk_spec CWHRotation2dSpacecraftC p_rot2d [] (Some [(fl 0 1); (fl 0 1); (fl 0 1); (fl 0 1); (fl 0 1); (fl 0 1)]))
     (AList [(fl 0 1); (fl 0 1); (fl 1 1000)]) 10
     [("position", [(fl 0 1); (fl 0 1); (fl 0 1)], false); ("theta", [(fl 251343974419949 800000000000000)], false); ("velocity", [(fl 0 1); (fl 0 1); (fl 0 1)], false); ("wz", [(fl 3490763657395811 100000000000000000)], false)] (fl 1 10000) (fl 0 1);
  (* At_origin_stationary_min_rot_control *)
   mk_case (mk_spec CWHRotation2dSpacecraftC p_rot2d [] (Some [(fl 0 1); (fl 0 1); (fl 0 1); (fl 0 1); (fl 0 1); (fl 0 1)]))
     (AList [(fl 0 1); (fl 0 1); (fl (-1) 1000)]) 10
     [("position", [(fl 0 1); (fl 0 1); (fl 0 1)], false); ("theta", [(fl (-251343974419949) 800000000000000)], false); ("velocity", [(fl 0 1); (fl 0 1); (fl 0 1)], false); ("wz", [(fl (-3490763657395811) 100000000000000000)], false)] (fl 1 10000) (fl 0 1);
  (* At_origin_stationary_max_rot_control_exceeded *)
   mk_case (mk_spec CWHRotation2dSpacecraftC p_rot2d [] (Some [(fl 0 1); (fl 0 1); (fl 0 1); (fl 0 1); (fl 0 1); (fl 0 1)]))
     (AList [(fl 0 1); (fl 0 1); (fl 11 10000)]) 10
     [("position", [(fl 0 1); (fl 0 1); (fl 0 1)], false); ("theta", [(fl 251343974419949 800000000000000)], false); ("velocity", [(fl 0 1); (fl 0 1); (fl 0 1)], false); ("wz", [(fl 3490763657395811 100000000000000000)], false)] (fl 1 10000) (fl 0 1);
  (* At_origin_stationary_min_rot_control_exceeded *)
   mk_case (mk_spec CWHRotation2dSpacecraftC p_rot2d [] (Some [(fl 0 1); (fl 0 1); (fl 0 1); (fl 0 1); (fl 0 1); (fl 0 1)]))
     (AList [(fl 0 1); (fl 0 1); (fl (-11) 10000)]) 10
     [("position", [(fl 0 1); (fl 0 1); (fl 0 1)], false); ("theta", [(fl (-251343974419949) 800000000000000)], false); ("velocity", [(fl 0 1); (fl 0 1); (fl 0 1)], false); ("wz", [(fl (-3490763657395811) 100000000000000000)], false)] (fl 1 10000) (fl 0 1);
  (* random_inputs_1 *)
   mk_case (mk_spec CWHRotation2dSpacecraftC p_rot2d [] (Some [(fl 18921655807384843 50000000000000); (fl (-2247866312479851) 2500000000000); (fl (-89655576349721) 50000000000000); (fl 3686943180251639 500000000000000); (fl (-1077411839334847) 200000000000000); (fl 0 1)]))
     (AList [(fl 95607915739619 250000000000000); (fl 0 1); (fl 0 1)]) 15
     [("position", [(fl 2435502700117517 5000000000000); (fl (-9851335654807021) 10000000000000); (fl 0 1)], false); ("theta", [(fl (-89655576349721) 50000000000000)], false); ("velocity", [(fl 14224845242104557 2000000000000000); (fl (-3038268456762431) 500000000000000); (fl 0 1)], false); ("wz", [(fl 0 1)], false)] (fl 1 5000) (fl 0 1);
  (* random_inputs_2 *)
   mk_case (mk_spec CWHRotation2dSpacecraftC p_rot2d [] (Some [(fl 4010710014944277 10000000000000); (fl (-2624091345523891) 5000000000000); (fl (-54055024789003) 25000000000000); (fl (-9575557314121877) 1000000000000000); (fl 6880063127211869 1000000000000000); (fl 0 1)]))
     (AList [(fl 98192245576019 200000000000000); (fl 0 1); (fl 0 1)]) 59
     [("position", [(fl (-17882135098778141) 100000000000000); (fl (-1431947617073997) 10000000000000); (fl 0 1)], false); ("theta", [(fl (-54055024789003) 25000000000000)], false); ("velocity", [(fl (-2529068172931629) 250000000000000); (fl 6067248813772067 1000000000000000); (fl 0 1)], false); ("wz", [(fl 0 1)], false)] (fl 1 10000) (fl 0 1);
  (* random_inputs_3 *)
   mk_case (mk_spec CWHRotation2dSpacecraftC p_rot2d [] (Some [(fl (-5231457315141807) 10000000000000); (fl (-1243756351577967) 5000000000000); (fl (-232712291630819) 100000000000000); (fl 10482183939386033 2000000000000000); (fl (-11535051132203943) 2000000000000000); (fl 0 1)]))
     (AList [(fl 54826101261491 62500000000000); (fl 0 1); (fl 0 1)]) 59
     [("position", [(fl (-3286284534075677) 10000000000000); (fl (-1739305210557267) 2500000000000); (fl 0 1)], false); ("theta", [(fl (-232712291630819) 100000000000000)], false); ("velocity", [(fl 514932198395279 400000000000000); (fl (-9304165801081503) 1000000000000000); (fl 0 1)], false); ("wz", [(fl 0 1)], false)] (fl 1 10000) (fl 0 1);
  (* random_inputs_4 *)
   mk_case (mk_spec CWHRotation2dSpacecraftC p_rot2d [] (Some [(fl 47996046036650023 100000000000000); (fl (-7940299190461053) 10000000000000); (fl 366329523081651 62500000000000); (fl (-371132781978843) 400000000000000); (fl 6843239152043321 1000000000000000); (fl (-863101599731071) 25000000000000000)]))
     (AList [(fl (-6000695913267351) 25000000000000000); (fl 0 1); (fl 277856027499783 1250000000000000000)]) 85
     [("position", [(fl 3983944960655981 10000000000000); (fl (-2045637189681981) 10000000000000); (fl 0 1)], false); ("theta", [(fl 19238417801698553 10000000000000000)], false); ("velocity", [(fl (-1698386830719191) 2500000000000000); (fl 3233968310671159 500000000000000); (fl 0 1)], false); ("wz", [(fl 8729808248545589 250000000000000000)], false)] (fl 1 10000) (fl 0 1);
  (* At_origin_stationary_max_trans_control_y_thrust_only *)
   mk_case (mk_spec CWHRotation2dSpacecraftC p_rot2d [] (Some [(fl 0 1); (fl 0 1); (fl (-7853981633974483) 10000000000000000); (fl 0 1); (fl 0 1); (fl 0 1)]))
     (AList [(fl 0 1); (fl 1 1); (fl 0 1)]) 10
     [("position", [(fl 29664244377394007 10000000000000000); (fl 29260025924353887 10000000000000000); (fl 0 1)], false); ("theta", [(fl (-7853981633974483) 10000000000000000)], false); ("velocity", [(fl 5952968949717463 10000000000000000); (fl 5831626151936727 10000000000000000); (fl 0 1)], false); ("wz", [(fl 0 1)], false)] (fl 1 10000) (fl 0 1);
  (* At_origin_stationary_min_trans_control_y_thrust_only *)
   mk_case (mk_spec CWHRotation2dSpacecraftC p_rot2d [] (Some [(fl 0 1); (fl 0 1); (fl (-7853981633974483) 10000000000000000); (fl 0 1); (fl 0 1); (fl 0 1)]))
     (AList [(fl 0 1); (fl (-1) 1); (fl 0 1)]) 10
     [("position", [(fl (-29664244377394007) 10000000000000000); (fl (-29260025924353887) 10000000000000000); (fl 0 1)], false); ("theta", [(fl (-7853981633974483) 10000000000000000)], false); ("velocity", [(fl (-5952968949717463) 10000000000000000); (fl (-5831626151936727) 10000000000000000); (fl 0 1)], false); ("wz", [(fl 0 1)], false)] (fl 1 10000) (fl 0 1);
  (* At_origin_stationary_max_trans_control_exceeded_y_thrust_only *)
   mk_case (mk_spec CWHRotation2dSpacecraftC p_rot2d [] (Some [(fl 0 1); (fl 0 1); (fl (-7853981633974483) 10000000000000000); (fl 0 1); (fl 0 1); (fl 0 1)]))
     (AList [(fl 0 1); (fl 11 10); (fl 0 1)]) 10
     [("position", [(fl 29664244377394007 10000000000000000); (fl 29260025924353887 10000000000000000); (fl 0 1)], false); ("theta", [(fl (-7853981633974483) 10000000000000000)], false); ("velocity", [(fl 5952968949717463 10000000000000000); (fl 5831626151936727 10000000000000000); (fl 0 1)], false); ("wz", [(fl 0 1)], false)] (fl 1 10000) (fl 0 1);
  (* At_origin_stationary_min_trans_control_exceeded_y_thrust_only *)
   mk_case (mk_spec CWHRotation2dSpacecraftC p_rot2d [] (Some [(fl 0 1); (fl 0 1); (fl (-7853981633974483) 10000000000000000); (fl 0 1); (fl 0 1); (fl 0 1)]))
     (AList [(fl 0 1); (fl (-11) 10); (fl 0 1)]) 10
     [("position", [(fl (-29664244377394007) 10000000000000000); (fl (-29260025924353887) 10000000000000000); (fl 0 1)], false); ("theta", [(fl (-7853981633974483) 10000000000000000)], false); ("velocity", [(fl (-5952968949717463) 10000000000000000); (fl (-5831626151936727) 10000000000000000); (fl 0 1)], false); ("wz", [(fl 0 1)], false)] (fl 1 10000) (fl 0 1);
  (* random_inputs_1_y_thrust_only *)
   mk_case (mk_spec CWHRotation2dSpacecraftC p_rot2d [] (Some [(fl 18921655807384843 50000000000000); (fl (-2247866312479851) 2500000000000); (fl 5838554906780539 2000000000000000); (fl 3686943180251639 500000000000000); (fl (-1077411839334847) 200000000000000); (fl 0 1)]))
     (AList [(fl 0 1); (fl 95607915739619 250000000000000); (fl 0 1)]) 15
     [("position", [(fl 2435502700117517 5000000000000); (fl (-9851335654807021) 10000000000000); (fl 0 1)], false); ("theta", [(fl 5838554906780539 2000000000000000)], false); ("velocity", [(fl 14224845242104557 2000000000000000); (fl (-3038268456762431) 500000000000000); (fl 0 1)], false); ("wz", [(fl 0 1)], false)] (fl 1 5000) (fl 0 1);
  (* random_inputs_2_y_thrust_only *)
   mk_case (mk_spec CWHRotation2dSpacecraftC p_rot2d [] (Some [(fl 4010710014944277 10000000000000); (fl (-2624091345523891) 5000000000000); (fl 255018798882457 100000000000000); (fl (-9575557314121877) 1000000000000000); (fl 6880063127211869 1000000000000000); (fl 0 1)]))
     (AList [(fl 0 1); (fl 98192245576019 200000000000000); (fl 0 1)]) 59
     [("position", [(fl (-17882135098778141) 100000000000000); (fl (-1431947617073997) 10000000000000); (fl 0 1)], false); ("theta", [(fl 255018798882457 100000000000000)], false); ("velocity", [(fl (-2529068172931629) 250000000000000); (fl 6067248813772067 1000000000000000); (fl 0 1)], false); ("wz", [(fl 0 1)], false)] (fl 1 10000) (fl 0 1);
  (* random_inputs_3_y_thrust_only *)
   mk_case (mk_spec CWHRotation2dSpacecraftC p_rot2d [] (Some [(fl (-5231457315141807) 10000000000000); (fl (-1243756351577967) 5000000000000); (fl 4770532128153 2000000000000); (fl 10482183939386033 2000000000000000); (fl (-11535051132203943) 2000000000000000); (fl 0 1)]))
     (AList [(fl 0 1); (fl 54826101261491 62500000000000); (fl 0 1)]) 59
     [("position", [(fl (-3286284534075677) 10000000000000); (fl (-1739305210557267) 2500000000000); (fl 0 1)], false); ("theta", [(fl 4770532128153 2000000000000)], false); ("velocity", [(fl 514932198395279 400000000000000); (fl (-9304165801081503) 1000000000000000); (fl 0 1)], false); ("wz", [(fl 0 1)], false)] (fl 1 10000) (fl 0 1);
  (* random_inputs_4_y_thrust_only *)
   mk_case (mk_spec CWHRotation2dSpacecraftC p_rot2d [] (Some [(fl 47996046036650023 100000000000000); (fl (-7940299190461053) 10000000000000); (fl (-9963546323340333) 5000000000000000); (fl (-371132781978843) 400000000000000); (fl 6843239152043321 1000000000000000); (fl (-863101599731071) 25000000000000000)]))
     (AList [(fl 0 1); (fl (-6000695913267351) 25000000000000000); (fl 277856027499783 1250000000000000000)]) 85
     [("position", [(fl 3983944960655981 10000000000000); (fl (-2045637189681981) 10000000000000); (fl 0 1)], false); ("theta", [(fl 17652272668747937 50000000000000000)], false); ("velocity", [(fl (-1698386830719191) 2500000000000000); (fl 3233968310671159 500000000000000); (fl 0 1)], false); ("wz", [(fl 8729808248545589 250000000000000000)], false)] (fl 1 10000) (fl 0 1);
  (* test pint init random state 1 native units *)
   mk_case (mk_spec CWHRotation2dSpacecraftC p_rot2d [("x", CQty {| q_mag := (fl 134081 250); q_unit := meter |}); ("y", CQty {| q_mag := (fl (-92264) 125); q_unit := meter |}); ("x_dot", CQty {| q_mag := (fl (-37) 10); q_unit := mps |}); ("y_dot", CQty {| q_mag := (fl (-17) 1); q_unit := mps |}); ("theta", CQty {| q_mag := (fl 6 5); q_unit := radian |}); ("wz", CQty {| q_mag := (fl 3 100); q_unit := rps |})] (None))
     ANone 0
     [("position", [(fl 134081 250); (fl (-92264) 125); (fl 0 1)], false); ("velocity", [(fl (-37) 10); (fl (-17) 1); (fl 0 1)], false); ("theta", [(fl 6 5)], false); ("wz", [(fl 3 100)], false)] (fl 1 10000) (fl 0 1);
  (* test pint init random state 1 alternate units *)
   mk_case (mk_spec CWHRotation2dSpacecraftC p_rot2d [("x", CQty {| q_mag := (fl 8331407 25000000); q_unit := u_mile |}); ("y", CQty {| q_mag := (fl (-45864153) 100000000); q_unit := u_mile |}); ("x_dot", CQty {| q_mag := (fl (-206916607) 25000000); q_unit := (unit_div u_mile u_hour) |}); ("y_dot", CQty {| q_mag := (fl (-237674481) 6250000); q_unit := (unit_div u_mile u_hour) |}); ("theta", CQty {| q_mag := (fl 687549 10000); q_unit := u_deg |}); ("wz", CQty {| q_mag := (fl 1718873 1000000); q_unit := (unit_div u_deg second) |})] (None))
     ANone 0
     [("position", [(fl 134081 250); (fl (-92264) 125); (fl 0 1)], false); ("velocity", [(fl (-37) 10); (fl (-17) 1); (fl 0 1)], false); ("theta", [(fl 6 5)], false); ("wz", [(fl 3 100)], false)] (fl 1 10000) (fl 0 1)].
Check ltac:(evaluates_to_true (forallb passes rot2d_cases)) : True.
