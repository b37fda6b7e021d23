(** Test vectors of the point-mass spacecraft, equality and relative measurements. See Golden.v. *)
From Coq Require Import String List Bool ZArith SpecFloat.
From Verif Require Import PyBase Num Arr BaseModel Cwh Utils Rot2d SixDof Sun Dubins Classes Units Golden.
Import List ListNotations.
Local Open Scope string_scope.
Local Open Scope list_scope.
Local Hint Extern 0 (Num sf) => exact SF : typeclass_instances.

(** test/test_cases/CWHSpacecraft_test_cases.yaml. *)
Definition cwh_cases : list case := [
  (* At_origin_stationary *)
   mk_case (mk_spec CWHSpacecraftC p_cwh [] (Some [(fl 0 1); (fl 0 1); (fl 0 1); (fl 0 1); (fl 0 1); (fl 0 1)]))
     ANone 10
     [("position", [(fl 0 1); (fl 0 1); (fl 0 1)], false); ("velocity", [(fl 0 1); (fl 0 1); (fl 0 1)], false)] (fl 1 10000) (fl 0 1);
  (* At_origin_moving_positive_x *)
   mk_case (mk_spec CWHSpacecraftC p_cwh [] (Some [(fl 0 1); (fl 0 1); (fl 0 1); (fl 2 1); (fl 0 1); (fl 0 1)]))
     ANone 10
     [("position", [(fl 19999648425520753 1000000000000000); (fl (-1026990973310217) 5000000000000000); (fl 0 1)], false); ("velocity", [(fl 1999894528027041 1000000000000000); (fl (-2053963893300981) 50000000000000000); (fl 0 1)], false)] (fl 1 10000) (fl 0 1);
  (* At_origin_moving_negative_x *)
   mk_case (mk_spec CWHSpacecraftC p_cwh [] (Some [(fl 0 1); (fl 0 1); (fl 0 1); (fl (-2) 1); (fl 0 1); (fl 0 1)]))
     ANone 10
     [("position", [(fl (-19999648425520753) 1000000000000000); (fl 1026990973310217 5000000000000000); (fl 0 1)], false); ("velocity", [(fl (-1999894528027041) 1000000000000000); (fl 2053963893300981 50000000000000000); (fl 0 1)], false)] (fl 1 10000) (fl 0 1);
  (* At_origin_moving_positive_y *)
   mk_case (mk_spec CWHSpacecraftC p_cwh [] (Some [(fl 0 1); (fl 0 1); (fl 0 1); (fl 0 1); (fl 2 1); (fl 0 1)]))
     ANone 10
     [("position", [(fl 1026990973310217 5000000000000000); (fl 1999859370208301 100000000000000); (fl 0 1)], false); ("velocity", [(fl 2053963893300981 50000000000000000); (fl 9997890560540821 5000000000000000); (fl 0 1)], false)] (fl 1 10000) (fl 0 1);
  (* At_origin_moving_negative_y *)
   mk_case (mk_spec CWHSpacecraftC p_cwh [] (Some [(fl 0 1); (fl 0 1); (fl 0 1); (fl 0 1); (fl (-2) 1); (fl 0 1)]))
     ANone 10
     [("position", [(fl (-1026990973310217) 5000000000000000); (fl (-1999859370208301) 100000000000000); (fl 0 1)], false); ("velocity", [(fl (-2053963893300981) 50000000000000000); (fl (-9997890560540821) 5000000000000000); (fl 0 1)], false)] (fl 1 10000) (fl 0 1);
  (* At_origin_moving_positive_z *)
   mk_case (mk_spec CWHSpacecraftC p_cwh [] (Some [(fl 0 1); (fl 0 1); (fl 0 1); (fl 0 1); (fl 0 1); (fl 2 1)]))
     ANone 10
     [("position", [(fl 0 1); (fl 0 1); (fl 19999648425520753 1000000000000000)], false); ("velocity", [(fl 0 1); (fl 0 1); (fl 1999894528027041 1000000000000000)], false)] (fl 1 10000) (fl 0 1);
  (* At_origin_moving_negative_z *)
   mk_case (mk_spec CWHSpacecraftC p_cwh [] (Some [(fl 0 1); (fl 0 1); (fl 0 1); (fl 0 1); (fl 0 1); (fl (-2) 1)]))
     ANone 10
     [("position", [(fl 0 1); (fl 0 1); (fl (-19999648425520753) 1000000000000000)], false); ("velocity", [(fl 0 1); (fl 0 1); (fl (-1999894528027041) 1000000000000000)], false)] (fl 1 10000) (fl 0 1);
  (* At_origin_moving_all_directions *)
   mk_case (mk_spec CWHSpacecraftC p_cwh [] (Some [(fl 0 1); (fl 0 1); (fl 0 1); (fl 3 1); (fl (-4) 1); (fl 8 1)]))
     ANone 10
     [("position", [(fl 29588676248957043 1000000000000000); (fl (-10076321174039771) 250000000000000); (fl 7999859370208301 100000000000000)], false); ("velocity", [(fl 29176832363085223 10000000000000000); (fl (-2030387570507679) 500000000000000); (fl 1999894528027041 250000000000000)], false)] (fl 1 10000) (fl 0 1);
  (* At_positive_point_1_stationary *)
   mk_case (mk_spec CWHSpacecraftC p_cwh [] (Some [(fl 1795 1); (fl 293 1); (fl 590 1); (fl 0 1); (fl 0 1); (fl 0 1)]))
     ANone 10
     [("position", [(fl 224410497910899 125000000000); (fl 1464990278271289 5000000000000); (fl 5899688857679771 10000000000000)], false); ("velocity", [(fl 5679615822846139 100000000000000000); (fl (-2916508359461817) 5000000000000000000); (fl (-12445583418678633) 2000000000000000000)], false)] (fl 1 10000) (fl 0 1);
  (* At_positive_point_2_stationary *)
   mk_case (mk_spec CWHSpacecraftC p_cwh [] (Some [(fl (-424) 1); (fl (-342) 1); (fl (-748) 1); (fl 0 1); (fl 0 1); (fl 0 1)]))
     ANone 10
     [("position", [(fl (-4240670801748019) 10000000000000); (fl (-683999081445577) 2000000000000); (fl (-3739802767410567) 5000000000000)], false); ("velocity", [(fl (-13415917041151883) 1000000000000000000); (fl 6889133952154933 50000000000000000000); (fl 3944617117445601 500000000000000000)], false)] (fl 1 10000) (fl 0 1);
  (* At_positive_point_3_stationary *)
   mk_case (mk_spec CWHSpacecraftC p_cwh [] (Some [(fl (-241) 1); (fl 1932 1); (fl 738 1); (fl 0 1); (fl 0 1); (fl 0 1)]))
     ANone 10
     [("position", [(fl (-6025953202955617) 25000000000000); (fl 19320002610514339 10000000000000); (fl 3689805404209891 5000000000000)], false); ("velocity", [(fl (-476597288755543) 62500000000000000); (fl 3915757741672969 50000000000000000000); (fl (-1945940797242549) 250000000000000000)], false)] (fl 1 10000) (fl 0 1);
  (* At_positive_point_1_moving *)
   mk_case (mk_spec CWHSpacecraftC p_cwh [] (Some [(fl 1795 1); (fl 293 1); (fl 590 1); (fl 140824763 50000000); (fl (-441614603) 100000000); (fl (-1903240191) 100000000)]))
     ANone 10
     [("position", [(fl 911497453286151 500000000000); (fl 24855044904190027 100000000000000); (fl 3996482123213723 10000000000000)], false); ("velocity", [(fl 27824368426408657 10000000000000000); (fl (-8947295136199017) 2000000000000000); (fl (-9518810504609773) 500000000000000)], false)] (fl 1 10000) (fl 0 1);
  (* At_positive_point_2_moving *)
   mk_case (mk_spec CWHSpacecraftC p_cwh [] (Some [(fl (-424) 1); (fl (-342) 1); (fl (-748) 1); (fl 33033103 10000000); (fl (-1706746379) 100000000); (fl 134766429 12500000)]))
     ANone 10
     [("position", [(fl (-19639368548978203) 50000000000000); (fl (-5130014246394147) 10000000000000); (fl (-1600373263748993) 2500000000000)], false); ("velocity", [(fl 29391606358827103 10000000000000000); (fl (-8565787265003987) 500000000000000); (fl 10788634990988681 1000000000000000)], false)] (fl 1 10000) (fl 0 1);
  (* At_positive_point_3_moving *)
   mk_case (mk_spec CWHSpacecraftC p_cwh [] (Some [(fl (-241) 1); (fl 1932 1); (fl 738 1); (fl (-565837819) 50000000); (fl (-1437759259) 100000000); (fl 200973287 25000000)]))
     ANone 10
     [("position", [(fl (-35568026835764533) 100000000000000); (fl 17893966654056303 10000000000000); (fl 8183489825004037 10000000000000)], false); ("velocity", [(fl (-290477392420829) 25000000000000); (fl (-14142039318793397) 1000000000000000); (fl 8030723775829191 1000000000000000)], false)] (fl 1 10000) (fl 0 1);
  (* At_origin_stationary_max_control *)
   mk_case (mk_spec CWHSpacecraftC p_cwh [] (Some [(fl 0 1); (fl 0 1); (fl 0 1); (fl 0 1); (fl 0 1); (fl 0 1)]))
     (AList [(fl 1 1); (fl 1 1); (fl 1 1)]) 10
     [("position", [(fl 4195157671606051 1000000000000000); (fl 827598509952193 200000000000000); (fl 20833150221367007 5000000000000000)], false); ("velocity", [(fl 1683753885015271 2000000000000000); (fl 515447799672409 625000000000000); (fl 8333186843966979 10000000000000000)], false)] (fl 1 10000) (fl 0 1);
  (* At_origin_stationary_min_control *)
   mk_case (mk_spec CWHSpacecraftC p_cwh [] (Some [(fl 0 1); (fl 0 1); (fl 0 1); (fl 0 1); (fl 0 1); (fl 0 1)]))
     (AList [(fl (-1) 1); (fl (-1) 1); (fl (-1) 1)]) 10
     [("position", [(fl (-4195157671606051) 1000000000000000); (fl (-827598509952193) 200000000000000); (fl (-20833150221367007) 5000000000000000)], false); ("velocity", [(fl (-1683753885015271) 2000000000000000); (fl (-515447799672409) 625000000000000); (fl (-8333186843966979) 10000000000000000)], false)] (fl 1 10000) (fl 0 1);
  (* At_origin_stationary_max_control_exceeded *)
   mk_case (mk_spec CWHSpacecraftC p_cwh [] (Some [(fl 0 1); (fl 0 1); (fl 0 1); (fl 0 1); (fl 0 1); (fl 0 1)]))
     (AList [(fl 11 10); (fl 11 10); (fl 11 10)]) 10
     [("position", [(fl 4195157671606051 1000000000000000); (fl 827598509952193 200000000000000); (fl 20833150221367007 5000000000000000)], false); ("velocity", [(fl 1683753885015271 2000000000000000); (fl 515447799672409 625000000000000); (fl 8333186843966979 10000000000000000)], false)] (fl 1 10000) (fl 0 1);
  (* At_origin_stationary_min_control *)
   mk_case (mk_spec CWHSpacecraftC p_cwh [] (Some [(fl 0 1); (fl 0 1); (fl 0 1); (fl 0 1); (fl 0 1); (fl 0 1)]))
     (AList [(fl (-11) 10); (fl (-11) 10); (fl (-11) 10)]) 10
     [("position", [(fl (-4195157671606051) 1000000000000000); (fl (-827598509952193) 200000000000000); (fl (-20833150221367007) 5000000000000000)], false); ("velocity", [(fl (-1683753885015271) 2000000000000000); (fl (-515447799672409) 625000000000000); (fl (-8333186843966979) 10000000000000000)], false)] (fl 1 10000) (fl 0 1);
  (* random_inputs_1 *)
   mk_case (mk_spec CWHSpacecraftC p_cwh [] (Some [(fl 18921655807384843 50000000000000); (fl (-2247866312479851) 2500000000000); (fl 1525858541147457 31250000000000); (fl 3686943180251639 500000000000000); (fl (-1077411839334847) 200000000000000); (fl (-321051517087513) 200000000000000)]))
     (AList [(fl (-4216087926948109) 50000000000000000); (fl (-3730198625677763) 10000000000000000); (fl (-3217327762089237) 5000000000000000)]) 15
     [("position", [(fl 2435502700117517 5000000000000); (fl (-9851335654807021) 10000000000000); (fl 9355699018134919 500000000000000)], false); ("velocity", [(fl 14224845242104557 2000000000000000); (fl (-3038268456762431) 500000000000000); (fl (-24101397075543263) 10000000000000000)], false)] (fl 1 10000) (fl 0 1);
  (* random_inputs_2 *)
   mk_case (mk_spec CWHSpacecraftC p_cwh [] (Some [(fl 4010710014944277 10000000000000); (fl (-2624091345523891) 5000000000000); (fl 1564715584327763 12500000000000); (fl (-9575557314121877) 1000000000000000); (fl 6880063127211869 1000000000000000); (fl (-11085732855134939) 2000000000000000)]))
     (AList [(fl (-13686223392227903) 50000000000000000); (fl (-4075755672077819) 10000000000000000); (fl 1760751224949137 2500000000000000)]) 59
     [("position", [(fl (-17882135098778141) 100000000000000); (fl (-1431947617073997) 10000000000000); (fl (-9975985244440577) 100000000000000)], false); ("velocity", [(fl (-2529068172931629) 250000000000000); (fl 6067248813772067 1000000000000000); (fl (-10398934542879017) 5000000000000000)], false)] (fl 1 10000) (fl 0 1);
  (* random_inputs_3 *)
   mk_case (mk_spec CWHSpacecraftC p_cwh [] (Some [(fl (-5231457315141807) 10000000000000); (fl (-1243756351577967) 5000000000000); (fl 9048316967095891 10000000000000); (fl 10482183939386033 2000000000000000); (fl (-11535051132203943) 2000000000000000); (fl (-4691985406783399) 500000000000000)]))
     (AList [(fl (-601994261048153) 1000000000000000); (fl (-6380545923556369) 10000000000000000); (fl 745922758490313 1250000000000000)]) 59
     [("position", [(fl (-3286284534075677) 10000000000000); (fl (-1739305210557267) 2500000000000); (fl 43638103194812163 100000000000000)], false); ("velocity", [(fl 514932198395279 400000000000000); (fl (-9304165801081503) 1000000000000000); (fl (-202839184503627) 31250000000000)], false)] (fl 1 10000) (fl 0 1);
  (* test pint init random state 1 native units *)
   mk_case (mk_spec CWHSpacecraftC p_cwh [("x", CQty {| q_mag := (fl 134081 250); q_unit := meter |}); ("y", CQty {| q_mag := (fl (-92264) 125); q_unit := meter |}); ("z", CQty {| q_mag := (fl 99599 100); q_unit := meter |}); ("x_dot", CQty {| q_mag := (fl (-37) 10); q_unit := mps |}); ("y_dot", CQty {| q_mag := (fl (-17) 1); q_unit := mps |}); ("z_dot", CQty {| q_mag := (fl 2523 100); q_unit := mps |})] (None))
     ANone 0
     [("position", [(fl 134081 250); (fl (-92264) 125); (fl 99599 100)], false); ("velocity", [(fl (-37) 10); (fl (-17) 1); (fl 2523 100)], false)] (fl 1 10000) (fl 0 1);
  (* test pint init random state 1 alternate units *)
   mk_case (mk_spec CWHSpacecraftC p_cwh [("x", CQty {| q_mag := (fl 8331407 25000000); q_unit := u_mile |}); ("y", CQty {| q_mag := (fl (-45864153) 100000000); q_unit := u_mile |}); ("z", CQty {| q_mag := (fl 61887949 100000000); q_unit := u_mile |}); ("x_dot", CQty {| q_mag := (fl (-206916607) 25000000); q_unit := (unit_div u_mile u_hour) |}); ("y_dot", CQty {| q_mag := (fl (-237674481) 6250000); q_unit := (unit_div u_mile u_hour) |}); ("z_dot", CQty {| q_mag := (fl 1128758053 20000000); q_unit := (unit_div u_mile u_hour) |})] (None))
     ANone 0
     [("position", [(fl 134081 250); (fl (-92264) 125); (fl 99599 100)], false); ("velocity", [(fl (-37) 10); (fl (-17) 1); (fl 2523 100)], false)] (fl 1 10000) (fl 0 1)].
Check ltac:(evaluates_to_true (forallb passes cwh_cases)) : True.

(** test/test_cases/compare_entities_test_cases.yaml. *)
Definition compare_cases : list (spec * spec * bool) := [
  (* SunEntity_equals *)
   ((mk_spec SunEntityC p_sun [] (None)),
    (mk_spec SunEntityC (PSun (fl 617 5000) "RK45" false) [] (None)), true);
  (* SunEntity_not_equals *)
   ((mk_spec SunEntityC p_sun [] (None)),
    (mk_spec CWHSpacecraftC p_cwh [] (None)), false);
  (* CWHSpacecraft_equals *)
   ((mk_spec CWHSpacecraftC p_cwh [("x", CQty {| q_mag := (fl 134081 250); q_unit := meter |}); ("y", CQty {| q_mag := (fl (-92264) 125); q_unit := meter |}); ("z", CQty {| q_mag := (fl 99599 100); q_unit := meter |}); ("x_dot", CQty {| q_mag := (fl (-37) 10); q_unit := mps |}); ("y_dot", CQty {| q_mag := (fl (-17) 1); q_unit := mps |}); ("z_dot", CQty {| q_mag := (fl 2523 100); q_unit := mps |})] (None)),
    (mk_spec CWHSpacecraftC p_cwh [] (Some [(fl 134081 250); (fl (-92264) 125); (fl 99599 100); (fl (-37) 10); (fl (-17) 1); (fl 2523 100)])), true);
  (* CWHSpacecraft_not_equals_position *)
   ((mk_spec CWHSpacecraftC p_cwh [] (Some [(fl 134081 250); (fl (-92264) 125); (fl 99599 100); (fl (-37) 10); (fl (-17) 1); (fl 2523 100)])),
    (mk_spec CWHSpacecraftC p_cwh [] (Some [(fl 134081 250); (fl (-92264) 125); (fl 0 1); (fl (-37) 10); (fl (-17) 1); (fl 2523 100)])), false);
  (* CWHSpacecraft_not_equals_velocity *)
   ((mk_spec CWHSpacecraftC p_cwh [] (Some [(fl 134081 250); (fl (-92264) 125); (fl 99599 100); (fl (-37) 10); (fl (-17) 1); (fl 2523 100)])),
    (mk_spec CWHSpacecraftC p_cwh [] (Some [(fl 134081 250); (fl (-92264) 125); (fl 99599 100); (fl 0 1); (fl 0 1); (fl 2523 100)])), false);
  (* CWHSpacecraft_not_equals_class *)
   ((mk_spec CWHSpacecraftC p_cwh [("x", CQty {| q_mag := (fl 134081 250); q_unit := meter |}); ("y", CQty {| q_mag := (fl (-92264) 125); q_unit := meter |}); ("z", CQty {| q_mag := (fl 99599 100); q_unit := meter |}); ("x_dot", CQty {| q_mag := (fl (-37) 10); q_unit := mps |}); ("y_dot", CQty {| q_mag := (fl (-17) 1); q_unit := mps |}); ("z_dot", CQty {| q_mag := (fl 2523 100); q_unit := mps |})] (None)),
    (mk_spec CWHRotation2dSpacecraftC p_rot2d [] (Some [(fl 134081 250); (fl (-92264) 125); (fl 0 1); (fl (-37) 10); (fl (-17) 1); (fl 0 1)])), false);
  (* CWHRotation2dSpacecraft_equals *)
   ((mk_spec CWHRotation2dSpacecraftC p_rot2d [("x", CQty {| q_mag := (fl 134081 250); q_unit := meter |}); ("y", CQty {| q_mag := (fl (-92264) 125); q_unit := meter |}); ("x_dot", CQty {| q_mag := (fl (-37) 10); q_unit := mps |}); ("y_dot", CQty {| q_mag := (fl (-17) 1); q_unit := mps |}); ("theta", CQty {| q_mag := (fl 6 5); q_unit := radian |}); ("wz", CQty {| q_mag := (fl 3 100); q_unit := rps |})] (None)),
    (mk_spec CWHRotation2dSpacecraftC p_rot2d [] (Some [(fl 134081 250); (fl (-92264) 125); (fl 6 5); (fl (-37) 10); (fl (-17) 1); (fl 3 100)])), true);
  (* CWHRotation2dSpacecraft_not_equals_position *)
   ((mk_spec CWHRotation2dSpacecraftC p_rot2d [] (Some [(fl 134081 250); (fl (-92264) 125); (fl 6 5); (fl (-37) 10); (fl (-17) 1); (fl 3 100)])),
    (mk_spec CWHRotation2dSpacecraftC p_rot2d [] (Some [(fl 0 1); (fl 0 1); (fl 6 5); (fl (-37) 10); (fl (-17) 1); (fl 3 100)])), false);
  (* CWHRotation2dSpacecraft_not_equals_velocity *)
   ((mk_spec CWHRotation2dSpacecraftC p_rot2d [] (Some [(fl 134081 250); (fl (-92264) 125); (fl 6 5); (fl 0 1); (fl 0 1); (fl 3 100)])),
    (mk_spec CWHRotation2dSpacecraftC p_rot2d [] (Some [(fl 134081 250); (fl (-92264) 125); (fl 6 5); (fl (-37) 10); (fl (-17) 1); (fl 3 100)])), false);
  (* CWHRotation2dSpacecraft_not_equals_angular_velocity *)
   ((mk_spec CWHRotation2dSpacecraftC p_rot2d [] (Some [(fl 134081 250); (fl (-92264) 125); (fl 6 5); (fl 0 1); (fl 0 1); (fl 3 100)])),
    (mk_spec CWHRotation2dSpacecraftC p_rot2d [] (Some [(fl 134081 250); (fl (-92264) 125); (fl 6 5); (fl (-37) 10); (fl (-17) 1); (fl 0 1)])), false);
  (* CWHRotation2dSpacecraft_not_equals_rotation *)
   ((mk_spec CWHRotation2dSpacecraftC p_rot2d [] (Some [(fl 134081 250); (fl (-92264) 125); (fl 6 5); (fl 0 1); (fl 0 1); (fl 3 100)])),
    (mk_spec CWHRotation2dSpacecraftC p_rot2d [] (Some [(fl 134081 250); (fl (-92264) 125); (fl 0 1); (fl (-37) 10); (fl (-17) 1); (fl 3 100)])), false);
  (* CWHRotation2dSpacecraft_not_equals_class *)
   ((mk_spec CWHRotation2dSpacecraftC p_rot2d [] (Some [(fl 134081 250); (fl (-92264) 125); (fl 0 1); (fl (-37) 10); (fl (-17) 1); (fl 3 100)])),
    (mk_spec SixDOFSpacecraftC p_sixdof [] (Some [(fl 134081 250); (fl (-92264) 125); (fl 0 1); (fl 1 1); (fl 0 1); (fl 0 1); (fl 0 1); (fl (-37) 10); (fl (-17) 1); (fl 0 1); (fl 0 1); (fl 0 1); (fl 3 100)])), false);
  (* SixDOFSpacecraft_equals *)
   ((mk_spec SixDOFSpacecraftC p_sixdof [("x", CQty {| q_mag := (fl 134081 250); q_unit := meter |}); ("y", CQty {| q_mag := (fl (-92264) 125); q_unit := meter |}); ("z", CQty {| q_mag := (fl 99599 100); q_unit := meter |}); ("x_dot", CQty {| q_mag := (fl (-37) 10); q_unit := mps |}); ("y_dot", CQty {| q_mag := (fl (-17) 1); q_unit := mps |}); ("z_dot", CQty {| q_mag := (fl 2523 100); q_unit := mps |}); ("q1", CNum (fl 0 1)); ("q2", CNum (fl 0 1)); ("q3", CNum (fl (-39) 250)); ("q4", CNum (fl 247 250)); ("wx", CQty {| q_mag := (fl 123 10000); q_unit := rps |}); ("wy", CQty {| q_mag := (fl (-13) 2000); q_unit := rps |}); ("wz", CQty {| q_mag := (fl 3 100); q_unit := rps |})] (None)),
    (mk_spec SixDOFSpacecraftC p_sixdof [] (Some [(fl 134081 250); (fl (-92264) 125); (fl 99599 100); (fl 0 1); (fl 0 1); (fl (-39) 250); (fl 247 250); (fl (-37) 10); (fl (-17) 1); (fl 2523 100); (fl 123 10000); (fl (-13) 2000); (fl 3 100)])), true);
  (* SixDOFSpacecraft_not_equals_position *)
   ((mk_spec SixDOFSpacecraftC p_sixdof [] (Some [(fl 134081 250); (fl (-92264) 125); (fl 99599 100); (fl 0 1); (fl 0 1); (fl (-39) 250); (fl 247 250); (fl (-37) 10); (fl (-17) 1); (fl 2523 100); (fl 123 10000); (fl (-13) 2000); (fl 3 100)])),
    (mk_spec SixDOFSpacecraftC p_sixdof [] (Some [(fl 134081 250); (fl 0 1); (fl 99599 100); (fl 0 1); (fl 0 1); (fl (-39) 250); (fl 247 250); (fl (-37) 10); (fl (-17) 1); (fl 2523 100); (fl 123 10000); (fl (-13) 2000); (fl 3 100)])), false);
  (* SixDOFSpacecraft_not_equals_velocity *)
   ((mk_spec SixDOFSpacecraftC p_sixdof [] (Some [(fl 134081 250); (fl (-92264) 125); (fl 99599 100); (fl 0 1); (fl 0 1); (fl (-39) 250); (fl 247 250); (fl (-37) 10); (fl (-17) 1); (fl 2523 100); (fl 123 10000); (fl (-13) 2000); (fl 3 100)])),
    (mk_spec SixDOFSpacecraftC p_sixdof [] (Some [(fl 134081 250); (fl (-92264) 125); (fl 99599 100); (fl 0 1); (fl 0 1); (fl (-39) 250); (fl 247 250); (fl (-37) 10); (fl 0 1); (fl 0 1); (fl 123 10000); (fl (-13) 2000); (fl 3 100)])), false);
  (* SixDOFSpacecraft_not_equals_angular_velocity *)
   ((mk_spec SixDOFSpacecraftC p_sixdof [] (Some [(fl 134081 250); (fl (-92264) 125); (fl 99599 100); (fl 0 1); (fl 0 1); (fl (-39) 250); (fl 247 250); (fl (-37) 10); (fl (-17) 1); (fl 2523 100); (fl 123 10000); (fl (-13) 2000); (fl 3 100)])),
    (mk_spec SixDOFSpacecraftC p_sixdof [] (Some [(fl 134081 250); (fl (-92264) 125); (fl 99599 100); (fl 0 1); (fl 0 1); (fl (-39) 250); (fl 247 250); (fl (-37) 10); (fl (-17) 1); (fl 2523 100); (fl 123 10000); (fl 0 1); (fl 0 1)])), false);
  (* SixDOFSpacecraft_not_equals_orientation *)
   ((mk_spec SixDOFSpacecraftC p_sixdof [] (Some [(fl 134081 250); (fl (-92264) 125); (fl 99599 100); (fl 0 1); (fl 0 1); (fl (-39) 250); (fl 247 250); (fl (-37) 10); (fl (-17) 1); (fl 2523 100); (fl 123 10000); (fl (-13) 2000); (fl 3 100)])),
    (mk_spec SixDOFSpacecraftC p_sixdof [] (Some [(fl 134081 250); (fl (-92264) 125); (fl 99599 100); (fl 0 1); (fl 0 1); (fl 0 1); (fl 1 1); (fl (-37) 10); (fl (-17) 1); (fl 2523 100); (fl 123 10000); (fl (-13) 2000); (fl 3 100)])), false);
  (* SixDOFSpacecraft_not_equals_class *)
   ((mk_spec SixDOFSpacecraftC p_sixdof [] (Some [(fl 0 1); (fl 0 1); (fl (-20833150221367007) 5000000000000000); (fl 0 1); (fl 0 1); (fl 0 1); (fl 1 1); (fl 0 1); (fl 0 1); (fl (-8333186843966979) 10000000000000000); (fl 0 1); (fl 0 1); (fl (-7) 200)])),
    (mk_spec CWHSpacecraftC p_cwh [] (Some [(fl 0 1); (fl 0 1); (fl (-20833150221367007) 5000000000000000); (fl 0 1); (fl 0 1); (fl (-8333186843966979) 10000000000000000)])), false);
  (* Dubins2dAircraft_equals *)
   ((mk_spec Dubins2dAircraftC p_dub2 [("x", CQty {| q_mag := (fl 42054985883684327 100000000000000); q_unit := foot |}); ("y", CQty {| q_mag := (fl 2876532523242573 2000000000000); q_unit := foot |}); ("heading", CQty {| q_mag := (fl 2638053275159513 10000000000000000); q_unit := radian |}); ("v", CQty {| q_mag := (fl 400 1); q_unit := fps |})] (None)),
    (mk_spec Dubins2dAircraftC p_dub2 [] (Some [(fl 42054985883684327 100000000000000); (fl 2876532523242573 2000000000000); (fl 2638053275159513 10000000000000000); (fl 400 1)])), true);
  (* Dubins2dAircraft_not_equals_position *)
   ((mk_spec Dubins2dAircraftC p_dub2 [] (Some [(fl 42054985883684327 100000000000000); (fl 2876532523242573 2000000000000); (fl 2638053275159513 10000000000000000); (fl 400 1)])),
    (mk_spec Dubins2dAircraftC p_dub2 [] (Some [(fl 42054985883684327 100000000000000); (fl 0 1); (fl 2638053275159513 10000000000000000); (fl 400 1)])), false);
  (* Dubins2dAircraft_not_equals_velocity *)
   ((mk_spec Dubins2dAircraftC p_dub2 [] (Some [(fl 42054985883684327 100000000000000); (fl 0 1); (fl 2638053275159513 10000000000000000); (fl 400 1)])),
    (mk_spec Dubins2dAircraftC p_dub2 [] (Some [(fl 42054985883684327 100000000000000); (fl 0 1); (fl 2638053275159513 10000000000000000); (fl (-400) 1)])), false);
  (* Dubins2dAircraft_not_equals_orientation *)
   ((mk_spec Dubins2dAircraftC p_dub2 [] (Some [(fl 42054985883684327 100000000000000); (fl 0 1); (fl 0 1); (fl 400 1)])),
    (mk_spec Dubins2dAircraftC p_dub2 [] (Some [(fl 42054985883684327 100000000000000); (fl 0 1); (fl 2638053275159513 10000000000000000); (fl 400 1)])), false);
  (* Dubins2dAircraft_not_equals_class *)
   ((mk_spec Dubins2dAircraftC p_dub2 [] (Some [(fl 42054985883684327 100000000000000); (fl 0 1); (fl 2638053275159513 10000000000000000); (fl 400 1)])),
    (mk_spec Dubins3dAircraftC p_dub3 [] (Some [(fl 42054985883684327 100000000000000); (fl 0 1); (fl 2638053275159513 10000000000000000); (fl 0 1); (fl 0 1); (fl 400 1)])), false);
  (* Dubins3dAircraft_equals *)
   ((mk_spec Dubins3dAircraftC p_dub3 [("x", CQty {| q_mag := (fl (-4271301) 1000); q_unit := foot |}); ("y", CQty {| q_mag := (fl 71803 40); q_unit := foot |}); ("z", CQty {| q_mag := (fl 4164297 1000); q_unit := foot |}); ("heading", CQty {| q_mag := (fl (-651) 250); q_unit := radian |}); ("gamma", CQty {| q_mag := (fl (-17) 50); q_unit := radian |}); ("roll", CQty {| q_mag := (fl (-4) 5); q_unit := radian |}); ("v", CQty {| q_mag := (fl 324 1); q_unit := fps |})] (None)),
    (mk_spec Dubins3dAircraftC p_dub3 [] (Some [(fl (-4271301) 1000); (fl 71803 40); (fl 4164297 1000); (fl (-651) 250); (fl (-17) 50); (fl (-4) 5); (fl 324 1)])), true);
  (* Dubins3dAircraft_not_equals_position *)
   ((mk_spec Dubins3dAircraftC p_dub3 [] (Some [(fl (-4271301) 1000); (fl 71803 40); (fl 4164297 1000); (fl (-651) 250); (fl (-17) 50); (fl (-4) 5); (fl 324 1)])),
    (mk_spec Dubins3dAircraftC p_dub3 [] (Some [(fl (-4271301) 1000); (fl 0 1); (fl 0 1); (fl (-651) 250); (fl (-17) 50); (fl (-4) 5); (fl 324 1)])), false);
  (* Dubins3dAircraft_not_equals_velocity *)
   ((mk_spec Dubins3dAircraftC p_dub3 [] (Some [(fl (-4271301) 1000); (fl 71803 40); (fl 4164297 1000); (fl (-651) 250); (fl (-17) 50); (fl (-4) 5); (fl 324 1)])),
    (mk_spec Dubins3dAircraftC p_dub3 [] (Some [(fl (-4271301) 1000); (fl 71803 40); (fl 4164297 1000); (fl (-651) 250); (fl (-17) 50); (fl (-4) 5); (fl (-81) 250)])), false);
  (* Dubins3dAircraft_not_equals_orientation *)
   ((mk_spec Dubins3dAircraftC p_dub3 [] (Some [(fl (-4271301) 1000); (fl 71803 40); (fl 4164297 1000); (fl (-651) 250); (fl (-17) 50); (fl (-4) 5); (fl 324 1)])),
    (mk_spec Dubins3dAircraftC p_dub3 [] (Some [(fl (-4271301) 1000); (fl 71803 40); (fl 4164297 1000); (fl 651 250); (fl 17 50); (fl 4 5); (fl 324 1)])), false);
  (* Dubins3dAircraft_not_equals_class *)
   ((mk_spec Dubins3dAircraftC p_dub3 [] (Some [(fl (-4271301) 1000); (fl 71803 40); (fl 4164297 1000); (fl (-651) 250); (fl (-17) 50); (fl (-4) 5); (fl 324 1)])),
    (mk_spec Dubins2dAircraftC p_dub2 [] (Some [(fl (-4271301) 1000); (fl 71803 40); (fl (-651) 250); (fl 324 1)])), false)].
Theorem compare_cases_pass : forallb compares compare_cases = true.
Proof. vm_compute. reflexivity. Qed.

(** test/test_cases/entity_relative_metrics.yaml with the simulator of
    test_entity_relative_metrics.py 42-50. *)
Definition rel_sim : res (sim sf) :=
  a <- build 1 (fun x => x) (mk_spec CWHSpacecraftC p_cwh [] None) ;;
  b <- build 2 (fun x => x) (mk_spec CWHRotation2dSpacecraftC p_rot2d
         [("x", CNum (fl 536324 1000)); ("y", CNum (fl (-738112) 1000)); ("x_dot", CNum (fl (-37) 10));
          ("y_dot", CNum (fl (-17) 1)); ("theta", CNum (fl 12 10)); ("wz", CNum (fl 3 100))] None) ;;
  c <- build 3 (fun x => x) (mk_spec SixDOFSpacecraftC p_sixdof
         [("x", CNum (fl (-99599) 100)); ("y", CNum (fl (-536324) 1000)); ("z", CNum (fl 738112 1000));
          ("x_dot", CNum (fl 17 1)); ("y_dot", CNum (fl (-253) 10)); ("z_dot", CNum (fl 37 10));
          ("wx", CNum (fl (-65) 10000)); ("wy", CNum (fl 3 100)); ("wz", CNum (fl 123 10000))] None) ;;
  Ok (Some [("cwh", a); ("rot2d", b); ("sixdof", c)]).
Definition relates (t : string * string * list sf * list sf * sf) : bool :=
  let '(this, other, p, v, bound) := t in
  match (s <- rel_sim ;; o <- sim_get s this ;;
         p' <- entity_relative_position s o other ;; v' <- entity_relative_velocity s o other ;;
         Ok (aelems p', aelems v')) with
  | Ok (p', v') => near_all false bound (fl 0 1) p p' && near_all false bound (fl 0 1) v v'
  | Err _ => false
  end.
Definition relative_cases : list (string * string * list sf * list sf * sf) := [
  ("cwh", "rot2d", [(fl 134081 250); (fl (-92264) 125); (fl 0 1)], [(fl (-37) 10); (fl (-17) 1); (fl 0 1)], (fl 1 10000));
  ("rot2d", "cwh", [(fl (-134081) 250); (fl 92264 125); (fl 0 1)], [(fl 37 10); (fl 17 1); (fl 0 1)], (fl 1 10000));
  ("cwh", "sixdof", [(fl (-99599) 100); (fl (-134081) 250); (fl 92264 125)], [(fl 17 1); (fl (-253) 10); (fl 37 10)], (fl 1 10000));
  ("sixdof", "cwh", [(fl 99599 100); (fl 134081 250); (fl (-92264) 125)], [(fl (-17) 1); (fl 253 10); (fl (-37) 10)], (fl 1 10000));
  ("rot2d", "sixdof", [(fl (-766157) 500); (fl 50447 250); (fl 92264 125)], [(fl 207 10); (fl (-83) 10); (fl 37 10)], (fl 1 10000));
  ("sixdof", "rot2d", [(fl 766157 500); (fl (-50447) 250); (fl (-92264) 125)], [(fl (-207) 10); (fl 83 10); (fl (-37) 10)], (fl 1 10000))].
Theorem relative_cases_pass : forallb relates relative_cases = true.
Proof. vm_compute. reflexivity. Qed.
