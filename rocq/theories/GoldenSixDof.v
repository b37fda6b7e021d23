(** Test vectors of the six-degree-of-freedom spacecraft. See Golden.v. *)
From Coq Require Import String List Bool ZArith SpecFloat.
From Verif Require Import PyBase Num Arr BaseModel Cwh Utils Rot2d SixDof Sun Dubins Classes Units Golden.
Import List ListNotations.
Local Open Scope string_scope.
Local Open Scope list_scope.
Local Hint Extern 0 (Num sf) => exact SF : typeclass_instances.

(** test/test_cases/SixDOFSpacecraft_test_cases.yaml. *)
Definition sixdof_cases : list case := [
  (* At_origin_stationary *)
   mk_case (mk_spec SixDOFSpacecraftC p_sixdof [] (Some [(fl 0 1); (fl 0 1); (fl 0 1); (fl 0 1); (fl 0 1); (fl 0 1); (fl 1 1); (fl 0 1); (fl 0 1); (fl 0 1); (fl 0 1); (fl 0 1); (fl 0 1)]))
     ANone 10
     [("position", [(fl 0 1); (fl 0 1); (fl 0 1)], false); ("quaternion", [(fl 0 1); (fl 0 1); (fl 0 1); (fl 1 1)], false); ("velocity", [(fl 0 1); (fl 0 1); (fl 0 1)], false); ("angular_velocity", [(fl 0 1); (fl 0 1); (fl 0 1)], false)] (fl 1 10000) (fl 0 1);
  (* At_origin_stationary_45deg_positive_x *)
   mk_case (mk_spec SixDOFSpacecraftC p_sixdof [] (Some [(fl 0 1); (fl 0 1); (fl 0 1); (fl 38268343236509 100000000000000); (fl 0 1); (fl 0 1); (fl 92387953251129 100000000000000); (fl 0 1); (fl 0 1); (fl 0 1); (fl 0 1); (fl 0 1); (fl 0 1)]))
     ANone 10
     [("position", [(fl 0 1); (fl 0 1); (fl 0 1)], false); ("quaternion", [(fl 38268343236509 100000000000000); (fl 0 1); (fl 0 1); (fl 92387953251129 100000000000000)], false); ("velocity", [(fl 0 1); (fl 0 1); (fl 0 1)], false); ("angular_velocity", [(fl 0 1); (fl 0 1); (fl 0 1)], false)] (fl 1 10000) (fl 0 1);
  (* At_origin_stationary_45deg_negative_x *)
   mk_case (mk_spec SixDOFSpacecraftC p_sixdof [] (Some [(fl 0 1); (fl 0 1); (fl 0 1); (fl (-38268343236509) 100000000000000); (fl 0 1); (fl 0 1); (fl 92387953251129 100000000000000); (fl 0 1); (fl 0 1); (fl 0 1); (fl 0 1); (fl 0 1); (fl 0 1)]))
     ANone 10
     [("position", [(fl 0 1); (fl 0 1); (fl 0 1)], false); ("quaternion", [(fl (-38268343236509) 100000000000000); (fl 0 1); (fl 0 1); (fl 92387953251129 100000000000000)], false); ("velocity", [(fl 0 1); (fl 0 1); (fl 0 1)], false); ("angular_velocity", [(fl 0 1); (fl 0 1); (fl 0 1)], false)] (fl 1 10000) (fl 0 1);
  (* At_origin_moving_positive_x_90deg_positive_y *)
   mk_case (mk_spec SixDOFSpacecraftC p_sixdof [] (Some [(fl 0 1); (fl 0 1); (fl 0 1); (fl 0 1); (fl 14142135623731 20000000000000); (fl 0 1); (fl 14142135623731 20000000000000); (fl 2 1); (fl 0 1); (fl 0 1); (fl 0 1); (fl 0 1); (fl 0 1)]))
     ANone 10
     [("position", [(fl 19999648425520753 1000000000000000); (fl (-1026990973310217) 5000000000000000); (fl 0 1)], false); ("quaternion", [(fl 0 1); (fl 14142135623731 20000000000000); (fl 0 1); (fl 14142135623731 20000000000000)], false); ("velocity", [(fl 1999894528027041 1000000000000000); (fl (-2053963893300981) 50000000000000000); (fl 0 1)], false); ("angular_velocity", [(fl 0 1); (fl 0 1); (fl 0 1)], false)] (fl 1 10000) (fl 0 1);
  (* At_origin_moving_negative_y_90deg_negative_y *)
   mk_case (mk_spec SixDOFSpacecraftC p_sixdof [] (Some [(fl 0 1); (fl 0 1); (fl 0 1); (fl 0 1); (fl (-14142135623731) 20000000000000); (fl 0 1); (fl 14142135623731 20000000000000); (fl 0 1); (fl (-2) 1); (fl 0 1); (fl 0 1); (fl 0 1); (fl 0 1)]))
     ANone 10
     [("position", [(fl (-1026990973310217) 5000000000000000); (fl (-1999859370208301) 100000000000000); (fl 0 1)], false); ("quaternion", [(fl 0 1); (fl (-14142135623731) 20000000000000); (fl 0 1); (fl 14142135623731 20000000000000)], false); ("velocity", [(fl (-2053963893300981) 50000000000000000); (fl (-9997890560540821) 5000000000000000); (fl 0 1)], false); ("angular_velocity", [(fl 0 1); (fl 0 1); (fl 0 1)], false)] (fl 1 10000) (fl 0 1);
  (* At_origin_moving_positive_z_225deg_positive_z *)
   mk_case (mk_spec SixDOFSpacecraftC p_sixdof [] (Some [(fl 0 1); (fl 0 1); (fl 0 1); (fl 0 1); (fl 0 1); (fl 92387953251129 100000000000000); (fl (-382683432365089) 1000000000000000); (fl 0 1); (fl 0 1); (fl 2 1); (fl 0 1); (fl 0 1); (fl 0 1)]))
     ANone 10
     [("position", [(fl 0 1); (fl 0 1); (fl 79998593702083 4000000000000)], false); ("quaternion", [(fl 0 1); (fl 0 1); (fl 92387953251129 100000000000000); (fl (-382683432365089) 1000000000000000)], false); ("velocity", [(fl 0 1); (fl 0 1); (fl 19998945280270413 10000000000000000)], false); ("angular_velocity", [(fl 0 1); (fl 0 1); (fl 0 1)], false)] (fl 1 10000) (fl 0 1);
  (* At_origin_moving_negative_z_225deg_negative_z *)
   mk_case (mk_spec SixDOFSpacecraftC p_sixdof [] (Some [(fl 0 1); (fl 0 1); (fl 0 1); (fl 0 1); (fl 0 1); (fl (-92387953251129) 100000000000000); (fl (-382683432365089) 1000000000000000); (fl 0 1); (fl 0 1); (fl (-2) 1); (fl 0 1); (fl 0 1); (fl 0 1)]))
     ANone 10
     [("position", [(fl 0 1); (fl 0 1); (fl (-79998593702083) 4000000000000)], false); ("quaternion", [(fl 0 1); (fl 0 1); (fl (-92387953251129) 100000000000000); (fl (-382683432365089) 1000000000000000)], false); ("velocity", [(fl 0 1); (fl 0 1); (fl (-19998945280270413) 10000000000000000)], false); ("angular_velocity", [(fl 0 1); (fl 0 1); (fl 0 1)], false)] (fl 1 10000) (fl 0 1);
  (* At_origin_rotating_positive_x *)
   mk_case (mk_spec SixDOFSpacecraftC p_sixdof [] (Some [(fl 0 1); (fl 0 1); (fl 0 1); (fl 0 1); (fl 0 1); (fl 0 1); (fl 1 1); (fl 0 1); (fl 0 1); (fl 0 1); (fl 1 50); (fl 0 1); (fl 0 1)]))
     ANone 10
     [("position", [(fl 0 1); (fl 0 1); (fl 0 1)], false); ("quaternion", [(fl 24958354161707 250000000000000); (fl 0 1); (fl 0 1); (fl 497502082639013 500000000000000)], false); ("velocity", [(fl 0 1); (fl 0 1); (fl 0 1)], false); ("angular_velocity", [(fl 1 50); (fl 0 1); (fl 0 1)], false)] (fl 1 10000) (fl 0 1);
  (* At_origin_rotating_negative_x *)
   mk_case (mk_spec SixDOFSpacecraftC p_sixdof [] (Some [(fl 0 1); (fl 0 1); (fl 0 1); (fl 0 1); (fl 0 1); (fl 0 1); (fl 1 1); (fl 0 1); (fl 0 1); (fl 0 1); (fl (-1) 50); (fl 0 1); (fl 0 1)]))
     ANone 10
     [("position", [(fl 0 1); (fl 0 1); (fl 0 1)], false); ("quaternion", [(fl (-24958354161707) 250000000000000); (fl 0 1); (fl 0 1); (fl 497502082639013 500000000000000)], false); ("velocity", [(fl 0 1); (fl 0 1); (fl 0 1)], false); ("angular_velocity", [(fl (-1) 50); (fl 0 1); (fl 0 1)], false)] (fl 1 10000) (fl 0 1);
  (* At_origin_rotating_positive_y *)
   mk_case (mk_spec SixDOFSpacecraftC p_sixdof [] (Some [(fl 0 1); (fl 0 1); (fl 0 1); (fl 0 1); (fl 0 1); (fl 0 1); (fl 1 1); (fl 0 1); (fl 0 1); (fl 0 1); (fl 0 1); (fl 1 50); (fl 0 1)]))
     ANone 10
     [("position", [(fl 0 1); (fl 0 1); (fl 0 1)], false); ("quaternion", [(fl 0 1); (fl 24958354161707 250000000000000); (fl 0 1); (fl 497502082639013 500000000000000)], false); ("velocity", [(fl 0 1); (fl 0 1); (fl 0 1)], false); ("angular_velocity", [(fl 0 1); (fl 1 50); (fl 0 1)], false)] (fl 1 10000) (fl 0 1);
  (* At_origin_rotating_negative_y *)
   mk_case (mk_spec SixDOFSpacecraftC p_sixdof [] (Some [(fl 0 1); (fl 0 1); (fl 0 1); (fl 0 1); (fl 0 1); (fl 0 1); (fl 1 1); (fl 0 1); (fl 0 1); (fl 0 1); (fl 0 1); (fl (-1) 50); (fl 0 1)]))
     ANone 10
     [("position", [(fl 0 1); (fl 0 1); (fl 0 1)], false); ("quaternion", [(fl 0 1); (fl (-24958354161707) 250000000000000); (fl 0 1); (fl 497502082639013 500000000000000)], false); ("velocity", [(fl 0 1); (fl 0 1); (fl 0 1)], false); ("angular_velocity", [(fl 0 1); (fl (-1) 50); (fl 0 1)], false)] (fl 1 10000) (fl 0 1);
  (* At_origin_rotating_positive_z *)
   mk_case (mk_spec SixDOFSpacecraftC p_sixdof [] (Some [(fl 0 1); (fl 0 1); (fl 0 1); (fl 0 1); (fl 0 1); (fl 0 1); (fl 1 1); (fl 0 1); (fl 0 1); (fl 0 1); (fl 0 1); (fl 0 1); (fl 1 50)]))
     ANone 10
     [("position", [(fl 0 1); (fl 0 1); (fl 0 1)], false); ("quaternion", [(fl 0 1); (fl 0 1); (fl 24958354161707 250000000000000); (fl 497502082639013 500000000000000)], false); ("velocity", [(fl 0 1); (fl 0 1); (fl 0 1)], false); ("angular_velocity", [(fl 0 1); (fl 0 1); (fl 1 50)], false)] (fl 1 10000) (fl 0 1);
  (* At_origin_rotating_negative_z *)
   mk_case (mk_spec SixDOFSpacecraftC p_sixdof [] (Some [(fl 0 1); (fl 0 1); (fl 0 1); (fl 0 1); (fl 0 1); (fl 0 1); (fl 1 1); (fl 0 1); (fl 0 1); (fl 0 1); (fl 0 1); (fl 0 1); (fl (-1) 50)]))
     ANone 10
     [("position", [(fl 0 1); (fl 0 1); (fl 0 1)], false); ("quaternion", [(fl 0 1); (fl 0 1); (fl (-24958354161707) 250000000000000); (fl 497502082639013 500000000000000)], false); ("velocity", [(fl 0 1); (fl 0 1); (fl 0 1)], false); ("angular_velocity", [(fl 0 1); (fl 0 1); (fl (-1) 50)], false)] (fl 1 10000) (fl 0 1);
  (* At_origin_max_x_trans_max_x_rot_control *)
   mk_case (mk_spec SixDOFSpacecraftC p_sixdof [] (Some [(fl 0 1); (fl 0 1); (fl 0 1); (fl 0 1); (fl 0 1); (fl 0 1); (fl 1 1); (fl 0 1); (fl 0 1); (fl 0 1); (fl 0 1); (fl 0 1); (fl 0 1)]))
     (AList [(fl 1 1); (fl 0 1); (fl 0 1); (fl 1 1000); (fl 0 1); (fl 0 1)]) 10
     [("position", [(fl 2083315022136699 500000000000000); (fl (-28527627332646233) 1000000000000000000); (fl 0 1)], false); ("quaternion", [(fl 391087062129 2500000000000); (fl 0 1); (fl 0 1); (fl 1975376567213 2000000000000)], false); ("velocity", [(fl 8333186843966979 10000000000000000); (fl (-8558258110937557) 1000000000000000000); (fl 0 1)], false); ("angular_velocity", [(fl 7 200); (fl 0 1); (fl 0 1)], false)] (fl 1 10000) (fl 0 1);
  (* At_origin_min_x_trans__min_x_rot_control *)
   mk_case (mk_spec SixDOFSpacecraftC p_sixdof [] (Some [(fl 0 1); (fl 0 1); (fl 0 1); (fl 0 1); (fl 0 1); (fl 0 1); (fl 1 1); (fl 0 1); (fl 0 1); (fl 0 1); (fl 0 1); (fl 0 1); (fl 0 1)]))
     (AList [(fl (-1) 1); (fl 0 1); (fl 0 1); (fl (-1) 1000); (fl 0 1); (fl 0 1)]) 10
     [("position", [(fl (-2083315022136699) 500000000000000); (fl 28527627332646233 1000000000000000000); (fl 0 1)], false); ("quaternion", [(fl (-391087062129) 2500000000000); (fl 0 1); (fl 0 1); (fl 1975376567213 2000000000000)], false); ("velocity", [(fl (-8333186843966979) 10000000000000000); (fl 8558258110937557 1000000000000000000); (fl 0 1)], false); ("angular_velocity", [(fl (-7) 200); (fl 0 1); (fl 0 1)], false)] (fl 1 10000) (fl 0 1);
  (* At_origin_max_z_trans_max_z_rot_control *)
   mk_case (mk_spec SixDOFSpacecraftC p_sixdof [] (Some [(fl 0 1); (fl 0 1); (fl 0 1); (fl 0 1); (fl 0 1); (fl 0 1); (fl 1 1); (fl 0 1); (fl 0 1); (fl 0 1); (fl 0 1); (fl 0 1); (fl 0 1)]))
     (AList [(fl 0 1); (fl 0 1); (fl 1 1); (fl 0 1); (fl 0 1); (fl 1 1000)]) 10
     [("position", [(fl 0 1); (fl 0 1); (fl 20833150221367007 5000000000000000)], false); ("quaternion", [(fl 0 1); (fl 0 1); (fl 391087062129 2500000000000); (fl 1975376567213 2000000000000)], false); ("velocity", [(fl 0 1); (fl 0 1); (fl 8333186843966979 10000000000000000)], false); ("angular_velocity", [(fl 0 1); (fl 0 1); (fl 7 200)], false)] (fl 1 10000) (fl 0 1);
  (* At_origin_min_z_trans_min_z_rot_control *)
   mk_case (mk_spec SixDOFSpacecraftC p_sixdof [] (Some [(fl 0 1); (fl 0 1); (fl 0 1); (fl 0 1); (fl 0 1); (fl 0 1); (fl 1 1); (fl 0 1); (fl 0 1); (fl 0 1); (fl 0 1); (fl 0 1); (fl 0 1)]))
     (AList [(fl 0 1); (fl 0 1); (fl (-1) 1); (fl 0 1); (fl 0 1); (fl (-1) 1000)]) 10
     [("position", [(fl 0 1); (fl 0 1); (fl (-20833150221367007) 5000000000000000)], false); ("quaternion", [(fl 0 1); (fl 0 1); (fl (-391087062129) 2500000000000); (fl 1975376567213 2000000000000)], false); ("velocity", [(fl 0 1); (fl 0 1); (fl (-8333186843966979) 10000000000000000)], false); ("angular_velocity", [(fl 0 1); (fl 0 1); (fl (-7) 200)], false)] (fl 1 10000) (fl 0 1);
  (* At_origin_max_x_trans_max_z_rot_control *)
   mk_case (mk_spec SixDOFSpacecraftC p_sixdof [] (Some [(fl 0 1); (fl 0 1); (fl 0 1); (fl 0 1); (fl 0 1); (fl 0 1); (fl 1 1); (fl 0 1); (fl 0 1); (fl 0 1); (fl 0 1); (fl 0 1); (fl 0 1)]))
     (AList [(fl 1 1); (fl 0 1); (fl 0 1); (fl 0 1); (fl 0 1); (fl 1 1000)]) 10
     [("position", [(fl 828120465345767 200000000000000); (fl 81903713517541 250000000000000); (fl 0 1)], false); ("quaternion", [(fl 0 1); (fl 0 1); (fl 391087062129 2500000000000); (fl 1975376567213 2000000000000)], false); ("velocity", [(fl 205442636930281 250000000000000); (fl 10882280537310987 100000000000000000); (fl 0 1)], false); ("angular_velocity", [(fl 0 1); (fl 0 1); (fl 7 200)], false)] (fl 1 2000) (fl 0 1);
  (* At_origin_min_x_trans_min_z_rot_control *)
   mk_case (mk_spec SixDOFSpacecraftC p_sixdof [] (Some [(fl 0 1); (fl 0 1); (fl 0 1); (fl 0 1); (fl 0 1); (fl 0 1); (fl 1 1); (fl 0 1); (fl 0 1); (fl 0 1); (fl 0 1); (fl 0 1); (fl 0 1)]))
     (AList [(fl (-1) 1); (fl 0 1); (fl 0 1); (fl 0 1); (fl 0 1); (fl (-1) 1000)]) 10
     [("position", [(fl (-517158205416353) 125000000000000); (fl 384464808391911 1000000000000000); (fl 0 1)], false); ("quaternion", [(fl 0 1); (fl 0 1); (fl (-391087062129) 2500000000000); (fl 1975376567213 2000000000000)], false); ("velocity", [(fl (-8203079167643681) 10000000000000000); (fl 3145638654590311 25000000000000000); (fl 0 1)], false); ("angular_velocity", [(fl 0 1); (fl 0 1); (fl (-7) 200)], false)] (fl 1 2000) (fl 0 1);
  (* At_origin_min_x_trans_min_z_rot_control_long_hold *)
   mk_case (mk_spec SixDOFSpacecraftC p_sixdof [] (Some [(fl 0 1); (fl 0 1); (fl 0 1); (fl 0 1); (fl 0 1); (fl 0 1); (fl 1 1); (fl 0 1); (fl 0 1); (fl 0 1); (fl 0 1); (fl 0 1); (fl 0 1)]))
     (AList [(fl (-1) 1); (fl 0 1); (fl 0 1); (fl 0 1); (fl 0 1); (fl (-1) 1000)]) 100
     [("angular_velocity", [(fl 0 1); (fl 0 1); (fl (-7) 200)], false)] (fl 1 2000) (fl 0 1);
  (* test pint init random state 1 native units *)
   mk_case (mk_spec SixDOFSpacecraftC p_sixdof [("x", CQty {| q_mag := (fl 134081 250); q_unit := meter |}); ("y", CQty {| q_mag := (fl (-92264) 125); q_unit := meter |}); ("z", CQty {| q_mag := (fl 99599 100); q_unit := meter |}); ("x_dot", CQty {| q_mag := (fl (-37) 10); q_unit := mps |}); ("y_dot", CQty {| q_mag := (fl (-17) 1); q_unit := mps |}); ("z_dot", CQty {| q_mag := (fl 2523 100); q_unit := mps |}); ("wx", CQty {| q_mag := (fl 123 10000); q_unit := rps |}); ("wy", CQty {| q_mag := (fl (-13) 2000); q_unit := rps |}); ("wz", CQty {| q_mag := (fl 3 100); q_unit := rps |})] (None))
     ANone 0
     [("position", [(fl 134081 250); (fl (-92264) 125); (fl 99599 100)], false); ("velocity", [(fl (-37) 10); (fl (-17) 1); (fl 2523 100)], false); ("wx", [(fl 123 10000)], false); ("wy", [(fl (-13) 2000)], false); ("wz", [(fl 3 100)], false)] (fl 1 10000) (fl 0 1);
  (* test pint init random state 1 alternate units *)
   mk_case (mk_spec SixDOFSpacecraftC p_sixdof [("x", CQty {| q_mag := (fl 8331407 25000000); q_unit := u_mile |}); ("y", CQty {| q_mag := (fl (-45864153) 100000000); q_unit := u_mile |}); ("z", CQty {| q_mag := (fl 61887949 100000000); q_unit := u_mile |}); ("x_dot", CQty {| q_mag := (fl (-206916607) 25000000); q_unit := (unit_div u_mile u_hour) |}); ("y_dot", CQty {| q_mag := (fl (-237674481) 6250000); q_unit := (unit_div u_mile u_hour) |}); ("z_dot", CQty {| q_mag := (fl 1128758053 20000000); q_unit := (unit_div u_mile u_hour) |}); ("wx", CQty {| q_mag := (fl 88092261 125000000); q_unit := (unit_div u_deg second) |}); ("wy", CQty {| q_mag := (fl (-372422567) 1000000000); q_unit := (unit_div u_deg second) |}); ("wz", CQty {| q_mag := (fl 1718873 1000000); q_unit := (unit_div u_deg second) |})] (None))
     ANone 0
     [("position", [(fl 134081 250); (fl (-92264) 125); (fl 99599 100)], false); ("velocity", [(fl (-37) 10); (fl (-17) 1); (fl 2523 100)], false); ("wx", [(fl 123 10000)], false); ("wy", [(fl (-13) 2000)], false); ("wz", [(fl 3 100)], false)] (fl 1 10000) (fl 0 1)].
Check ltac:(evaluates_to_true (forallb passes sixdof_cases)) : True.
