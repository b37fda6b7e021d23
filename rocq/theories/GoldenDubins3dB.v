(** Test vectors of the aircraft in space, second half. See Golden.v. *)
From Coq Require Import String List Bool ZArith SpecFloat.
From Verif Require Import PyBase Num Arr BaseModel Cwh Utils Rot2d SixDof Sun Dubins Classes Units Golden.
Import List ListNotations.
Local Open Scope string_scope.
Local Open Scope list_scope.
Local Hint Extern 0 (Num sf) => exact SF : typeclass_instances.

(** test/test_cases/Dubins3dAircraft_test_cases.yaml. *)
Definition dubins3d_b_cases : list case := [
  (* gamma upper limit, random start *)
   mk_case (mk_spec Dubins3dAircraftC p_dub3 [] (Some [(fl (-4354847745992599) 5000000000000); (fl 2573538686180007 2000000000000); (fl 2089379563194779 500000000000); (fl (-36019776754181) 15625000000000); (fl 3490658503988659 10000000000000000); (fl 0 1); (fl 200 1)]))
     (ADict [("gamma_rate", (fl 8726646259971647 100000000000000000)); ("roll_rate", (fl (-7746765058791479) 10000000000000000)); ("acceleration", (fl 6 1))]) 13
     [("position", [(fl (-6723732834588247) 2000000000000); (fl 1669266140148527 10000000000000); (fl 1947564088172941 625000000000)], false); ("heading", [(fl (-353334480398913) 100000000000000)], true); ("gamma", [(fl 3490658503988659 10000000000000000)], false); ("roll", [(fl (-1308996938995747) 1250000000000000)], false); ("v", [(fl 278 1)], false)] (fl 1 1000) (fl 1 100);
  (* gamma lower limit, random start *)
   mk_case (mk_spec Dubins3dAircraftC p_dub3 [] (Some [(fl (-4271301252271999) 1000000000000); (fl 2243843861943761 1250000000000); (fl 166571905576679 40000000000); (fl (-5208222081128361) 2000000000000000); (fl (-3490658503988659) 10000000000000000); (fl (-8231277659368769) 10000000000000000); (fl 200 1)]))
     (ADict [("gamma_rate", (fl (-8726646259971647) 100000000000000000)); ("roll_rate", (fl (-23194984251548447) 1000000000000000000)); ("acceleration", (fl 15 1))]) 14
     [("position", [(fl (-1671840208024319) 250000000000); (fl 999212128789881 250000000000); (fl 11247167169373919 2000000000000)], false); ("heading", [(fl (-2408507397127889) 500000000000000)], true); ("gamma", [(fl (-3490658503988659) 10000000000000000)], false); ("roll", [(fl (-1308996938995747) 1250000000000000)], false); ("v", [(fl 400 1)], false)] (fl 1 10000) (fl 1 200);
  (* gamma upper limit custom less than default *)
   mk_case (mk_spec Dubins3dAircraftC (PDub3 0 "RK45" (fl 200 1) (fl 400 1) (fl (-3490658503988659) 10000000000000000) (fl 1 10) (fl (-1308996938995747) 1250000000000000) (fl 1308996938995747 1250000000000000) (fl (-3490658503988659) 20000000000000000) (fl 3490658503988659 20000000000000000) (fl (-8726646259971647) 100000000000000000) (fl 8726646259971647 100000000000000000) (fl (-193) 2) (fl 193 2)) [("gamma", CNum (fl 0 1))] (None))
     (ADict [("gamma_rate", (fl 8726646259971647 100000000000000000))]) 10
     [("gamma", [(fl 1 10)], false)] (fl 1 10000) (fl 1 200);
  (* gamma upper limit custom greater than default *)
   mk_case (mk_spec Dubins3dAircraftC (PDub3 0 "RK45" (fl 200 1) (fl 400 1) (fl (-3490658503988659) 10000000000000000) (fl 1 1) (fl (-1308996938995747) 1250000000000000) (fl 1308996938995747 1250000000000000) (fl (-3490658503988659) 20000000000000000) (fl 3490658503988659 20000000000000000) (fl (-8726646259971647) 100000000000000000) (fl 8726646259971647 100000000000000000) (fl (-193) 2) (fl 193 2)) [("gamma", CNum (fl 0 1))] (None))
     (ADict [("gamma_rate", (fl 8726646259971647 100000000000000000))]) 100
     [("gamma", [(fl 1 1)], false)] (fl 1 10000) (fl 1 200);
  (* gamma lower limit custom greater than default *)
   mk_case (mk_spec Dubins3dAircraftC (PDub3 0 "RK45" (fl 200 1) (fl 400 1) (fl (-1) 10) (fl 3490658503988659 10000000000000000) (fl (-1308996938995747) 1250000000000000) (fl 1308996938995747 1250000000000000) (fl (-3490658503988659) 20000000000000000) (fl 3490658503988659 20000000000000000) (fl (-8726646259971647) 100000000000000000) (fl 8726646259971647 100000000000000000) (fl (-193) 2) (fl 193 2)) [("gamma", CNum (fl 0 1))] (None))
     (ADict [("gamma_rate", (fl (-8726646259971647) 100000000000000000))]) 10
     [("gamma", [(fl (-1) 10)], false)] (fl 1 10000) (fl 1 200);
  (* gamma lower limit custom less than default *)
   mk_case (mk_spec Dubins3dAircraftC (PDub3 0 "RK45" (fl 200 1) (fl 400 1) (fl (-1) 1) (fl 3490658503988659 10000000000000000) (fl (-1308996938995747) 1250000000000000) (fl 1308996938995747 1250000000000000) (fl (-3490658503988659) 20000000000000000) (fl 3490658503988659 20000000000000000) (fl (-8726646259971647) 100000000000000000) (fl 8726646259971647 100000000000000000) (fl (-193) 2) (fl 193 2)) [("gamma", CNum (fl 0 1))] (None))
     (ADict [("gamma_rate", (fl (-8726646259971647) 100000000000000000))]) 100
     [("gamma", [(fl (-1) 1)], false)] (fl 1 10000) (fl 1 200);
  (* roll upper limit from origin *)
   mk_case (mk_spec Dubins3dAircraftC p_dub3 [] (Some [(fl 0 1); (fl 0 1); (fl 0 1); (fl 0 1); (fl 0 1); (fl 1308996938995747 1250000000000000); (fl 275 1)]))
     (ADict [("gamma_rate", (fl 0 1)); ("roll_rate", (fl 8726646259971647 100000000000000000)); ("acceleration", (fl 0 1))]) 10
     [("position", [(fl 6094579396322839 5000000000000); (fl 19541557829217713 10000000000000); (fl 0 1)], false); ("heading", [(fl 2026184526526937 1000000000000000)], true); ("gamma", [(fl 0 1)], false); ("roll", [(fl 1308996938995747 1250000000000000)], false); ("v", [(fl 275 1)], false)] (fl 1 10000) (fl 1 100);
  (* roll lower limit from origin *)
   mk_case (mk_spec Dubins3dAircraftC p_dub3 [] (Some [(fl 0 1); (fl 0 1); (fl 0 1); (fl 0 1); (fl 0 1); (fl (-1308996938995747) 1250000000000000); (fl 400 1)]))
     (ADict [("gamma_rate", (fl 0 1)); ("roll_rate", (fl (-8726646259971647) 100000000000000000)); ("acceleration", (fl 0 1))]) 10
     [("position", [(fl 7065576740809421 2500000000000); (fl (-2363645834509253) 1000000000000); (fl 0 1)], false); ("heading", [(fl (-2786003723974539) 2000000000000000)], true); ("gamma", [(fl 0 1)], false); ("roll", [(fl (-1308996938995747) 1250000000000000)], false); ("v", [(fl 400 1)], false)] (fl 1 10000) (fl 1 1000);
  (* roll upper limit, random start *)
   mk_case (mk_spec Dubins3dAircraftC p_dub3 [] (Some [(fl (-2261614129173681) 1000000000000); (fl 2461672282067553 1000000000000); (fl 19937643079827427 50000000000000); (fl 1964599051039807 12500000000000000); (fl 4541245983154271 50000000000000000); (fl 1308996938995747 1250000000000000); (fl 326 1)]))
     (ADict [("gamma_rate", (fl 2170167615709611 25000000000000000)); ("roll_rate", (fl 8726646259971647 100000000000000000)); ("acceleration", (fl 6 1))]) 15
     [("position", [(fl (-14628233271705953) 10000000000000); (fl 6582413671311859 1000000000000); (fl (-343602202262511) 250000000000)], false); ("heading", [(fl 2428384705842141 1000000000000000)], true); ("gamma", [(fl 3490658503988659 10000000000000000)], false); ("roll", [(fl 1308996938995747 1250000000000000)], false); ("v", [(fl 400 1)], false)] (fl 1 10000) (fl 1 1000);
  (* roll lower limit, random start *)
   mk_case (mk_spec Dubins3dAircraftC p_dub3 [] (Some [(fl 315562276135977 200000000000); (fl 2086785887416653 500000000000); (fl 11509888834920123 10000000000000); (fl (-3821680267819957) 10000000000000000); (fl (-1202393246406953) 12500000000000000); (fl (-1308996938995747) 1250000000000000); (fl 349 1)]))
     (ADict [("gamma_rate", (fl 1135492649631121 200000000000000000)); ("roll_rate", (fl (-8726646259971647) 100000000000000000)); ("acceleration", (fl 4 1))]) 16
     [("position", [(fl 823639603253243 625000000000); (fl (-5971252032472657) 10000000000000); (fl 3630677878169 2500000000)], false); ("heading", [(fl (-13674227182377743) 5000000000000000)], true); ("gamma", [(fl (-8362574596979) 1562500000000000)], false); ("roll", [(fl (-1308996938995747) 1250000000000000)], false); ("v", [(fl 400 1)], false)] (fl 1 10000) (fl 1 200);
  (* roll upper limit custom less than default *)
   mk_case (mk_spec Dubins3dAircraftC (PDub3 0 "RK45" (fl 200 1) (fl 400 1) (fl (-3490658503988659) 10000000000000000) (fl 3490658503988659 10000000000000000) (fl (-1308996938995747) 1250000000000000) (fl 1 10) (fl (-3490658503988659) 20000000000000000) (fl 3490658503988659 20000000000000000) (fl (-8726646259971647) 100000000000000000) (fl 8726646259971647 100000000000000000) (fl (-193) 2) (fl 193 2)) [("roll", CNum (fl 0 1))] (None))
     (ADict [("roll_rate", (fl 8726646259971647 100000000000000000))]) 10
     [("roll", [(fl 1 10)], false)] (fl 1 10000) (fl 1 200);
  (* roll upper limit custom greater than default *)
   mk_case (mk_spec Dubins3dAircraftC (PDub3 0 "RK45" (fl 200 1) (fl 400 1) (fl (-3490658503988659) 10000000000000000) (fl 3490658503988659 10000000000000000) (fl (-1308996938995747) 1250000000000000) (fl 3 1) (fl (-3490658503988659) 20000000000000000) (fl 3490658503988659 20000000000000000) (fl (-8726646259971647) 100000000000000000) (fl 8726646259971647 100000000000000000) (fl (-193) 2) (fl 193 2)) [("roll", CNum (fl 0 1))] (None))
     (ADict [("roll_rate", (fl 8726646259971647 100000000000000000))]) 100
     [("roll", [(fl 3 1)], false)] (fl 1 10000) (fl 1 200);
  (* roll lower limit custom greater than default *)
   mk_case (mk_spec Dubins3dAircraftC (PDub3 0 "RK45" (fl 200 1) (fl 400 1) (fl (-3490658503988659) 10000000000000000) (fl 3490658503988659 10000000000000000) (fl (-1) 10) (fl 1308996938995747 1250000000000000) (fl (-3490658503988659) 20000000000000000) (fl 3490658503988659 20000000000000000) (fl (-8726646259971647) 100000000000000000) (fl 8726646259971647 100000000000000000) (fl (-193) 2) (fl 193 2)) [("roll", CNum (fl 0 1))] (None))
     (ADict [("roll_rate", (fl (-8726646259971647) 100000000000000000))]) 10
     [("roll", [(fl (-1) 10)], false)] (fl 1 10000) (fl 1 200);
  (* roll lower limit custom less than default *)
   mk_case (mk_spec Dubins3dAircraftC (PDub3 0 "RK45" (fl 200 1) (fl 400 1) (fl (-3490658503988659) 10000000000000000) (fl 3490658503988659 10000000000000000) (fl (-3) 1) (fl 1308996938995747 1250000000000000) (fl (-3490658503988659) 20000000000000000) (fl 3490658503988659 20000000000000000) (fl (-8726646259971647) 100000000000000000) (fl 8726646259971647 100000000000000000) (fl (-193) 2) (fl 193 2)) [("roll", CNum (fl 0 1))] (None))
     (ADict [("roll_rate", (fl (-8726646259971647) 100000000000000000))]) 100
     [("roll", [(fl (-3) 1)], false)] (fl 1 10000) (fl 1 200);
  (* gamma rate upper limit custom less than default *)
   mk_case (mk_spec Dubins3dAircraftC (PDub3 0 "RK45" (fl 200 1) (fl 400 1) (fl (-3490658503988659) 10000000000000000) (fl 3490658503988659 10000000000000000) (fl (-1308996938995747) 1250000000000000) (fl 1308996938995747 1250000000000000) (fl (-3490658503988659) 20000000000000000) (fl 1 10) (fl (-8726646259971647) 100000000000000000) (fl 8726646259971647 100000000000000000) (fl (-193) 2) (fl 193 2)) [("gamma", CNum (fl 0 1))] (None))
     (ADict [("gamma_rate", (fl 10 1))]) 2
     [("gamma", [(fl 1 5)], false)] (fl 1 10000) (fl 1 200);
  (* gamma rate upper limit custom greater than default *)
   mk_case (mk_spec Dubins3dAircraftC (PDub3 0 "RK45" (fl 200 1) (fl 400 1) (fl (-3490658503988659) 10000000000000000) (fl 3490658503988659 10000000000000000) (fl (-1308996938995747) 1250000000000000) (fl 1308996938995747 1250000000000000) (fl (-3490658503988659) 20000000000000000) (fl 3 10) (fl (-8726646259971647) 100000000000000000) (fl 8726646259971647 100000000000000000) (fl (-193) 2) (fl 193 2)) [("gamma", CNum (fl 0 1))] (None))
     (ADict [("gamma_rate", (fl 10 1))]) 1
     [("gamma", [(fl 3 10)], false)] (fl 1 10000) (fl 1 200);
  (* gamma rate lower limit custom less than default *)
   mk_case (mk_spec Dubins3dAircraftC (PDub3 0 "RK45" (fl 200 1) (fl 400 1) (fl (-3490658503988659) 10000000000000000) (fl 3490658503988659 10000000000000000) (fl (-1308996938995747) 1250000000000000) (fl 1308996938995747 1250000000000000) (fl (-1) 10) (fl 3490658503988659 20000000000000000) (fl (-8726646259971647) 100000000000000000) (fl 8726646259971647 100000000000000000) (fl (-193) 2) (fl 193 2)) [("gamma", CNum (fl 0 1))] (None))
     (ADict [("gamma_rate", (fl (-10) 1))]) 2
     [("gamma", [(fl (-1) 5)], false)] (fl 1 10000) (fl 1 200);
  (* gamma rate lower limit custom greater than default *)
   mk_case (mk_spec Dubins3dAircraftC (PDub3 0 "RK45" (fl 200 1) (fl 400 1) (fl (-3490658503988659) 10000000000000000) (fl 3490658503988659 10000000000000000) (fl (-1308996938995747) 1250000000000000) (fl 1308996938995747 1250000000000000) (fl (-1) 100) (fl 3490658503988659 20000000000000000) (fl (-8726646259971647) 100000000000000000) (fl 8726646259971647 100000000000000000) (fl (-193) 2) (fl 193 2)) [("gamma", CNum (fl 0 1))] (None))
     (ADict [("gamma_rate", (fl (-10) 1))]) 10
     [("gamma", [(fl (-1) 10)], false)] (fl 1 10000) (fl 1 200);
  (* roll rate upper limit custom less than default *)
   mk_case (mk_spec Dubins3dAircraftC (PDub3 0 "RK45" (fl 200 1) (fl 400 1) (fl (-3490658503988659) 10000000000000000) (fl 3490658503988659 10000000000000000) (fl (-1308996938995747) 1250000000000000) (fl 1308996938995747 1250000000000000) (fl (-3490658503988659) 20000000000000000) (fl 3490658503988659 20000000000000000) (fl (-8726646259971647) 100000000000000000) (fl 1 100) (fl (-193) 2) (fl 193 2)) [("roll", CNum (fl 0 1))] (None))
     (ADict [("roll_rate", (fl 10 1))]) 10
     [("roll", [(fl 1 10)], false)] (fl 1 10000) (fl 1 200);
  (* roll rate upper limit custom greater than default *)
   mk_case (mk_spec Dubins3dAircraftC (PDub3 0 "RK45" (fl 200 1) (fl 400 1) (fl (-3490658503988659) 10000000000000000) (fl 3490658503988659 10000000000000000) (fl (-1308996938995747) 1250000000000000) (fl 1308996938995747 1250000000000000) (fl (-3490658503988659) 20000000000000000) (fl 3490658503988659 20000000000000000) (fl (-8726646259971647) 100000000000000000) (fl 1 2) (fl (-193) 2) (fl 193 2)) [("roll", CNum (fl 0 1))] (None))
     (ADict [("roll_rate", (fl 10 1))]) 2
     [("roll", [(fl 1 1)], false)] (fl 1 10000) (fl 1 200);
  (* roll rate lower limit custom less than default *)
   mk_case (mk_spec Dubins3dAircraftC (PDub3 0 "RK45" (fl 200 1) (fl 400 1) (fl (-3490658503988659) 10000000000000000) (fl 3490658503988659 10000000000000000) (fl (-1308996938995747) 1250000000000000) (fl 1308996938995747 1250000000000000) (fl (-3490658503988659) 20000000000000000) (fl 3490658503988659 20000000000000000) (fl (-1) 2) (fl 8726646259971647 100000000000000000) (fl (-193) 2) (fl 193 2)) [("roll", CNum (fl 0 1))] (None))
     (ADict [("roll_rate", (fl (-10) 1))]) 2
     [("roll", [(fl (-1) 1)], false)] (fl 1 10000) (fl 1 200);
  (* roll rate lower limit custom greater than default *)
   mk_case (mk_spec Dubins3dAircraftC (PDub3 0 "RK45" (fl 200 1) (fl 400 1) (fl (-3490658503988659) 10000000000000000) (fl 3490658503988659 10000000000000000) (fl (-1308996938995747) 1250000000000000) (fl 1308996938995747 1250000000000000) (fl (-3490658503988659) 20000000000000000) (fl 3490658503988659 20000000000000000) (fl (-1) 100) (fl 8726646259971647 100000000000000000) (fl (-193) 2) (fl 193 2)) [("roll", CNum (fl 0 1))] (None))
     (ADict [("roll_rate", (fl (-10) 1))]) 10
     [("roll", [(fl (-1) 10)], false)] (fl 1 10000) (fl 1 200);
  (* acceleration upper limit custom less than default *)
   mk_case (mk_spec Dubins3dAircraftC (PDub3 0 "RK45" (fl 200 1) (fl 400 1) (fl (-3490658503988659) 10000000000000000) (fl 3490658503988659 10000000000000000) (fl (-1308996938995747) 1250000000000000) (fl 1308996938995747 1250000000000000) (fl (-3490658503988659) 20000000000000000) (fl 3490658503988659 20000000000000000) (fl (-8726646259971647) 100000000000000000) (fl 8726646259971647 100000000000000000) (fl (-193) 2) (fl 10 1)) [("v", CNum (fl 300 1))] (None))
     (ADict [("acceleration", (fl 500 1))]) 5
     [("v", [(fl 350 1)], false)] (fl 1 10000) (fl 1 200);
  (* acceleration upper limit custom greater than default *)
   mk_case (mk_spec Dubins3dAircraftC (PDub3 0 "RK45" (fl 200 1) (fl 400 1) (fl (-3490658503988659) 10000000000000000) (fl 3490658503988659 10000000000000000) (fl (-1308996938995747) 1250000000000000) (fl 1308996938995747 1250000000000000) (fl (-3490658503988659) 20000000000000000) (fl 3490658503988659 20000000000000000) (fl (-8726646259971647) 100000000000000000) (fl 8726646259971647 100000000000000000) (fl (-193) 2) (fl 195 1)) [("v", CNum (fl 200 1))] (None))
     (ADict [("acceleration", (fl 500 1))]) 1
     [("v", [(fl 395 1)], false)] (fl 1 10000) (fl 1 200);
  (* acceleration lower limit custom greater than default *)
   mk_case (mk_spec Dubins3dAircraftC (PDub3 0 "RK45" (fl 200 1) (fl 400 1) (fl (-3490658503988659) 10000000000000000) (fl 3490658503988659 10000000000000000) (fl (-1308996938995747) 1250000000000000) (fl 1308996938995747 1250000000000000) (fl (-3490658503988659) 20000000000000000) (fl 3490658503988659 20000000000000000) (fl (-8726646259971647) 100000000000000000) (fl 8726646259971647 100000000000000000) (fl (-10) 1) (fl 193 2)) [("v", CNum (fl 300 1))] (None))
     (ADict [("acceleration", (fl (-500) 1))]) 5
     [("v", [(fl 250 1)], false)] (fl 1 10000) (fl 1 200);
  (* acceleration lower limit custom less than default *)
   mk_case (mk_spec Dubins3dAircraftC (PDub3 0 "RK45" (fl 200 1) (fl 400 1) (fl (-3490658503988659) 10000000000000000) (fl 3490658503988659 10000000000000000) (fl (-1308996938995747) 1250000000000000) (fl 1308996938995747 1250000000000000) (fl (-3490658503988659) 20000000000000000) (fl 3490658503988659 20000000000000000) (fl (-8726646259971647) 100000000000000000) (fl 8726646259971647 100000000000000000) (fl (-195) 1) (fl 193 2)) [("v", CNum (fl 400 1))] (None))
     (ADict [("acceleration", (fl (-500) 1))]) 1
     [("v", [(fl 205 1)], false)] (fl 1 10000) (fl 1 200);
  (* test pint init random state 1 native units *)
   mk_case (mk_spec Dubins3dAircraftC p_dub3 [("x", CQty {| q_mag := (fl (-4271301) 1000); q_unit := foot |}); ("y", CQty {| q_mag := (fl 71803 40); q_unit := foot |}); ("z", CQty {| q_mag := (fl 4164297 1000); q_unit := foot |}); ("heading", CQty {| q_mag := (fl (-651) 250); q_unit := radian |}); ("gamma", CQty {| q_mag := (fl (-17) 50); q_unit := radian |}); ("roll", CQty {| q_mag := (fl (-4) 5); q_unit := radian |}); ("v", CQty {| q_mag := (fl 324 1); q_unit := fps |})] (None))
     ANone 0
     [("position", [(fl (-4271301) 1000); (fl 71803 40); (fl 4164297 1000)], false); ("heading", [(fl (-651) 250)], true); ("gamma", [(fl (-17) 50)], false); ("roll", [(fl (-4) 5)], false); ("v", [(fl 324 1)], false)] (fl 1 10000) (fl 1 200);
  (* test pint init random state 1 alternate units *)
   mk_case (mk_spec Dubins3dAircraftC p_dub3 [("x", CQty {| q_mag := (fl (-1627365681) 1250000); q_unit := meter |}); ("y", CQty {| q_mag := (fl 27356943 500); q_unit := u_cm |}); ("z", CQty {| q_mag := (fl 7887 10000); q_unit := u_mile |}); ("heading", CQty {| q_mag := (fl (-14919821) 100000); q_unit := u_deg |}); ("gamma", CQty {| q_mag := (fl (-487) 25); q_unit := u_deg |}); ("roll", CQty {| q_mag := (fl (-229183) 5000); q_unit := u_deg |}); ("v", CQty {| q_mag := (fl 220909 1000); q_unit := (unit_div u_mile u_hour) |})] (None))
     ANone 0
     [("position", [(fl (-4271301) 1000); (fl 71803 40); (fl 4164297 1000)], false); ("heading", [(fl (-651) 250)], true); ("gamma", [(fl (-17) 50)], false); ("roll", [(fl (-4) 5)], false); ("v", [(fl 324 1)], false)] (fl 1 10000) (fl 1 200)].
Check ltac:(evaluates_to_true (forallb passes dubins3d_b_cases)) : True.
