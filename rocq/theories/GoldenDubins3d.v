(** Test vectors of the aircraft in space, first half. See Golden.v. *)
From Coq Require Import String List Bool ZArith SpecFloat.
From Verif Require Import PyBase Num Arr BaseModel Cwh Utils Rot2d SixDof Sun Dubins Classes Units Golden.
Import List ListNotations.
Local Open Scope string_scope.
Local Open Scope list_scope.
Local Hint Extern 0 (Num sf) => exact SF : typeclass_instances.

(** test/test_cases/Dubins3dAircraft_test_cases.yaml. *)
Definition dubins3d_a_cases : list case := [
  (* From Origin v 200 *)
   mk_case (mk_spec Dubins3dAircraftC p_dub3 [] (Some [(fl 0 1); (fl 0 1); (fl 0 1); (fl 0 1); (fl 0 1); (fl 0 1); (fl 200 1)]))
     (ADict [("gamma_rate", (fl 0 1)); ("roll_rate", (fl 0 1)); ("acceleration", (fl 0 1))]) 10
     [("position", [(fl 2000 1); (fl 0 1); (fl 0 1)], false); ("heading", [(fl 0 1)], true); ("gamma", [(fl 0 1)], false); ("roll", [(fl 0 1)], false); ("v", [(fl 200 1)], false)] (fl 1 10000) (fl 1 10000);
  (* From Origin v 289 at angle *)
   mk_case (mk_spec Dubins3dAircraftC p_dub3 [] (Some [(fl 0 1); (fl 0 1); (fl 324234 1); (fl (-22165681500327987) 10000000000000000); (fl 0 1); (fl 0 1); (fl 289 1)]))
     (ADict [("gamma_rate", (fl 0 1)); ("roll_rate", (fl 0 1)); ("acceleration", (fl 0 1))]) 10
     [("position", [(fl (-17392454169094199) 10000000000000); (fl (-577014156009169) 250000000000); (fl 324234 1)], false); ("heading", [(fl (-22165681500327987) 10000000000000000)], true); ("gamma", [(fl 0 1)], false); ("roll", [(fl 0 1)], false); ("v", [(fl 289 1)], false)] (fl 1 10000) (fl 1 10000);
  (* From Offset v 289 at angle *)
   mk_case (mk_spec Dubins3dAircraftC p_dub3 [] (Some [(fl (-473) 1); (fl 77638 1); (fl (-233) 1); (fl (-22165681500327987) 10000000000000000); (fl 0 1); (fl 0 1); (fl 289 1)]))
     (ADict [("gamma_rate", (fl 0 1)); ("roll_rate", (fl 0 1)); ("acceleration", (fl 0 1))]) 10
     [("position", [(fl (-110612270845471) 50000000000); (fl 1883248584399083 25000000000); (fl (-233) 1)], false); ("heading", [(fl (-22165681500327987) 10000000000000000)], true); ("gamma", [(fl 0 1)], false); ("roll", [(fl 0 1)], false); ("v", [(fl 289 1)], false)] (fl 1 10000) (fl 1 10000);
  (* From Origin v 200 with positive pitch *)
   mk_case (mk_spec Dubins3dAircraftC p_dub3 [] (Some [(fl 0 1); (fl 0 1); (fl 0 1); (fl 0 1); (fl 3490658503988659 10000000000000000); (fl 0 1); (fl 200 1)]))
     (ADict [("gamma_rate", (fl 0 1)); ("roll_rate", (fl 0 1)); ("acceleration", (fl 0 1))]) 10
     [("position", [(fl 2349231551964771 1250000000000); (fl 0 1); (fl (-3420201433256687) 5000000000000)], false); ("heading", [(fl 0 1)], true); ("gamma", [(fl 3490658503988659 10000000000000000)], false); ("roll", [(fl 0 1)], false); ("v", [(fl 200 1)], false)] (fl 1 10000) (fl 1 10000);
  (* From Origin v 200 with negative pitch *)
   mk_case (mk_spec Dubins3dAircraftC p_dub3 [] (Some [(fl 0 1); (fl 0 1); (fl 0 1); (fl 0 1); (fl (-3490658503988659) 20000000000000000); (fl 0 1); (fl 200 1)]))
     (ADict [("gamma_rate", (fl 0 1)); ("roll_rate", (fl 0 1)); ("acceleration", (fl 0 1))]) 10
     [("position", [(fl 61550484563263 31250000000); (fl 0 1); (fl 3472963553338607 10000000000000)], false); ("heading", [(fl 0 1)], true); ("gamma", [(fl (-3490658503988659) 20000000000000000)], false); ("roll", [(fl 0 1)], false); ("v", [(fl 200 1)], false)] (fl 1 10000) (fl 1 10000);
  (* Full Circle v 200 *)
   mk_case (mk_spec Dubins3dAircraftC p_dub3 [] (Some [(fl 0 1); (fl 0 1); (fl 4432 1); (fl 0 1); (fl 0 1); (fl 8261734686908949 10000000000000000); (fl 200 1)]))
     (ADict [("gamma_rate", (fl 0 1)); ("roll_rate", (fl 0 1)); ("acceleration", (fl 0 1))]) 36
     [("position", [(fl 0 1); (fl 0 1); (fl 4432 1)], false); ("heading", [(fl 0 1)], true); ("gamma", [(fl 0 1)], false); ("roll", [(fl 8261734686908949 10000000000000000)], false); ("v", [(fl 200 1)], false)] (fl 1 1000) (fl 1 1000);
  (* Half Circle v 200 *)
   mk_case (mk_spec Dubins3dAircraftC p_dub3 [] (Some [(fl 0 1); (fl 0 1); (fl 4432 1); (fl 0 1); (fl 0 1); (fl 8261734686908949 10000000000000000); (fl 200 1)]))
     (ADict [("gamma_rate", (fl 0 1)); ("roll_rate", (fl 0 1)); ("acceleration", (fl 0 1))]) 18
     [("position", [(fl 0 1); (fl 2291831180523293 1000000000000); (fl 4432 1)], false); ("heading", [(fl (-3141592653589793) 1000000000000000)], true); ("gamma", [(fl 0 1)], false); ("roll", [(fl 8261734686908949 10000000000000000)], false); ("v", [(fl 200 1)], false)] (fl 1 1000) (fl 1 1000);
  (* 3/4 Circle v 200 *)
   mk_case (mk_spec Dubins3dAircraftC p_dub3 [] (Some [(fl 0 1); (fl 0 1); (fl 0 1); (fl 0 1); (fl 0 1); (fl 8261734686908949 10000000000000000); (fl 200 1)]))
     (ADict [("gamma_rate", (fl 0 1)); ("roll_rate", (fl 0 1)); ("acceleration", (fl 0 1))]) 27
     [("position", [(fl (-2291831180523293) 2000000000000); (fl 2291831180523293 2000000000000); (fl 0 1)], false); ("heading", [(fl (-7853981633974483) 5000000000000000)], true); ("gamma", [(fl 0 1)], false); ("roll", [(fl 8261734686908949 10000000000000000)], false); ("v", [(fl 200 1)], false)] (fl 1 10000) (fl 1 1000);
  (* 140 deg Circle v 200 *)
   mk_case (mk_spec Dubins3dAircraftC p_dub3 [] (Some [(fl 0 1); (fl 0 1); (fl 0 1); (fl 0 1); (fl 0 1); (fl 8261734686908949 10000000000000000); (fl 200 1)]))
     (ADict [("gamma_rate", (fl 0 1)); ("roll_rate", (fl 0 1)); ("acceleration", (fl 0 1))]) 14
     [("position", [(fl 7365803431668237 10000000000000); (fl 5059344651162461 2500000000000); (fl 0 1)], false); ("heading", [(fl 2443460952792061 1000000000000000)], true); ("gamma", [(fl 0 1)], false); ("roll", [(fl 8261734686908949 10000000000000000)], false); ("v", [(fl 200 1)], false)] (fl 1 10000) (fl 1 10000);
  (* 140 deg Circle v 373 negative slow turn *)
   mk_case (mk_spec Dubins3dAircraftC p_dub3 [] (Some [(fl 0 1); (fl 0 1); (fl (-4632) 1); (fl 0 1); (fl 0 1); (fl (-2967200880285059) 5000000000000000); (fl 373 1)]))
     (ADict [("gamma_rate", (fl 0 1)); ("roll_rate", (fl 0 1)); ("acceleration", (fl 0 1))]) 42
     [("position", [(fl 4121167020018379 1000000000000); (fl (-11322813329301589) 1000000000000); (fl (-4632) 1)], false); ("heading", [(fl (-2443460952792061) 1000000000000000)], true); ("gamma", [(fl 0 1)], false); ("roll", [(fl (-2967200880285059) 5000000000000000)], false); ("v", [(fl 373 1)], false)] (fl 1 10000) (fl 1 1000);
  (* From origin max acceleration *)
   mk_case (mk_spec Dubins3dAircraftC p_dub3 [] (Some [(fl 0 1); (fl 0 1); (fl 0 1); (fl 0 1); (fl 0 1); (fl 0 1); (fl 200 1)]))
     (ADict [("gamma_rate", (fl 0 1)); ("roll_rate", (fl 0 1)); ("acceleration", (fl 193 2))]) 10
     [("position", [(fl 3792746113989637 1000000000000); (fl 0 1); (fl 0 1)], false); ("heading", [(fl 0 1)], true); ("gamma", [(fl 0 1)], false); ("roll", [(fl 0 1)], false); ("v", [(fl 400 1)], false)] (fl 1 10000) (fl 1 1000);
  (* From origin max deceleration *)
   mk_case (mk_spec Dubins3dAircraftC p_dub3 [] (Some [(fl 0 1); (fl 0 1); (fl 0 1); (fl 0 1); (fl 0 1); (fl 0 1); (fl 400 1)]))
     (ADict [("gamma_rate", (fl 0 1)); ("roll_rate", (fl 0 1)); ("acceleration", (fl (-193) 2))]) 10
     [("position", [(fl 22072538860103623 10000000000000); (fl 0 1); (fl 0 1)], false); ("heading", [(fl 0 1)], true); ("gamma", [(fl 0 1)], false); ("roll", [(fl 0 1)], false); ("v", [(fl 200 1)], false)] (fl 1 10000) (fl 1 1000);
  (* From origin exceed max acceleration *)
   mk_case (mk_spec Dubins3dAircraftC p_dub3 [] (Some [(fl 0 1); (fl 0 1); (fl 0 1); (fl 0 1); (fl 0 1); (fl 0 1); (fl 200 1)]))
     (ADict [("gamma_rate", (fl 0 1)); ("roll_rate", (fl 0 1)); ("acceleration", (fl 100 1))]) 10
     [("position", [(fl 3792746113989637 1000000000000); (fl 0 1); (fl 0 1)], false); ("heading", [(fl 0 1)], true); ("gamma", [(fl 0 1)], false); ("roll", [(fl 0 1)], false); ("v", [(fl 400 1)], false)] (fl 1 10000) (fl 1 1000);
  (* From origin exceed max deceleration *)
   mk_case (mk_spec Dubins3dAircraftC p_dub3 [] (Some [(fl 0 1); (fl 0 1); (fl 0 1); (fl 0 1); (fl 0 1); (fl 0 1); (fl 400 1)]))
     (ADict [("gamma_rate", (fl 0 1)); ("roll_rate", (fl 0 1)); ("acceleration", (fl (-100) 1))]) 10
     [("position", [(fl 22072538860103623 10000000000000); (fl 0 1); (fl 0 1)], false); ("heading", [(fl 0 1)], true); ("gamma", [(fl 0 1)], false); ("roll", [(fl 0 1)], false); ("v", [(fl 200 1)], false)] (fl 1 10000) (fl 1 1000);
  (* From offset, random direction, medium acceleration *)
   mk_case (mk_spec Dubins3dAircraftC p_dub3 [] (Some [(fl 974 1); (fl (-632) 1); (fl 0 1); (fl (-2839999758845173) 2000000000000000); (fl 0 1); (fl 0 1); (fl 212 1)]))
     (ADict [("gamma_rate", (fl 0 1)); ("roll_rate", (fl 0 1)); ("acceleration", (fl 14 1))]) 10
     [("position", [(fl 279527232264107 200000000000); (fl (-4274997400201147) 1250000000000); (fl 0 1)], false); ("heading", [(fl (-2839999758845173) 2000000000000000)], true); ("gamma", [(fl 0 1)], false); ("roll", [(fl 0 1)], false); ("v", [(fl 352 1)], false)] (fl 1 10000) (fl 1 10000);
  (* From origin low acceleration *)
   mk_case (mk_spec Dubins3dAircraftC p_dub3 [] (Some [(fl 0 1); (fl 0 1); (fl 0 1); (fl 0 1); (fl 0 1); (fl 1308996938995747 1250000000000000); (fl 200 1)]))
     (ADict [("gamma_rate", (fl 0 1)); ("roll_rate", (fl 0 1)); ("acceleration", (fl 10 1))]) 10
     [("position", [(fl 5503827627711091 10000000000000); (fl 9708253284163227 5000000000000); (fl 0 1)], false); ("heading", [(fl 22592546022621693 10000000000000000)], true); ("gamma", [(fl 0 1)], false); ("roll", [(fl 1308996938995747 1250000000000000)], false); ("v", [(fl 300 1)], false)] (fl 1 10000) (fl 1 10000);
  (* From origin pitch and roll rate max positive *)
   mk_case (mk_spec Dubins3dAircraftC p_dub3 [] (Some [(fl 0 1); (fl 0 1); (fl 0 1); (fl 0 1); (fl 0 1); (fl 0 1); (fl 200 1)]))
     (ADict [("gamma_rate", (fl 3490658503988659 20000000000000000)); ("roll_rate", (fl 8726646259971647 100000000000000000)); ("acceleration", (fl 10 1))]) 10
     [("position", [(fl 22686404906099037 10000000000000); (fl 5134192558198043 10000000000000); (fl (-1962767028950373) 2500000000000)], false); ("heading", [(fl 6111944640411373 10000000000000000)], true); ("gamma", [(fl 3490658503988659 10000000000000000)], false); ("roll", [(fl 136353847812057 156250000000000)], false); ("v", [(fl 300 1)], false)] (fl 1 10000) (fl 1 1000);
  (* From offset pitch and roll rate small negative *)
   mk_case (mk_spec Dubins3dAircraftC p_dub3 [] (Some [(fl 187331 250); (fl (-653) 1); (fl 2832 1); (fl 0 1); (fl 0 1); (fl 0 1); (fl 218 1)]))
     (ADict [("gamma_rate", (fl (-45451282604019) 781250000000000)); ("roll_rate", (fl (-136353847812057) 3125000000000000)); ("acceleration", (fl 25 1))]) 10
     [("position", [(fl 19677403850178107 5000000000000); (fl (-9105099328828469) 10000000000000); (fl 1850828703251197 500000000000)], false); ("heading", [(fl (-1000432511601537) 5000000000000000)], true); ("gamma", [(fl (-3490658503988659) 10000000000000000)], false); ("roll", [(fl (-136353847812057) 312500000000000)], false); ("v", [(fl 400 1)], false)] (fl 1 10000) (fl 1 200);
  (* velocity upper limit from origin *)
   mk_case (mk_spec Dubins3dAircraftC p_dub3 [] (Some [(fl 0 1); (fl 0 1); (fl 0 1); (fl 0 1); (fl 0 1); (fl 0 1); (fl 400 1)]))
     (ADict [("gamma_rate", (fl 0 1)); ("roll_rate", (fl 0 1)); ("acceleration", (fl 25 1))]) 10
     [("position", [(fl 4000 1); (fl 0 1); (fl 0 1)], false); ("heading", [(fl 0 1)], true); ("gamma", [(fl 0 1)], false); ("roll", [(fl 0 1)], false); ("v", [(fl 400 1)], false)] (fl 1 10000) (fl 1 10000);
  (* velocity lower limit from origin *)
   mk_case (mk_spec Dubins3dAircraftC p_dub3 [] (Some [(fl 0 1); (fl 0 1); (fl 0 1); (fl 0 1); (fl 0 1); (fl 0 1); (fl 200 1)]))
     (ADict [("gamma_rate", (fl 0 1)); ("roll_rate", (fl 0 1)); ("acceleration", (fl (-25) 1))]) 10
     [("position", [(fl 2000 1); (fl 0 1); (fl 0 1)], false); ("heading", [(fl 0 1)], true); ("gamma", [(fl 0 1)], false); ("roll", [(fl 0 1)], false); ("v", [(fl 200 1)], false)] (fl 1 10000) (fl 1 10000);
  (* velocity upper limit, random start *)
   mk_case (mk_spec Dubins3dAircraftC p_dub3 [] (Some [(fl (-14048974188123293) 5000000000000); (fl (-26606793814319763) 10000000000000); (fl 4039143504118553 10000000000000); (fl 2151117265049747 1000000000000000); (fl 4400375503988813 100000000000000000); (fl (-80261477807251) 312500000000000); (fl 400 1)]))
     (ADict [("gamma_rate", (fl 0 1)); ("roll_rate", (fl 0 1)); ("acceleration", (fl 25 1))]) 17
     [("position", [(fl (-1089186487501577) 200000000000); (fl 35608585198859673 10000000000000); (fl 10478537337775663 100000000000000)], false); ("heading", [(fl 8960165250223343 5000000000000000)], true); ("gamma", [(fl 4400375503988813 100000000000000000)], false); ("roll", [(fl (-80261477807251) 312500000000000)], false); ("v", [(fl 400 1)], false)] (fl 1 10000) (fl 1 10000);
  (* velocity lower limit, random start *)
   mk_case (mk_spec Dubins3dAircraftC p_dub3 [] (Some [(fl 1261542041527811 500000000000); (fl (-1693042509469293) 500000000000); (fl 12217128688863663 5000000000000); (fl 3353297785466957 12500000000000000); (fl 135360291590053 625000000000000); (fl (-13088936735306703) 100000000000000000); (fl 200 1)]))
     (ADict [("gamma_rate", (fl 0 1)); ("roll_rate", (fl 0 1)); ("acceleration", (fl (-25) 1))]) 16
     [("position", [(fl 21946149949959 3906250000); (fl (-30790781085942613) 10000000000000); (fl 8778931358428281 5000000000000)], false); ("heading", [(fl (-881625099474511) 12500000000000000)], true); ("gamma", [(fl 135360291590053 625000000000000)], false); ("roll", [(fl (-13088936735306703) 100000000000000000)], false); ("v", [(fl 200 1)], false)] (fl 1 10000) (fl 1 10000);
  (* velocity upper limit custom less than default *)
   mk_case (mk_spec Dubins3dAircraftC (PDub3 0 "RK45" (fl 200 1) (fl 350 1) (fl (-3490658503988659) 10000000000000000) (fl 3490658503988659 10000000000000000) (fl (-1308996938995747) 1250000000000000) (fl 1308996938995747 1250000000000000) (fl (-3490658503988659) 20000000000000000) (fl 3490658503988659 20000000000000000) (fl (-8726646259971647) 100000000000000000) (fl 8726646259971647 100000000000000000) (fl (-193) 2) (fl 193 2)) [("v", CNum (fl 300 1))] (None))
     (ADict [("acceleration", (fl 50 1))]) 10
     [("v", [(fl 350 1)], false)] (fl 1 10000) (fl 1 200);
  (* velocity upper limit custom greater than default *)
   mk_case (mk_spec Dubins3dAircraftC (PDub3 0 "RK45" (fl 200 1) (fl 600 1) (fl (-3490658503988659) 10000000000000000) (fl 3490658503988659 10000000000000000) (fl (-1308996938995747) 1250000000000000) (fl 1308996938995747 1250000000000000) (fl (-3490658503988659) 20000000000000000) (fl 3490658503988659 20000000000000000) (fl (-8726646259971647) 100000000000000000) (fl 8726646259971647 100000000000000000) (fl (-193) 2) (fl 193 2)) [("v", CNum (fl 300 1))] (None))
     (ADict [("acceleration", (fl 50 1))]) 100
     [("v", [(fl 600 1)], false)] (fl 1 10000) (fl 1 200);
  (* velocity lower limit custom less than default *)
   mk_case (mk_spec Dubins3dAircraftC (PDub3 0 "RK45" (fl 100 1) (fl 400 1) (fl (-3490658503988659) 10000000000000000) (fl 3490658503988659 10000000000000000) (fl (-1308996938995747) 1250000000000000) (fl 1308996938995747 1250000000000000) (fl (-3490658503988659) 20000000000000000) (fl 3490658503988659 20000000000000000) (fl (-8726646259971647) 100000000000000000) (fl 8726646259971647 100000000000000000) (fl (-193) 2) (fl 193 2)) [("v", CNum (fl 300 1))] (None))
     (ADict [("acceleration", (fl (-50) 1))]) 10
     [("v", [(fl 100 1)], false)] (fl 1 10000) (fl 1 200);
  (* velocity lower limit custom greater than default *)
   mk_case (mk_spec Dubins3dAircraftC (PDub3 0 "RK45" (fl 250 1) (fl 400 1) (fl (-3490658503988659) 10000000000000000) (fl 3490658503988659 10000000000000000) (fl (-1308996938995747) 1250000000000000) (fl 1308996938995747 1250000000000000) (fl (-3490658503988659) 20000000000000000) (fl 3490658503988659 20000000000000000) (fl (-8726646259971647) 100000000000000000) (fl 8726646259971647 100000000000000000) (fl (-193) 2) (fl 193 2)) [("v", CNum (fl 300 1))] (None))
     (ADict [("acceleration", (fl (-50) 1))]) 100
     [("v", [(fl 250 1)], false)] (fl 1 10000) (fl 1 200);
  (* gamma upper limit from origin *)
   mk_case (mk_spec Dubins3dAircraftC p_dub3 [] (Some [(fl 0 1); (fl 0 1); (fl 0 1); (fl 0 1); (fl 3490658503988659 10000000000000000); (fl 0 1); (fl 200 1)]))
     (ADict [("gamma_rate", (fl 8726646259971647 100000000000000000)); ("roll_rate", (fl 0 1)); ("acceleration", (fl 0 1))]) 10
     [("position", [(fl 1879385241571817 1000000000000); (fl 0 1); (fl (-3420201433256687) 5000000000000)], false); ("heading", [(fl 0 1)], true); ("gamma", [(fl 3490658503988659 10000000000000000)], false); ("roll", [(fl 0 1)], false); ("v", [(fl 200 1)], false)] (fl 1 10000) (fl 1 10000);
  (* gamma lower limit from origin *)
   mk_case (mk_spec Dubins3dAircraftC p_dub3 [] (Some [(fl 0 1); (fl 0 1); (fl 0 1); (fl 0 1); (fl (-3490658503988659) 10000000000000000); (fl 0 1); (fl 200 1)]))
     (ADict [("gamma_rate", (fl (-8726646259971647) 100000000000000000)); ("roll_rate", (fl 0 1)); ("acceleration", (fl 0 1))]) 10
     [("position", [(fl 1879385241571817 1000000000000); (fl 0 1); (fl 3420201433256687 5000000000000)], false); ("heading", [(fl 0 1)], true); ("gamma", [(fl (-3490658503988659) 10000000000000000)], false); ("roll", [(fl 0 1)], false); ("v", [(fl 200 1)], false)] (fl 1 10000) (fl 1 10000)].
Check ltac:(evaluates_to_true (forallb passes dubins3d_a_cases)) : True.
