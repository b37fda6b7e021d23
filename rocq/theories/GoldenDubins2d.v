(** Test vectors of the planar aircraft. See Golden.v. *)
From Coq Require Import String List Bool ZArith SpecFloat.
From Verif Require Import PyBase Num Arr BaseModel Cwh Utils Rot2d SixDof Sun Dubins Classes Units Golden.
Import List ListNotations.
Local Open Scope string_scope.
Local Open Scope list_scope.
Local Hint Extern 0 (Num sf) => exact SF : typeclass_instances.

(** test/test_cases/Dubins2dAircraft_test_cases.yaml. *)
Definition dubins2d_cases : list case := [
  (* From Origin v 200 *)
   mk_case (mk_spec Dubins2dAircraftC p_dub2 [] (Some [(fl 0 1); (fl 0 1); (fl 0 1); (fl 200 1)]))
     (ADict [("heading_rate", (fl 0 1)); ("acceleration", (fl 0 1))]) 10
     [("position", [(fl 2000 1); (fl 0 1); (fl 0 1)], false); ("heading", [(fl 0 1)], true); ("v", [(fl 200 1)], false)] (fl 1 100000) (fl 1 10000);
  (* From Origin v 289 at angle *)
   mk_case (mk_spec Dubins2dAircraftC p_dub2 [] (Some [(fl 0 1); (fl 0 1); (fl (-22165681500327987) 10000000000000000); (fl 289 1)]))
     (ADict [("heading_rate", (fl 0 1)); ("acceleration", (fl 0 1))]) 10
     [("position", [(fl (-17392454169094199) 10000000000000); (fl (-577014156009169) 250000000000); (fl 0 1)], false); ("heading", [(fl (-22165681500327987) 10000000000000000)], true); ("v", [(fl 289 1)], false)] (fl 1 100000) (fl 1 1000);
  (* From Offset v 289 at angle *)
   mk_case (mk_spec Dubins2dAircraftC p_dub2 [] (Some [(fl (-473) 1); (fl 77638 1); (fl (-22165681500327987) 10000000000000000); (fl 289 1)]))
     (ADict [("heading_rate", (fl 0 1)); ("acceleration", (fl 0 1))]) 10
     [("position", [(fl (-110612270845471) 50000000000); (fl 1883248584399083 25000000000); (fl 0 1)], false); ("heading", [(fl (-22165681500327987) 10000000000000000)], true); ("v", [(fl 289 1)], false)] (fl 1 100000) (fl 1 1000);
  (* Full Circle v 200 *)
   mk_case (mk_spec Dubins2dAircraftC p_dub2 [] (Some [(fl 0 1); (fl 0 1); (fl 0 1); (fl 200 1)]))
     (ADict [("heading_rate", (fl 3490658503988659 20000000000000000)); ("acceleration", (fl 0 1))]) 36
     [("position", [(fl 0 1); (fl 0 1); (fl 0 1)], false); ("heading", [(fl 0 1)], true); ("v", [(fl 200 1)], false)] (fl 1 1000) (fl 1 1000);
  (* Half Circle v 200 *)
   mk_case (mk_spec Dubins2dAircraftC p_dub2 [] (Some [(fl 0 1); (fl 0 1); (fl 0 1); (fl 200 1)]))
     (ADict [("heading_rate", (fl 3490658503988659 20000000000000000)); ("acceleration", (fl 0 1))]) 18
     [("position", [(fl 0 1); (fl 2291831180523293 1000000000000); (fl 0 1)], false); ("heading", [(fl (-3141592653589793) 1000000000000000)], true); ("v", [(fl 200 1)], false)] (fl 1 1000) (fl 1 1000);
  (* 3/4 Circle v 200 *)
   mk_case (mk_spec Dubins2dAircraftC p_dub2 [] (Some [(fl 0 1); (fl 0 1); (fl 0 1); (fl 200 1)]))
     (ADict [("heading_rate", (fl 3490658503988659 20000000000000000)); ("acceleration", (fl 0 1))]) 27
     [("position", [(fl (-2291831180523293) 2000000000000); (fl 2291831180523293 2000000000000); (fl 0 1)], false); ("heading", [(fl (-7853981633974483) 5000000000000000)], true); ("v", [(fl 200 1)], false)] (fl 1 100000) (fl 1 1000);
  (* 140 deg Circle v 200 *)
   mk_case (mk_spec Dubins2dAircraftC p_dub2 [] (Some [(fl 0 1); (fl 0 1); (fl 0 1); (fl 200 1)]))
     (ADict [("heading_rate", (fl 3490658503988659 20000000000000000)); ("acceleration", (fl 0 1))]) 14
     [("position", [(fl 7365803431668237 10000000000000); (fl 5059344651162461 2500000000000); (fl 0 1)], false); ("heading", [(fl 2443460952792061 1000000000000000)], true); ("v", [(fl 200 1)], false)] (fl 1 100000) (fl 1 1000);
  (* 140 deg Circle v 373 *)
   mk_case (mk_spec Dubins2dAircraftC p_dub2 [] (Some [(fl 0 1); (fl 0 1); (fl 0 1); (fl 373 1)]))
     (ADict [("heading_rate", (fl 3490658503988659 20000000000000000)); ("acceleration", (fl 0 1))]) 14
     [("position", [(fl 6868611700030631 5000000000000); (fl 943567777441799 250000000000); (fl 0 1)], false); ("heading", [(fl 2443460952792061 1000000000000000)], true); ("v", [(fl 373 1)], false)] (fl 1 100000) (fl 1 1000);
  (* 140 deg Circle v 373 negative slow turn *)
   mk_case (mk_spec Dubins2dAircraftC p_dub2 [] (Some [(fl 0 1); (fl 0 1); (fl 0 1); (fl 373 1)]))
     (ADict [("heading_rate", (fl (-45451282604019) 781250000000000)); ("acceleration", (fl 0 1))]) 42
     [("position", [(fl 4121167020018379 1000000000000); (fl (-11322813329301589) 1000000000000); (fl 0 1)], false); ("heading", [(fl (-2443460952792061) 1000000000000000)], true); ("v", [(fl 373 1)], false)] (fl 1 100000) (fl 1 1000);
  (* From origin max acceleration *)
   mk_case (mk_spec Dubins2dAircraftC p_dub2 [] (Some [(fl 0 1); (fl 0 1); (fl 0 1); (fl 200 1)]))
     (ADict [("heading_rate", (fl 0 1)); ("acceleration", (fl 193 2))]) 10
     [("position", [(fl 3792746113989637 1000000000000); (fl 0 1); (fl 0 1)], false); ("heading", [(fl 0 1)], true); ("v", [(fl 400 1)], false)] (fl 1 100000) (fl 1 1000);
  (* From origin max deceleration *)
   mk_case (mk_spec Dubins2dAircraftC p_dub2 [] (Some [(fl 0 1); (fl 0 1); (fl 0 1); (fl 400 1)]))
     (ADict [("heading_rate", (fl 0 1)); ("acceleration", (fl (-193) 2))]) 10
     [("position", [(fl 22072538860103623 10000000000000); (fl 0 1); (fl 0 1)], false); ("heading", [(fl 0 1)], true); ("v", [(fl 200 1)], false)] (fl 1 100000) (fl 1 1000);
  (* From origin exceed max acceleration *)
   mk_case (mk_spec Dubins2dAircraftC p_dub2 [] (Some [(fl 0 1); (fl 0 1); (fl 0 1); (fl 200 1)]))
     (ADict [("heading_rate", (fl 0 1)); ("acceleration", (fl 100 1))]) 10
     [("position", [(fl 3792746113989637 1000000000000); (fl 0 1); (fl 0 1)], false); ("heading", [(fl 0 1)], true); ("v", [(fl 400 1)], false)] (fl 1 100000) (fl 1 1000);
  (* From origin exceed max deceleration *)
   mk_case (mk_spec Dubins2dAircraftC p_dub2 [] (Some [(fl 0 1); (fl 0 1); (fl 0 1); (fl 400 1)]))
     (ADict [("heading_rate", (fl 0 1)); ("acceleration", (fl (-100) 1))]) 10
     [("position", [(fl 22072538860103623 10000000000000); (fl 0 1); (fl 0 1)], false); ("heading", [(fl 0 1)], true); ("v", [(fl 200 1)], false)] (fl 1 100000) (fl 1 1000);
  (* From offset, random direction, medium acceleration *)
   mk_case (mk_spec Dubins2dAircraftC p_dub2 [] (Some [(fl 974 1); (fl (-632) 1); (fl (-2839999758845173) 2000000000000000); (fl 212 1)]))
     (ADict [("heading_rate", (fl 0 1)); ("acceleration", (fl 14 1))]) 10
     [("position", [(fl 279527232264107 200000000000); (fl (-4274997400201147) 1250000000000); (fl 0 1)], false); ("heading", [(fl (-2839999758845173) 2000000000000000)], true); ("v", [(fl 352 1)], false)] (fl 1 100000) (fl 1 10000);
  (* From origin low acceleration *)
   mk_case (mk_spec Dubins2dAircraftC p_dub2 [] (Some [(fl 0 1); (fl 0 1); (fl 0 1); (fl 200 1)]))
     (ADict [("heading_rate", (fl 3490658503988659 20000000000000000)); ("acceleration", (fl 10 1))]) 10
     [("position", [(fl 408585583546367 312500000000); (fl 1767688135788163 1000000000000); (fl 0 1)], false); ("heading", [(fl 3490658503988659 2000000000000000)], true); ("v", [(fl 300 1)], false)] (fl 1 100000) (fl 1 1000);
  (* velocity lower bound from origin *)
   mk_case (mk_spec Dubins2dAircraftC p_dub2 [] (Some [(fl 0 1); (fl 0 1); (fl 0 1); (fl 200 1)]))
     (ADict [("heading_rate", (fl 0 1)); ("acceleration", (fl (-10) 1))]) 10
     [("position", [(fl 2000 1); (fl 0 1); (fl 0 1)], false); ("heading", [(fl 0 1)], true); ("v", [(fl 200 1)], false)] (fl 1 100000) (fl 1 10000);
  (* velocity upper bound from origin *)
   mk_case (mk_spec Dubins2dAircraftC p_dub2 [] (Some [(fl 0 1); (fl 0 1); (fl 0 1); (fl 400 1)]))
     (ADict [("heading_rate", (fl 0 1)); ("acceleration", (fl 10 1))]) 10
     [("position", [(fl 4000 1); (fl 0 1); (fl 0 1)], false); ("heading", [(fl 0 1)], true); ("v", [(fl 400 1)], false)] (fl 1 100000) (fl 1 10000);
  (* velocity lower bound, random start *)
   mk_case (mk_spec Dubins2dAircraftC p_dub2 [] (Some [(fl 7902751143594253 5000000000000); (fl (-1528775370493557) 6250000000000); (fl (-2446404694593627) 1000000000000000); (fl 200 1)]))
     (ADict [("heading_rate", (fl 0 1)); ("acceleration", (fl (-10) 1))]) 29
     [("position", [(fl (-28734630390045663) 10000000000000); (fl (-61869950719399) 15625000000); (fl 0 1)], false); ("heading", [(fl (-2446404694593627) 1000000000000000)], true); ("v", [(fl 200 1)], false)] (fl 1 100000) (fl 1 1000);
  (* velocity upper bound, random start *)
   mk_case (mk_spec Dubins2dAircraftC p_dub2 [] (Some [(fl 42054985883684327 100000000000000); (fl 2876532523242573 2000000000000); (fl 2638053275159513 10000000000000000); (fl 400 1)]))
     (ADict [("heading_rate", (fl 0 1)); ("acceleration", (fl 10 1))]) 26
     [("position", [(fl 5230379410459507 500000000000); (fl 4150129827091507 1000000000000); (fl 0 1)], false); ("heading", [(fl 2638053275159513 10000000000000000)], true); ("v", [(fl 400 1)], false)] (fl 1 100000) (fl 1 1000);
  (* velocity upper limit custom less than default *)
   mk_case (mk_spec Dubins2dAircraftC (PDub2 0 "RK45" (fl 200 1) (fl 350 1) (fl (-3490658503988659) 20000000000000000) (fl 3490658503988659 20000000000000000) (fl (-193) 2) (fl 193 2)) [("v", CNum (fl 300 1))] (None))
     (ADict [("acceleration", (fl 50 1))]) 10
     [("v", [(fl 350 1)], false)] (fl 1 1000) (fl 1 200);
  (* velocity upper limit custom greater than default *)
   mk_case (mk_spec Dubins2dAircraftC (PDub2 0 "RK45" (fl 200 1) (fl 600 1) (fl (-3490658503988659) 20000000000000000) (fl 3490658503988659 20000000000000000) (fl (-193) 2) (fl 193 2)) [("v", CNum (fl 300 1))] (None))
     (ADict [("acceleration", (fl 50 1))]) 100
     [("v", [(fl 600 1)], false)] (fl 1 1000) (fl 1 200);
  (* velocity lower limit custom less than default *)
   mk_case (mk_spec Dubins2dAircraftC (PDub2 0 "RK45" (fl 100 1) (fl 400 1) (fl (-3490658503988659) 20000000000000000) (fl 3490658503988659 20000000000000000) (fl (-193) 2) (fl 193 2)) [("v", CNum (fl 300 1))] (None))
     (ADict [("acceleration", (fl (-50) 1))]) 10
     [("v", [(fl 100 1)], false)] (fl 1 1000) (fl 1 200);
  (* velocity lower limit custom greater than default *)
   mk_case (mk_spec Dubins2dAircraftC (PDub2 0 "RK45" (fl 250 1) (fl 400 1) (fl (-3490658503988659) 20000000000000000) (fl 3490658503988659 20000000000000000) (fl (-193) 2) (fl 193 2)) [("v", CNum (fl 300 1))] (None))
     (ADict [("acceleration", (fl (-50) 1))]) 100
     [("v", [(fl 250 1)], false)] (fl 1 1000) (fl 1 200);
  (* heading rate upper limit custom less than default *)
   mk_case (mk_spec Dubins2dAircraftC (PDub2 0 "RK45" (fl 200 1) (fl 400 1) (fl (-3490658503988659) 20000000000000000) (fl 1 10) (fl (-193) 2) (fl 193 2)) [("heading", CNum (fl 0 1))] (None))
     (ADict [("heading_rate", (fl 10 1))]) 10
     [("heading", [(fl 1 1)], true)] (fl 1 1000) (fl 1 200);
  (* heading rate upper limit custom greater than default *)
   mk_case (mk_spec Dubins2dAircraftC (PDub2 0 "RK45" (fl 200 1) (fl 400 1) (fl (-3490658503988659) 20000000000000000) (fl 1 1) (fl (-193) 2) (fl 193 2)) [("heading", CNum (fl 0 1))] (None))
     (ADict [("heading_rate", (fl 10 1))]) 2
     [("heading", [(fl 2 1)], true)] (fl 1 1000) (fl 1 200);
  (* heading rate lower limit custom less than default *)
   mk_case (mk_spec Dubins2dAircraftC (PDub2 0 "RK45" (fl 200 1) (fl 400 1) (fl (-1) 1) (fl 3490658503988659 20000000000000000) (fl (-193) 2) (fl 193 2)) [("heading", CNum (fl 0 1))] (None))
     (ADict [("heading_rate", (fl (-10) 1))]) 2
     [("heading", [(fl (-2) 1)], true)] (fl 1 1000) (fl 1 200);
  (* heading rate lower limit custom greater than default *)
   mk_case (mk_spec Dubins2dAircraftC (PDub2 0 "RK45" (fl 200 1) (fl 400 1) (fl (-1) 10) (fl 3490658503988659 20000000000000000) (fl (-193) 2) (fl 193 2)) [("heading", CNum (fl 0 1))] (None))
     (ADict [("heading_rate", (fl (-10) 1))]) 10
     [("heading", [(fl (-1) 1)], true)] (fl 1 1000) (fl 1 200);
  (* acceleration upper limit custom less than default *)
   mk_case (mk_spec Dubins2dAircraftC (PDub2 0 "RK45" (fl 200 1) (fl 400 1) (fl (-3490658503988659) 20000000000000000) (fl 3490658503988659 20000000000000000) (fl (-193) 2) (fl 10 1)) [("v", CNum (fl 300 1))] (None))
     (ADict [("acceleration", (fl 500 1))]) 5
     [("v", [(fl 350 1)], false)] (fl 1 1000) (fl 1 200);
  (* acceleration upper limit custom greater than default *)
   mk_case (mk_spec Dubins2dAircraftC (PDub2 0 "RK45" (fl 200 1) (fl 400 1) (fl (-3490658503988659) 20000000000000000) (fl 3490658503988659 20000000000000000) (fl (-193) 2) (fl 195 1)) [("v", CNum (fl 200 1))] (None))
     (ADict [("acceleration", (fl 500 1))]) 1
     [("v", [(fl 395 1)], false)] (fl 1 1000) (fl 1 200);
  (* acceleration lower limit custom greater than default *)
   mk_case (mk_spec Dubins2dAircraftC (PDub2 0 "RK45" (fl 200 1) (fl 400 1) (fl (-3490658503988659) 20000000000000000) (fl 3490658503988659 20000000000000000) (fl (-10) 1) (fl 193 2)) [("v", CNum (fl 300 1))] (None))
     (ADict [("acceleration", (fl (-500) 1))]) 5
     [("v", [(fl 250 1)], false)] (fl 1 1000) (fl 1 200);
  (* acceleration lower limit custom less than default *)
   mk_case (mk_spec Dubins2dAircraftC (PDub2 0 "RK45" (fl 200 1) (fl 400 1) (fl (-3490658503988659) 20000000000000000) (fl 3490658503988659 20000000000000000) (fl (-195) 1) (fl 193 2)) [("v", CNum (fl 400 1))] (None))
     (ADict [("acceleration", (fl (-500) 1))]) 1
     [("v", [(fl 205 1)], false)] (fl 1 1000) (fl 1 200);
  (* test pint init random state 1 native units *)
   mk_case (mk_spec Dubins2dAircraftC p_dub2 [("x", CQty {| q_mag := (fl 42054985883684327 100000000000000); q_unit := foot |}); ("y", CQty {| q_mag := (fl 2876532523242573 2000000000000); q_unit := foot |}); ("heading", CQty {| q_mag := (fl 2638053275159513 10000000000000000); q_unit := radian |}); ("v", CQty {| q_mag := (fl 400 1); q_unit := fps |})] (None))
     (ADict [("heading_rate", (fl 0 1)); ("acceleration", (fl 10 1))]) 0
     [("position", [(fl 42054985883684327 100000000000000); (fl 2876532523242573 2000000000000); (fl 0 1)], false); ("heading", [(fl 2638053275159513 10000000000000000)], true); ("v", [(fl 400 1)], false)] (fl 1 100000) (fl 1 1000);
  (* test pint init random state 1 alternate units *)
   mk_case (mk_spec Dubins2dAircraftC p_dub2 [("x", CQty {| q_mag := (fl 320459 2500); q_unit := meter |}); ("y", CQty {| q_mag := (fl 10959589 25000); q_unit := meter |}); ("heading", CQty {| q_mag := (fl 1511493 100000); q_unit := u_deg |}); ("v", CQty {| q_mag := (fl 94697 1250000); q_unit := (unit_div u_mile second) |})] (None))
     (ADict [("heading_rate", (fl 0 1)); ("acceleration", (fl 10 1))]) 0
     [("position", [(fl 42054985883684327 100000000000000); (fl 2876532523242573 2000000000000); (fl 0 1)], false); ("heading", [(fl 2638053275159513 10000000000000000)], true); ("v", [(fl 400 1)], false)] (fl 1 100000) (fl 1 1000)].
Check ltac:(evaluates_to_true (forallb passes dubins2d_cases)) : True.
