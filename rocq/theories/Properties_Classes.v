(** Properties C43-C47: entity equality, relative motion, units, state layout and
    number_list_to_np. *)
From Coq Require Import String List Bool Arith ZArith Lia Reals Lra.
From Flocq Require Import Core.Core IEEE754.BinarySingleNaN.
From Verif Require Import PyBase Num Arr BaseModel Spec SpecBase XReal Float64 XTac Cwh Utils Rot2d SixDof Sun Integ Dubins
  Classes Units SpecClasses ClassLemmas EqLemmas EqLemmas2 ConfigLemmas IntegProps ConfigProps.
Import List ListNotations.
Local Open Scope R_scope.

Local Hint Extern 0 (Num xr) =>
  match goal with
  | r : R -> xr |- _ => exact (XR r)
  | r : R -> R |- _ => exact (XR (fun x => Fin (r x)))
  | _ => exact (XR Fin)
  end : typeclass_instances.

(** * C43 Equality *)

(** Point-mass spacecraft: [==] is equality of the state vectors. *)
Theorem C43_cwh :
  forall (r32 : R -> xr) ae (a b : obj xr) la lb, euler_sane ae ->
    is_a CWHSpacecraftC la a -> is_a CWHSpacecraftC lb b -> length la = 6%nat -> length lb = 6%nat ->
    exists r, py_eq ae a b = Ok r /\ (r = true <-> la = lb).
Proof. exact cwh_eq. Qed.
Print Assumptions C43_cwh.

(** Rotational spacecraft: position, velocity, rate and attitude quaternion agree; the
    quaternion of [theta] and that of [theta + 2 pi] differ in sign. *)
Theorem C43_rot2d :
  forall (r32 : R -> xr) ae (a b : obj xr) x y th vx vy wz x' y' th' vx' vy' wz',
    is_a CWHRotation2dSpacecraftC [x; y; th; vx; vy; wz] a -> is_a CWHRotation2dSpacecraftC [x'; y'; th'; vx'; vy'; wz'] b ->
    exists r, py_eq ae a b = Ok r /\
      (r = true <-> x = x' /\ y = y' /\ vx = vx' /\ vy = vy' /\ wz = wz' /\ same_half_angle th th').
Proof. exact rot_eq. Qed.
Print Assumptions C43_rot2d.

(** For angles in the range where every step leaves them this is equality of the states. *)
Theorem C43_rot2d_wrapped :
  forall (r32 : R -> xr) ae (a b : obj xr) x y th vx vy wz x' y' th' vx' vy' wz',
    is_a CWHRotation2dSpacecraftC [x; y; th; vx; vy; wz] a -> is_a CWHRotation2dSpacecraftC [x'; y'; th'; vx'; vy'; wz'] b ->
    - PI <= th < PI -> - PI <= th' < PI ->
    exists r, py_eq ae a b = Ok r /\ (r = true <-> [x; y; th; vx; vy; wz] = [x'; y'; th'; vx'; vy'; wz']).
Proof.
  intros r32 ae a b x y th vx vy wz x' y' th' vx' vy' wz' Ha Hb R1 R2.
  destruct (rot_eq r32 ae a b _ _ _ _ _ _ _ _ _ _ _ _ Ha Hb) as (r & E & H). exists r. split; [exact E|].
  rewrite H, half_angle_range by auto. split; [intros (-> & -> & -> & -> & -> & ->); reflexivity|].
  intros Q. injection Q; intros; subst; auto 10.
Qed.
Print Assumptions C43_rot2d_wrapped.

(** Six degrees of freedom: positions, velocities, rates and normalised attitudes agree. *)
Theorem C43_sixdof :
  forall (r32 : R -> xr) ae (a b : obj xr) x y z q1 q2 q3 q4 vx vy vz wx wy wz x' y' z' q1' q2' q3' q4' vx' vy' vz' wx' wy' wz',
    is_a SixDOFSpacecraftC [x; y; z; q1; q2; q3; q4; vx; vy; vz; wx; wy; wz] a ->
    is_a SixDOFSpacecraftC [x'; y'; z'; q1'; q2'; q3'; q4'; vx'; vy'; vz'; wx'; wy'; wz'] b ->
    ~ (q1 = 0 /\ q2 = 0 /\ q3 = 0 /\ q4 = 0) -> ~ (q1' = 0 /\ q2' = 0 /\ q3' = 0 /\ q4' = 0) ->
    exists r, py_eq ae a b = Ok r /\
      (r = true <-> [x; y; z; vx; vy; vz; wx; wy; wz] = [x'; y'; z'; vx'; vy'; vz'; wx'; wy'; wz'] /\
                    qdir q1 q2 q3 q4 = qdir q1' q2' q3' q4').
Proof. exact six_eq. Qed.
Print Assumptions C43_sixdof.

(** 3d aircraft: equal objects have equal states, for every rounding to float32. *)
Theorem C43_dubins3d_sound :
  forall (rd : R -> R) ae (a b : obj xr) x y z h g r v x' y' z' h' g' r' v',
    is_a Dubins3dAircraftC [x; y; z; h; g; r; v] a -> is_a Dubins3dAircraftC [x'; y'; z'; h'; g'; r'; v'] b ->
    py_eq ae a b = Ok true -> [x; y; z; h; g; r; v] = [x'; y'; z'; h'; g'; r'; v'].
Proof. exact dub3_eq. Qed.
Print Assumptions C43_dubins3d_sound.

(** 2d aircraft: the same in exact arithmetic. Missing: rounding, see
    [C43_dubins2d_float32_refuted]. *)
Theorem C43_dubins2d_sound_partial :
  forall ae (a b : obj xr) x y h v x' y' h' v',
    is_a Dubins2dAircraftC [x; y; h; v] a -> is_a Dubins2dAircraftC [x'; y'; h'; v'] b ->
    py_eq ae a b = Ok true -> [x; y; h; v] = [x'; y'; h'; v'].
Proof. exact dub2_eq_exact. Qed.
Print Assumptions C43_dubins2d_sound_partial.

(** Moving aircraft in the same state with the same tangential acceleration are equal. *)
Theorem C43_dubins3d_complete :
  forall (rd : R -> R) ae (a b : obj xr) x y z h g r v s0 s1 s2 s3 s4 s5 acc s0' s1' s2' s3' s4' s5', euler_sane ae -> v <> 0 ->
    is_a Dubins3dAircraftC [x; y; z; h; g; r; v] a -> is_a Dubins3dAircraftC [x; y; z; h; g; r; v] b ->
    e_sdot (o_ent a) = A1 [s0; s1; s2; s3; s4; s5; Fin acc] -> e_sdot (o_ent b) = A1 [s0'; s1'; s2'; s3'; s4'; s5'; Fin acc] ->
    py_eq ae a b = Ok true.
Proof. exact dub3_same. Qed.
Print Assumptions C43_dubins3d_complete.

Theorem C43_dubins2d_complete :
  forall (rd : R -> R) ae (a b : obj xr) x y h v s0 s1 s2 acc s0' s1' s2', euler_sane ae -> v <> 0 ->
    is_a Dubins2dAircraftC [x; y; h; v] a -> is_a Dubins2dAircraftC [x; y; h; v] b ->
    e_sdot (o_ent a) = A1 [s0; s1; s2; Fin acc] -> e_sdot (o_ent b) = A1 [s0'; s1'; s2'; Fin acc] ->
    py_eq ae a b = Ok true.
Proof. exact dub2_same. Qed.
Print Assumptions C43_dubins2d_complete.

(** Objects of different library classes are never equal and comparing them never raises. *)
Theorem C43_different_classes :
  forall (T : Type) (N : Num T) ae (a b : obj T),
    In (lib (o_cls a)) exported -> In (lib (o_cls b)) exported -> lib (o_cls a) <> lib (o_cls b) ->
    ~ In (lib (o_cls a)) [Integrator1dC; Integrator2dC; Integrator3dC] \/
    ~ In (lib (o_cls b)) [Integrator1dC; Integrator2dC; Integrator3dC] ->
    py_eq ae a b = Ok false.
Proof.
  intros T N ae a b Ia Ib. apply different_classes.
  - destruct Ia as [<-|[<-|[<-|[<-|[<-|[<-|[<-|[<-|[<-|[]]]]]]]]]]; reflexivity.
  - destruct Ib as [<-|[<-|[<-|[<-|[<-|[<-|[<-|[<-|[<-|[]]]]]]]]]]; reflexivity.
Qed.
Print Assumptions C43_different_classes.

Example C43_example : forall ae, euler_sane ae -> exists a b : obj xr,
  make (N := XR Fin) euler_world 1 CWHSpacecraftC (PCwh (Fin 12) (Fin (1/1000)) 0 "RK45")
    [("name", CStr "a" None); ("x", CNum (Fin 100))]%string = Ok a /\
  make (N := XR Fin) euler_world 2 CWHSpacecraftC (PCwh (Fin 12) (Fin (1/1000)) 0 "RK45")
    [("name", CStr "b" None); ("x", CNum (Fin 101))]%string = Ok b /\
  py_eq (N := XR Fin) ae a a = Ok true /\ py_eq (N := XR Fin) ae a b = Ok false.
Proof.
  intros ae S. eexists _, _. split; [|split].
  - unfold make. cbn. unfold cwh_spacecraft, cwh_dyn, generate_cwh_matrices, pydiv. cbn.
    rewrite !(Req_bool_false 12 (0 / 1)) by lra. cbn. reflexivity.
  - unfold make. cbn. unfold cwh_spacecraft, cwh_dyn, generate_cwh_matrices, pydiv. cbn.
    rewrite !(Req_bool_false 12 (0 / 1)) by lra. cbn. reflexivity.
  - match goal with |- py_eq ae ?a _ = _ /\ py_eq ae _ ?b = _ =>
      destruct (cwh_eq Fin ae a a [100; 0/1; 0/1; 0/1; 0/1; 0/1] [100; 0/1; 0/1; 0/1; 0/1; 0/1] S
                  (conj eq_refl eq_refl) (conj eq_refl eq_refl) eq_refl eq_refl) as (r1 & -> & H1);
      destruct (cwh_eq Fin ae a b [100; 0/1; 0/1; 0/1; 0/1; 0/1] [101; 0/1; 0/1; 0/1; 0/1; 0/1] S
                  (conj eq_refl eq_refl) (conj eq_refl eq_refl) eq_refl eq_refl) as (r2 & -> & H2) end.
    split; f_equal; [apply H1; reflexivity|]. destruct r2; [|reflexivity]. exfalso.
    assert (Q : [100; 0/1; 0/1; 0/1; 0/1; 0/1] = [101; 0/1; 0/1; 0/1; 0/1; 0/1]) by (apply H2; reflexivity).
    injection Q as Q. lra.
Qed.

(** Refuted parts of the statement. A fresh six-degrees-of-freedom spacecraft has the zero
    quaternion, and comparing it with itself raises. *)
Theorem C43_never_raises_refuted :
  exists (p : params xr) (kw : kwargs xr) o,
    make euler_world 1 SixDOFSpacecraftC p kw = Ok o /\ forall ae, py_eq ae o o = Err ValueError.
Proof.
  pose (p := PSixDof (Fin 12) SD_INERTIA (NAnum (PyFloat (Fin 1))) (NAnum (PyFloat (Fin 1))) (Fin 1) (Fin 1) (Fin 1) (Fin 1) false
                     (Fin (1/1000)) 0 "RK45" : params xr).
  pose (kw := [("name", CStr "a" None)]%string : kwargs xr).
  destruct (make_good euler_world 1 SixDOFSpacecraftC p kw) as (o & Ho); try reflexivity.
  { cbn. rewrite (Req_bool_false 12 (0 / 1)) by lra. auto. }
  { split; [eexists _, _; reflexivity|]. split; [intros f [<-|[]]; auto|].
    intros f k v Hf G. cbn in G. destruct (String.eqb_spec f "name"); [|discriminate]. subst.
    cbn in Hf. repeat (destruct Hf as [Hf|Hf]; [discriminate|]). destruct Hf. }
  exists p, kw, o. split; [exact Ho|]. intros ae.
  apply make_inv in Ho as (_ & _ & Ec & _ & cfg & vals & V & M & _ & St).
  apply (six_eq_raises Fin ae o 0 0 0 0 0 0 0 0 0). split; [rewrite Ec; reflexivity|]. rewrite St.
  cbn in V. injection V as <-. cbn in M. injection M as <-. cbn. fin_list; lra.
Qed.
Print Assumptions C43_never_raises_refuted.

(** An aircraft at rest is not equal to itself, in any configuration and after any
    computation that leaves the speed zero. *)
Theorem C43_dubins_at_rest_refuted :
  exists c, In c exported /\ forall (rd : R -> R), rd 0 = 0 -> forall ae (o : obj xr) x y h s0 s1 s2 acc,
    is_a c [x; y; h; 0] o -> e_sdot (o_ent o) = A1 [s0; s1; s2; Fin acc] -> py_eq ae o o = Ok false.
Proof. exists Dubins2dAircraftC. split; [cbn; auto 10|]. exact (fun rd R0 ae o x y h s0 s1 s2 acc => dub2_rest rd ae o x y h s0 s1 s2 acc R0). Qed.
Print Assumptions C43_dubins_at_rest_refuted.

Theorem C43_dubins3d_at_rest :
  forall (rd : R -> R) ae (o : obj xr) x y z h g r s0 s1 s2 s3 s4 s5 acc, rd 0 = 0 ->
    is_a Dubins3dAircraftC [x; y; z; h; g; r; 0] o ->
    e_sdot (o_ent o) = A1 [s0; s1; s2; s3; s4; s5; Fin acc] -> py_eq ae o o = Ok false.
Proof. exact dub3_rest. Qed.
Print Assumptions C43_dubins3d_at_rest.

(** binary64, speeds 200 and 200 + 2^-40 (reached by a step followed by [b.v = ...]): the
    2d aircraft compare equal although their speeds differ, because [__eq__] sees the speed
    only through the velocity, which is rounded to float32. *)
Theorem C43_dubins2d_float32_refuted :
  exists (lm : libm) (ae : f64 * f64 * f64 * f64 -> list f64) (a b : obj f64),
    lm_cos lm (fl 0 1) = fl 1 1 /\ lm_sin lm (fl 0 1) = fl 0 1 /\
    lib (o_cls a) = Dubins2dAircraftC /\ lib (o_cls b) = Dubins2dAircraftC /\
    py_eq (N := F64 lm) ae a b = Ok true /\
    match getattr (N := F64 lm) a "v", getattr (N := F64 lm) b "v" with
    | Ok va, Ok vb => Beqb va (fl 200 1) = true /\ Bltb va vb = true
    | _, _ => False
    end.
Proof. exact dub2_float32. Qed.
Print Assumptions C43_dubins2d_float32_refuted.

(** The same attitude written as [theta] and [theta + 2 pi] compares unequal. *)
Theorem C43_rot2d_whole_turn_refuted :
  exists a b : obj xr,
    is_a CWHRotation2dSpacecraftC [0; 0; 0; 0; 0; 0] a /\ is_a CWHRotation2dSpacecraftC [0; 0; 2 * PI; 0; 0; 0] b /\
    forall ae, py_eq ae a b = Ok false.
Proof. exact rot_turn. Qed.
Print Assumptions C43_rot2d_whole_turn_refuted.

(** * C44 Relative position and velocity *)

(** Exact value, for any two spacecraft of any of the three classes. *)
Theorem C44_value :
  forall s (o o' : obj xr) name x y z vx vy vz x' y' z' vx' vy' vz',
    at_ o (x, y, z) (vx, vy, vz) -> registered s name o' -> at_ o' (x', y', z') (vx', vy', vz') ->
    entity_relative_position s o name = Ok (A1 (map Fin [x' - x; y' - y; z' - z])) /\
    entity_relative_velocity s o name = Ok (A1 (map Fin [vx' - vx; vy' - vy; vz' - vz])).
Proof. exact rel_value. Qed.
Print Assumptions C44_value.

(** Antisymmetric, additive along chains and zero to itself. *)
Theorem C44_laws :
  forall s (a b c : obj xr) na nb nc pa va pb vb pc vc,
    registered s na a -> registered s nb b -> registered s nc c -> at_ a pa va -> at_ b pb vb -> at_ c pc vc ->
    exists ab ba bc ac aa wab wba wbc wac waa : list R,
      entity_relative_position s a nb = Ok (A1 (map Fin ab)) /\ entity_relative_position s b na = Ok (A1 (map Fin ba)) /\
      entity_relative_position s b nc = Ok (A1 (map Fin bc)) /\ entity_relative_position s a nc = Ok (A1 (map Fin ac)) /\
      entity_relative_position s a na = Ok (A1 (map Fin aa)) /\
      entity_relative_velocity s a nb = Ok (A1 (map Fin wab)) /\ entity_relative_velocity s b na = Ok (A1 (map Fin wba)) /\
      entity_relative_velocity s b nc = Ok (A1 (map Fin wbc)) /\ entity_relative_velocity s a nc = Ok (A1 (map Fin wac)) /\
      entity_relative_velocity s a na = Ok (A1 (map Fin waa)) /\
      (forall i, (i < 3)%nat ->
         nth i ba 0 = - nth i ab 0 /\ nth i ac 0 = nth i ab 0 + nth i bc 0 /\ nth i aa 0 = 0 /\
         nth i wba 0 = - nth i wab 0 /\ nth i wac 0 = nth i wab 0 + nth i wbc 0 /\ nth i waa 0 = 0).
Proof. exact rel_laws. Qed.
Print Assumptions C44_laws.

Theorem C44_unknown_name :
  forall (T : Type) (N : Num T) (d : list (string * obj T)) o name,
    In (lib (o_cls o)) [CWHSpacecraftC; CWHRotation2dSpacecraftC; SixDOFSpacecraftC] -> ~ In name (map fst d) ->
    entity_relative_position (Some d) o name = Err KeyError /\ entity_relative_velocity (Some d) o name = Err KeyError.
Proof. exact (fun T N => @rel_unknown T N). Qed.
Print Assumptions C44_unknown_name.

(** Before [set_sim] the simulator is missing. *)
Theorem C44_no_simulator :
  forall (T : Type) (N : Num T) (o : obj T) name,
    entity_relative_position None o name = Err AttributeError /\ entity_relative_velocity None o name = Err AttributeError.
Proof. intros. unfold entity_relative_position, entity_relative_velocity. destruct (has_relative _); auto. Qed.
Print Assumptions C44_no_simulator.

(** The sun has no position to be relative to. *)
Theorem C44_sun_has_no_position :
  forall (T : Type) (N : Num T) (d : list (string * obj T)) o sun name,
    In (lib (o_cls o)) [CWHSpacecraftC; CWHRotation2dSpacecraftC; SixDOFSpacecraftC] -> dict_get name d = Some sun ->
    lib (o_cls sun) = SunEntityC ->
    entity_relative_position (Some d) o name = Err NotImplementedError /\
    entity_relative_velocity (Some d) o name = Err NotImplementedError.
Proof. exact (fun T N => @rel_sun T N). Qed.
Print Assumptions C44_sun_has_no_position.

(** A CWH point-mass spacecraft and a rotational one. *)
Example C44_example : exists a b : obj xr,
  is_a CWHSpacecraftC [1; 2; 3; 4; 5; 6] a /\ is_a CWHRotation2dSpacecraftC [10; 20; 1; 7; 8; 9] b /\
  entity_relative_position (Some [("a", a); ("b", b)]%string) a "b" = Ok (A1 (map Fin [10 - 1; 20 - 2; 0/1 - 3])) /\
  entity_relative_position (Some [("a", a); ("b", b)]%string) b "a" = Ok (A1 (map Fin [1 - 10; 2 - 20; 3 - 0/1])).
Proof.
  pose (d := dubins2d_dyn (Fin 0) (Fin 0) 0 "Euler" : dyn xr).
  exists {| o_id := 1; o_cls := CWHSpacecraftC; o_ent := mk_entity d (A1 []) (A1 []) (A1 []) None (A1 (map Fin [1; 2; 3; 4; 5; 6])) |},
         {| o_id := 2; o_cls := CWHRotation2dSpacecraftC; o_ent := mk_entity d (A1 []) (A1 []) (A1 []) None (A1 (map Fin [10; 20; 1; 7; 8; 9])) |}.
  split; [split; reflexivity|]. split; [split; reflexivity|]. split; reflexivity.
Qed.

(** * C45 Units *)

(** A quantity with the right dimension arrives with its physical size, in the field's
    unit, rounded to float32 by the state array. A quantity that is accepted has the right
    dimension. *)
Theorem C45_conversion :
  forall (rd : R -> R) w id c p (kw : kwargs xr) o f k q m fq, make w id c p kw = Ok o ->
    In (f, k) (documented_fields c) -> k <> Number -> dict_get f kw = Some (CQty q) -> genuine (q_unit q) ->
    q_mag q = Fin m -> u_factor (q_unit q) = Fin fq ->
    u_dim (q_unit q) = kind_dim k /\
    exists x, getattr o f = Ok (Fin (rd x)) /\ x * kind_factor c k = m * fq.
Proof. exact make_quantity. Qed.
Print Assumptions C45_conversion.

(** Wrong dimensions and values that are not numbers are rejected with ValueError, whatever
    the rest of the configuration. *)
Theorem C45_rejects :
  forall (T : Type) (N : Num T) w id c p (kw : kwargs T) f k v, lib c = pcls p -> py_new c = Ok tt -> good_params w p ->
    In (f, k) (documented_fields c) -> dict_get f kw = Some v ->
    match v with
    | CNum _ | CStr _ (Some _) => False
    | CQty q => genuine (q_unit q) /\ u_dim (q_unit q) <> kind_dim k
    | _ => True
    end -> make w id c p kw = Err ValueError.
Proof. exact (fun T N => @make_rejects T N). Qed.
Print Assumptions C45_rejects.

(** Plain numbers and numeric strings are taken in the field's unit. *)
Theorem C45_plain_numbers :
  forall (T : Type) (N : Num T) w id c p (kw : kwargs T) o f k v x, make w id c p kw = Ok o ->
    In (f, k) (documented_fields c) -> dict_get f kw = Some v -> v = CNum x \/ (exists s, v = CStr s (Some x)) ->
    getattr o (shown_as f) = Ok (nf32 x).
Proof. exact (fun T N => @make_plain T N). Qed.
Print Assumptions C45_plain_numbers.

(** The [*_with_units] view converted back to the unit of the configuration: the supplied
    magnitude up to the float32 rounding of the stored value. *)
Theorem C45_view_roundtrip :
  forall (rd : R -> R) w id c p (kw : kwargs xr) o f k q m fq, make w id c p kw = Ok o ->
    In (f, k) (documented_fields c) -> k <> Number -> f <> "theta"%string ->
    dict_get f kw = Some (CQty q) -> genuine (q_unit q) ->
    q_mag q = Fin m -> u_factor (q_unit q) = Fin fq -> fq <> 0 ->
    exists q' x m', get_with_units o (view_of f) = Ok q' /\
      x * kind_factor c k = m * fq /\
      quantity_to q' (q_unit q) = Some (Fin m') /\ m' * fq = rd x * kind_factor c k.
Proof. exact view_roundtrip. Qed.
Print Assumptions C45_view_roundtrip.

(** 1 metre is 10000/3048 feet for an aircraft. *)
Example C45_example : exists (o : obj xr) x,
  make euler_world 1 Dubins2dAircraftC (PDub2 0 "RK45" (Fin 200) (Fin 400) (Fin (-1)) (Fin 1) (Fin (-96)) (Fin 96))
    [("name", CStr "a" None); ("x", CQty {| q_mag := Fin 1; q_unit := meter |})]%string = Ok o /\
  getattr o "x" = Ok (Fin x) /\ x * (3048 / 10000) = 1 * 1.
Proof.
  destruct (make euler_world 1 Dubins2dAircraftC (PDub2 0 "RK45" (Fin 200) (Fin 400) (Fin (-1)) (Fin 1) (Fin (-96)) (Fin 96))
    [("name", CStr "a" None); ("x", CQty {| q_mag := Fin 1; q_unit := meter |})]%string) as [o|] eqn:E; [|discriminate].
  destruct (make_quantity (fun x => x) _ _ _ _ _ o "x" Length {| q_mag := Fin 1; q_unit := meter |} 1 1 E) as (_ & x & G & Hx); try reflexivity.
  - cbn; auto.
  - discriminate.
  - intros u [<-|[<-|[<-|[<-|[<-|[<-|[]]]]]]] H; try discriminate; reflexivity.
  - cbn. f_equal. lra.
  - exists o, x. split; [reflexivity|]. split; [exact G|exact Hx].
Qed.

(** * C46 State layout *)

(** Every attribute shows the configured value of its name, or the documented default. *)
Theorem C46_layout :
  forall (T : Type) (N : Num T) w id c p (kw : kwargs T) o f k, make w id c p kw = Ok o -> In (f, k) (documented_fields c) ->
    (forall x, dict_get f kw = Some (CNum x) -> getattr o (shown_as f) = Ok (nf32 x)) /\
    (dict_get f kw = None -> getattr o (shown_as f) = Ok (nf32 (documented_default f))).
Proof. exact (fun T N => @make_shown T N). Qed.
Print Assumptions C46_layout.

(** The state vector has the documented length. *)
Theorem C46_length :
  forall (T : Type) (N : Num T) w id c p (kw : kwargs T) o, make w id c p kw = Ok o ->
    exists l, e_state (o_ent o) = A1 l /\ length l = state_len c.
Proof. exact (fun T N => @make_len T N). Qed.
Print Assumptions C46_length.

Theorem C46_name_required :
  forall (T : Type) (N : Num T) w id c p (kw : kwargs T), lib c = pcls p -> py_new c = Ok tt -> good_params w p ->
    dict_get "name" kw = None -> make w id c p kw = Err ValueError.
Proof. intros T N w id c p kw L Py G H. apply make_value_error; auto. apply make_no_name; auto. Qed.
Print Assumptions C46_name_required.

(** Unknown fields are rejected. Missing: the 2d aircraft and the integrators. *)
Theorem C46_unknown_rejected_partial :
  forall (T : Type) (N : Num T) w id c p (kw : kwargs T) f, lib c = pcls p -> py_new c = Ok tt -> good_params w p ->
    ~ In (lib c) [Dubins2dAircraftC; Integrator1dC; Integrator2dC] ->
    In f (map fst kw) -> f <> "name"%string -> ~ In f (map fst (documented_fields c)) ->
    make w id c p kw = Err ValueError.
Proof. exact (fun T N => @unknown_rejected T N). Qed.
Print Assumptions C46_unknown_rejected_partial.

(** For those classes too, when the name is not used by their larger siblings. *)
Theorem C46_foreign_rejected :
  forall (T : Type) (N : Num T) w id c p (kw : kwargs T) f, lib c = pcls p -> py_new c = Ok tt -> good_params w p ->
    In f (map fst kw) -> f <> "name"%string ->
    ~ In f (map fst (documented_fields c)) -> ~ In f ["y"; "z"; "ydot"; "zdot"]%string ->
    make w id c p kw = Err ValueError.
Proof. exact (fun T N => @foreign_rejected T N). Qed.
Print Assumptions C46_foreign_rejected.

(** The full statement fails: the 2d aircraft silently accepts an altitude and then shows 0. *)
Theorem C46_refuted :
  exists (p : params xr) o,
    make euler_world 1 Dubins2dAircraftC p [("name", CStr "a" None); ("z", CNum (Fin 5000))]%string = Ok o /\
    exists z, getattr o "z" = Ok (Fin z) /\ z = 0.
Proof.
  exists (PDub2 0 "RK45" (Fin 200) (Fin 400) (Fin (-1)) (Fin 1) (Fin (-96)) (Fin 96)).
  eexists. split; [reflexivity|]. eexists. split; [reflexivity|lra].
Qed.
Print Assumptions C46_refuted.

(** Aircraft attributes can be assigned: the value is read back (as float32 while the state
    array is float32) and no attribute showing another element changes. *)
Theorem C46_setters :
  forall (T : Type) (N : Num T) (o : obj T) name i b v l g,
    In (lib (o_cls o)) exported -> dict_get name (settable (o_cls o)) = Some i ->
    e_state (o_ent o) = A1 l -> (i < length l)%nat ->
    exists o', setattr o name b v = Ok o' /\ o_cls o' = o_cls o /\
      getattr o' name = Ok (if b then nf32 v else v) /\
      (dict_get g (accessors (o_cls o)) <> Some (Elem i) -> getattr o' g = getattr o g).
Proof.
  intros T N o name i b v l g J. apply set_get.
  destruct J as [<-|[<-|[<-|[<-|[<-|[<-|[<-|[<-|[<-|[]]]]]]]]]]; reflexivity.
Qed.
Print Assumptions C46_setters.

(** * C47 number_list_to_np *)

(** A number fills the requested shape; an array passes iff it has the shape and holds
    float64; anything that is not a number, list or array is rejected. *)
Theorem C47_number :
  forall (T : Type) (N : Num T) (p : pynum T) shape,
    number_list_to_np (NAnum p) shape =
    Ok {| nd_shape := shape; nd_is_f64 := true; nd_data := Some (repeat (nmul (pyfloat p) n1) (size_of shape)) |}.
Proof. exact (fun T N => @nl_number T N). Qed.
Print Assumptions C47_number.

(** In exact arithmetic every element is the number. *)
Theorem C47_number_exact :
  forall (x : R) shape, number_list_to_np (NAnum (PyFloat (Fin x))) shape =
    Ok {| nd_shape := shape; nd_is_f64 := true; nd_data := Some (repeat (Fin x) (fold_right Nat.mul 1%nat shape)) |}.
Proof. intros x shape. rewrite nl_number. unfold size_of. cbn. replace (x * (1 / 1)) with x by lra. reflexivity. Qed.
Print Assumptions C47_number_exact.

Theorem C47_array :
  forall (T : Type) (N : Num T) (a : nd T) shape,
    (nd_shape a = shape /\ nd_is_f64 a = true -> number_list_to_np (NAarr a) shape = Ok a) /\
    (nd_shape a <> shape \/ nd_is_f64 a = false -> number_list_to_np (NAarr a) shape = Err AssertionError).
Proof. exact (fun T N => @nl_array_cases T N). Qed.
Print Assumptions C47_array.

Theorem C47_other_rejected :
  forall (T : Type) (N : Num T) shape, number_list_to_np (T := T) NAother shape = Err TypeError.
Proof. reflexivity. Qed.
Print Assumptions C47_other_rejected.

(** Lists: no accepted list is ever turned into an array of its values (the memory is
    uninitialised), and lists with floats are rejected. *)
Theorem C47_list_values_lost :
  forall (T : Type) (N : Num T) (l : list (pynum T)) shape a, number_list_to_np (NAlist l) shape = Ok a -> nd_data a = None.
Proof. exact (fun T N => @nl_list T N). Qed.
Print Assumptions C47_list_values_lost.

Theorem C47_refuted :
  exists (l : list (pynum xr)) (shape : list nat),
    shape = [length l] /\ number_list_to_np (NAlist l) shape = Err TypeError.
Proof. exists [PyFloat (Fin 1); PyFloat (Fin 2); PyFloat (Fin 3)], [3%nat]. split; reflexivity. Qed.
Print Assumptions C47_refuted.

Theorem C47_float_lists_rejected :
  forall (T : Type) (N : Num T) (l : list (pynum T)) shape x, In (PyFloat x) l -> is_ok (number_list_to_np (NAlist l) shape) = false.
Proof. exact (fun T N => @nl_float_list T N). Qed.
Print Assumptions C47_float_lists_rejected.
