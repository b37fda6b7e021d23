(** Validation of the model against the repository's own test vectors: the cases of
    test/test_cases/*.yaml, run by computation on the (polymorphic) model with the harness of
    test/test_simulators/test_entities/conftest.py. The arithmetic is binary64 on Coq's
    [spec_float] (the data of [F64] without the validity proofs, which makes it fast enough
    to run), the solver is scipy's RK45
    (scipy/integrate/_ivp/rk.py, base.py and common.py, default tolerances) and the C library
    functions are Taylor polynomials, accurate far beyond the tests' error bounds. No property depends on this file. *)
From Coq Require Import String List Bool ZArith SpecFloat.
From Verif Require Import PyBase Num Arr BaseModel Cwh Utils Rot2d SixDof Sun Dubins Classes Units.
Import List ListNotations.
Local Open Scope string_scope.
Local Open Scope list_scope.

(** binary64 arithmetic; the operations follow Float64.v. *)
Definition sf : Type := spec_float.
Definition sf_of (m e : Z) : sf := binary_normalize 53 1024 m e false.
Definition fl (z : Z) (p : positive) : sf :=
  if (p =? 1)%positive then sf_of z 0 else SFdiv 53 1024 (sf_of z 0) (sf_of (Zpos p) 0).
Definition sgn (s : bool) (m : positive) : Z := if s then Zneg m else Zpos m.
Definition sf_f32 (x : sf) : sf :=
  match x with
  | S754_finite s m e =>
      match binary_normalize 24 128 (sgn s m) e s with
      | S754_finite s' m' e' => binary_normalize 53 1024 (sgn s' m') e' s'
      | y => y
      end
  | _ => x
  end.
Definition sf_fmod (a b : sf) : sf :=
  match a, b with
  | S754_nan, _ | _, S754_nan | S754_infinity _, _ | _, S754_zero _ => S754_nan
  | S754_zero s, _ => S754_zero s
  | _, S754_infinity _ => a
  | S754_finite sa ma ea, S754_finite _ mb eb =>
      let e := Z.min ea eb in
      binary_normalize 53 1024 (Z.rem (sgn sa ma * 2 ^ (ea - e)) (Zpos mb * 2 ^ (eb - e))) e sa
  end.
Definition sf_sign (x : sf) : bool :=
  match x with S754_zero s | S754_infinity s | S754_finite s _ _ => s | S754_nan => false end.
Definition sf_mod (a b : sf) : sf :=
  let m := sf_fmod a b in
  match m with
  | S754_nan => S754_nan
  | S754_zero _ => S754_zero (sf_sign b)
  | _ => if Bool.eqb (sf_sign b) (sf_sign m) then m else SFadd 53 1024 m b
  end.
Definition sf_floorZ (x : sf) : res Z :=
  match x with
  | S754_zero _ => Ok 0%Z
  | S754_infinity _ => Err OverflowError
  | S754_nan => Err ValueError
  | S754_finite s m e => Ok (if (0 <=? e)%Z then (sgn s m * 2 ^ e)%Z else (sgn s m / 2 ^ (- e))%Z)
  end.
Definition sf_pi : sf := sf_of 884279719003555 (-48).
Definition smul := SFmul 53 1024.
Definition sadd := SFadd 53 1024.
Definition ssub := SFsub 53 1024.

Definition aelems (a : arr sf) : list sf := match a with A0 x => [x] | A1 l => l end.

(** sin and cos by Taylor polynomials after reduction to [-pi/4, pi/4] with a two-part pi/2. *)
Definition f_1 := fl 1 1.
Definition f_half := fl 1 2.
Definition pio2_1 := sf_of 7074237751754752 (-52).
Definition pio2_1t := sf_of 4701928774853425 (-86).
Definition inv_pio2 := SFdiv 53 1024 f_1 (sf_of 7074237752028440 (-52)).
Fixpoint horner (x2 : sf) (ds : list sf) : sf :=
  match ds with
  | [] => f_1
  | d :: ds' => ssub f_1 (smul (smul x2 d) (horner x2 ds'))
  end.
Definition sin_ds : list sf := map (fl 1) [6; 20; 42; 72; 110; 156; 210]%positive.
Definition cos_ds : list sf := map (fl 1) [2; 12; 30; 56; 90; 132; 182]%positive.
(** [t_trig q x]: sin (x + q pi/2). *)
Definition t_trig (q : Z) (x : sf) : sf :=
  match sf_floorZ (sadd (smul x inv_pio2) f_half) with
  | Err _ => S754_nan
  | Ok k =>
      let fk := sf_of k 0 in
      let y := ssub (ssub x (smul fk pio2_1)) (smul fk pio2_1t) in
      let y2 := smul y y in
      let j := ((k + q) mod 4)%Z in
      let v := if Z.even j then smul y (horner y2 sin_ds) else horner y2 cos_ds in
      if (j <? 2)%Z then v else SFopp v
  end.
Definition t_sin : sf -> sf := t_trig 0.
Definition t_cos : sf -> sf := t_trig 1.
(** ln x = 2 atanh ((x-1)/(x+1)) after scaling by a power of two; exp by halving the argument
    ten times; x ** y = exp (y ln x) for positive x. *)
Definition f_2 := fl 2 1.
Definition ln2 := fl 6931471805599453 10000000000000000.
Definition atanh_cs : list sf := map (fl 1) [1; 3; 5; 7; 9; 11; 13; 15; 17; 19; 21; 23]%positive.
Definition t_ln (x : sf) : sf :=
  match x with
  | S754_finite false m e =>
      let k := (e + Zpos (digits2_pos m))%Z in
      let y := sf_of (Zpos m) (e - k) in
      let u := SFdiv 53 1024 (ssub y f_1) (sadd y f_1) in
      let u2 := smul u u in
      sadd (smul (sf_of k 0) ln2)
           (smul (smul f_2 u) (fold_right (fun c a => sadd c (smul u2 a)) (fl 0 1) atanh_cs))
  | _ => S754_nan
  end.
Definition exp_ds : list sf := map (fl 1) [1; 2; 3; 4; 5; 6]%positive.
Definition t_exp (x : sf) : sf :=
  let y := smul x (fl 1 1024) in
  let r := fold_right (fun d a => sadd f_1 (smul (smul y d) a)) f_1 exp_ds in
  Nat.iter 10 (fun a => smul a a) r.
Definition t_pow (x y : sf) : sf :=
  match x with S754_zero _ => x | _ => t_exp (smul y (t_ln x)) end.
Definition SF : Num sf := {|
  nadd := sadd; nsub := ssub; nmul := smul; ndiv := SFdiv 53 1024; nneg := SFopp; nabs := SFabs;
  nltb := SFltb; nleb := SFleb; neqb := SFeqb;
  nisnan := fun x => match x with S754_nan => true | _ => false end; nmod := sf_mod;
  npinf := S754_infinity false; nninf := S754_infinity true; nnan := S754_nan; npi := sf_pi; nlit := fl;
  nsin := t_sin; ncos := t_cos; ntan := fun x => SFdiv 53 1024 (t_sin x) (t_cos x);
  nasin := fun x => x; nsqrt := SFsqrt 53 1024; npow := t_pow; nf32 := sf_f32;
  nfloorZ := sf_floorZ;
  nceilZ := fun x => match sf_floorZ (SFopp x) with Ok z => Ok (- z)%Z | Err e => Err e end
|}.
Local Hint Extern 0 (Num sf) => exact SF : typeclass_instances.

(** The Dormand-Prince pair of scipy.integrate.RK45. *)
Definition f_001 := fl 1 100.
Definition DP_C : list sf := [fl 1 5; fl 3 10; fl 4 5; fl 8 9; fl 1 1].
Definition DP_A : list (list sf) :=
  [[fl 1 5]; [fl 3 40; fl 9 40]; [fl 44 45; fl (-56) 15; fl 32 9];
   [fl 19372 6561; fl (-25360) 2187; fl 64448 6561; fl (-212) 729];
   [fl 9017 3168; fl (-355) 33; fl 46732 5247; fl 49 176; fl (-5103) 18656]].
Definition DP_B : list sf := [fl 35 384; fl 0 1; fl 500 1113; fl 125 192; fl (-2187) 6784; fl 11 84].
Definition DP_E : list sf :=
  [fl (-71) 57600; fl 0 1; fl 71 16695; fl (-71) 1920; fl 17253 339200; fl (-22) 525; fl 1 40].

(** sum of c_i K_i *)
Fixpoint lincomb (cs : list sf) (K : list (list sf)) : list sf :=
  match cs, K with
  | c :: cs', k :: [] => map (smul c) k
  | c :: cs', k :: K' => zipw (fun x y => sadd (smul c x) y) k (lincomb cs' K')
  | _, _ => []
  end.
Definition vadd (h : sf) (y d : list sf) : list sf := zipw (fun a b => sadd a (smul h b)) y d.
Definition RTOL := fl 1 1000.
Definition ATOL := fl 1 1000000.
Definition smax (a b : sf) : sf := if SFltb a b then b else a.
Definition smin (a b : sf) : sf := if SFltb b a then b else a.
(** np.linalg.norm(x) / x.size ** 0.5 *)
Definition rms (l : list sf) : sf :=
  SFsqrt 53 1024 (SFdiv 53 1024 (fold_right (fun x a => sadd (smul x x) a) (fl 0 1) l) (sf_of (Z.of_nat (length l)) 0)).
(** x ** (1/5) of a positive number by Newton's method. *)
Definition f_4 := fl 4 1.
Definition f_02 := fl 1 5.
Fixpoint newton5 (k : nat) (x r : sf) : sf :=
  match k with
  | O => r
  | S k' =>
      let r2 := smul r r in
      newton5 k' x (smul f_02 (sadd (smul f_4 r) (SFdiv 53 1024 x (smul r2 r2))))
  end.
Definition root5 (x : sf) : sf :=
  match x with
  | S754_finite false m e => newton5 7 x (sf_of 1 ((e + Zpos (digits2_pos m)) / 5 + 1))
  | _ => x
  end.

Section Solver.
  Variable fn : sf -> list sf -> res (list sf).

  Fixpoint stages (t h : sf) (y : list sf) (cs : list sf) (rows : list (list sf)) (K : list (list sf)) : res (list (list sf)) :=
    match cs, rows with
    | c :: cs', r :: rows' =>
        k <- fn (sadd t (smul c h)) (vadd h y (lincomb r K)) ;; stages t h y cs' rows' (K ++ [k])
    | _, _ => Ok K
    end.
  (** rk_step: new state, its derivative, and the error estimate. *)
  Definition rk_step (t h : sf) (y f : list sf) : res (list sf * list sf * list sf) :=
    K <- stages t h y DP_C DP_A [f] ;;
    let y' := vadd h y (lincomb DP_B K) in
    f' <- fn (sadd t h) y' ;;
    Ok (y', f', map (smul h) (lincomb DP_E (K ++ [f']))).

  (** select_initial_step *)
  Definition initial_step (y0 f0 : list sf) (interval : sf) : res sf :=
    let scale := map (fun a => sadd ATOL (smul (SFabs a) RTOL)) y0 in
    let d0 := rms (zipw (SFdiv 53 1024) y0 scale) in
    let d1 := rms (zipw (SFdiv 53 1024) f0 scale) in
    let h0 := if SFltb d0 (fl 1 100000) || SFltb d1 (fl 1 100000) then ATOL
              else SFdiv 53 1024 (smul f_001 d0) d1 in
    let h0 := smin h0 interval in
    f1 <- fn h0 (vadd h0 y0 f0) ;;
    let d2 := SFdiv 53 1024 (rms (zipw (SFdiv 53 1024) (zipw ssub f1 f0) scale)) h0 in
    let tiny := fl 1 1000000000000000 in
    let h1 := if SFleb d1 tiny && SFleb d2 tiny then smax ATOL (smul h0 RTOL)
              else root5 (SFdiv 53 1024 f_001 (smax d1 d2)) in
    Ok (smin (smin (smul (fl 100 1) h0) h1) interval).

  (** Ten times the spacing of the numbers at [t]. *)
  Definition min_step (t : sf) : sf :=
    match t with S754_finite _ _ e => sf_of 10 e | _ => sf_of 10 (-1074) end.
  (** RK45.step repeated up to t_bound; the flag is false when the step size became too
      small, [fuel] bounds the number of attempts. *)
  Fixpoint advance (fuel : nat) (t tb h_abs : sf) (rejected : bool) (y f : list sf) : res (list sf * bool) :=
    match fuel with
    | O => Err OverflowError
    | S fuel' =>
        if SFleb tb t then Ok (y, true) else
        if rejected && SFltb h_abs (min_step t) then Ok (y, false) else
        let t1 := sadd t (smax h_abs (min_step t)) in
        let t' := if SFltb tb t1 then tb else t1 in
        let h := ssub t' t in
        '(y', f', err) <- rk_step t h y f ;;
        let scale := zipw (fun a b => sadd ATOL (smul (smax (SFabs a) (SFabs b)) RTOL)) y y' in
        let en := rms (zipw (SFdiv 53 1024) err scale) in
        let fac := SFdiv 53 1024 (fl 9 10) (root5 en) in
        if SFltb en f_1 then
          let fac := if SFeqb en (fl 0 1) then fl 10 1 else smin (fl 10 1) fac in
          let fac := if rejected then smin f_1 fac else fac in
          advance fuel' t' tb (smul h fac) false y' f'
        else advance fuel' t tb (smul h (smax f_02 fac)) true y f
    end.
  Definition rk45 (h : sf) (y : list sf) : res (list sf * bool) :=
    f0 <- fn (fl 0 1) y ;; h0 <- initial_step y f0 h ;; advance 5000 (fl 0 1) h h0 false y f0.
End Solver.

(** solve_ivp over [0, h] without t_eval; only the end of the interval is read. *)
Definition golden_world : world sf :=
  {| w_solve_ivp := fun f h y _ =>
       '(y', ok) <- rk45 (fun t s => r <- f t (A1 s) ;; Ok (aelems r)) h (aelems y) ;;
       Ok {| sol_t := [fl 0 1; h]; sol_y := [aelems y; y']; sol_success := ok |};
     w_odeint := fun _ _ _ => Err TypeError;
     w_jax := false |}.

(** Units of the test files that the library does not define itself. *)
Definition u_cm : punit sf := {| u_text := "centimeter"; u_dim := [1; 0]%Z; u_factor := fl 1 100 |}.
Definition u_mile : punit sf := {| u_text := "mile"; u_dim := [1; 0]%Z; u_factor := fl 1609344 1000 |}.
Definition u_hour : punit sf := {| u_text := "hour"; u_dim := [0; 1]%Z; u_factor := fl 3600 1 |}.
Definition u_deg : punit sf := {| u_text := "degree"; u_dim := [0; 0]%Z; u_factor := ndiv npi (nZ 180) |}.

(** Default constructor parameters. *)
Definition p_cwh : params sf := PCwh M_DEFAULT N_DEFAULT 0 "RK45".
Definition p_rot2d : params sf :=
  PRot2d M_DEFAULT R2_INERTIA R2_ANG_ACC_LIMIT R2_ANG_VEL_LIMIT R2_INERTIA_WHEEL R2_ACC_LIMIT_WHEEL
         R2_VEL_LIMIT_WHEEL N_DEFAULT 0 "RK45" false.
Definition p_sixdof : params sf :=
  PSixDof M_DEFAULT SD_INERTIA (NAnum (PyFloat SD_ANG_ACC_LIMIT)) (NAnum (PyFloat SD_ANG_VEL_LIMIT))
          SD_INERTIA_WHEEL SD_ACC_LIMIT_WHEEL SD_VEL_LIMIT_WHEEL SD_THRUST_LIMIT true N_DEFAULT 0 "RK45".
Definition p_sun : params sf := PSun N_DEFAULT "RK45" false.
Definition p_dub2 : params sf := PDub2 0 "RK45" (fl 200 1) (fl 400 1) (fl (-3490658503988659) 20000000000000000) (fl 3490658503988659 20000000000000000) (fl (-193) 2) (fl 193 2).
Definition p_dub3 : params sf := PDub3 0 "RK45" (fl 200 1) (fl 400 1) (fl (-3490658503988659) 10000000000000000) (fl 3490658503988659 10000000000000000) (fl (-1308996938995747) 1250000000000000) (fl 1308996938995747 1250000000000000) (fl (-3490658503988659) 20000000000000000) (fl 3490658503988659 20000000000000000) (fl (-8726646259971647) 100000000000000000) (fl 8726646259971647 100000000000000000) (fl (-193) 2) (fl 193 2).

(** A test object: class, parameters, keyword arguments and the state assigned to it. *)
Definition spec : Type := (cls * params sf * kwargs sf * option (list sf))%type.
Definition mk_spec (c : cls) (p : params sf) (kw : kwargs sf) (init : option (list sf)) : spec :=
  (c, p, kw, init).
Definition build (id : nat) (cast : sf -> sf) (s : spec) : res (obj sf) :=
  let '(c, p, kw, init) := s in
  o <- make golden_world id c p (("name", CStr "tests" None) :: kw) ;;
  match init with
  | None => Ok o
  | Some l => Ok {| o_id := o_id o; o_cls := o_cls o; o_ent := set_state (o_ent o) (A1 (map cast l)) |}
  end.

Definition attr (o : obj sf) (name : string) : res (list sf) :=
  if name =? "position" then rmap aelems (position o)
  else if name =? "velocity" then rmap aelems (velocity o)
  else if name =? "quaternion" then
    rmap aelems (match o_cls o with SixDOFSpacecraftC => sixdof_quaternion | _ => rot2d_quaternion end (o_ent o))
  else if name =? "angular_velocity" then
    rmap aelems (match o_cls o with SixDOFSpacecraftC => sixdof_angular_velocity | _ => rot2d_angular_velocity end (o_ent o))
  else rmap (fun x => [x]) (getattr o name).

(** bounded_compare (conftest.py 115-122). *)
Definition wrap_diff (x : sf) : sf := nsub (nmod (nadd x npi) (nmul (nZ 2) npi)) npi.
Definition near (angle : bool) (bound prop expected result : sf) : bool :=
  let d := nabs (nsub result expected) in
  nleb (if angle then wrap_diff d else d) (nadd (nmul (nabs result) prop) bound).
Fixpoint near_all (angle : bool) (bound prop : sf) (expected result : list sf) : bool :=
  match expected, result with
  | [], [] => true
  | a :: l, b :: m => near angle bound prop a b && near_all angle bound prop l m
  | _, _ => false
  end.

Record case : Type := mk_case {
  c_spec : spec; c_control : action sf; c_steps : nat;
  c_targets : list (string * list sf * bool); c_bound : sf; c_prop : sf }.

(** test_<class>: build, act, compare every target attribute. *)
Definition passes (c : case) : bool :=
  match (o <- build 0 (fun x => x) (c_spec c) ;;
         e <- run golden_world (o_ent o) (repeat (fl 1 1, c_control c) (c_steps c)) ;;
         Ok {| o_id := o_id o; o_cls := o_cls o; o_ent := e |}) with
  | Err _ => false
  | Ok o =>
      forallb (fun t : string * list sf * bool =>
                 let '(name, expected, angle) := t in
                 match attr o name with
                 | Ok r => near_all angle (c_bound c) (c_prop c) expected r
                 | Err _ => false
                 end) (c_targets c)
  end.

(** test_compare_entities: the state is cast to the entity's float32. *)
Definition as_euler_id (q : sf * sf * sf * sf) : list sf := let '(a, b, c, d) := q in [a; b; c; d].
Definition compares (t : spec * spec * bool) : bool :=
  let '(a, b, expected) := t in
  match (x <- build 1 sf_f32 a ;; y <- build 2 sf_f32 b ;; py_eq as_euler_id x y) with
  | Ok r => Bool.eqb r expected
  | Err _ => false
  end.

(** Evaluates a closed boolean term while the file is compiled and stops the compilation unless it is
    [true]. Unlike a proof by [vm_compute] this leaves no proof term behind: replaying the adaptive
    solver without the virtual machine would take coqchk hours. The test vectors are evidence for the
    model, not theorems, so nothing depends on them. *)
Ltac evaluates_to_true t :=
  let b := eval vm_compute in t in
  lazymatch b with
  | true => exact Logic.I
  | _ => fail "a test vector does not pass"
  end.
