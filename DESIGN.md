# Design: a Rocq model of safe-autonomy-dynamics

Source: `/repo` (act3-ace/safe-autonomy-dynamics, pinned commit), read as text.
Model and proofs: `/verif/rocq/theories`. Properties: `properties.jsonl`. Status per
property, with theorem names and what is missing: `MANIFEST.json`. Mutation log:
`seeded/LOG.jsonl`; there `failed_lemmas` lists the lemmas whose proofs broke when the edited
model was compiled, and `failed` the property theorems whose proofs use one of them (from the
reference tables coqc writes).

## 1. How the files are organised

* Model files mirror the code function by function: `BaseModel`, `Heap`, `Cwh`, `Rot2d`,
  `SixDof`, `Sun`, `Integ`, `Dubins`, `Utils`, `Classes`, `Units`, `AeroTables`, `Aero`,
  `Morelli`, `F16`, `F16Mem`, `AeroUtil`, `EulerMem`, `Hash`, `Partner`, `Fresh`. Each definition cites file and lines.
* `Spec*.v` files hold the vocabulary of the property statements. The model does not use
  them.
* `*Lemmas.v`, `*Props.v` and the remaining files are proofs.
* `Properties_*.v` hold the property theorems, an example beside each, and
  `Print Assumptions` beneath each.
* `Golden*.v` validate the model (section 5); no property depends on them.
* Names: `Cxx_..._partial` proves part of the property; `Cxx_..._refuted` shows by a
  witness that the statement (or the named part) is false of the code.

## 2. Modelling decisions

* **Numbers.** Every modelled function is written once, over a record of numeric
  operations (`Num T`, `Num.v`), and used at two instances.
  * `XR r32`: exact reals plus `+inf`, `-inf`, `nan`, with IEEE rules for the special
    values (division by zero, nan propagation, comparisons with nan false). There is one
    zero. The float32 cast is the parameter `r32 : R -> xr`; theorems quantify over it, so
    they hold for every rounding, unless they fix `r32 := Fin` (no rounding) in an example
    or witness.
  * `F64 lm`: IEEE binary64, round to nearest even, from Flocq (`BinarySingleNaN`).
    `lm : libm` supplies sin, cos, tan, asin and pow as arbitrary functions; theorems
    quantify over it. The float32 cast is a real rounding to binary32 and back.
  * Theorems stated "for any arithmetic" quantify over `Num T` itself, or over instances
    satisfying the order laws `NumOrd`/`NumNeg`, which both instances are proved to satisfy.
* **Exceptions** are values: `res A := Ok a | Err exn`, with distinct `exn` constructors
  for the Python classes that occur.
* **numpy arrays** are scalars or vectors with broadcasting (`arr T := A0 | A1`); matrices
  are lists of rows. Arrays of higher dimension do not occur as operands. `np.clip` is
  `minimum(maximum(x, lo), hi)` with nan propagation (numpy 1.26). Arrays have no dtype;
  the model applies the float32 cast where the code creates a float32 array, and float64
  arithmetic afterwards (numpy promotes float32 with float64 to float64). Arrays supplied by
  the user are assumed to be float64. Arithmetic on two float32 numbers occurs in two places
  and is modelled as float64 arithmetic there: the accessors of a freshly built Dubins
  aircraft, and the first Euler step of a freshly built Dubins aircraft, RotationalModel or
  SixDOF spacecraft (the state is then a float32 array; products, sines and cosines in the
  derivative are rounded to float32; from the second step on the state is float64, and
  scipy converts it at once). No binary64 theorem depends on those values: C113, C114, C116, C118 and C120
  start from a state assigned as a float64 array; the linear models multiply by float64
  matrices, which is exact promotion. `Fresh.v` models the first step of a new Dubins
  aircraft in float32; C115 says what that does to C113 and C114.
* **matmul** sums left to right; numpy does not specify the order. Only rounding depends
  on it. Of the binary64 theorems only C106, C113, C114 and C116 to C120 compute with it: the bounds of
  C106, C116 and C117 leave slack for another order, and in C113, C114, C118, C119 and C120 all terms of a row but
  one are zero. C112 covers every order of summation. The others hold whatever value the product has.
* **External solvers** (`scipy.integrate.solve_ivp`, `jax.experimental.ode.odeint`) and
  the presence of jax are a record `world` that theorems quantify over. Where a theorem
  needs something about the solver, it is the hypothesis `rk_solver w` (`SpecRk.v`): the
  solution values are the initial state plus combinations of derivative evaluations whose
  weights sum to the elapsed time. Every explicit Runge-Kutta tableau is proved to satisfy it.
  scipy's adaptive step control is not modelled.
* **Object identity.** `Heap.v` (entities), `F16Mem.v` (controller), `EulerMem.v`
  (integrator) model which arrays are allocated and written. Limit arrays, which are never
  written, are values there. `Heap.v` is proved to simulate the value model.
* **Classes.** The class table lists own abstract and own concrete members and the method
  resolution order. A user class may add members but not override library members; multiple
  inheritance is not modelled.
* **pydantic 2.6 / pint 0.22** are modelled by documented behaviour: `extra="forbid"`,
  `Union[float, Quantity]` fields, errors collected into one ValidationError (a ValueError),
  unit conversion by dimension and factor, angles dimensionless, `__float__` of a
  dimensionless quantity. Offset units are not modelled. Unit texts identify units.
* **scipy Rotation.** `from_euler("ZYX")` is the product of half-angle quaternions,
  `from_quat` normalises and rejects zero, `as_euler` is an arbitrary function.
* **F-16.** States are float numpy arrays; their elements are numpy floats, so division by
  zero gives inf or nan, while `math.sin(...)/math.cos(...)` divides Python floats and
  raises. `x**2` and other integer powers are products; `tfac**4.14` is the real power.
  One controller gain literal has more than 53 significant bits and its binary64 value in
  the model is one unit in the last place off Python's.
* **Euler class of aerobench.** The derivative function may raise and may depend on time;
  it is assumed not to write the vector it is given. Integer start vectors are not modelled.

## 3. What is not modelled

* Printing, warnings text, logging, docstrings, typing, `printmat`, the debug print of
  `morellif16.py`, the docs and test directories.
* The numerical content of scipy, jax, pydantic and pint beyond section 2.
* jax arrays: `AJax` actions decode like numpy arrays; jax float32 defaults are not modelled.
* Running out of memory, integer overflow in array sizes, threads.
* Performance.

## 4. Properties

| id | property | model | proof | status |
|---|---|---|---|---|
| C01 | Control saturation | `BaseModel.entity_step` control pipeline | order laws of clip (`NumOrd`), proved for both number instances | proved |
| C02 | In-range controls are untouched and the warning is exact | `BaseModel.entity_step` control pipeline | order laws of clip (`NumOrd`), proved for both number instances | proved |
| C03 | Dict actions | dict decoding, default control | list induction, permutation | proved |
| C04 | Default action | dict decoding, default control | list induction, permutation | proved |
| C05 | Action encodings agree | list/array decoding | congruence; refuted by a value that is not a float32 number | partial |
| C06 | A failed step changes nothing | `entity_step` returns the entity after every failure point | case analysis | proved |
| C07 | Value semantics of the state API | `Heap.v`: arrays as heap cells | simulation with the value model by induction on histories (`SpecHeap.v`) | proved |
| C08 | State limits hold after every step | run of steps, any solver | invariant over histories, also after caught exceptions | proved |
| C09 | Angle wrapping around 0 | `wrap_angles` | floor arithmetic over the reals; binary64 by monotonicity of rounding (`F64Wrap.v`); refutations by witness | partial |
| C10 | Angle wrapping around an arbitrary center | `wrap_angles` | floor arithmetic over the reals; binary64 by monotonicity of rounding (`F64Wrap.v`); refutations by witness | partial |
| C11 | Wrapping does not undo the state limits | `wrap_angles` | floor arithmetic over the reals; binary64 by monotonicity of rounding (`F64Wrap.v`); refutations by witness | partial |
| C12 | Derivative limits | `compute_state_dot` | pointwise clip lemmas; refuted when both limits coincide | partial |
| C13 | Reported derivative | `dyn__step` | case analysis of the method string; refutations by witness worlds | partial |
| C14 | Integration method dispatch | `dyn__step` | case analysis of the method string; refutations by witness worlds | proved |
| C15 | Trajectory samples | `dyn__step` | case analysis of the method string; refutations by witness worlds | partial |
| C16 | Wrong-length actions are rejected | broadcasting in `bmap2`, `matvec` | length lemmas; refuted by a one-element array | partial |
| C17 | Clohessy-Wiltshire equations | CW matrices, linear dynamics | evaluation of the matrix product over `XR`, induction over runs | proved |
| C18 | 2d and 3d CW matrices agree | CW matrices, linear dynamics | evaluation of the matrix product over `XR`, induction over runs | proved |
| C19 | CW linear first integral survives numerical integration | Euler and Runge-Kutta solvers (`SpecRk.v`) | a linear functional is preserved; induction over runs; explicit tableaux shown to be instances | proved |
| C20 | Exact CW flow | exact flow | Coquelicot derivatives, uniqueness by constant-derivative argument | proved |
| C21 | Superposition | CW matrices, linear dynamics | evaluation of the matrix product over `XR`, induction over runs | proved |
| C22 | 2d rotational spacecraft equations | `Rot2d.v` | trigonometric identities, clip lemmas, induction over Euler runs | proved |
| C23 | Rotational limits | `Rot2d.v` | trigonometric identities, clip lemmas, induction over Euler runs | proved |
| C24 | Heading periodicity | `Rot2d.v` | trigonometric identities, clip lemmas, induction over Euler runs | proved |
| C25 | Quaternion kinematics | `SixDof.v` | polynomial identities, derivatives of invariants, induction over Euler runs | proved |
| C26 | Body thrust rotation | `SixDof.v` | polynomial identities, derivatives of invariants, induction over Euler runs | proved |
| C27 | Default attitude | `SixDof.v` | witnesses; the true part for the identity attitude, equal inertias, the diagonal | partial |
| C28 | Rigid body invariants | `SixDof.v` | polynomial identities, derivatives of invariants, induction over Euler runs | proved |
| C29 | SixDOF angular acceleration limit | `SixDof.v` | witnesses; the true part for the identity attitude, equal inertias, the diagonal | partial |
| C30 | Models agree with each other | `Rot2d.v` | trigonometric identities, clip lemmas, induction over Euler runs | proved |
| C31 | SixDOF limits | `SixDof.v` | polynomial identities, derivatives of invariants, induction over Euler runs | proved |
| C32 | Sun motion | `Sun.v` | induction over steps; refuted by two suns | proved |
| C33 | Sun equality | `Sun.v` | induction over steps; refuted by two suns | partial |
| C34 | Integrator equations | `Integ.v`, class table `Classes.v` | evaluation; abstract members computed from the class table | proved |
| C35 | Entities can be constructed | `Integ.v`, class table `Classes.v` | evaluation; abstract members computed from the class table | partial |
| C36 | Actuator names address distinct actuators | `Integ.v`, class table `Classes.v` | evaluation; abstract members computed from the class table | partial |
| C37 | Integrator equality | `Integ.v`, class table `Classes.v` | evaluation; abstract members computed from the class table | partial |
| C38 | Dubins kinematics | `Dubins.v` | trigonometric identities; induction over Euler runs; witnesses | proved |
| C39 | Dubins coordinated turn | `Dubins.v` | trigonometric identities; induction over Euler runs; witnesses | proved |
| C40 | Dubins reported acceleration | `Dubins.v` | trigonometric identities; induction over Euler runs; witnesses | partial |
| C41 | Dubins speed and displacement bounds | `Dubins.v` | trigonometric identities; induction over Euler runs; witnesses | proved |
| C42 | Limits hold at construction | `Dubins.v` | trigonometric identities; induction over Euler runs; witnesses | partial |
| C43 | Entity equality means equal state | `Classes.v` objects, `py_eq` | case analysis over the classes; `as_euler` is an arbitrary function | partial |
| C44 | Relative position and velocity | `Classes.v` objects, `py_eq` | case analysis over the classes; `as_euler` is an arbitrary function | proved |
| C45 | Unit conversion of configuration | `Units.v` | field arithmetic, evaluation of the field tables | proved |
| C46 | State layout | `Units.v` | field arithmetic, evaluation of the field tables | partial |
| C47 | number_list_to_np | `Utils.v` | case analysis | partial |
| C48 | Aero table lookups are total | `Aero.v` | integer bounds on cells in binary64 (`AeroTotal.v`) | proved |
| C49 | Aero tables interpolate | `Aero.v` | interpolation lemma against separately transcribed tables (`SpecTables.v`) | proved |
| C50 | Lookups are continuous | `Aero.v` | interpolation lemma against separately transcribed tables (`SpecTables.v`) | proved |
| C51 | Lateral tables are odd | `Aero.v` | interpolation lemma against separately transcribed tables (`SpecTables.v`) | proved |
| C52 | Engine power lag | engine, thrust, air data | real inequalities, rational enclosures of numeric constants, witnesses | proved |
| C53 | Throttle gearing is monotone | engine, thrust, air data | real inequalities, rational enclosures of numeric constants, witnesses | partial |
| C54 | Thrust lookup | engine, thrust, air data | real inequalities, rational enclosures of numeric constants, witnesses | proved |
| C55 | Air data | engine, thrust, air data | real inequalities, rational enclosures of numeric constants, witnesses | proved |
| C56 | Low level controller saturation and trim | `F16.v` controller; `F16Mem.v` for writes | saturation lemmas, binary64 magnitude bounds (`F64Bound.v`), witnesses | partial |
| C57 | Closed loop F-16 derivative | `F16.v` controller; `F16Mem.v` for writes | saturation lemmas, binary64 magnitude bounds (`F64Bound.v`), witnesses | partial |
| C58 | F-16 navigation equations | `F16.v` airframe | the model equations are related to vector equations stated in `SpecF16.v` | proved |
| C59 | F-16 force equations | `F16.v` airframe | the model equations are related to vector equations stated in `SpecF16.v` | proved |
| C60 | F-16 lateral symmetry | `F16.v` airframe | the model equations are related to vector equations stated in `SpecF16.v` | proved |
| C61 | Morelli envelope | `Morelli.v` | polynomials restated in `SpecMorelli.v` | proved |
| C62 | Fixed step Euler integrator | `AeroUtil.v` Euler class, `EulerMem.v` | induction over steps; explicit time grid; binary64 absorption witness | partial |
| C63 | Dense output | `AeroUtil.v` Euler class, `EulerMem.v` | induction over steps; explicit time grid; binary64 absorption witness | partial |
| C64 | Freezable | `AeroUtil.v` Freezable | induction over operation histories | partial |
| C65 | Safety verifier | `AeroUtil.v` | characterisation of the accepted set; list slicing lemmas | partial |
| C66 | Extracting one aircraft | `AeroUtil.v` | characterisation of the accepted set; list slicing lemmas | proved |
| C67 | Trim constraints | `F16.v` trim | case analysis of the orientation, sums of squares | partial |
| C68 | fix and sign | `fix_`, `sign_` | Flocq floor and ceiling lemmas | proved |
| C69 | Solver failure is noticed | `dyn__step` | case analysis of the method string; refutations by witness worlds | partial |
| C70 | The reported derivative is a value too | `Heap.v`: arrays as heap cells | simulation with the value model by induction on histories (`SpecHeap.v`) | partial |
| C71 | Full inertia matrices | `SixDof.v` | witnesses; the true part for the identity attitude, equal inertias, the diagonal | partial |
| C72 | Limits are the configured ones | `Dubins.v` | trigonometric identities; induction over Euler runs; witnesses | partial |
| C73 | Thrust never falls as power rises | engine, thrust, air data | real inequalities, rational enclosures of numeric constants, witnesses | partial |
| C74 | Air data vary continuously with altitude | engine, thrust, air data | real inequalities, rational enclosures of numeric constants, witnesses | partial |
| C75 | F-16 attitude kinematics | `F16.v` airframe | the model equations are related to vector equations stated in `SpecF16.v` | proved |
| C76 | F-16 moments and accelerometers | `F16.v` airframe | the model equations are related to vector equations stated in `SpecF16.v` | proved |
| C77 | F-16 derivative is always finite | `F16.v` airframe | the model equations are related to vector equations stated in `SpecF16.v` | partial |
| C78 | Damping counted once | `F16.v` airframe | the model equations are related to vector equations stated in `SpecF16.v` | partial |
| C79 | Trim constraints fly the requested condition | `F16.v` trim | case analysis of the orientation, sums of squares | proved |
| C80 | The integrator's state is a value | `AeroUtil.v` Euler class, `EulerMem.v` | induction over steps; explicit time grid; binary64 absorption witness | partial |
| C81 | Only existing aircraft can be extracted | `AeroUtil.v` | characterisation of the accepted set; list slicing lemmas | partial |
| C82 | Integration methods RK45 and RK45_JAX agree | `BaseModel.v` (RK45 and RK45_JAX branches), `same_method` in `SpecMethod.v` | case analysis of both branches under equal solvers; refuted by a midpoint step at the speed limit; witnesses exist: every explicit Runge-Kutta method | partial |
| C83 | NaN commands are noticed | `BaseModel.v`, `Cwh.v`, NaN laws `NumNan` proved for binary64 | NaN propagates through the matrix products (induction over the run); refuted by evaluation in binary64 | partial |
| C84 | Constant thrust moves the CWH spacecraft along the closed-form solution | `Cwh.v`, `cw_forced`/`exact_on` in `SpecFlow.v` | closed form checked by differentiation, uniqueness from C20, induction over the steps; an error-free solver is exhibited | proved |
| C85 | Euler integration converges | `Cwh.v`, Euler branch | Gronwall-style induction with a Lipschitz constant of the linear field and a Taylor remainder | proved |
| C86 | Closed relative orbits | `Cwh.v` | closed form of C20 at 2 pi/n; drift grows linearly | proved |
| C87 | Speed limits of the integrators | `Integ.v` | induction over the command list | proved |
| C88 | Slew limits of the planar spacecraft | `Rot2d.v` | induction over the command list, triangle inequality, whole turns carried along | proved |
| C89 | Steady turns | `Dubins.v`, `turn2d`/`turn3d` in `SpecFlow.v` | differentiation, uniqueness by equal derivatives, induction over the steps modulo whole turns; an error-free solver is exhibited | proved |
| C90 | Coasting with a steady rotation | `SixDof.v`, `sd_coast`/`qturn` in `SpecSpin.v` | closed form checked by differentiation; uniqueness by constant differences; induction over the steps; an error-free solver is exhibited | proved |
| C91 | A unit of thrust stays a unit of thrust | `SixDof.v` | quaternion algebra and C25's norm growth; refuted for every bound | partial |
| C92 | Closed orbits stay bounded under every integration method | `Cwh.v`, amplitudes in `SpecEnergy.v` | energies are constant along solutions (closed form of C20); each Euler step multiplies them by 1 + (n h)^2, induction over the steps; refuted since powers of 1.000001 exceed every bound | partial |
| C93 | Closed-form motion of the integrators | `Integ.v`, `glide` in `SpecGlide.v` | closed form checked by differentiation, uniqueness by constant differences, induction over the steps; an error-free solver is exhibited | proved |
| C94 | Where a vehicle is does not influence how it moves | `BaseModel.v` and every vehicle, `displace`, `blind_solver` in `SpecShift.v` | one generic simulation between a run and its displaced run (limits infinite and wrap centers NaN at displaced elements, raw derivative constant along them), instantiated per vehicle; induction over the run and, for solvers, over the stages of a tableau | proved |
| C95 | F-16 energy balance | `F16.v` | all equations of one call in one statement (`f16_bundle`), then algebra and sin^2+cos^2=1 | proved |
| C96 | Left and right are alike for the F-16 | `F16.v`, `Aero.v`, `Morelli.v`, mirror image in `SpecMirror.v` | parity of every coefficient and table in sideslip, aileron and rudder; refuted by three evaluated flight conditions | partial |
| C97 | Several entities do not share anything | `Heap.v`, programs over several entities in `SpecFleet.v` | the one-entity refinement of C07 applied to each operation, the other entities' references being part of the environment; induction over the program | proved |
| C98 | Entities can be put into sets and used as keys | `Hash.v`, `Classes.v` | induction over chains of user classes; refuted by a CWHSpacecraft | partial |
| C99 | Integration settings are checked when an entity is built | `BaseModel.v`, constructors | case analysis of `dyn__step`; refuted by three constructor calls | partial |
| C100 | An aircraft has no preferred direction | `Dubins.v`, `BaseModel.v`; `turned2`, `turned3` in `SpecSym.v` | a simulation record (`symmetry` in `SymLemmas.v`): derivative, limits, wrapping and vector addition respect the relation; induction over the run, over the stages of a tableau for solvers | proved |
| C101 | Mirrored vehicles given mirrored commands stay mirrored | every vehicle; `flipped`, `mirrored2`, `mirrored3` in `SpecSym.v` | the same record, instantiated per vehicle; clipping and stopping at symmetric limits commute with the sign change | proved |
| C102 | The controller's trim point is an equilibrium of the airframe | `F16.v`, `Aero.v`, `Morelli.v` at `trim`, `trim_surfaces` of `SpecF16Ctl.v` | the equations of C59 at the trim state, table cells and polynomials evaluated there; density, sine, cosine, square root and pi enclosed by rational arithmetic; refuted for the polynomial model | partial |
| C103 | Work and energy of the relative motion | `Cwh.v`; `hill_energy`, `work` in `SpecWork.v` | derivative of energy minus work along a solution is zero (C84 gives the equations); one exact step by the closed form; Euler by expanding the quadratic form | proved |
| C104 | Angular momentum in space | `SixDof.v`; `momentum`, `spin_energy` in `SpecWork.v` | derivatives of the three components along a solution, from the equations of C25; the step follows the solution since the limits are inactive; the Euler method changes the length (example) | proved |
| C105 | Aircraft commands act on their own axis, within their own limits | `Dubins.v`, `BaseModel.v`; `rate_is` in `SpecCommand.v`, `stopR`, `clipR` in `SpecCwh.v` | the saturated control reaches the derivative computation (any solver recomputes it at the end of the step); component reading of the affine form; complete step from `euler_list` | proved |
| C106 | Rounding errors stay in the last digits | `Cwh.v`, `BaseModel.v`, `Float64.v`; `agrees`, `cwh_agrees`, `tracks`, `drift` in `SpecRound.v`, `tracks_scaled`, `sized` in `SpecLong.v` | `F64Err.v`: forward error analysis of additions and products (relative error per rounding, underflow, no overflow) on top of Flocq; applied term by term to the step in the order of the model; runs by induction, comparing the F64 and the XR instance of the same model; for long runs (`RoundLong.v`) in a norm that scales positions by L, with the size of the exact run bounded by a second induction. numpy may add the terms in another order or fuse operations; the bound leaves room for that (12 of the 16 roundings it allows are used) | proved |
| C107 | Euler integration of aircraft and rotating spacecraft converges | `Dubins.v`, `Rot2d.v`, Euler branch, limits and wrapping included | the motion is any differentiable solution; tangent error bounds and summation along the run for the aircraft (heading error carried into the position), a general Lipschitz convergence theorem for the spacecraft; heading compared up to whole turns | proved |
| C108 | Only elapsed time matters, and a step can be split | `BaseModel.v` and all dynamics; `autonomous` in `SpecSplit.v`, `integral_curve`, `exact_on` in `SpecFlow.v` | time shift of a solution is a solution; the second step then ends at the same solution value and passes through the same clip and wrap; runs by induction; zero step by 0 * x = 0 | proved |
| C109 | Physical parameters are checked | constructors in `Cwh.v`, `Integ.v`, `SixDof.v`, `Rot2d.v`, `Dubins.v` | exact characterisation of what is accepted by evaluation; consequences of negative mass, negative inertia and crossed speed limits from the step lemmas of C17, C105, C107 | partial |
| C110 | A vehicle can be saved and restored | `BaseModel.v`, `Cwh.v`; `alike`, `runs_alike` in `SpecRestore.v` | bisimulation on configuration and state, induction over pasts and runs; rebuilding refuted in binary64 by evaluation | partial |
| C111 | Registering a partner connects aircraft without influencing them | `Partner.v`; `unregistered`, `latest`, `proper` in `SpecPartner.v` | induction over programs: registrations commute with everything that concerns entities | proved |
| C112 | Rounding errors of user-defined linear dynamics are bounded | `linear_dyn` in `Cwh.v`, `Integ.v`, Euler branch of `BaseModel.v`, `Float64.v`; `summed`, `computes`, `lin_agrees`, `lin_drift` in `SpecLin.v` | error analysis of `F64Err.v` by induction over an arbitrary summation tree of an arbitrary permutation of the products; the left-to-right order of the model is one of them; runs by induction against the XR instance | proved |
| C113 | Wrapping and flying are accurate in floating point | `wrap_angles` and the Euler branch of `BaseModel.v`, `Dubins.v`, `Float64.v`; `accurate`, `fly`, `fly_error`, `wrapped` in `SpecFly.v` | np.pi by Machin's formula from the standard library; the remainder as dividend less a whole number of divisors up to one rounding; error analysis of one step; induction over runs, where stopping at a limit is absorbed by clipping and headings are compared modulo turns | proved |
| C114 | Flying in three dimensions is accurate in floating point | `dubins3d_dyn` and `dubins3d_aircraft` of `Dubins.v`, the Euler branch of `BaseModel.v`, `Float64.v`; `fly3`, `turn_lip`, `fly3_error` in `SpecFly3.v` | error analysis of one step with division by the speed and the tangent of the roll; clipping to limits within [-2, 2] before wrapping leaves the angle alone; Lipschitz bound of the turn rate; induction over runs with separate bounds for speed and angles, heading, and position | proved |
| C115 | A new aircraft flies as accurately as one whose state was assigned | `Fresh.v` (float32 derivative of a new aircraft's first step), `Dubins.v`, `BaseModel.v`, `Float64.v`; `accurate32`, `first_error` in `SpecFresh.v` | `F32.v`: rounding the exact float64 product of two float32 numbers to float32 is the float32 product; its error; refuted at a position that is a multiple of 2^-16, while the exact one (cosine of 1 enclosed by the series) is far from any; flight: the first step leaves an initial position and heading error, the others are those of C113 and C114 | partial |
| C116 | Rotating spacecraft step as precisely as point-mass ones | `Rot2d.v`, `SixDof.v`, `Cwh.v`, `BaseModel.v`, `Float64.v` (casts to float32 are `f64_f32`); `single_error`, `rot2d_follows`, `sixdof_follows` in `SpecSingle.v` | `SingleRound.v`: error of a rate whose variables and value are cast to float32, then of the step with it; running error calculus of `F64Err.v` for the rest; `SingleSix.v` does the same for the spacecraft with attitude, with thrust turned by the quaternion or not; refuted at velocity 1/10 | partial |
| C117 | The simulated spacecraft follows the true motion | `Cwh.v`, `BaseModel.v`, `Float64.v`; `orbit`, `bend`, `kick` in `SpecOrbit.v`, `tracks_scaled`, `sized` in `SpecLong.v` | `OrbitRun.v`: error of one Euler step against the closed form (from |a - sin a| <= a^2 and 1 - cos a <= a^2/2), growth of errors and states by induction over the commands, then the triangle inequality with C106_long. That the closed form is the only solution of the equations is C84 | proved |
| C118 | The simulated aircraft follows the true path | `Dubins.v`, `BaseModel.v`, `Float64.v`; `path1`, `path` in `SpecPath.v` | `PathRun.v`: the integrand of one step is Lipschitz with constant C + V Q, so one Euler step errs by at most (C + V Q) H^2 / 2 in each position and not at all in heading and speed; errors add up by induction because the position does not feed back; then the triangle inequality with C113_fly. `C118_moves` ties the integrals to the equations of motion | proved |
| C119 | The simulated point masses follow the true motion | `Integ.v`, `linear_dyn` of `Cwh.v`, Euler branch of `BaseModel.v`, `Float64.v`; `glide_p`, `glide_v` in `SpecGlide.v`, `coast`, `coast_round`, `coast_v`, `coast_p` in `SpecCoast.v` | `CoastRun.v`: one Euler step against the closed form from 1 - z <= exp(-z) <= 1 - z + z^2/2, the rounding error of one step from C112_integrator, induction over the commands with bounds on the exact speed and position. That the closed form is the only solution is C93 | proved |
| C120 | The simulated aircraft in three dimensions follows the true path | `Dubins.v`, `BaseModel.v`, `Float64.v`; `path31`, `path3`, `turn_jerk`, `path3_error` in `SpecPath3.v` | `Path3Run.v`: the heading rate is Lipschitz in time with constant `turn_jerk`, the velocity with constant a + V (turn_max + q), which bounds one Euler step; heading errors feed into the position, so errors add up by induction to the square of the number of steps times H^3; then the triangle inequality with C114_fly3. `C120_moves` ties the nested integrals to the equations of motion | proved |
| C121 | A new aircraft follows the true path from its constructor on | `Fresh.v`, `Dubins.v`, `BaseModel.v`, `Float64.v`; `SpecPath.v`, `SpecPath3.v`, `SpecFresh.v` | `NewPath.v`: the flight bounds of C115 (float32 first step against the exact Euler flight), the method error of C118 and C120 (`path_close`, `path3_close`), triangle inequality | proved |
| C122 | Rounding errors of a rotating spacecraft accumulate slowly over many steps | `Rot2d.v`, `BaseModel.v`, `Float64.v`; `steer`, `steers`, `steer_error` in `SpecSteer.v` | `SteerRun.v`: induction on the list of steps; one step from C116 (`rot2d_round_turn`), Lipschitz bound of the exact step (`steer_one`), stopping at the rate limit and clipping is clipping (`stop_clip`); `SteerEx.v`: growth of the exact flight for the example | proved |
| C123 | Vector properties agree with the scalar ones | `Classes.v` with the accessors of `Cwh.v`, `Rot2d.v`, `SixDof.v`, `Integ.v`, `Dubins.v`; `made_of`, `planar` in `SpecIface.v` | `IfaceLemmas.v`: case analysis on the class, for every state vector of its length; the quaternion of a SixDOFSpacecraft agrees exactly when it has norm 1; refuted for that and for Integrator2d, whose position has two elements | partial |
| C124 | Classes that can be instantiated implement the interface of their bases | `Classes.v` (tables of members, `mro`, `lookup`, `py_new`); `derives`, `subclass`, `demands`, `implements` in `SpecIface.v` | `IfaceLemmas.v`: `mro` lists the reflexive transitive closure of the class statements; no library class redeclares as abstract what a base implements (`unshadowed`); induction on the depth of user classes | proved |
| C125 | A spacecraft with default parameters keeps the default rates | `Rot2d.v`, `SixDof.v` with their default constants, `Float64.v` | `DefaultLemmas.v`: the rate bounds of C23 and C31 (`rot2d_rate_bounds`, `sixdof_rate_bounds`) at the default constants, evaluated in binary64; comparisons of doubles turned into inequalities of real numbers (`within_lim`) | proved |
| C126 | The default mass and orbit | `Cwh.v`, `Rot2d.v`, `Sun.v` with their default constants, over exact reals (`XReal.v`) | `DefaultOrbit.v`: the equations of motion of C17, C22 and C32 (`cwh_csd`, `rot2d_ideal`, `sun_run`) at the default constants | proved |


## 5. Trusted base

* The Coq 8.16.1 kernel.
* What `Print Assumptions` lists beneath the property theorems. Only standard-library
  axioms occur: `ClassicalDedekindReals.sig_not_dec`,
  `ClassicalDedekindReals.sig_forall_dec`,
  `FunctionalExtensionality.functional_extensionality_dep` (the real numbers), and
  `Classical_Prop.classic` (through Coquelicot and Flocq). Theorems quantified
  over all arithmetics are mostly closed under the global context.
* Libraries used: the standard library, Flocq, Coquelicot. They are proved, not
  assumed.
* The correspondence between `/repo` and the model, made by hand; each definition cites the
  file and lines it mirrors and says where it simplifies.

The correspondence is checked by running the model on the repository's own test vectors.
`Golden.v` gives the polymorphic model a third, executable arithmetic (binary64 on Coq's
`spec_float`, elementary functions by polynomials), an implementation of scipy's adaptive RK45
with its default tolerances, and the comparison of `conftest.py`. All 204 cases of
`test/test_cases/*.yaml` then pass by computation: the lists `cwh_cases` (23), `rot2d_cases` (36),
`sixdof_cases` (22), `dubins2d_cases` (33), `dubins3d_a_cases` and `dubins3d_b_cases` (56) are
evaluated while the files are compiled, which stops unless every case passes; `compare_cases_pass`
(28) and `relative_cases_pass` (6) are theorems. The simulations are not stated as theorems because
coqchk, which has no virtual machine, could not replay them. The case lists were generated from the
yaml files.
`GoldenF16.v` does the same for the test vector of the F-16 model in the book by Stevens and Lewis.

## 6. Defects of the code shown by refutations

Each is a `_refuted` theorem with a concrete witness; the number is the property.

* Angle wrapping: wrong for a nonzero center (C10); undoes state limits beyond pi (C11);
  reaches +pi in binary64 (C09).
* Actions: lists are rounded to float32 while arrays are not (C05); a one-element array is
  broadcast to all actuators (C16).
* Step: Euler reports the derivative of the old state (C13); the recorded trajectory ends
  before limits and wrapping (C15); the solver's failure flag is ignored (C69);
  `state_dot` is handed out by reference (C70); equal limits reverse the limiter (C12);
  RK45_JAX ignores state and derivative limits (C82); NaN commands pass without a warning
  and spread over the whole state (C83).
* SixDOF: the default quaternion is zero (C27); the angular acceleration limit does not
  hold for unequal inertias (C29); off-diagonal inertia is ignored (C71); body thrust
  grows with the unnormalised quaternion (C91).
* CWH: with integration_method "Euler" a closed relative orbit spirals out; each step multiplies the
  squared amplitudes by 1 + (n h)^2 (C92).
* Sun: any two suns are equal (C33).
* Integrators: the classes are abstract and cannot be built (C35); all actuators drive
  axis x (C36); 2d and 3d integrators differ from themselves (C37).
* Dubins: the reported acceleration lacks the turning part (C40); constructor and setters
  ignore limits (C42); float32 rounding moves the limits (C72); `z` is accepted and ignored
  in 2d (C46).
* Entities compared by value cannot be hashed (C98); unsupported integration settings are
  accepted by constructors, and RK45_JAX works for no vehicle without `use_jax` (C99).
* Negative mass and inertia and crossed limits are accepted (C109); an entity rebuilt from its
  reported state is another one, since constructors round to float32 (C110).
* Equality: raises, irreflexive at rest, blind below float32 (C43).
* `number_list_to_np` treats a list as a shape (C47).
* F-16: throttle gearing jumps down (C53); thrust falls with power at 50000 ft (C73); Mach
  number jumps at 35000 ft (C74); controller output nan on huge states (C56); roll rate
  about a trim-relative axis (C57); unknown orientation accepted by conf16 (C67); vertical
  attitude raises, rest gives nan (C77); damping counted twice (C78).
* F-16: left and right differ through the engine's angular momentum, even powers of sideslip
  in the Morelli roll and yaw polynomials, and aileron tables (C96).
* F-16: the controller's trim point is not an equilibrium of the default polynomial model (C102).
* aerobench utilities: Euler may never finish in binary64 (C62); dense output reads later
  state (C63); frozen objects can be unfrozen (C64); speed limit never checked, signed
  sideslip (C65); the integrator's state array is rewritten (C80); wrong aircraft index
  accepted (C81).
