{"id": "C01", "title": "Control saturation", "statement": "Whatever action is passed to entity.step (None, dict, list, numpy array), the control vector the dynamics model receives has every element inside [control_min, control_max] (a NaN element stays NaN; nothing else escapes the limits).", "quantifier": "all entities, all control limits with min<=max, all actions, for exact arithmetic with IEEE special values and for IEEE binary64", "why_tests_cant": "actions are arbitrary real vectors; a test only samples a few, and special values (inf, NaN) interact with the limits", "anchors": ["safe_autonomy_dynamics/base_models.py: BaseEntity.step"]}
{"id": "C02", "title": "In-range controls are untouched and the warning is exact", "statement": "entity.step leaves an in-range control vector bit-for-bit unchanged, and the 'Control input exceeded limits' warning is emitted if and only if some element lies outside its limits.", "quantifier": "all control vectors and limits", "why_tests_cant": "an equivalence over all vectors and limits, including values equal to a limit and NaN; a test samples a few interior and exterior points", "anchors": ["safe_autonomy_dynamics/base_models.py: BaseEntity.step (warnings.warn, np.clip)"]}
{"id": "C03", "title": "Dict actions", "statement": "A dict action sets exactly the named actuators, leaves every unnamed actuator at its default, does not depend on the insertion order of the dict, raises KeyError on an unknown actuator name and AssertionError when the entity has no control map.", "quantifier": "all dict actions and all orders of their items, every entity whose control map sends different names to different indices", "why_tests_cant": "the number of key subsets and orders is exponential and values are continuous", "anchors": ["safe_autonomy_dynamics/base_models.py: BaseEntity.step"]}
{"id": "C04", "title": "Default action", "statement": "step(h) behaves exactly like step(h, {}) and like step(h, control_default as an array); the stored default control is never changed by stepping.", "quantifier": "all entities and states", "why_tests_cant": "three call forms have to agree in every state and after every history; a test compares them in one", "anchors": ["safe_autonomy_dynamics/base_models.py: BaseEntity.step"]}
{"id": "C05", "title": "Action encodings agree", "statement": "Giving the same control values as a dict, as a numpy array, or as a list makes step do the same thing.", "quantifier": "all control vectors", "why_tests_cant": "a difference shows only for values that are not representable in float32", "anchors": ["safe_autonomy_dynamics/base_models.py: BaseEntity.step"]}
{"id": "C06", "title": "A failed step changes nothing", "statement": "If entity.step raises, the entity's state, state_dot and control default are what they were before the call; an action of an unsupported type raises ValueError.", "quantifier": "all entities, actions and failure points", "why_tests_cant": "a step can fail while decoding, clipping, integrating, limiting or wrapping; a test has to provoke each failure for each method and entity separately", "anchors": ["safe_autonomy_dynamics/base_models.py: BaseEntity.step, BaseODESolverDynamics._step"]}
{"id": "C07", "title": "Value semantics of the state API", "statement": "Arrays returned by entity.state/position and arrays passed in as actions or through the state setter are never shared with the entity: under any interleaving of steps, reads, writes and caller-side in-place mutation of those arrays the entity behaves as if its state were an immutable value, and step never modifies a caller's array.", "quantifier": "all finite histories of API calls and caller mutations", "why_tests_cant": "aliasing bugs depend on the interleaving of calls and mutations", "anchors": ["safe_autonomy_dynamics/base_models.py: BaseEntity.step/state, BaseDynamics.step, BaseODESolverDynamics._step"]}
{"id": "C08", "title": "State limits hold after every step", "statement": "After any non-empty sequence of successful steps, with any integration method and whatever the ODE solver returned, every state element without angle wrapping lies in [state_min, state_max] (or is NaN).", "quantifier": "all step sequences, step sizes, actions, solver outputs, dynamics models", "why_tests_cant": "histories are unbounded and the ODE solver may return anything; a test runs one solver on a few trajectories that may never reach a limit", "anchors": ["safe_autonomy_dynamics/base_models.py: BaseDynamics.step, BaseODESolverDynamics._step"]}
{"id": "C09", "title": "Angle wrapping around 0", "statement": "For a wrap center of 0 the wrapped angle lies in [-pi, pi), differs from the unwrapped angle by an integer multiple of 2*pi, equals it when it already lies in range, and wrapping twice is wrapping once; elements whose center is NaN are untouched.", "quantifier": "all real angles", "why_tests_cant": "the map is discontinuous at odd multiples of pi, and in floating point the interesting inputs are the few numbers next to them", "anchors": ["safe_autonomy_dynamics/base_models.py: BaseDynamics._wrap_angles"]}
{"id": "C10", "title": "Angle wrapping around an arbitrary center", "statement": "For any wrap center c the wrapped angle lies in [c-pi, c+pi] and denotes the same direction as the unwrapped angle.", "quantifier": "all centers and angles", "why_tests_cant": "the library's own models only use center 0, where a wrong formula for other centers is invisible", "anchors": ["safe_autonomy_dynamics/base_models.py: BaseDynamics._wrap_angles"]}
{"id": "C11", "title": "Wrapping does not undo the state limits", "statement": "When an element has both limits and a wrap center, the element is inside its limits after every step.", "quantifier": "all limits, centers and states, in exact and in binary64 arithmetic", "why_tests_cant": "two post-processing stages interact; it takes limits beyond the wrapping range and a state between them to see it", "anchors": ["safe_autonomy_dynamics/base_models.py: BaseDynamics.step", "safe_autonomy_dynamics/dubins.py: Dubins3dAircraft.__init__"]}
{"id": "C12", "title": "Derivative limits", "statement": "compute_state_dot never returns a derivative that points out of the state limits for an element at or beyond its limit, always returns derivatives inside [state_dot_min, state_dot_max] when those bracket 0, and leaves alone derivatives that violate neither.", "quantifier": "all states, controls and limits", "why_tests_cant": "needs states exactly at a limit, derivatives of either sign and coinciding limits in combination; random states never lie on a limit", "anchors": ["safe_autonomy_dynamics/base_models.py: BaseODESolverDynamics.compute_state_dot"]}
{"id": "C13", "title": "Reported derivative", "statement": "The state_dot reported after a step is the instantaneous time derivative at the end of the step.", "quantifier": "all dynamics, states, controls, step sizes, integration methods", "why_tests_cant": "the old and the new derivative differ by a term proportional to the step size, which a tolerance hides", "anchors": ["safe_autonomy_dynamics/base_models.py: BaseDynamics.step, BaseODESolverDynamics._step"]}
{"id": "C14", "title": "Integration method dispatch", "statement": "'Euler' advances the state by exactly step_size times the limited derivative at the current state (then limits and wraps); an unknown method, 'RK45_JAX' without use_jax, and trajectory sampling with 'Euler'/'RK45_JAX' are rejected with the documented error and do not change the entity; the constructor itself does not reject them.", "quantifier": "all methods (strings), dynamics, states", "why_tests_cant": "the method is an arbitrary string and the rejection has to leave every entity unchanged; a test tries a few names", "anchors": ["safe_autonomy_dynamics/base_models.py: BaseODESolverDynamics.__init__/_step"]}
{"id": "C15", "title": "Trajectory samples", "statement": "With trajectory_samples = N > 0 and 'RK45', the requested sample times are N strictly increasing times ending exactly at step_size, equally spaced, and the last trajectory row is the state the entity ends up in.", "quantifier": "all N and step sizes", "why_tests_cant": "for all N: rounding in linspace and the difference between the last row and the limited state appear only for some N and near limits", "anchors": ["safe_autonomy_dynamics/base_models.py: BaseODESolverDynamics._step"]}
{"id": "C16", "title": "Wrong-length actions are rejected", "statement": "An action whose length is not the number of actuators raises an error instead of being applied.", "quantifier": "all lengths and values, every entity", "why_tests_cant": "broadcasting accepts some wrong lengths silently and depends on the shape of every operand; a test tries one wrong length", "anchors": ["safe_autonomy_dynamics/base_models.py: BaseEntity.step"]}
{"id": "C17", "title": "Clohessy-Wiltshire equations", "statement": "The derivative computed for CWHSpacecraft is exactly the CW system x''=3n^2x+2ny'+Fx/m, y''=-2nx'+Fy/m, z''=-n^2z+Fz/m.", "quantifier": "all finite states, thrusts, masses m<>0 and mean motions", "why_tests_cant": "an identity of functions on a continuous domain with three parameters; a test compares trajectories at a few points up to a tolerance that hides small wrong coefficients", "anchors": ["safe_autonomy_dynamics/cwh/point_model.py: CWHDynamics, generate_cwh_matrices"]}
{"id": "C18", "title": "2d and 3d CW matrices agree", "statement": "The '2d' matrices are the restriction of the '3d' matrices to the orbital plane; any other mode is rejected; m = 0 is rejected.", "quantifier": "all m, n, in-plane states, all mode strings", "why_tests_cant": "relates two matrix constructions for all parameters and rejects all strings but two", "anchors": ["safe_autonomy_dynamics/cwh/point_model.py: generate_cwh_matrices"]}
{"id": "C19", "title": "CW linear first integral survives numerical integration", "statement": "Without y thrust, y_dot + 2 n x is unchanged by any number of steps, for Euler and for any Runge-Kutta type solver.", "quantifier": "all states, step sequences, x/z thrust, explicit RK tableaux", "why_tests_cant": "conservation over unboundedly many steps and for every Runge-Kutta tableau; a test integrates for a while and allows for drift", "anchors": ["safe_autonomy_dynamics/cwh/point_model.py: CWHDynamics", "safe_autonomy_dynamics/base_models.py: BaseODESolverDynamics._step"]}
{"id": "C20", "title": "Exact CW flow", "statement": "The closed-form CW solution is the unique exact solution of the implemented unforced differential equation, and the in-plane and out-of-plane quadratic energies are constant along exact solutions.", "quantifier": "all initial states, times, n>0", "why_tests_cant": "uniqueness of the solution of a differential equation and constancy for all real times cannot be observed on samples", "anchors": ["safe_autonomy_dynamics/cwh/point_model.py: CWHDynamics"]}
{"id": "C21", "title": "Superposition", "statement": "For the linear models (CWH, integrators) the derivative and an unlimited Euler step are linear in (state, control): the response to a sum is the sum of the responses.", "quantifier": "all states, controls, scalars, any A and B", "why_tests_cant": "linearity quantifies over all pairs of states and scalars and over all user-supplied matrices", "anchors": ["safe_autonomy_dynamics/base_models.py: BaseLinearODESolverDynamics"]}
{"id": "C22", "title": "2d rotational spacecraft equations", "statement": "CWHRotation2dSpacecraft's derivative is the in-plane CW system with the body thrust rotated by theta into Hill's frame (rotation preserves thrust magnitude), theta' = wz (limited), wz' = moment/inertia (limited).", "quantifier": "all states, controls, parameters", "why_tests_cant": "at theta = 0, where tests usually start, a missing or reversed rotation does not show; the identity is for all angles and commands", "anchors": ["safe_autonomy_dynamics/cwh/rotational_model.py: CWHRotation2dDynamics"]}
{"id": "C23", "title": "Rotational limits", "statement": "After any steps |wz| <= combined angular velocity limit; |wz_dot| <= combined angular acceleration limit; moments that pass the control limits never need the acceleration limiter; theta in [-pi,pi); limits are the minimum of the configured limit and the reaction wheel capability.", "quantifier": "all histories, parameters with inertia>0", "why_tests_cant": "the combined limit depends on an inequality between wheel and configured limits; every ordering, every history and the exact boundary values matter", "anchors": ["safe_autonomy_dynamics/cwh/rotational_model.py: CWHRotation2dSpacecraft.__init__, CWHRotation2dDynamics.__init__"]}
{"id": "C24", "title": "Heading periodicity", "statement": "Adding any multiple of 2*pi to theta (rotational spacecraft) or heading (Dubins) changes no derivative, so wrapping never changes the subsequent motion.", "quantifier": "all states and integers k", "why_tests_cant": "for every integer k and every continuation of the run; a test adds one turn once", "anchors": ["safe_autonomy_dynamics/cwh/rotational_model.py: state_transition_input", "safe_autonomy_dynamics/dubins.py: Dubins2dDynamics, Dubins3dDynamics"]}
{"id": "C25", "title": "Quaternion kinematics", "statement": "SixDOF's quaternion derivative is q' = 1/2 q*(w,0) (Hamilton product, scalar last); it is orthogonal to q, so exact solutions keep the quaternion norm; one Euler step multiplies the squared norm by exactly 1 + h^2|w|^2/4.", "quantifier": "all quaternions, rates, step sizes, all step counts", "why_tests_cant": "the norm changes by a factor 1 + h^2|w|^2/4 per step, below any usual tolerance, and the sign conventions need all four components at general attitudes", "anchors": ["safe_autonomy_dynamics/cwh/sixdof_model.py: SixDOFDynamics.state_transition_system"]}
{"id": "C26", "title": "Body thrust rotation", "statement": "apply_quat(x, q) is |q|^2 times the rotation of scipy's Rotation.from_quat(q): linear, preserves dot and cross products for unit q, q and -q act alike, composes as the Hamilton product.", "quantifier": "all vectors and quaternions", "why_tests_cant": "tests use rotations about one axis, for which several wrong conventions agree; the law is for all vectors and all quaternions, also not normalised ones", "anchors": ["safe_autonomy_dynamics/cwh/sixdof_model.py: apply_quat, hamilton_product"]}
{"id": "C27", "title": "Default attitude", "statement": "A SixDOFSpacecraft built without an attitude has a usable orientation and responds to thrust.", "quantifier": "all thrusts, other state fields", "why_tests_cant": "tests supply an attitude; that no thrust whatever has an effect without one is a statement about all thrusts", "anchors": ["safe_autonomy_dynamics/cwh/sixdof_model.py: SixDOFSpacecraftValidator, orientation, state_transition_input"]}
{"id": "C28", "title": "Rigid body invariants", "statement": "For torque-free motion with diagonal inertia SixDOF's angular rates satisfy Euler's equations: rotational energy and angular momentum magnitude have zero derivative.", "quantifier": "all rates and inertias with non-zero diagonal", "why_tests_cant": "invariants of motion hold exactly or not at all; a simulation shows them only up to its integration error", "anchors": ["safe_autonomy_dynamics/cwh/sixdof_model.py: state_transition_system"]}
{"id": "C29", "title": "SixDOF angular acceleration limit", "statement": "The angular acceleration reported for SixDOFSpacecraft never exceeds the combined angular acceleration limit.", "quantifier": "all states within limits, all controls, all inertia matrices", "why_tests_cant": "default inertias are equal, for which it holds; the violation needs unequal inertias and simultaneous rates about two axes", "anchors": ["safe_autonomy_dynamics/cwh/sixdof_model.py: SixDOFSpacecraft.__init__, SixDOFDynamics"]}
{"id": "C30", "title": "Models agree with each other", "statement": "SixDOF with an attitude rotated about z and in-plane motion has the derivative of CWHRotation2d; SixDOF with body_frame_thrust=False, and CWHRotation2d at theta=0, have the translational derivative of CWHSpacecraft.", "quantifier": "all states and thrusts", "why_tests_cant": "equality of independently written models on a continuum of states; a test compares one manoeuvre up to a tolerance", "anchors": ["safe_autonomy_dynamics/cwh/sixdof_model.py", "safe_autonomy_dynamics/cwh/rotational_model.py", "safe_autonomy_dynamics/cwh/point_model.py"]}
{"id": "C31", "title": "SixDOF limits", "statement": "After any steps every |w_i| <= min(ang_vel_limit_i, wheel inertia*wheel speed limit/inertia_ii); control limits are symmetric with thrust limit and moment limit min(ang_acc_limit_i, wheel)*inertia_ii.", "quantifier": "all histories and parameters", "why_tests_cant": "three axes with separate limits and wheels over unbounded histories; symmetric defaults hide swapped axes", "anchors": ["safe_autonomy_dynamics/cwh/sixdof_model.py: SixDOFSpacecraft.__init__"]}
{"id": "C32", "title": "Sun motion", "statement": "After any sequence of Euler steps (or steps of any consistent Runge-Kutta solver) the sun angle is theta0 + n * (total elapsed time).", "quantifier": "all step sequences", "why_tests_cant": "for every sequence of step sizes and every consistent solver; a test takes some equal steps", "anchors": ["safe_autonomy_dynamics/cwh/sun_model.py: SunDynamics"]}
{"id": "C33", "title": "Sun equality", "statement": "Two SunEntity objects compare equal iff they are at the same angle.", "quantifier": "all pairs", "why_tests_cant": "a test comparing a sun with a copy of itself passes although any two suns are equal", "anchors": ["safe_autonomy_dynamics/cwh/sun_model.py: SunEntity.__eq__"]}
{"id": "C34", "title": "Integrator equations", "statement": "IntegratorDynamics in 1d/2d/3d is x' = v, v' = -damping v + u/m per axis; other modes and m=0 are rejected; with damping>=0 and no control an Euler step with damping*h<=1 never increases speed, and with no control and no damping the velocity is constant forever.", "quantifier": "all states, parameters, histories", "why_tests_cant": "speed must not grow in any state over any number of steps, and the boundary damping*h = 1 matters", "anchors": ["safe_autonomy_dynamics/integrators.py: IntegratorDynamics, generate_dynamics_matrices"]}
{"id": "C35", "title": "Entities can be constructed", "statement": "Every entity class exported by the library can be instantiated.", "quantifier": "all constructor arguments", "why_tests_cant": "a language-level rule (abstract methods) that no construction-free test shows", "anchors": ["safe_autonomy_dynamics/integrators.py: Integrator1d/2d/3d", "safe_autonomy_dynamics/base_models.py: BaseEntity.orientation"]}
{"id": "C36", "title": "Actuator names address distinct actuators", "statement": "For every entity with a control map, distinct actuator names drive distinct control elements, and every element of the control vector is addressed by a name.", "quantifier": "all entity classes and dict actions", "why_tests_cant": "every name and value of a dictionary action for every class; a test driving one axis at a time with equal values misses aliased names", "anchors": ["safe_autonomy_dynamics/integrators.py: Integrator2d/3d control_map", "all entities' control_map"]}
{"id": "C37", "title": "Integrator equality", "statement": "An integrator entity compares equal to itself; equality is symmetric.", "quantifier": "all states", "why_tests_cant": "reflexivity and symmetry quantify over all pairs of states and classes", "anchors": ["safe_autonomy_dynamics/integrators.py: __eq__"]}
{"id": "C38", "title": "Dubins kinematics", "statement": "The position derivative of the Dubins models is exactly the reported velocity vector; its norm is |v|; the velocity is v times the nose direction given by orientation.", "quantifier": "all states", "why_tests_cant": "an identity in angles and speed; at zero heading or level flight, where tests start, wrong signs vanish", "anchors": ["safe_autonomy_dynamics/dubins.py: velocity, orientation, Dubins2dDynamics, Dubins3dDynamics"]}
{"id": "C39", "title": "Dubins coordinated turn", "statement": "Dubins 3D heading rate is g/v*tan(roll); with positive v_min it is finite for every state inside the limits; heading rate/acceleration controls of the 2D model act directly.", "quantifier": "all states in limits, all controls", "why_tests_cant": "finite for every state in the limits, including the largest roll at the smallest speed, and for all limits a user may set", "anchors": ["safe_autonomy_dynamics/dubins.py: Dubins3dDynamics, Dubins2dDynamics"]}
{"id": "C40", "title": "Dubins reported acceleration", "statement": "The reported acceleration vector is parallel to the velocity with signed magnitude v' ; it is the time derivative of the velocity vector.", "quantifier": "all states and derivatives", "why_tests_cant": "in straight flight, where a test looks, the missing turning part is zero", "anchors": ["safe_autonomy_dynamics/dubins.py: acceleration"]}
{"id": "C41", "title": "Dubins speed and displacement bounds", "statement": "After any history of steps speed is in [v_min, v_max]; k further Euler steps of size h displace the aircraft by at most k*h*v_max.", "quantifier": "all histories and controls", "why_tests_cant": "a bound over unboundedly many steps and arbitrary commands", "anchors": ["safe_autonomy_dynamics/dubins.py: Dubins2dAircraft, Dubins3dAircraft"]}
{"id": "C42", "title": "Limits hold at construction", "statement": "A freshly built entity, or one whose state was assigned, is within its state limits and wrapped.", "quantifier": "all initial values", "why_tests_cant": "a test builds entities inside their limits, where the missing check does not show", "anchors": ["safe_autonomy_dynamics/dubins.py: _build_state, setters", "safe_autonomy_dynamics/base_models.py: BaseEntity.__init__, state.setter"]}
{"id": "C43", "title": "Entity equality means equal state", "statement": "CWHSpacecraft: e1 == e2 iff the states are equal. Dubins: == implies equal states. CWHRotation2d and SixDOF: == iff positions, velocities, rates and normalised attitudes agree. Different classes are never equal. == never raises.", "quantifier": "all pairs of entities", "why_tests_cant": "equality over all pairs: differences below float32, whole turns, zero speed and zero quaternions are isolated points", "anchors": ["all __eq__ methods"]}
{"id": "C44", "title": "Relative position and velocity", "statement": "entity_relative_position(name) is other.position - self.position: antisymmetric, additive along chains, zero to itself, unknown names raise KeyError; same for velocity.", "quantifier": "all sets of entities and states", "why_tests_cant": "algebraic laws over all sets of entities and chains of names", "anchors": ["safe_autonomy_dynamics/cwh/point_model.py: entity_relative_position/velocity", "safe_autonomy_dynamics/cwh/rotational_model.py", "safe_autonomy_dynamics/cwh/sixdof_model.py"]}
{"id": "C45", "title": "Unit conversion of configuration", "statement": "A quantity of the right dimension is converted to the field's unit with the physical conversion factor; a quantity of the wrong dimension is rejected with ValueError; plain numbers are taken in the field's unit; converting the *_with_units view back gives the supplied quantity.", "quantifier": "all magnitudes and units", "why_tests_cant": "every pair of units and every magnitude; conversion there and back is compared exactly, not up to a tolerance", "anchors": ["safe_autonomy_dynamics/base_models.py: build_unit_conversion_validator_fn, BaseUnits", "all validators"]}
{"id": "C46", "title": "State layout", "statement": "Each named accessor reads back (as float32) the configuration value of the same name; fields not given take their documented defaults; unknown fields are rejected.", "quantifier": "all configurations of all entity classes", "why_tests_cant": "every combination of given and omitted fields of every class", "anchors": ["all _build_state, accessors and validators"]}
{"id": "C47", "title": "number_list_to_np", "statement": "Accepts a number, a list or an array of the right shape and returns an array of the requested shape holding the given values; rejects everything else.", "quantifier": "all inputs", "why_tests_cant": "the input type is open: numbers, lists, arrays of every shape and everything else", "anchors": ["safe_autonomy_dynamics/utils.py: number_list_to_np"]}
{"id": "C48", "title": "Aero table lookups are total", "statement": "cx, cz, cm, cl, cn, dlda, dldr, dnda, dndr, dampp and thrust never index outside their tables.", "quantifier": "all finite inputs", "why_tests_cant": "an index outside a table needs an input next to a rounding boundary; fix and sign are evaluated in floating point for every finite input", "anchors": ["safe_autonomy_dynamics/external/aerobench/lowlevel/*.py"]}
{"id": "C49", "title": "Aero tables interpolate", "statement": "The lookups are the (bi)linear interpolation of the table: exact at the grid points, and between the neighbouring grid values inside the table's range; linear extrapolation from the edge cell outside.", "quantifier": "all inputs", "why_tests_cant": "every cell of eleven tables and all points between; a single wrong table entry affects one cell", "anchors": ["safe_autonomy_dynamics/external/aerobench/lowlevel/cx.py, cm.py, cz.py, cl.py, cn.py, dlda.py, dldr.py, dnda.py, dndr.py, dampp.py"]}
{"id": "C50", "title": "Lookups are continuous", "statement": "Interpolated coefficients have no jumps as angle of attack, sideslip or elevator vary.", "quantifier": "all inputs", "why_tests_cant": "continuity quantifies over all points; a jump at a cell boundary is invisible unless sampled on both sides", "anchors": ["safe_autonomy_dynamics/external/aerobench/lowlevel/*.py"]}
{"id": "C51", "title": "Lateral tables are odd", "statement": "cl and cn are odd in sideslip and vanish at zero sideslip.", "quantifier": "all alpha, beta", "why_tests_cant": "odd symmetry of a lookup written with absolute values and signs, for all angles including cell boundaries", "anchors": ["safe_autonomy_dynamics/external/aerobench/lowlevel/cl.py", "safe_autonomy_dynamics/external/aerobench/lowlevel/cn.py"]}
{"id": "C52", "title": "Engine power lag", "statement": "Power always moves toward the commanded power: sign(pdot(p3,p1)) = sign(p1-p3); rtau stays in [0.1,1], is continuous and non-increasing; power in [0,100] is invariant under Euler steps with 5h<=1.", "quantifier": "all powers, commands, histories", "why_tests_cant": "invariance of the power range over unbounded histories and continuity of a piecewise time constant", "anchors": ["safe_autonomy_dynamics/external/aerobench/lowlevel/pdot.py", "safe_autonomy_dynamics/external/aerobench/lowlevel/rtau.py"]}
{"id": "C53", "title": "Throttle gearing is monotone", "statement": "tgear maps [0,1] onto [0,100], is increasing and continuous.", "quantifier": "all throttles", "why_tests_cant": "a tiny jump at 0.77 is invisible to sampling", "anchors": ["safe_autonomy_dynamics/external/aerobench/lowlevel/tgear.py"]}
{"id": "C54", "title": "Thrust lookup", "statement": "Thrust is continuous in power (both branches agree at 50), at power 0/50/100 equals idle/military/max table interpolation, affine between; altitudes below 0 are treated as 0.01.", "quantifier": "all power, altitude, mach", "why_tests_cant": "agreement of branches at a single power value and clamping at the table edge, for all altitudes and Mach numbers", "anchors": ["safe_autonomy_dynamics/external/aerobench/lowlevel/thrust.py"]}
{"id": "C55", "title": "Air data", "statement": "adc returns positive dynamic pressure and Mach = vt/a for every airspeed > 0 and altitude in the model's range; temperature is never below 390 R.", "quantifier": "all airspeeds and altitudes", "why_tests_cant": "positivity over a continuous domain through a real power and a square root", "anchors": ["safe_autonomy_dynamics/external/aerobench/lowlevel/adc.py"]}
{"id": "C56", "title": "Low level controller saturation and trim", "statement": "get_u_deg always returns throttle in [0,1], elevator in [-25,25], aileron in [-21.5,21.5], rudder in [-30,30]; at trim it returns the trim control; longitudinal and lateral channels are decoupled; the passed state is not modified.", "quantifier": "all states and references", "why_tests_cant": "all states and references including huge ones: overflow inside the controller gives NaN, which saturation lets through", "anchors": ["safe_autonomy_dynamics/external/aerobench/lowlevel/low_level_controller.py: LowLevelController.get_u_deg"]}
{"id": "C57", "title": "Closed loop F-16 derivative", "statement": "controlled_f16 returns a derivative of the state's length whose first 13 entries are the airframe model's, entries 13..15 the tracking errors Nz-Nz_ref, ps-ps_ref, Ny_r-Ny_r_ref and whose rest is 0; ps is the stability axis roll rate p cos(alpha)+r sin(alpha).", "quantifier": "all states and references", "why_tests_cant": "the derivative has to be the airframe's for every state, and the axis used for roll rate differs from the stability axis by a small angle that a simulation hides", "anchors": ["safe_autonomy_dynamics/external/aerobench/controlled_f16.py"]}
{"id": "C58", "title": "F-16 navigation equations", "statement": "The inertial velocity (north, east, up rates) has norm equal to the airspeed and equals the body velocity rotated by the Euler angles.", "quantifier": "all states", "why_tests_cant": "a rotation by three angles; wrong signs cancel in level flight, and the norm identity holds for all attitudes or not at all", "anchors": ["safe_autonomy_dynamics/external/aerobench/lowlevel/subf16_model.py"]}
{"id": "C59", "title": "F-16 force equations", "statement": "The (vt, alpha, beta) derivatives are consistent with the body axis accelerations: differentiating u=vt cos a cos b, v = vt sin b, w = vt sin a cos b with them gives udot, vdot, wdot.", "quantifier": "all states with vt<>0 and cos beta<>0", "why_tests_cant": "consistency of derivatives with a nonlinear change of coordinates on a continuous domain", "anchors": ["safe_autonomy_dynamics/external/aerobench/lowlevel/subf16_model.py"]}
{"id": "C60", "title": "F-16 lateral symmetry", "statement": "In wings-level symmetric flight (beta=phi=p=r=0, q=0, neutral aileron/rudder) all lateral derivatives are zero, for both aerodynamic models.", "quantifier": "all symmetric states", "why_tests_cant": "exact zeros for all symmetric states, for two models with tables and polynomials of dozens of coefficients", "anchors": ["safe_autonomy_dynamics/external/aerobench/lowlevel/subf16_model.py", "safe_autonomy_dynamics/external/aerobench/lowlevel/morellif16.py"]}
{"id": "C61", "title": "Morelli envelope", "statement": "The polynomial model saturates alpha, beta and surface deflections: outside the envelope it returns its value at the envelope boundary; side coefficients vanish in symmetric flight.", "quantifier": "all inputs", "why_tests_cant": "saturation has to act on every argument independently, at and beyond every edge of the envelope", "anchors": ["safe_autonomy_dynamics/external/aerobench/lowlevel/morellif16.py"]}
{"id": "C62", "title": "Fixed step Euler integrator", "statement": "Repeatedly stepping the Euler integrator terminates after finitely many steps, time increases strictly and finishes exactly at tend; each step advances y by dt*f(t,y); stepping a finished integrator does nothing; the caller's start vector is not modified; non-positive step or empty interval rejected.", "quantifier": "all derivative functions, intervals, step sizes, step counts", "why_tests_cant": "termination and the exact final time for all step sizes and intervals; in floating point the clock can stop advancing for large times", "anchors": ["safe_autonomy_dynamics/external/aerobench/util.py: Euler"]}
{"id": "C63", "title": "Dense output", "statement": "dense_output returns the linear interpolant of the last step (matching both end points), and the returned function keeps denoting that step.", "quantifier": "all histories", "why_tests_cant": "the returned function has to be evaluated again after later steps, whereas a test evaluates it at once", "anchors": ["safe_autonomy_dynamics/external/aerobench/util.py: Euler.dense_output"]}
{"id": "C64", "title": "Freezable", "statement": "After freeze_attrs no new attribute can be created, existing ones can be changed; before it everything is allowed.", "quantifier": "all attribute histories", "why_tests_cant": "histories of attribute operations, including on the flag itself", "anchors": ["safe_autonomy_dynamics/external/aerobench/util.py: Freezable"]}
{"id": "C65", "title": "Safety verifier", "statement": "SafetyLimitsVerifier.verify accepts exactly the runs in which every recorded state satisfies every configured limit (altitude, Nz, v, alpha, ps, beta).", "quantifier": "all runs and limits", "why_tests_cant": "characterises the accepted runs in both directions; a limit that is never checked is noticed only by a run violating just this one", "anchors": ["safe_autonomy_dynamics/external/aerobench/util.py: SafetyLimits, SafetyLimitsVerifier"]}
{"id": "C66", "title": "Extracting one aircraft", "statement": "extract_single_result returns exactly the columns of the requested aircraft; concatenating all extractions gives back the full states.", "quantifier": "all numbers of aircraft and time steps", "why_tests_cant": "for every number of aircraft, states per aircraft and time steps", "anchors": ["safe_autonomy_dynamics/external/aerobench/util.py: extract_single_result"]}
{"id": "C67", "title": "Trim constraints", "statement": "conf16 enforces the documented kinematic constraint of each orientation and the power/throttle relation and changes nothing else; clf16's cost is non-negative and zero iff the constrained derivatives vanish; an unknown orientation is rejected.", "quantifier": "all states, inputs, orientations", "why_tests_cant": "an equivalence (zero cost iff all residuals vanish) over all states and weights", "anchors": ["safe_autonomy_dynamics/external/aerobench/lowlevel/conf16.py", "safe_autonomy_dynamics/external/aerobench/lowlevel/clf16.py"]}
{"id": "C68", "title": "fix and sign", "statement": "fix rounds toward zero, sign is the sign function; used together they select the neighbouring table column in the direction of the offset.", "quantifier": "all floats", "why_tests_cant": "all floating-point numbers including zeros, halves and huge values", "anchors": ["safe_autonomy_dynamics/external/aerobench/util.py: fix, sign"]}
{"id": "C69", "title": "Solver failure is noticed", "statement": "If the ODE solver reports that it failed to integrate over the step, entity.step raises or otherwise lets the caller know.", "quantifier": "all solvers, entities, step sizes, actions", "why_tests_cant": "depends on the solver's behaviour on every system", "anchors": ["safe_autonomy_dynamics/base_models.py: BaseODESolverDynamics._step"]}
{"id": "C70", "title": "The reported derivative is a value too", "statement": "An array obtained from entity.state_dot is not shared with the entity: writing into it does not change what the entity reports.", "quantifier": "all entities and histories", "why_tests_cant": "needs a write into the array and a later read on the entity, for every interleaving", "anchors": ["safe_autonomy_dynamics/base_models.py: BaseEntity.step, state_dot"]}
{"id": "C71", "title": "Full inertia matrices", "statement": "SixDOFSpacecraft accepts a 3x3 inertia_matrix and its angular rates obey I w' + w x (I w) = M for that matrix.", "quantifier": "all inertia matrices, rates and moments", "why_tests_cant": "continuous domain; the default matrix is diagonal", "anchors": ["safe_autonomy_dynamics/cwh/sixdof_model.py: SixDOFDynamics"]}
{"id": "C72", "title": "Limits are the configured ones", "statement": "The state limits enforced after every step are the numbers the user configured (v_max, roll_max, ...), not nearby ones.", "quantifier": "all limit values, entities, histories", "why_tests_cant": "the violation is below a typical test tolerance", "anchors": ["safe_autonomy_dynamics/dubins.py: Dubins2dAircraft.__init__, Dubins3dAircraft.__init__ (dtype=np.float32)"]}
{"id": "C73", "title": "Thrust never falls as power rises", "statement": "At any altitude and Mach number of the table, a higher engine power gives at least as much thrust.", "quantifier": "all powers, altitudes 0-50000 ft, Mach 0-1", "why_tests_cant": "fails only in one corner of the altitude/Mach envelope", "anchors": ["safe_autonomy_dynamics/external/aerobench/lowlevel/thrust.py: thrust"]}
{"id": "C74", "title": "Air data vary continuously with altitude", "statement": "Mach number and dynamic pressure returned by adc are continuous in altitude, and dynamic pressure falls with altitude.", "quantifier": "all airspeeds, all altitudes", "why_tests_cant": "continuity quantifies over all points; the jump is at one altitude", "anchors": ["safe_autonomy_dynamics/external/aerobench/lowlevel/adc.py: adc"]}
{"id": "C75", "title": "F-16 attitude kinematics", "statement": "The Euler angle rates returned by subf16_model are the ones whose body axis rates are the state's p, q, r.", "quantifier": "all states off the vertical", "why_tests_cant": "an inverse relation between two sets of rates that agree to first order in level flight", "anchors": ["safe_autonomy_dynamics/external/aerobench/lowlevel/subf16_model.py"]}
{"id": "C76", "title": "F-16 moments and accelerometers", "statement": "The body rates' derivatives follow from the aerodynamic moments (static coefficient plus rate damping) through the inertia constants and the engine momentum; az and ay are the specific forces at the centre of gravity corrected by 15 ft times the angular acceleration; Nz = -az/g - 1 and Ny = ay/g.", "quantifier": "all moving states below 142247 ft", "why_tests_cant": "dozens of inertia and damping terms that are zero in steady flight", "anchors": ["safe_autonomy_dynamics/external/aerobench/lowlevel/subf16_model.py"]}
{"id": "C77", "title": "F-16 derivative is always finite", "statement": "subf16_model returns a finite derivative and finite accelerations for every finite state.", "quantifier": "all finite states and controls", "why_tests_cant": "only special attitudes and speeds fail", "anchors": ["safe_autonomy_dynamics/external/aerobench/lowlevel/subf16_model.py"]}
{"id": "C78", "title": "Damping counted once", "statement": "The normal force is the one given by the chosen aerodynamic model's coefficient; rate damping enters once.", "quantifier": "all states, both models", "why_tests_cant": "both models look plausible at a trim point, where the rates are zero", "anchors": ["safe_autonomy_dynamics/external/aerobench/lowlevel/subf16_model.py", "safe_autonomy_dynamics/external/aerobench/lowlevel/morellif16.py"]}
{"id": "C79", "title": "Trim constraints fly the requested condition", "statement": "A state constrained by conf16 turns at exactly the requested heading rate with constant bank and pitch (coordinated turn), pitches at the requested pull-up rate (pull up), climbs at the requested flight path angle (climb) or stays level.", "quantifier": "all requests and candidate states", "why_tests_cant": "trigonometric identities for all requests and candidate states; a trim run only ends at points where the residual is already small", "anchors": ["safe_autonomy_dynamics/external/aerobench/lowlevel/conf16.py", "safe_autonomy_dynamics/external/aerobench/lowlevel/subf16_model.py"]}
{"id": "C80", "title": "The integrator's state is a value", "statement": "An array obtained as integrator.y keeps the values it had when it was read.", "quantifier": "all histories of steps", "why_tests_cant": "needs an array kept from before a step and compared after it, for every interleaving", "anchors": ["safe_autonomy_dynamics/external/aerobench/util.py: Euler.step"]}
{"id": "C81", "title": "Only existing aircraft can be extracted", "statement": "extract_single_result raises for an index that is not the number of an aircraft.", "quantifier": "all indices", "why_tests_cant": "negative indices and indices past the end give plausible-looking slices", "anchors": ["safe_autonomy_dynamics/external/aerobench/util.py: extract_single_result"]}
{"id": "C82", "title": "Integration methods RK45 and RK45_JAX agree", "statement": "When scipy's and jax's solvers run one and the same numerical method, an entity built with integration_method 'RK45_JAX' ends every step in the same state as the same entity built with 'RK45'.", "quantifier": "all entities, solvers that are the same method, steps, actions", "why_tests_cant": "depends on the solvers' internals; differs only at state limits", "anchors": ["safe_autonomy_dynamics/base_models.py: BaseODESolverDynamics._step, compute_state_dot"]}
{"id": "C83", "title": "NaN commands are noticed", "statement": "A command containing NaN is refused or at least produces the out-of-bounds warning.", "quantifier": "all entities, commands, histories", "why_tests_cant": "NaN comparisons; the damage appears in other state elements and in all later steps", "anchors": ["safe_autonomy_dynamics/base_models.py: BaseEntity.step", "safe_autonomy_dynamics/cwh/point_model.py: CWHSpacecraft"]}
{"id": "C84", "title": "Constant thrust moves the CWH spacecraft along the closed-form solution", "statement": "Under a constant thrust the CWHSpacecraft follows the textbook closed-form solution of the forced Clohessy-Wiltshire equations; that solution is unique, its times add up, and stepping 'RK45' with a solver that makes no error reaches the same state however the total time is cut into steps.", "quantifier": "all states, thrusts (saturated), masses, mean motions, step lists", "why_tests_cant": "equality of trajectories at every real time and for every partition of the time", "anchors": ["safe_autonomy_dynamics/cwh/point_model.py: CWHSpacecraft, CWHDynamics", "safe_autonomy_dynamics/base_models.py: BaseODESolverDynamics._step"]}
{"id": "C85", "title": "Euler integration converges", "statement": "For integration_method 'Euler' the state after k steps of T/k converges to the exact state at time T as k grows, with an error at most proportional to 1/k.", "quantifier": "all initial states, thrusts, total times, every k", "why_tests_cant": "a limit over step sizes for every initial state and thrust; a test sees finitely many step counts", "anchors": ["safe_autonomy_dynamics/cwh/point_model.py: CWHDynamics", "safe_autonomy_dynamics/base_models.py: BaseODESolverDynamics._step"]}
{"id": "C86", "title": "Closed relative orbits", "statement": "The uncontrolled CWHSpacecraft returns to its state after 2 pi/n, and stays within a bounded region, exactly when y_dot = -2 n x; otherwise it drifts by -(12 pi x + 6 pi y_dot/n) in y per orbit.", "quantifier": "all solutions of the implemented equations", "why_tests_cant": "exact return after an irrational period and boundedness over unbounded time", "anchors": ["safe_autonomy_dynamics/cwh/point_model.py: CWHDynamics"]}
{"id": "C87", "title": "Speed limits of the integrators", "statement": "Whatever is commanded, with damping c and steps of at most 1/c no axis of a PointMassIntegrator gets faster than max(initial speed, 1/(m c)); the speed gain is at most elapsed time / m; under a constant command the velocity approaches u/(m c) geometrically.", "quantifier": "all command sequences, step lists, dimensions", "why_tests_cant": "arbitrary command sequences of unbounded length, any step list with steps up to the stability bound", "anchors": ["safe_autonomy_dynamics/integrators.py: PointMassIntegratorDynamics"]}
{"id": "C88", "title": "Slew limits of the planar spacecraft", "statement": "Whatever is commanded, over any run of Euler steps the angular velocity of CWHRotation2dSpacecraft changes by at most (combined acceleration limit)*(elapsed time) and the attitude by at most (combined velocity limit)*(elapsed time) up to whole turns.", "quantifier": "all command sequences and step lists", "why_tests_cant": "arbitrary command sequences of unbounded length, with wrapping in between", "anchors": ["safe_autonomy_dynamics/cwh/rotational_model.py: CWHRotation2dSpacecraft, CWHRotation2dDynamics", "safe_autonomy_dynamics/base_models.py: compute_state_dot"]}
{"id": "C89", "title": "Steady turns", "statement": "With a constant heading rate and no acceleration a Dubins2dAircraft flies a circle of radius |v/rate| closed after 2 pi/rate; a Dubins3dAircraft with neutral controls turns at g tan(roll)/v on a helix; both are the only solutions, and stepping 'RK45' with a solver without error puts the 2d aircraft on the circle after any list of steps.", "quantifier": "all states, rates, times, step lists", "why_tests_cant": "equality of trajectories at every real time and uniqueness of the motion", "anchors": ["safe_autonomy_dynamics/dubins.py: Dubins2dDynamics, Dubins3dDynamics"]}
{"id": "C90", "title": "Coasting with a steady rotation", "statement": "Without commands a SixDOFSpacecraft with equal inertias, or rotating about a principal axis, moves its centre of mass along the closed-form relative orbit and turns at the constant rate w about a fixed axis in space; orientation repeats every 2 pi/|w|; stepping 'RK45' with a solver that makes no error reaches this state however the time is cut into steps.", "quantifier": "all states, rates within the limits, inertias, step lists", "why_tests_cant": "equality of trajectories at every real time, closed after an irrational period", "anchors": ["safe_autonomy_dynamics/cwh/sixdof_model.py: SixDOFDynamics", "safe_autonomy_dynamics/base_models.py: BaseODESolverDynamics._step"]}
{"id": "C91", "title": "A unit of thrust stays a unit of thrust", "statement": "The acceleration that a thrust command within its limits adds to the orbital motion of the SixDOFSpacecraft never exceeds |f|/m.", "quantifier": "all command sequences, step lists, attitudes", "why_tests_cant": "the quaternion norm drifts slowly, so thrust grows visibly only after very long runs", "anchors": ["safe_autonomy_dynamics/cwh/sixdof_model.py: SixDOFDynamics.state_transition_input, apply_quat", "safe_autonomy_dynamics/base_models.py: BaseODESolverDynamics._step"]}
{"id": "C92", "title": "Closed orbits stay bounded under every integration method", "statement": "A CWHSpacecraft on a closed relative orbit and without thrust stays within a bound that depends on its initial state only.", "quantifier": "all initial states, step lists, integration methods", "why_tests_cant": "unbounded number of steps; the growth per step is below test tolerances", "anchors": ["safe_autonomy_dynamics/cwh/point_model.py: CWHSpacecraft, CWHDynamics", "safe_autonomy_dynamics/base_models.py: BaseODESolverDynamics._step"]}
{"id": "C93", "title": "Closed-form motion of the integrators", "statement": "Under a constant command (saturated at -1, 1) a PointMassIntegrator of mass m and damping c moves along p(t), v(t) = v e^(-ct) + u/(mc) (1 - e^(-ct)) (uniformly accelerated for c = 0); this is the only solution, and stepping 'RK45' with a solver that makes no error reaches the same state however the time is cut into steps.", "quantifier": "all states, commands, masses, dampings, dimensions, step lists", "why_tests_cant": "equality of trajectories at every real time and for every partition of the time", "anchors": ["safe_autonomy_dynamics/integrators.py: PointMassIntegratorDynamics", "safe_autonomy_dynamics/base_models.py: BaseODESolverDynamics._step"]}
{"id": "C94", "title": "Where a vehicle is does not influence how it moves", "statement": "Two vehicles that differ only by a displacement of the start (any direction for Dubins aircraft and integrators, along the orbit for spacecraft) and get the same actions stay displaced by exactly that amount, report equal derivatives, and raise the same exceptions (exact arithmetic).", "quantifier": "all displacements, vehicles, states including infinite and NaN, action lists, step sizes, solvers blind to absolute values (every explicit Runge-Kutta method)", "why_tests_cant": "relates two runs of any length for every displacement, exception for exception", "anchors": ["safe_autonomy_dynamics/base_models.py: BaseEntity.step, BaseODESolverDynamics._step, BaseDynamics._wrap_angles", "safe_autonomy_dynamics/dubins.py: Dubins2dDynamics, Dubins3dDynamics", "safe_autonomy_dynamics/cwh/point_model.py: CWHDynamics", "safe_autonomy_dynamics/integrators.py: generate_dynamics_matrices"]}
{"id": "C95", "title": "F-16 energy balance", "statement": "Along the derivative returned by subf16_model, kinetic plus potential energy per unit mass changes at exactly the power of thrust and aerodynamic force in the body axes; gravity, banking and turning do no work.", "quantifier": "all moving states below 142247 ft off the vertical, all controls, both models", "why_tests_cant": "continuous 13-dimensional domain; an error of sign in one kinematic term shows only for combined bank and sideslip", "anchors": ["safe_autonomy_dynamics/external/aerobench/lowlevel/subf16_model.py"]}
{"id": "C96", "title": "Left and right are alike for the F-16", "statement": "The mirror image of a flight condition (sideslip, bank, yaw, roll and yaw rate, aileron, rudder negated) has the mirror image of the derivative.", "quantifier": "all states and controls, both models", "why_tests_cant": "continuous domain; the asymmetry is small against the tables' magnitudes", "anchors": ["safe_autonomy_dynamics/external/aerobench/lowlevel/subf16_model.py", "safe_autonomy_dynamics/external/aerobench/lowlevel/morellif16.py", "safe_autonomy_dynamics/external/aerobench/lowlevel/rmoment.py", "safe_autonomy_dynamics/external/aerobench/lowlevel/dlda.py", "safe_autonomy_dynamics/external/aerobench/lowlevel/dnda.py"]}
{"id": "C97", "title": "Several entities do not share anything", "statement": "Programs that create several entities, use them in any order and pass arrays handed out by one to another (as state or action), modifying arrays in between, behave as if each entity were a value of its own; nothing done to one is visible in another.", "quantifier": "all programs over any number of entities", "why_tests_cant": "aliasing over arbitrary interleavings of operations on any number of entities", "anchors": ["safe_autonomy_dynamics/base_models.py: BaseEntity.__init__, step, state"]}
{"id": "C98", "title": "Entities can be put into sets and used as keys", "statement": "hash(entity) succeeds for every entity of the library, as for objects in general.", "quantifier": "all entities, including user subclasses", "why_tests_cant": "a property of every class a user may derive, decided by a language rule", "anchors": ["safe_autonomy_dynamics/cwh/point_model.py: CWHSpacecraft.__eq__", "safe_autonomy_dynamics/cwh/sixdof_model.py: SixDOFSpacecraft.__eq__", "safe_autonomy_dynamics/dubins.py: BaseDubinsAircraft.__eq__", "safe_autonomy_dynamics/integrators.py: BaseIntegrator.__eq__"]}
{"id": "C99", "title": "Integration settings are checked when an entity is built", "statement": "An entity returned by a constructor can be stepped: integration_method, trajectory_samples and use_jax are a combination that step supports, and each documented method is available for each vehicle.", "quantifier": "all settings, worlds, steps, actions", "why_tests_cant": "the failure appears at the first step, for particular combinations only", "anchors": ["safe_autonomy_dynamics/base_models.py: BaseODESolverDynamics.__init__, _step", "safe_autonomy_dynamics/cwh/point_model.py: CWHSpacecraft.__init__", "safe_autonomy_dynamics/dubins.py: Dubins2dAircraft.__init__"]}
{"id": "C100", "title": "An aircraft has no preferred direction", "statement": "An aircraft whose start position is turned about the origin by an angle and whose heading is increased by it, given the same commands, flies the turned path: positions and velocities are turned by the angle, the heading differs by it up to full turns, altitude, flight path angle, roll and speed are equal (exact arithmetic).", "quantifier": "all angles, states, limits, command sequences, step sizes; Dubins2d with Euler and every explicit Runge-Kutta method, Dubins3d with Euler", "why_tests_cant": "relates two runs of any length for a continuum of angles", "anchors": ["safe_autonomy_dynamics/dubins.py: Dubins2dDynamics.state_transition_system, Dubins3dDynamics.state_transition_system", "safe_autonomy_dynamics/base_models.py: BaseEntity.step, BaseDynamics.step, BaseDynamics._wrap_angles, BaseODESolverDynamics.compute_state_dot"]}
{"id": "C101", "title": "Mirrored vehicles given mirrored commands stay mirrored", "statement": "A vehicle started at the mirror image of another's state and given the mirrored commands stays its mirror image: left and right for Dubins aircraft, above and below the orbital plane for CWH and six-degrees-of-freedom spacecraft, opposite sides of the target for the planar spacecraft, each axis for integrators (exact arithmetic, symmetric limits).", "quantifier": "all states, masses, inertias, commands, step sizes, solvers respecting the mirror image (every explicit Runge-Kutta method)", "why_tests_cant": "relates two runs of any length for all states and commands", "anchors": ["safe_autonomy_dynamics/dubins.py: Dubins2dDynamics, Dubins3dDynamics", "safe_autonomy_dynamics/cwh/point_model.py: generate_cwh_matrices", "safe_autonomy_dynamics/cwh/sixdof_model.py: SixDOFDynamics", "safe_autonomy_dynamics/integrators.py: generate_dynamics_matrices", "safe_autonomy_dynamics/base_models.py: BaseEntity.step"]}
{"id": "C102", "title": "The controller's trim point is an equilibrium of the airframe", "statement": "At the state and control the low-level gains were designed for, with zero reference, the closed loop stays in steady level flight: the lateral, attitude and climb rates are zero and the remaining rates vanish up to the rounding of the published trim numbers, for either aerodynamic model.", "quantifier": "both lateral acceleration conventions, open and closed loop", "why_tests_cant": "the residual depends on transcendental functions of the trim numbers and is hidden by the feedback in any simulation", "anchors": ["safe_autonomy_dynamics/external/aerobench/lowlevel/low_level_controller.py: LowLevelController", "safe_autonomy_dynamics/external/aerobench/lowlevel/subf16_model.py: subf16_model", "safe_autonomy_dynamics/external/aerobench/controlled_f16.py: controlled_f16"]}
{"id": "C103", "title": "Work and energy of the relative motion", "statement": "Mass times the change of the energy of the relative motion (kinetic energy plus the potential of Hill's frame) is the work done by the saturated thrust along the displacement, for one constant command and, without thrust, for any number of steps of any lengths with an error-free adaptive solver. An Euler step misses this balance by exactly the mass times h^2 times the energy form of the reported derivative.", "quantifier": "all masses, mean motions, states, commands and step lengths", "why_tests_cant": "an energy balance is a relation between real-number trajectories that a run only shows up to its own error", "anchors": ["safe_autonomy_dynamics/cwh/point_model.py: CWHSpacecraft", "safe_autonomy_dynamics/cwh/point_model.py: CWHDynamics", "safe_autonomy_dynamics/base_models.py: BaseODESolverDynamics._step"]}
{"id": "C104", "title": "Angular momentum in space", "statement": "Below the rate limits the angular momentum of the six-degrees-of-freedom spacecraft, turned into space axes, changes at the rate of the applied moment turned into space axes, and its rotational energy at the rate of the power of that moment. Without moments both are constant whatever the thrust, also across one step of the entity with an error-free adaptive solver.", "quantifier": "all masses, diagonal inertias, states, quaternions of any norm, commands below the limits, both thrust frames", "why_tests_cant": "ties attitude and rate equations together; a wrong sign or frame convention in either still gives smooth, plausible trajectories", "anchors": ["safe_autonomy_dynamics/cwh/sixdof_model.py: SixDOFDynamics", "safe_autonomy_dynamics/cwh/sixdof_model.py: SixDOFSpacecraft"]}
{"id": "C105", "title": "Aircraft commands act on their own axis, within their own limits", "statement": "After any history, one step of a Dubins aircraft changes the heading (or flight path angle and roll) and the speed at the respective command saturated to the limits configured for that command, or not at all at a state limit, and nothing else; positions move along the nose at the speed before the step, and in three dimensions the heading turns at 32.17 ft/s^2 over the speed times the tangent of the roll.", "quantifier": "all limits (also asymmetric ones), states, commands, step sizes and histories; the reported rates for every solver, the complete step for Euler", "why_tests_cant": "default limits are symmetric, so a test with them cannot tell swapped limits or a command routed to the wrong axis with similar magnitude", "anchors": ["safe_autonomy_dynamics/dubins.py: Dubins2dAircraft, Dubins3dAircraft, Dubins2dDynamics, Dubins3dDynamics", "safe_autonomy_dynamics/base_models.py: BaseEntity.step"]}
{"id": "C106", "title": "Rounding errors stay in the last digits", "statement": "One Euler step of the CWH spacecraft in binary64 arithmetic gives finite numbers that agree with the exact step up to a relative error of 2^-48 of the terms added, for all inputs of reasonable size; a run of any length follows the same run in exact arithmetic with an error that grows at most by an explicit factor per step. Measuring positions on a scale near 1/n makes the factor small enough for long runs, and the bound then needs only the size of the initial state, the longest step and the number of steps.", "quantifier": "all masses, mean motions, states, step sizes and commands within the stated ranges; all run lengths while the bound stays below 2^100", "why_tests_cant": "a test compares a few decimal digits of a few trajectories; that no input loses more digits or overflows needs an error analysis", "anchors": ["safe_autonomy_dynamics/cwh/point_model.py: CWHSpacecraft, CWHDynamics, generate_cwh_matrices", "safe_autonomy_dynamics/base_models.py: BaseEntity.step, BaseODESolverDynamics._step"]}
{"id": "C107", "title": "Euler integration of aircraft and rotating spacecraft converges", "statement": "With integration_method 'Euler', k equal steps of constant commands over a time T end, as k grows, at the exact motion: for Dubins aircraft with explicit error bounds proportional to 1/k on position (and, in three dimensions, heading) and no error in speed, flight path angle and roll; for the planar spacecraft with rotation with an error at most proportional to 1/k in every component.", "quantifier": "all states, limits, commands within limits, durations, numbers of steps, histories before", "why_tests_cant": "a limit over step sizes for every state and command; a test with one step size cannot see whether its error shrinks", "anchors": ["safe_autonomy_dynamics/dubins.py: Dubins2dDynamics, Dubins3dDynamics", "safe_autonomy_dynamics/cwh/rotational_model.py: CWHRotation2dDynamics", "safe_autonomy_dynamics/base_models.py: BaseODESolverDynamics._step, BaseDynamics.step"]}
{"id": "C108", "title": "Only elapsed time matters, and a step can be split", "statement": "The derivative of every vehicle is the same function of state and control at all times. With the default method and a solver that makes no error, a step of h1 followed by one of h2 under the same command gives the state and derivative of one step of h1+h2, provided limits and wrapping did not interfere with the first; without limits any number of parts gives the solution at the total time. A step of no duration leaves a legal state as it was.", "quantifier": "all vehicles, states, commands, step lengths, dynamics without clock", "why_tests_cant": "relates runs with different step patterns for all states; Euler does not have the splitting property (example), so a tolerance in a test hides or fakes it", "anchors": ["safe_autonomy_dynamics/base_models.py: BaseEntity.step, BaseDynamics.step, BaseODESolverDynamics._step, compute_state_dot"]}
{"id": "C109", "title": "Physical parameters are checked", "statement": "A constructor rejects parameters without physical meaning: masses and inertias that are not positive, minimum limits above maximum limits.", "quantifier": "all parameter values of all vehicles", "why_tests_cant": "a test tries a few parameters; what is accepted has to be known for all of them, and the consequence for every later step", "anchors": ["safe_autonomy_dynamics/cwh/point_model.py: CWHSpacecraft, generate_cwh_matrices", "safe_autonomy_dynamics/integrators.py: generate_dynamics_matrices", "safe_autonomy_dynamics/cwh/sixdof_model.py: SixDOFSpacecraft.__init__", "safe_autonomy_dynamics/cwh/rotational_model.py: CWHRotation2dSpacecraft.__init__", "safe_autonomy_dynamics/dubins.py: Dubins2dAircraft.__init__"]}
{"id": "C110", "title": "A vehicle can be saved and restored", "statement": "The state is everything a later run depends on: the state read from an entity after any past, assigned to an entity of the same configuration with any other past, gives the same exceptions, warnings, states and derivatives under the same actions; building a new entity from the reported numbers restores it as well.", "quantifier": "all entities, pasts with failed steps and state assignments, actions, solvers, number types", "why_tests_cant": "compares two arbitrary pasts followed by an arbitrary future", "anchors": ["safe_autonomy_dynamics/base_models.py: BaseEntity.step, state, BaseODESolverDynamics._step", "safe_autonomy_dynamics/cwh/point_model.py: CWHSpacecraft._build_state"]}
{"id": "C111", "title": "Registering a partner connects aircraft without influencing them", "statement": "register_partner never changes how any aircraft moves; the partner attribute is None until the first registration, refers to the aircraft registered last, and shows its present state at every later time.", "quantifier": "all programs over any number of aircraft", "why_tests_cant": "aliasing over arbitrary interleavings of steps, assignments and registrations", "anchors": ["safe_autonomy_dynamics/dubins.py: BaseDubinsAircraft.__init__, register_partner"]}
{"id": "C112", "title": "Rounding errors of user-defined linear dynamics are bounded", "statement": "For every pair of matrices that BaseLinearODESolverDynamics accepts (up to 100 states and 100 controls, numbers up to 2^100), one Euler step in binary64 gives finite numbers within max(n, m) + 5 units in the last place of the exact step with saturated controls, whatever the order in which numpy adds up the products; a run follows the same run in exact arithmetic with an explicit error bound. For the point-mass integrators the bound holds in terms of the mass and damping given.", "quantifier": "all matrices, states, controls, limits, step sizes within the ranges; all summation orders; all run lengths as long as the exact run stays bounded", "why_tests_cant": "a test checks a few matrices on one machine, whose summation order need not be that of the next", "anchors": ["safe_autonomy_dynamics/base_models.py: BaseLinearODESolverDynamics, BaseControlAffineODESolverDynamics, BaseODESolverDynamics._step", "safe_autonomy_dynamics/integrators.py: IntegratorDynamics, generate_dynamics_matrices"]}
{"id": "C113", "title": "Wrapping and flying are accurate in floating point", "statement": "np.pi is within 2^-52 of pi. Wrapping a finite angle in binary64 ends between -np.pi and np.pi and subtracts a whole number of exact turns up to 2^-51 (|s| + 8). Any flight of the two-dimensional aircraft with Euler steps, from a state assigned as a float64 array, completes without exception, and its state stays within an explicit bound of the exact flight (heading modulo whole turns) that grows with the square of the number of steps.", "quantifier": "all mathematical libraries with sine and cosine accurate to 2^-52; all finite limits, initial states, commands, step sizes and run lengths with magnitudes up to about 2^99 for which the bound stays below 1", "why_tests_cant": "a test compares against another floating-point run, which has its own errors; wrapping subtracts np.pi, not pi, so errors could accumulate with every turn", "anchors": ["safe_autonomy_dynamics/base_models.py: BaseDynamics._wrap_angles, BaseEntity.step, BaseODESolverDynamics._step", "safe_autonomy_dynamics/dubins.py: Dubins2dAircraft, Dubins2dDynamics"]}
{"id": "C114", "title": "Flying in three dimensions is accurate in floating point", "statement": "Any flight of the three-dimensional aircraft with Euler steps from a state assigned as a float64 array, computed in binary64, completes without exception, and its state stays within an explicit bound of the exact coordinated-turn flight (heading modulo whole turns). The bound grows with the cube of the number of steps and depends on how slow the aircraft may fly and how far it may roll, since the turn rate is 32.17 / v * tan(roll).", "quantifier": "all mathematical libraries with sine, cosine and tangent accurate to 2^-52; all speed limits of at least m > 0, roll limits whose cosine stays above c > 0, flight path angle limits of at most 2, and all initial states, commands, step sizes and run lengths with magnitudes up to about 2^99 for which the bound stays below 1", "why_tests_cant": "the reference would itself be a floating-point run; division by the speed and the tangent of the roll amplify rounding errors, by a factor that depends on limits no test can sweep", "anchors": ["safe_autonomy_dynamics/base_models.py: BaseDynamics._wrap_angles, BaseEntity.step, BaseODESolverDynamics._step", "safe_autonomy_dynamics/dubins.py: Dubins3dAircraft, Dubins3dDynamics"]}
{"id": "C115", "title": "A new aircraft flies as accurately as one whose state was assigned", "statement": "The flight of a newly built aircraft has the accuracy of C113 and C114. It does not: a new aircraft's state is a float32 array, so its first Euler step computes the derivative in single precision. At 256 ft/s a new aircraft is 5 millionths of a foot off after one second, while one in the same state assigned as a float64 array is within 10^-8. What holds: the first step of a two-dimensional aircraft adds at most H (2^-20 V + 2^-140) to the position error, once, whatever the number of steps. In three dimensions it adds about two millionths of the first step's way and turn, and the latter again to the position in every later step.", "quantifier": "all mathematical libraries with float64 sine and cosine accurate to 2^-52 and float32 functions accurate to 2^-22; all limits, initial states, commands, step sizes and run lengths as in C113 and C114 (in three dimensions speeds of at least 1 ft/s)", "why_tests_cant": "a test at ordinary tolerance sees neither error, and no finite set of flights bounds the error of all of them", "anchors": ["safe_autonomy_dynamics/dubins.py: Dubins2dAircraft._build_state, Dubins3dAircraft._build_state, Dubins2dDynamics.state_transition_system, Dubins3dDynamics.state_transition_system", "safe_autonomy_dynamics/base_models.py: BaseODESolverDynamics._step"]}
{"id": "C116", "title": "Rotating spacecraft step as precisely as point-mass ones", "statement": "A step of CWHRotation2dSpacecraft or SixDOFSpacecraft is as precise as one of CWHSpacecraft (C106). It is not: the rates are cast to float32 in every step, also when the state is a float64 array. A CWHRotation2dSpacecraft coasting at 0.1 m/s for a second gets a position that is more than 10^-9 m off, while CWHSpacecraft is right to 10^-15 m. What holds: from any state, every component of the new state (position, angle up to whole turns or quaternion, velocity, rotation rates) is what the equations of motion with clipped thrust and moment and limited rotation rate give, up to a relative 2^-22 of the terms of this step's change and 2^-46 of the old value.", "quantifier": "all mathematical libraries with sine and cosine accurate to 2^-52; all masses, inertias, wheel and rate limits, finite commands, states and step sizes up to 2^90 (with attitude: 2^80, quaternions, rotation rates and inertias up to 2^20), and all earlier runs and assigned states", "why_tests_cant": "the loss of precision is invisible at the tolerances that tests use, and a bound for every state and command cannot be read off from samples", "anchors": ["safe_autonomy_dynamics/cwh/rotational_model.py: CWHRotation2dDynamics.state_transition_system, state_transition_input; CWHRotation2dSpacecraft.__init__", "safe_autonomy_dynamics/cwh/sixdof_model.py: SixDOFDynamics.state_transition_system, state_transition_input, apply_quat", "safe_autonomy_dynamics/base_models.py: BaseODESolverDynamics._step"]}
{"id": "C117", "title": "The simulated spacecraft follows the true motion", "statement": "The state that a CWHSpacecraft with Euler integration computes in binary64 arithmetic, after any number of steps of any lengths with any finite thrust commands, is within an explicit distance of the closed-form Clohessy-Wiltshire motion under the saturated thrust: the rounding errors of C106 plus a method error proportional to the longest step. The bound needs only the size of the initial state, the longest step and the number of steps.", "quantifier": "all masses, mean motions, initial states, step sizes, finite commands and run lengths for which the bound stays below 2^100", "why_tests_cant": "a test compares a few trajectories with a tolerance chosen to pass; the distance between what is computed and the physics for every command sequence needs method error, rounding errors and their growth together", "anchors": ["safe_autonomy_dynamics/cwh/point_model.py: CWHSpacecraft, CWHDynamics, generate_cwh_matrices", "safe_autonomy_dynamics/base_models.py: BaseEntity.step, BaseODESolverDynamics._step"]}
{"id": "C118", "title": "The simulated aircraft follows the true path", "statement": "A vehicle that moves along its heading, with heading rate, acceleration and speed clipped to their limits, has a path given by integrals of speed times cosine and sine of the heading. The state that a Dubins2dAircraft with Euler integration computes in binary64 arithmetic, from a float64 state within the speed limits, after any number of steps with any finite commands, is within an explicit distance of that path (heading modulo whole turns): the rounding errors of C113 plus a method error proportional to the longest step.", "quantifier": "all limits, initial states within the speed limits, step sizes, finite commands and run lengths for which the rounding bound stays below 1", "why_tests_cant": "a test compares a few trajectories with a tolerance chosen to pass; the distance from the true path for every command sequence, with saturation of speed in the middle of a step, needs a proof about integrals and rounding together", "anchors": ["safe_autonomy_dynamics/dubins.py: Dubins2dAircraft, Dubins2dDynamics", "safe_autonomy_dynamics/base_models.py: BaseODESolverDynamics._step, BaseDynamics._wrap_angles, BaseEntity.step"]}
{"id": "C119", "title": "The simulated point masses follow the true motion", "statement": "Position and velocity that the point-mass dynamics (IntegratorDynamics, one to three dimensions) compute in binary64 arithmetic with Euler steps, after any number of steps with any finite commands, are on every axis within explicit distances of the closed-form damped motion m v' = u - m c v under the saturated commands: rounding errors plus a method error proportional to the longest step, as long as damping times step size is at most one.", "quantifier": "all masses, dampings, limits, initial states, step sizes, finite commands and run lengths for which the bounds stay below 1", "why_tests_cant": "a test compares a few trajectories with a tolerance chosen to pass; the distance from the motion for every command sequence needs method error, rounding error and saturation together", "anchors": ["safe_autonomy_dynamics/integrators.py: IntegratorDynamics, generate_dynamics_matrices", "safe_autonomy_dynamics/base_models.py: BaseODESolverDynamics._step, BaseEntity.step"]}
{"id": "C120", "title": "The simulated aircraft in three dimensions follows the true path", "statement": "An aircraft that moves along its nose and turns at 32.17 / v tan(roll), with flight path angle, roll, speed and the three commands clipped to their limits, has a path given by integrals. The state that a Dubins3dAircraft with Euler integration computes in binary64 arithmetic, from a float64 state within the limits, after any number of steps with any finite commands, is within an explicit distance of that path (heading modulo whole turns): the rounding errors of C114 plus a method error proportional to the longest step.", "quantifier": "all limits with positive speeds and rolls short of 90 degrees, initial states within the limits, step sizes, finite commands and run lengths for which the rounding bound stays below 1", "why_tests_cant": "a test compares a few trajectories with a tolerance chosen to pass; the heading rate depends on speed and roll, which saturate in the middle of a step, so the distance from the true path for every command sequence needs nested integrals and rounding together", "anchors": ["safe_autonomy_dynamics/dubins.py: Dubins3dAircraft, Dubins3dDynamics", "safe_autonomy_dynamics/base_models.py: BaseODESolverDynamics._step, BaseDynamics._wrap_angles, BaseEntity.step"]}
{"id": "C121", "title": "A new aircraft follows the true path from its constructor on", "statement": "A Dubins2dAircraft or Dubins3dAircraft built by its constructor holds a float32 state, and its first Euler step is computed on float32 numbers. From that constructor call on, after any number of steps with any finite commands, its state is within an explicit distance of the path of a vehicle that starts at the float32 values of the arguments and moves along its heading all the time: the float32 error of the first step, the rounding errors of the later ones and the error of the method, which is proportional to the longest step.", "quantifier": "all limits, constructor arguments within the limits, step sizes, finite commands and run lengths for which the rounding bound stays below 1; every float32 and float64 mathematical library of the stated accuracy", "why_tests_cant": "tests that build an aircraft and fly it compare with a tolerance chosen to pass; how far a first step in single precision may carry the aircraft off, for every command sequence and every mathematical library, needs a proof over all of them", "anchors": ["safe_autonomy_dynamics/dubins.py: Dubins2dAircraft, Dubins3dAircraft, _build_state, Dubins2dDynamics, Dubins3dDynamics", "safe_autonomy_dynamics/base_models.py: BaseODESolverDynamics._step, BaseDynamics._wrap_angles, BaseEntity.step"]}
{"id": "C122", "title": "Rounding errors of a rotating spacecraft accumulate slowly over many steps", "statement": "A CWHRotation2dSpacecraft with the Euler integrator computes its rates in float32. Over any sequence of Euler steps with any finite commands every step completes, and the final position, attitude, velocity and rotation rate are within an explicit bound of the flight computed without rounding: each step adds an error of single precision relative to the motion of that step, and what has accumulated grows by a bounded factor per step.", "quantifier": "all masses, moments of inertia, limits, mean motions, start states, step sizes, finite commands and run lengths for which the bound stays below 1; every mathematical library of the stated accuracy", "why_tests_cant": "tests fly a few steps and compare with a tolerance chosen to pass; how float32 rates, a clipped thrust turned by the computed attitude and a wrapped attitude add up over an arbitrary flight needs an induction over the steps", "anchors": ["safe_autonomy_dynamics/cwh/rotational_model.py: CWHRotation2dSpacecraft, CWHRotation2dDynamics._compute_state_dot", "safe_autonomy_dynamics/base_models.py: BaseODESolverDynamics._step, BaseDynamics._wrap_angles, BaseEntity.step"]}
{"id": "C123", "title": "Vector properties agree with the scalar ones", "statement": "For every entity, position is the vector (x, y, z) and velocity the vector (x_dot, y_dot, z_dot) of its scalar properties, angular_velocity is (wx, wy, wz) and quaternion is (q1, q2, q3, q4); an aircraft's yaw and pitch are its heading and flight path angle; components a planar class has no state for are 0.", "quantifier": "all entity classes, user classes derived from them, states and arithmetics", "why_tests_cant": "there are two access paths to every number in seven classes; tests check a few of them at a few states", "anchors": ["safe_autonomy_dynamics/base_models.py: BaseEntity.position, BaseEntity.velocity, BaseRotationEntity", "safe_autonomy_dynamics/cwh/point_model.py: CWHSpacecraft", "safe_autonomy_dynamics/cwh/rotational_model.py: CWHRotation2dSpacecraft", "safe_autonomy_dynamics/cwh/sixdof_model.py: SixDOFSpacecraft", "safe_autonomy_dynamics/integrators.py: Integrator1d, Integrator2d, Integrator3d", "safe_autonomy_dynamics/dubins.py: Dubins2dAircraft, Dubins3dAircraft"]}
{"id": "C124", "title": "Classes that can be instantiated implement the interface of their bases", "statement": "isinstance of an entity follows the class statements of the library and of the user; a class can be instantiated exactly when every member one of its bases declares abstract is implemented, so code written against BaseEntity or BaseRotationEntity finds every member it uses; a user class can be instantiated exactly when it supplies what its base leaves open.", "quantifier": "all classes of the library and all user classes derived from them to any depth", "why_tests_cant": "tests instantiate the classes that exist; the user classes that may be derived are unbounded", "anchors": ["safe_autonomy_dynamics/base_models.py: BaseEntity, BaseRotationEntity (abstract members)", "safe_autonomy_dynamics/integrators.py: BaseIntegrator", "safe_autonomy_dynamics/dubins.py: BaseDubinsAircraft"]}
{"id": "C125", "title": "A spacecraft with default parameters keeps the default rates", "statement": "A rotational spacecraft built without giving limits (in the plane or with six degrees of freedom), in double precision, has after every step an angular velocity of at most 0.034907 rad/s about each axis, and in the plane an angular acceleration of at most 0.017453 rad/s^2 (both up to one unit of the ninth digit), unless the value is nan; its commands are limited to 1 N and to 0.0010000569 N m, symmetrically.", "quantifier": "all start values, frames, integration settings, lists of actions and step sizes, all implementations of the elementary functions", "why_tests_cant": "the start values, actions and their order are unbounded; nan and overflow are reached only by unusual inputs", "anchors": ["safe_autonomy_dynamics/cwh/rotational_model.py: INERTIA_DEFAULT, ANG_ACC_LIMIT_DEFAULT, ANG_VEL_LIMIT_DEFAULT", "safe_autonomy_dynamics/cwh/sixdof_model.py: SixDOFSpacecraft defaults"]}
{"id": "C126", "title": "The default mass and orbit", "statement": "A point-mass or planar rotational spacecraft built without giving mass and mean motion moves, in exact arithmetic, by the equations of 12 kg on a circular orbit with mean motion 0.001027 rad/s (gradient terms 3.164187e-6 and 1.054729e-6 per s^2, Coriolis term 2.054e-3 per s), the rotational one with moment of inertia 0.0573 kg m^2; the default sun turns by 0.001027 rad for each second elapsed.", "quantifier": "all states, thrusts, times, start values, integration settings; for the sun all lists of steps", "why_tests_cant": "a test compares chosen states with a tolerance that hides small errors of the constants", "anchors": ["safe_autonomy_dynamics/cwh/point_model.py: M_DEFAULT, N_DEFAULT", "safe_autonomy_dynamics/cwh/rotational_model.py: INERTIA_DEFAULT", "safe_autonomy_dynamics/cwh/sun_model.py: SunEntity.__init__ default n"]}
