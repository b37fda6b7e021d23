(** Properties C109 to C111: construction, saving and restoring, partners. *)
From Coq Require Import String List Bool ZArith Reals.
From Verif Require Import PyBase Num Arr BaseModel Spec SpecBase XReal XTac Float64 Cwh Rot2d SixDof Dubins Integ Partner
  ParamLemmas SpecRestore RestoreLemmas SpecPartner PartnerLemmas.
Import List ListNotations.

(** * C109 Physical parameters are checked *)

(** What the constructors check: the mass (and the inertia of the planar spacecraft) is not
    zero. Nothing else about mass, inertia, mean motion or damping is.
    Missing: that parameters without physical meaning are rejected, which is false. *)
Theorem C109_accepted_partial :
  forall T (N : Num T),
    (forall m n samples method, is_ok (cwh_dyn m n samples method) = negb (neqb m n0)) /\
    (forall m c mode samples method, In mode ["1d"; "2d"; "3d"]%string ->
       is_ok (integ_dyn m c mode samples method) = negb (neqb m n0)) /\
    (forall m (I : mat3 T) vel n body samples method, is_ok (sixdof_dyn m I vel n body samples method) = negb (neqb m n0)) /\
    (forall (w : world T) m inertia al vl iw aw vw n samples method jax x y th vx vy wz,
       is_ok (rot2d_spacecraft w m inertia al vl iw aw vw n samples method jax x y th vx vy wz) =
       negb (neqb inertia n0) && negb (jax && negb (w_jax w)) && negb (neqb m n0)).
Proof.
  exact (fun T N => conj (@cwh_accepts T N) (conj (@integ_accepts T N) (conj (@sixdof_accepts T N) (@rot2d_accepts T N)))).
Qed.
Print Assumptions C109_accepted_partial.

Example C109_zero_mass : forall n samples method, is_ok (cwh_dyn (N := XR Fin) (Fin 0) n samples method) = false.
Proof. exact zero_mass. Qed.

Local Open Scope R_scope.
Local Hint Extern 0 (Num xr) => exact (XR Fin) : typeclass_instances.

(** A spacecraft of mass -1 is built; thrust along +x moves it along -x. *)
Theorem C109_mass_refuted : exists e,
  cwh_spacecraft (Fin (-1)) (Fin 0) 0 "Euler" (Fin 0) (Fin 0) (Fin 0) (Fin 0) (Fin 0) (Fin 0) = Ok e /\
  forall w : world xr, let o := entity_step w e (Fin 1) (AArr (A1 [Fin 1; Fin 0; Fin 0])) in
  o_res o = Ok tt /\ e_state (o_entity o) = A1 (map Fin [0; 0; 0; -1; 0; 0]).
Proof. exact neg_mass. Qed.
Print Assumptions C109_mass_refuted.

(** An aircraft whose minimum speed is above its maximum speed is built; after any history,
    every step ends at the maximum, below the configured minimum. *)
Theorem C109_crossed_speeds :
  forall (w : world xr) samples v_min v_max hr_min hr_max acc_min acc_max x0 y0 hd0 v0 acts e h x y hd v hr acc,
    v_max < v_min -> (samples <= 0)%Z ->
    run w (dubins2d_aircraft samples "Euler" (Fin v_min) (Fin v_max) (Fin hr_min) (Fin hr_max) (Fin acc_min) (Fin acc_max) x0 y0 hd0 v0) acts = Ok e ->
    e_state e = A1 (map Fin [x; y; hd; v]) ->
    let o := entity_step w e (Fin h) (AArr (A1 (map Fin [hr; acc]))) in
    o_res o = Ok tt /\ d2_v (o_entity o) = Ok (Fin v_max).
Proof. exact crossed_speeds. Qed.
Print Assumptions C109_crossed_speeds.

(** A planar spacecraft with negative inertia is built; whatever its state and the command, its
    heading changes at the same non-zero rate. *)
Theorem C109_negative_inertia :
  forall (w : world xr) m inertia al vl iw aw vw n samples jax x0 y0 th0 vx0 vy0 wz0 e0 acts e h x y th vx vy wz fx fy mz,
    m <> 0 -> inertia < 0 -> 0 <= vl -> 0 < iw -> 0 < vw -> (samples <= 0)%Z ->
    rot2d_spacecraft w (Fin m) (Fin inertia) (Fin al) (Fin vl) (Fin iw) (Fin aw) (Fin vw) (Fin n) samples "Euler" jax x0 y0 th0 vx0 vy0 wz0 = Ok e0 ->
    run w e0 acts = Ok e -> e_state e = A1 (map Fin [x; y; th; vx; vy; wz]) ->
    let o := entity_step w e (Fin h) (AArr (A1 (map Fin [fx; fy; mz]))) in
    o_res o = Ok tt /\ aidx (e_sdot (o_entity o)) 2 = Ok (Fin (iw * vw / inertia)) /\ iw * vw / inertia < 0.
Proof. exact neg_inertia. Qed.
Print Assumptions C109_negative_inertia.

(** * C110 A vehicle can be saved and restored *)

(** Two entities of the same configuration and state react alike to every action: the same
    exception or success, the same warning, the same state; after a success the same derivative
    and, with the adaptive solver, the same trajectory. *)
Theorem C110_step :
  forall T (N : Num T) (w : world T) e1 e2 h a, alike e1 e2 ->
    let o1 := entity_step w e1 h a in let o2 := entity_step w e2 h a in
    o_res o1 = o_res o2 /\ o_warned o1 = o_warned o2 /\ alike (o_entity o1) (o_entity o2) /\
    (o_res o1 = Ok tt -> e_sdot (o_entity o1) = e_sdot (o_entity o2)) /\
    (o_res o1 = Ok tt -> d_method (e_dyn e1) = "RK45"%string -> e_traj (o_entity o1) = e_traj (o_entity o2)).
Proof. exact @alike_step. Qed.
Print Assumptions C110_step.

(** So the state read after any past, assigned to an entity with any other past (including failed
    steps and assignments of unsuitable arrays), has the same future. *)
Theorem C110_restore :
  forall T (N : Num T) (w : world T) e past1 past2 acts,
    let saved := e_state (exec_all w e past1) in
    runs_alike (fun f1 f2 => acts <> [] -> e_sdot f1 = e_sdot f2)
      (run w (exec_all w e past1) acts) (run w (set_state (exec_all w e past2) saved) acts).
Proof. exact @restore. Qed.
Print Assumptions C110_restore.

(** A new spacecraft built from the six numbers has the same configuration and their float32
    roundings as state.
    Missing: that it has the same state, which is false. *)
Theorem C110_rebuild_partial :
  forall T (N : Num T) m n samples method x0 y0 z0 xd0 yd0 zd0 e0 x y z vx vy vz,
    cwh_spacecraft m n samples method x0 y0 z0 xd0 yd0 zd0 = Ok e0 ->
    exists e, cwh_spacecraft m n samples method x y z vx vy vz = Ok e /\
      same_config e e0 /\ e_state e = A1 (map nf32 [x; y; z; vx; vy; vz]).
Proof. exact @rebuild. Qed.
Print Assumptions C110_rebuild_partial.

(** So rebuilding from the reported numbers does not restore the state: 0.1 s at 1 m/s. *)
Theorem C110_rebuild_refuted : exists (e0 e1 e2 : entity f64) x y z vx vy vz,
  let N := F64 lm0 in
  cwh_spacecraft (N := N) (fl 12 1) (fl 0 1) 0 "Euler" (fl 0 1) (fl 0 1) (fl 0 1) (fl 1 1) (fl 0 1) (fl 0 1) = Ok e0 /\
  run (N := N) (euler_world (N := N)) e0 [(fl 1 10, AArr (A1 [fl 0 1; fl 0 1; fl 0 1]))] = Ok e1 /\
  e_state e1 = A1 [x; y; z; vx; vy; vz] /\
  cwh_spacecraft (N := N) (fl 12 1) (fl 0 1) 0 "Euler" x y z vx vy vz = Ok e2 /\
  e_state e2 <> e_state e1.
Proof. exact rebuild_refuted. Qed.
Print Assumptions C110_rebuild_refuted.

(** * C111 Partners *)

(** Registering partners has no influence on any aircraft. *)
Theorem C111_motion :
  forall T (N : Num T) (w : world T) prog,
    map c_entity (pexec_all w prog) = map c_entity (pexec_all w (unregistered prog)).
Proof. exact @motion. Qed.
Print Assumptions C111_motion.

(** The state read through an aircraft's partner is the present state of the aircraft registered
    last, as it is without any registration. *)
Theorem C111_partner :
  forall T (N : Num T) (w : world T) prog i j,
    proper 0 prog -> (i < length (pexec_all w prog))%nat -> latest i prog None = Some j ->
    exists c, nth_error (pexec_all w (unregistered prog)) j = Some c /\
      partner_state (pexec_all w prog) i = Some (e_state (c_entity c)).
Proof. exact @partner_view. Qed.
Print Assumptions C111_partner.

Theorem C111_none :
  forall T (N : Num T) (w : world T) prog i,
    proper 0 prog -> latest i prog None = None -> partner_state (pexec_all w prog) i = None.
Proof. exact @no_partner. Qed.
Print Assumptions C111_none.

(** Two aircraft; 0 gets 1 as partner, then 1 is moved; 1 itself has no partner. *)
Example C111_example :
  let e v := dubins2d_aircraft 0 "Euler" (Fin 0) (Fin 400) (Fin (-1)) (Fin 1) (Fin (-9)) (Fin 9) (Fin 0) (Fin 0) (Fin 0) (Fin v) in
  let prog := [PNew (e 100); PNew (e 200); PRegister 0 1; PSet 1 (A1 (map Fin [1; 2; 3; 4]))] in
  forall w : world xr, proper 0 prog /\
    partner_state (pexec_all w prog) 0 = Some (A1 (map Fin [1; 2; 3; 4])) /\ partner_state (pexec_all w prog) 1 = None.
Proof. exact partner_ex. Qed.
