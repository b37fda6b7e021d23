(** Spacecraft with the default parameters in binary64 (C125). *)
From Coq Require Import String ZArith Reals Bool List Lra Lia.
From Flocq Require Import Core.Core IEEE754.BinarySingleNaN.
From Verif Require Import PyBase Num Arr BaseModel Spec SpecBase Cwh Utils Rot2d SixDof Float64 XTac NumOrdLemmas Rot2dLemmas SpecSixDof SixDofLemmas SixDofProps RoundCwh F64Wrap FlyEx ParamLemmas SpecSteer.
Import List ListNotations.
Local Open Scope R_scope.

Section W.
  Variable lm : libm.
  Local Hint Extern 0 (Num f64) => exact (F64 lm) : typeclass_instances.

  Lemma within_lim (r l : f64) : is_finite l = true -> nisnan r = true \/ (nleb (nneg l) r = true /\ nleb r l = true) ->
    nisnan r = true \/ is_finite r = true /\ Rabs (B2R r) <= B2R l.
  Proof.
    intros Fl [H|[A B]]; [left; exact H|right].
    assert (Fr : is_finite r = true).
    { destruct r as [s|s| |s m e H]; try reflexivity; exfalso.
      - destruct l as [sl|sl| |sl ml el Hl]; try discriminate Fl; destruct s, sl; discriminate.
      - destruct l as [sl|sl| |sl ml el Hl]; try discriminate Fl; destruct sl; discriminate. }
    split; [exact Fr|]. change (nleb r l) with (Bleb r l) in B. change (nleb (nneg l) r) with (Bleb (Bopp l) r) in A.
    rewrite Bleb_correct in B by assumption. rewrite Bleb_correct in A by (rewrite ?is_finite_Bopp; assumption). rewrite B2R_Bopp in A.
    destruct (Rle_bool_spec (- B2R l) (B2R r)); [|discriminate]. destruct (Rle_bool_spec (B2R r) (B2R l)); [|discriminate]. apply Rabs_le. lra.
  Qed.

  Lemma pair_parts {A B} (a c : A) (b d : B) : (a, b) = (c, d) -> a = c /\ b = d.
  Proof. intros H. injection H as -> ->. auto. Qed.
  Lemma lit_vel : is_finite (fl 34907 1000000) = true /\ B2R (fl 34907 1000000) = 5030628870163901 / 2 ^ 57.
  Proof. flv. Qed.
  Lemma lit_acc : is_finite (fl 17453 1000000) = true /\ B2R (fl 17453 1000000) = 5030484754975825 / 2 ^ 58.
  Proof. flv. Qed.
  Lemma lit_one : B2R (fl 1 1) = 1.
  Proof. rewrite (B2R_of (fl 1 1) false 4503599627370496 (-52)) by (vm_compute; reflexivity). unfold F2R; cbn [Fnum Fexp cond_Zopp]. change (bpow radix2 (-52)) with (/ 4503599627370496). lra. Qed.
  Let vel : f64 := R2_ANG_VEL_LIMIT.
  Let acc : f64 := R2_ANG_ACC_LIMIT.
  Lemma vel_fl : vel = fl 34907 1000000.
  Proof. apply f64_eq; vm_compute; reflexivity. Qed.
  Lemma acc_fl : acc = fl 17453 1000000.
  Proof. apply f64_eq; vm_compute; reflexivity. Qed.
  Lemma div_eq (a b q : f64) : neqb b n0 = false -> ndiv a b = q -> pydiv a b = Ok q.
  Proof. intros B <-. unfold pydiv. rewrite B. reflexivity. Qed.

  Lemma default_rates (w : world f64) samples method jax x y th vx vy wz e acts e' :
    rot2d_spacecraft w M_DEFAULT R2_INERTIA R2_ANG_ACC_LIMIT R2_ANG_VEL_LIMIT R2_INERTIA_WHEEL R2_ACC_LIMIT_WHEEL R2_VEL_LIMIT_WHEEL N_DEFAULT
      samples method jax x y th vx vy wz = Ok e -> acts <> [] -> run w e acts = Ok e' ->
    (forall r : f64, bnth (e_state e') 5 = Some r -> is_nan r = true \/ is_finite r = true /\ Rabs (B2R r) <= 34907001 / 1000000000) /\
    (forall r : f64, bnth (e_sdot e') 5 = Some r -> is_nan r = true \/ is_finite r = true /\ Rabs (B2R r) <= 17453001 / 1000000000).
  Proof.
    intros E Ne Rn.
    assert (I0 : neqb (R2_INERTIA : f64) n0 = false) by (vm_compute; reflexivity).
    destruct (rot2d_rate_bounds w _ _ _ _ _ _ _ _ _ _ _ _ _ _ _ _ _ e acts e' E Ne Rn _ _ (div_eq _ _ _ I0 eq_refl) (div_eq _ _ _ I0 eq_refl)) as [V A];
      try (vm_compute; reflexivity).
    split; intros r Hr.
    - specialize (V r Hr). fold vel in V. rewrite vel_fl in V. destruct (within_lim r (fl 34907 1000000) (proj1 lit_vel)) as [Q|[Q1 Q2]]; [tauto|left; exact Q|right].
      split; [exact Q1|]. eapply Rle_trans; [exact Q2|]. rewrite (proj2 lit_vel). lra.
    - specialize (A r Hr). fold acc in A. rewrite acc_fl in A. destruct (within_lim r (fl 17453 1000000) (proj1 lit_acc)) as [Q|[Q1 Q2]]; [tauto|left; exact Q|right].
      split; [exact Q1|]. eapply Rle_trans; [exact Q2|]. rewrite (proj2 lit_acc). lra.
  Qed.

  (** Limits of the commands: thrust 1 N, moment 0.0010000569 N m. *)
  Lemma default_commands (w : world f64) samples method jax x y th vx vy wz e :
    rot2d_spacecraft w M_DEFAULT R2_INERTIA R2_ANG_ACC_LIMIT R2_ANG_VEL_LIMIT R2_INERTIA_WHEEL R2_ACC_LIMIT_WHEEL R2_VEL_LIMIT_WHEEL N_DEFAULT
      samples method jax x y th vx vy wz = Ok e ->
    exists t u : f64, e_cmax e = A1 [t; t; u] /\ e_cmin e = A1 [nneg t; nneg t; nneg u] /\ B2R t = 1 /\ Rabs (B2R u - 10000569 / 10000000000) <= / 10 ^ 18.
  Proof.
    intros E. destruct (rot2d_craft_inv _ _ _ _ _ _ _ _ _ _ _ _ _ _ _ _ _ _ _ E) as (qa & qv & Qa & _ & _ & C1 & C2 & _).
    assert (I0 : neqb (R2_INERTIA : f64) n0 = false) by (vm_compute; reflexivity). unfold pydiv in Qa. rewrite I0 in Qa. apply (f_equal (fun r => match r with Ok v => v | _ => n0 end)) in Qa. cbv beta iota in Qa.
    exists (fl 1 1), (nmul (fl 17453 1000000) R2_INERTIA).
    assert (P : py_min (R2_ANG_ACC_LIMIT : f64) qa = fl 17453 1000000) by (rewrite <- Qa; apply f64_eq; vm_compute; reflexivity).
    rewrite C1, C2, P. split; [|split; [|split]].
    - repeat f_equal; apply f64_eq; vm_compute; reflexivity.
    - repeat f_equal; apply f64_eq; vm_compute; reflexivity.
    - exact lit_one.
    - rewrite (B2R_of _ false 4611948423361836 (-62)) by (vm_compute; reflexivity). unfold F2R; cbn [Fnum Fexp cond_Zopp]. change (bpow radix2 (-62)) with (/ 4611686018427387904). apply Rabs_le. lra.
  Qed.

  (** Six degrees of freedom. *)
  Lemma default_six_rates (w : world f64) body samples method x y z q1 q2 q3 q4 vx vy vz wx wy wz e acts e' :
    sixdof_spacecraft M_DEFAULT SD_INERTIA (NAnum (PyFloat SD_ANG_ACC_LIMIT)) (NAnum (PyFloat SD_ANG_VEL_LIMIT)) SD_INERTIA_WHEEL SD_ACC_LIMIT_WHEEL SD_VEL_LIMIT_WHEEL SD_THRUST_LIMIT
      body N_DEFAULT samples method x y z q1 q2 q3 q4 vx vy vz wx wy wz = Ok e -> acts <> [] -> run w e acts = Ok e' ->
    forall k (r : f64), In k [10; 11; 12]%nat -> bnth (e_state e') k = Some r -> is_nan r = true \/ is_finite r = true /\ Rabs (B2R r) <= 34907001 / 1000000000.
  Proof.
    intros E Ne Rn k r K Hr. set (v := SD_ANG_VEL_LIMIT : f64).
    assert (Ev : v = fl 34907 1000000) by (apply f64_eq; vm_compute; reflexivity).
    assert (Il : exists il : f64, In (k, v, il) [(10, v, m00 SD_INERTIA); (11, v, m11 SD_INERTIA); (12, v, m22 SD_INERTIA)]%nat).
    { destruct K as [<-|[<-|[<-|[]]]]; eexists; cbn [In]; eauto. }
    destruct Il as [il Il].
    assert (Ax : axis_limits (NAnum (PyFloat SD_ANG_VEL_LIMIT)) v v v).
    { right. exists (PyFloat SD_ANG_VEL_LIMIT). split; [reflexivity|]. split; [|split; reflexivity]. apply f64_eq; vm_compute; reflexivity. }
    assert (V := fun P => sixdof_rate_bounds w _ _ _ _ v v v _ _ _ _ _ _ _ _ _ _ _ _ _ _ _ _ _ _ _ _ _ e acts e' Ax E Ne Rn k v il Il P).
    assert (Q : nisnan r = true \/ (nleb (nneg v) r = true /\ nleb r v = true)).
    { destruct V with (r := r) as [V1|(V1 & V2 & _)]; [|exact Hr|left; exact V1|right; exact (conj V1 V2)].
      intros a b [F|[F|[F|[]]]]; apply pair_parts in F; destruct F as [<- <-]; split; vm_compute; reflexivity. }
    rewrite Ev in Q. destruct (within_lim r (fl 34907 1000000) (proj1 lit_vel) Q) as [Q0|[Q1 Q2]]; [left; exact Q0|right].
    split; [exact Q1|]. eapply Rle_trans; [exact Q2|]. rewrite (proj2 lit_vel). lra.
  Qed.

  Lemma default_six_commands body samples method x y z q1 q2 q3 q4 vx vy vz wx wy wz e :
    sixdof_spacecraft M_DEFAULT SD_INERTIA (NAnum (PyFloat SD_ANG_ACC_LIMIT)) (NAnum (PyFloat SD_ANG_VEL_LIMIT)) SD_INERTIA_WHEEL SD_ACC_LIMIT_WHEEL SD_VEL_LIMIT_WHEEL SD_THRUST_LIMIT
      body N_DEFAULT samples method x y z q1 q2 q3 q4 vx vy vz wx wy wz = Ok e ->
    exists t u : f64, e_cmax e = A1 [t; t; t; u; u; u] /\ e_cmin e = A1 [nneg t; nneg t; nneg t; nneg u; nneg u; nneg u] /\
      B2R t = 1 /\ Rabs (B2R u - 10000569 / 10000000000) <= / 10 ^ 18.
  Proof.
    intros E. destruct (sixdof_craft_inv _ _ _ _ _ _ _ _ _ _ _ _ _ _ _ _ _ _ _ _ _ _ _ _ _ _ E) as (a0 & a1 & a2 & v0 & v1 & v2 & da & dv & P1 & P2 & _ & _ & _ & C1 & C2 & _).
    assert (D : nd_data da = Some [nmul SD_ANG_ACC_LIMIT n1; nmul SD_ANG_ACC_LIMIT n1; nmul SD_ANG_ACC_LIMIT n1]).
    { apply (f_equal (fun r => match r with Ok v => nd_data v | _ => None end)) in P1. cbv beta iota in P1. rewrite <- P1. reflexivity. }
    rewrite P2 in D. assert (D0 := f_equal (fun o => match o with Some (a :: _) => a | _ => n0 end) D). assert (D1 := f_equal (fun o => match o with Some (_ :: a :: _) => a | _ => n0 end) D).
    assert (D2 := f_equal (fun o => match o with Some (_ :: _ :: a :: _) => a | _ => n0 end) D). cbv beta iota in D0, D1, D2. clear D P1 P2 E.
    exists (fl 1 1), (nmul (fl 17453 1000000) R2_INERTIA). rewrite C2, C1, D0, D1, D2. unfold amap. cbn [map].
    split; [|split; [|split]].
    - repeat f_equal; apply f64_eq; vm_compute; reflexivity.
    - repeat f_equal; apply f64_eq; vm_compute; reflexivity.
    - exact lit_one.
    - rewrite (B2R_of _ false 4611948423361836 (-62)) by (vm_compute; reflexivity). unfold F2R; cbn [Fnum Fexp cond_Zopp]. change (bpow radix2 (-62)) with (/ 4611686018427387904). apply Rabs_le. lra.
  Qed.

  Definition rest_craft (w : world f64) := rot2d_spacecraft w M_DEFAULT R2_INERTIA R2_ANG_ACC_LIMIT R2_ANG_VEL_LIMIT R2_INERTIA_WHEEL R2_ACC_LIMIT_WHEEL R2_VEL_LIMIT_WHEEL N_DEFAULT
      0 "Euler" false (fl 100 1) (fl 0 1) (fl 0 1) (fl 0 1) (fl 0 1) (fl 0 1).
  Lemma default_built w : exists e, rest_craft w = Ok e.
  Proof.
    assert (K : is_ok (rest_craft w) = true) by (unfold rest_craft; rewrite rot2d_accepts; vm_compute; reflexivity).
    destruct (rest_craft w) as [e|]; [eauto|discriminate].
  Qed.
End W.

Definition hard : f64 * action f64 := steer_act (fl 1 1, (fl 0 1, fl 0 1, fl 5 1)).
Lemma default_example (lm : libm) (w : world f64) : exists e e', rest_craft lm w = Ok e /\ run (N := F64 lm) w e [hard; hard] = Ok e'.
Proof.
  assert (K : is_ok (match rest_craft lm w with Ok e => run (N := F64 lm) w e [hard; hard] | Err x => Err x end) = true) by (vm_compute; reflexivity).
  destruct (rest_craft lm w) as [e|]; [|discriminate]. exists e. destruct (run w e _) as [e'|]; [eauto|discriminate].
Qed.
