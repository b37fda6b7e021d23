(** Equality and relative motion of objects, over exact reals. *)
From Coq Require Import String List Bool Arith ZArith Lia Reals Lra.
From Flocq Require Import Core.Core IEEE754.BinarySingleNaN.
From Verif Require Import PyBase Num Arr BaseModel Spec SpecBase XReal Float64 NumOrdLemmas ArrLemmas
  XTac Cwh Utils Rot2d SixDof Sun Integ Dubins Classes Units SpecWrap LimLemmas SpecClasses ClassLemmas.
Import ListNotations.
Local Open Scope R_scope.

Section X.
  Variable r32 : R -> xr.
  Local Hint Extern 0 (Num xr) => exact (XR r32) : typeclass_instances.
  Variable ae : xr * xr * xr * xr -> list xr.

  (** *** CWH *)
  Lemma len6 {A} (q : list A) : length q = 6%nat -> exists a b c d e f, q = [a; b; c; d; e; f].
  Proof. destruct q as [|a [|b [|c [|d [|e [|f [|]]]]]]]; try discriminate. intros _. exists a, b, c, d, e, f. reflexivity. Qed.

  Lemma cwh_euler : euler_sane ae -> forall e e' : entity xr,
    all_eq (euler_of ae (cwh_orientation e)) (euler_of ae (cwh_orientation e')) = Ok true.
  Proof.
    intros S e e'. unfold cwh_orientation, from_quat.
    set (n := nsqrt _).
    assert (Hn : n = Fin 1).
    { unfold n. cbn. rewrite Rlt_bool_false by lra. f_equal.
      replace (0 / 1 * (0 / 1) + 0 / 1 * (0 / 1) + 0 / 1 * (0 / 1) + 1 / 1 * (1 / 1)) with 1 by lra. apply sqrt_1. }
    rewrite Hn. cbn [neqb XR n0 nZ nlit xeqb]. rewrite Req_bool_false by lra.
    cbn [ndiv XR n0 n1 nZ nlit xdiv]. rewrite Req_bool_false by lra. cbn [euler_of bind].
    destruct (S (0 / 1 / 1) (0 / 1 / 1) (0 / 1 / 1) (1 / 1 / 1)) as (x & y & z & ->).
    destruct (all_eq_fin r32 [x; y; z] [x; y; z] eq_refl) as (b & E & Hb). cbn [map] in E.
    rewrite E. f_equal. tauto.
  Qed.

  Lemma cwh_eq_method a b la lb : euler_sane ae -> is_a CWHSpacecraftC la a -> is_a CWHSpacecraftC lb b ->
    length la = 6%nat -> length lb = 6%nat ->
    exists r, eq_method ae a b = Ok r /\ (r = true <-> la = lb).
  Proof.
    intros S [A1_ A2] [B1 B2] La Lb. unfold eq_method. rewrite A1_, isinstance_leaf, B1 by reflexivity. cbn [cls_eqb].
    destruct (len6 _ La) as (x & y & z & vx & vy & vz & ->), (len6 _ Lb) as (x' & y' & z' & vx' & vy' & vz' & ->).
    unfold position, velocity. rewrite A1_, B1. unfold cwh_position, cwh_velocity. rewrite A2, B2. cbn [aslice map skipn firstn Nat.sub].
    match goal with |- context [and_then ?l] =>
      destruct (and_then_all l [[vx; vy; vz] = [vx'; vy'; vz']; [x; y; z] = [x'; y'; z']; True]) as (r & E & Hr) end.
    { constructor; [exact (all_eq_fin r32 [vx; vy; vz] [vx'; vy'; vz'] eq_refl)|].
      constructor; [exact (all_eq_fin r32 [x; y; z] [x'; y'; z'] eq_refl)|].
      constructor; [|constructor]. exists true. split; [apply (cwh_euler S (o_ent a) (o_ent b))|tauto]. }
    exists r. split; [exact E|]. rewrite Hr. cbn [conj_all]. split.
    - intros (Q1 & Q2 & _). congruence.
    - intros Q. repeat split; congruence.
  Qed.

  Lemma cwh_eq a b la lb : euler_sane ae -> is_a CWHSpacecraftC la a -> is_a CWHSpacecraftC lb b ->
    length la = 6%nat -> length lb = 6%nat ->
    exists r, py_eq ae a b = Ok r /\ (r = true <-> la = lb).
  Proof.
    intros S Ha Hb La Lb. destruct (py_eq_cases ae a b) as [-> | ->]; [apply cwh_eq_method; auto|].
    destruct (cwh_eq_method b a lb la S Hb Ha Lb La) as (r & E & H). exists r. split; auto. rewrite H. split; auto.
  Qed.

  (** *** Rotational 2d *)
  Lemma sincos_eq a b : sin a = sin b -> cos a = cos b -> exists k : Z, b = a + 2 * PI * IZR k.
  Proof.
    intros Hs Hc. assert (C : cos (b - a) = 1).
    { rewrite cos_minus, <- Hs, <- Hc. pose proof (sin2_cos2 a). unfold Rsqr in *. lra. }
    replace (b - a) with (2 * ((b - a) / 2)) in C by field. rewrite cos_2a_sin in C.
    destruct (sin_eq_0_0 ((b - a) / 2)) as (k & Hk); [nra|]. exists k. lra.
  Qed.
  Lemma half_angle_iff a b : [0 / 1; 0 / 1; sin (a / (2 / 1)); cos (a / (2 / 1))] = [0 / 1; 0 / 1; sin (b / (2 / 1)); cos (b / (2 / 1))] <->
    same_half_angle a b.
  Proof.
    split.
    - intros H. injection H as Hs Hc. destruct (sincos_eq _ _ Hs Hc) as (k & Hk). exists k. lra.
    - intros (k & ->). destruct (turn_cos ((a + 4 * PI * IZR k) / (2 / 1)) (a / (2 / 1))) as [-> ->]; [exists k; lra|reflexivity].
  Qed.

  Lemma rot_eq_method a b la lb : is_a CWHRotation2dSpacecraftC la a -> is_a CWHRotation2dSpacecraftC lb b ->
    forall x y th vx vy wz x' y' th' vx' vy' wz', la = [x; y; th; vx; vy; wz] -> lb = [x'; y'; th'; vx'; vy'; wz'] ->
    exists r, eq_method ae a b = Ok r /\
      (r = true <-> x = x' /\ y = y' /\ vx = vx' /\ vy = vy' /\ wz = wz' /\ same_half_angle th th').
  Proof.
    intros [A1_ A2] [B1 B2] x y th vx vy wz x' y' th' vx' vy' wz' -> ->.
    unfold eq_method. rewrite A1_, isinstance_leaf, B1 by reflexivity. cbn [cls_eqb].
    unfold position, velocity. rewrite A1_, B1. unfold rot2d_position, rot2d_velocity, rot2d_quaternion, rot2d_angular_velocity.
    rewrite A2, B2. cbn [aidx map nth_error bind ndiv XR xdiv nsin ncos xfun nZ nlit n0]. rewrite Req_bool_false by lra.
    cbn [xfun].
    match goal with |- context [and_then ?l] =>
      destruct (and_then_all l [[vx; vy; 0 / 1] = [vx'; vy'; 0 / 1]; [x; y; 0 / 1] = [x'; y'; 0 / 1]; same_half_angle th th';
                 [0 / 1; 0 / 1; wz] = [0 / 1; 0 / 1; wz']]) as (r & E & Hr) end.
    { constructor; [exact (all_eq_fin r32 [vx; vy; 0 / 1] [vx'; vy'; 0 / 1] eq_refl)|].
      constructor; [exact (all_eq_fin r32 [x; y; 0 / 1] [x'; y'; 0 / 1] eq_refl)|].
      constructor; [|constructor; [exact (all_eq_fin r32 [0 / 1; 0 / 1; wz] [0 / 1; 0 / 1; wz'] eq_refl)|constructor]].
      destruct (all_eq_fin r32 [0 / 1; 0 / 1; sin (th / (2 / 1)); cos (th / (2 / 1))] [0 / 1; 0 / 1; sin (th' / (2 / 1)); cos (th' / (2 / 1))] eq_refl) as (q & Q1 & Q2).
      exists q. split; [exact Q1|]. rewrite Q2. apply half_angle_iff. }
    exists r. split; [exact E|]. rewrite Hr. cbn [conj_all]. split.
    - intros (Q1 & Q2 & Q3 & Q4 & _). injection Q1; injection Q2; injection Q4; intros; subst; auto 10.
    - intros (-> & -> & -> & -> & -> & ?). auto.
  Qed.

  Lemma same_half_sym a b : same_half_angle a b -> same_half_angle b a.
  Proof. intros (k & ->). exists (- k)%Z. rewrite opp_IZR. lra. Qed.

  Lemma rot_eq a b x y th vx vy wz x' y' th' vx' vy' wz' :
    is_a CWHRotation2dSpacecraftC [x; y; th; vx; vy; wz] a -> is_a CWHRotation2dSpacecraftC [x'; y'; th'; vx'; vy'; wz'] b ->
    exists r, py_eq ae a b = Ok r /\
      (r = true <-> x = x' /\ y = y' /\ vx = vx' /\ vy = vy' /\ wz = wz' /\ same_half_angle th th').
  Proof.
    intros Ha Hb. destruct (py_eq_cases ae a b) as [-> | ->]; [eapply rot_eq_method; eauto|].
    destruct (rot_eq_method b a _ _ Hb Ha _ _ _ _ _ _ _ _ _ _ _ _ eq_refl eq_refl) as (r & E & H). exists r. split; auto. rewrite H.
    split; intros (-> & -> & -> & -> & -> & Q); apply same_half_sym in Q; auto 10.
  Qed.

  (** Angles as stored after a step (in [-pi, pi)). *)
  Lemma half_angle_range a b : - PI <= a < PI -> - PI <= b < PI -> (same_half_angle a b <-> a = b).
  Proof.
    intros Ha Hb. split; [|intros ->; exists 0%Z; lra]. intros (k & ->).
    pose proof PI_RGT_0 as P.
    assert (k = 0)%Z as ->; [|lra].
    destruct (Z_lt_le_dec k 0) as [H|H].
    - assert (IZR k <= -1) by (apply IZR_le; lia). nra.
    - destruct (Z.eq_dec k 0); auto. assert (1 <= IZR k) by (apply IZR_le; lia). nra.
  Qed.

  (** *** Six degrees of freedom *)
  Lemma qnorm_pos q1 q2 q3 q4 : ~ (q1 = 0 /\ q2 = 0 /\ q3 = 0 /\ q4 = 0) -> 0 < qnorm q1 q2 q3 q4.
  Proof.
    intros H. apply sqrt_lt_R0. destruct (Req_dec q1 0) as [?|H1]; [|nra].
    destruct (Req_dec q2 0); [|nra]. destruct (Req_dec q3 0); [|nra]. destruct (Req_dec q4 0); [tauto|nra].
  Qed.
  Lemma from_quat_ok q1 q2 q3 q4 : ~ (q1 = 0 /\ q2 = 0 /\ q3 = 0 /\ q4 = 0) ->
    from_quat (Fin q1) (Fin q2) (Fin q3) (Fin q4) =
    Ok (Fin (q1 / qnorm q1 q2 q3 q4), Fin (q2 / qnorm q1 q2 q3 q4), Fin (q3 / qnorm q1 q2 q3 q4), Fin (q4 / qnorm q1 q2 q3 q4)).
  Proof.
    intros H. pose proof (qnorm_pos _ _ _ _ H). unfold from_quat. cbn [nsqrt nadd nmul XR xadd xmul xsqrt].
    rewrite Rlt_bool_false by nra. fold (qnorm q1 q2 q3 q4). cbn [neqb XR n0 nZ nlit xeqb]. rewrite Req_bool_false by lra.
    cbn [ndiv XR xdiv]. rewrite Req_bool_false by lra. reflexivity.
  Qed.
  Lemma from_quat_zero : from_quat (Fin 0) (Fin 0) (Fin 0) (Fin 0) = Err ValueError.
  Proof.
    unfold from_quat. cbn [nsqrt nadd nmul XR xadd xmul xsqrt]. rewrite Rlt_bool_false by lra.
    replace (0 * 0 + 0 * 0 + 0 * 0 + 0 * 0) with 0 by lra. rewrite sqrt_0. cbn [neqb XR n0 nZ nlit xeqb].
    rewrite Req_bool_true by lra. reflexivity.
  Qed.

  Lemma six_eq_method a b x y z q1 q2 q3 q4 vx vy vz wx wy wz x' y' z' q1' q2' q3' q4' vx' vy' vz' wx' wy' wz' :
    is_a SixDOFSpacecraftC [x; y; z; q1; q2; q3; q4; vx; vy; vz; wx; wy; wz] a ->
    is_a SixDOFSpacecraftC [x'; y'; z'; q1'; q2'; q3'; q4'; vx'; vy'; vz'; wx'; wy'; wz'] b ->
    ~ (q1 = 0 /\ q2 = 0 /\ q3 = 0 /\ q4 = 0) -> ~ (q1' = 0 /\ q2' = 0 /\ q3' = 0 /\ q4' = 0) ->
    exists r, eq_method ae a b = Ok r /\
      (r = true <-> [x; y; z; vx; vy; vz; wx; wy; wz] = [x'; y'; z'; vx'; vy'; vz'; wx'; wy'; wz'] /\
                    qdir q1 q2 q3 q4 = qdir q1' q2' q3' q4').
  Proof.
    intros [A1_ A2] [B1 B2] Hq Hq'.
    unfold eq_method. rewrite A1_, isinstance_leaf, B1 by reflexivity. cbn [cls_eqb].
    unfold position, velocity. rewrite A1_, B1. unfold sixdof_position, sixdof_velocity, sixdof_quaternion, sixdof_angular_velocity.
    rewrite A2, B2. cbn [aidx map nth_error bind]. rewrite !from_quat_ok by auto. cbn [bind].
    match goal with |- context [and_then ?l] =>
      destruct (and_then_all l [[vx; vy; vz] = [vx'; vy'; vz']; [x; y; z] = [x'; y'; z']; qdir q1 q2 q3 q4 = qdir q1' q2' q3' q4';
                 [wx; wy; wz] = [wx'; wy'; wz']]) as (r & E & Hr) end.
    { constructor; [exact (all_eq_fin r32 [vx; vy; vz] [vx'; vy'; vz'] eq_refl)|].
      constructor; [exact (all_eq_fin r32 [x; y; z] [x'; y'; z'] eq_refl)|].
      constructor; [exact (all_eq_fin r32 (qdir q1 q2 q3 q4) (qdir q1' q2' q3' q4') eq_refl)|].
      constructor; [exact (all_eq_fin r32 [wx; wy; wz] [wx'; wy'; wz'] eq_refl)|constructor]. }
    exists r. split; [exact E|]. rewrite Hr. cbn [conj_all]. split.
    - intros (Q1 & Q2 & Q3 & Q4 & _). injection Q1; injection Q2; injection Q4; intros; subst; auto.
    - intros (Q & ?). injection Q; intros; subst; auto 10.
  Qed.

  Lemma six_eq a b x y z q1 q2 q3 q4 vx vy vz wx wy wz x' y' z' q1' q2' q3' q4' vx' vy' vz' wx' wy' wz' :
    is_a SixDOFSpacecraftC [x; y; z; q1; q2; q3; q4; vx; vy; vz; wx; wy; wz] a ->
    is_a SixDOFSpacecraftC [x'; y'; z'; q1'; q2'; q3'; q4'; vx'; vy'; vz'; wx'; wy'; wz'] b ->
    ~ (q1 = 0 /\ q2 = 0 /\ q3 = 0 /\ q4 = 0) -> ~ (q1' = 0 /\ q2' = 0 /\ q3' = 0 /\ q4' = 0) ->
    exists r, py_eq ae a b = Ok r /\
      (r = true <-> [x; y; z; vx; vy; vz; wx; wy; wz] = [x'; y'; z'; vx'; vy'; vz'; wx'; wy'; wz'] /\
                    qdir q1 q2 q3 q4 = qdir q1' q2' q3' q4').
  Proof.
    intros Ha Hb Hq Hq'. destruct (py_eq_cases ae a b) as [-> | ->]; [apply six_eq_method; auto|].
    destruct (six_eq_method _ _ _ _ _ _ _ _ _ _ _ _ _ _ _ _ _ _ _ _ _ _ _ _ _ _ _ _ Hb Ha Hq' Hq) as (r & E & H). exists r. split; auto. rewrite H.
    split; intros [? ?]; split; congruence.
  Qed.

  (** Comparing two spacecraft at the same place with the default (zero) quaternion raises. *)
  Lemma six_eq_raises a x y z vx vy vz wx wy wz :
    is_a SixDOFSpacecraftC [x; y; z; 0; 0; 0; 0; vx; vy; vz; wx; wy; wz] a ->
    py_eq ae a a = Err ValueError.
  Proof.
    intros [A1_ A2]. unfold py_eq. rewrite cls_eqb_refl. cbn [negb andb].
    unfold eq_method. rewrite A1_, isinstance_leaf, A1_ by reflexivity. cbn [cls_eqb].
    unfold position, velocity. rewrite A1_. unfold sixdof_position, sixdof_velocity, sixdof_quaternion, sixdof_angular_velocity.
    rewrite A2. cbn [aidx map nth_error bind]. rewrite from_quat_zero. cbn [bind app and_then].
    destruct (all_eq_fin r32 [vx; vy; vz] [vx; vy; vz] eq_refl) as (b1 & E1 & H1).
    destruct (all_eq_fin r32 [x; y; z] [x; y; z] eq_refl) as (b2 & E2 & H2).
    cbn [map] in E1, E2. rewrite E1, E2. assert (b1 = true) as -> by tauto. assert (b2 = true) as -> by tauto. reflexivity.
  Qed.

  (** *** Integrator 1d *)
  Lemma int1_eq_method a b x v x' v' : is_a Integrator1dC [x; v] a -> is_a Integrator1dC [x'; v'] b ->
    exists r, eq_method ae a b = Ok r /\ (r = true <-> x = x' /\ v = v').
  Proof.
    intros [A1_ A2] [B1 B2].
    unfold eq_method. rewrite A1_, isinstance_leaf, B1 by reflexivity. cbn [cls_eqb].
    unfold position, velocity. rewrite A1_, B1. unfold integ1_position, integ1_velocity. rewrite A2, B2. cbn [aidx map nth_error bind].
    match goal with |- context [and_then ?l] =>
      destruct (and_then_all l [v = v'; x = x']) as (r & E & Hr) end.
    { constructor; [|constructor; [|constructor]]; eexists; (split; [cbn [all_eq bind bmap2 all_true]; reflexivity|apply xeqb_fin]). }
    exists r. split; [exact E|]. rewrite Hr. cbn [conj_all]. tauto.
  Qed.
  Lemma int1_eq a b x v x' v' : is_a Integrator1dC [x; v] a -> is_a Integrator1dC [x'; v'] b ->
    exists r, py_eq ae a b = Ok r /\ (r = true <-> x = x' /\ v = v').
  Proof.
    intros Ha Hb. destruct (py_eq_cases ae a b) as [-> | ->]; [apply int1_eq_method; auto|].
    destruct (int1_eq_method _ _ _ _ _ _ Hb Ha) as (r & E & H). exists r. split; auto. rewrite H. intuition.
  Qed.
End X.
