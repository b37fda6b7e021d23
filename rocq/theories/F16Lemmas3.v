(** Force and moment equations of the airframe model (C59, C76). *)
From Coq Require Import String List ZArith Reals Lra Lia Bool.
From Flocq Require Import Core.Core.
From Coquelicot Require Import Coquelicot.
From Verif Require Import PyBase Num XReal XTac Aero Morelli F16 SpecTables SpecAero SpecF16
  AeroLemmas AeroLemmas2 AeroLemmas3 AeroProps AeroProps2 AeroProps3 F16Lemmas F16Lemmas2.
Import List ListNotations.
Local Open Scope R_scope.
Local Hint Extern 0 (Num xr) => exact (XR Fin) : typeclass_instances.

Section Rest.
  Variables (x : airframe) (Q t : R) (xd12 : xr) (adj : bool) (c1 c2 c3 c4 c5 c6 : R).
  Variables d0 d1 d2 d3 d4 d5 d6 d7 d8 : R.
  Hypothesis Hvt : a_vt x <> 0.
  Hypothesis Hcb : cos (a_beta x) <> 0.
  Let d := [d0; d1; d2; d3; d4; d5; d6; d7; d8].
  Let out := rest_of x (Fin Q) t xd12 adj (Fin c1, Fin c2, Fin c3, Fin c4, Fin c5, Fin c6) d.
  Let tv := 5 / 10 / a_vt x.
  Let p := a_p x. Let q := a_q x. Let r := a_r x. Let vt := a_vt x.
  Let cX := c1 + 1132 / 100 * q * tv * d0.
  Let cY := c2 + 30 / 1 * tv * (d1 * r + d2 * p).
  Let cZ := c3 + 1132 / 100 * q * tv * d3.
  Let cL := c4 + 30 / 1 * tv * (d4 * r + d5 * p).
  Let cM := c5 + 1132 / 100 * q * tv * d6 + cZ * (35 / 100 - 35 / 100).
  Let cN := c6 + 30 / 1 * tv * (d7 * r + d8 * p) - cY * (35 / 100 - 35 / 100) * (1132 / 100) / (30 / 1).
  Let qs := Q * (300 / 1).
  Let ca := cos (a_alpha x). Let sa := sin (a_alpha x).
  Let cb := cos (a_beta x). Let sb := sin (a_beta x).
  Let cth := cos (a_theta x). Let sth := sin (a_theta x).
  Let cph := cos (a_phi x). Let sph := sin (a_phi x).
  Let ub := vt * ca * cb. Let vb := vt * sb. Let wb := vt * sa * cb.
  Let g := 3217 / 100.
  Let ay := 157 / 100000 * qs * cY.
  Let az := 157 / 100000 * qs * cZ.
  Let udot := r * vb - q * wb - g * sth + 157 / 100000 * (qs * cX + t).
  Let vdot := p * wb - r * ub + g * cth * sph + ay.
  Let wdot := q * ub - p * vb + g * cth * cph + az.
  Let v0 := (ub * udot + vb * vdot + wb * wdot) / vt.
  Let dum := ub * ub + wb * wb.

  Lemma tvt_fin : ndiv (nlit 5 10 : xr) (Fin (a_vt x)) = Fin tv.
  Proof. apply (div_fin (5 / 10)). exact Hvt. Qed.

  Lemma dum_pos : dum <> 0.
  Proof.
    unfold dum, ub, wb. replace (_ + _) with (vt * vt * (cb * cb) * (sa * sa + ca * ca)) by ring.
    unfold sa. rewrite sin2. fold ca. replace (1 - ca * ca + ca * ca) with 1 by ring.
    rewrite Rmult_1_r. apply Rmult_integral_contrapositive_currified;
      apply Rmult_integral_contrapositive_currified; assumption.
  Qed.

  Lemma out_eq : out = subf16_rest (Fin (a_vt x)) (Fin (a_p x)) (Fin (a_q x)) (Fin (a_r x)) (Fin Q)
    (Fin t) xd12 adj (Fin c1) (Fin c2) (Fin c3) (Fin c4) (Fin c5) (Fin c6) (map Fin d)
    (Fin cb) (Fin ca) (Fin sb) (Fin sa) (Fin sth) (Fin cth) (Fin sph) (Fin cph)
    (Fin (sin (a_psi x))) (Fin (cos (a_psi x))) (Fin (sth / cth)).
  Proof. reflexivity. Qed.

  Lemma comp0 : comp out 0 = Fin v0.
  Proof.
    rewrite out_eq. unfold subf16_rest, comp. rewrite tvt_fin.
    transitivity (ndiv (Fin (ub * udot + vb * vdot + wb * wdot)) (Fin vt)); [reflexivity|].
    apply div_fin. exact Hvt.
  Qed.
  Lemma comp1 : comp out 1 = Fin ((ub * wdot - wb * udot) / dum).
  Proof.
    rewrite out_eq. unfold subf16_rest, comp. rewrite tvt_fin.
    transitivity (ndiv (Fin (ub * wdot - wb * udot)) (Fin dum)); [reflexivity|].
    apply div_fin. exact dum_pos.
  Qed.
  Lemma comp2 : comp out 2 = Fin ((vt * vdot - vb * v0) * cb / dum).
  Proof.
    transitivity (ndiv (nmul (nsub (Fin (vt * vdot)) (nmul (Fin vb) (comp out 0))) (Fin cb)) (Fin dum)).
    - rewrite out_eq. unfold subf16_rest, comp. rewrite tvt_fin. reflexivity.
    - rewrite comp0. apply div_fin. exact dum_pos.
  Qed.

  Let w6 := (2755 / 100000 * p + -770 / 1000 * r + 1642 / 1000000000 * (160 / 1)) * q
            + qs * (30 / 1) * (1055 / 10000000 * cL + 1642 / 1000000000 * cN).
  Let w7 := (9604 / 10000 * p - 1792 / 100000000 * (160 / 1)) * r
            + 1759 / 100000 * (r * r - p * p) + qs * (1132 / 100) * (1792 / 100000000) * cM.
  Let w8 := (-7336 / 10000 * p - 2755 / 100000 * r + 1587 / 100000000 * (160 / 1)) * q
            + qs * (30 / 1) * (1642 / 1000000000 * cL + 1587 / 100000000 * cN).

  Lemma cn_fin : ndiv (nmul (nmul (Fin cY) (nsub f_xcgr f_xcg)) f_cbar) f_b
    = Fin (cY * (35 / 100 - 35 / 100) * (1132 / 100) / (30 / 1)).
  Proof.
    change (ndiv (Fin (cY * (35 / 100 - 35 / 100) * (1132 / 100))) (Fin (30 / 1))
      = Fin (cY * (35 / 100 - 35 / 100) * (1132 / 100) / (30 / 1))).
    apply div_fin. lra.
  Qed.

  Lemma comp6 : comp out 6 = Fin w6.
  Proof.
    rewrite out_eq. unfold subf16_rest, comp. rewrite tvt_fin.
    transitivity (nadd (Fin ((2755 / 100000 * p + -770 / 1000 * r + 1642 / 1000000000 * (160 / 1)) * q))
      (nmul (Fin (qs * (30 / 1))) (nadd (Fin (1055 / 10000000 * cL)) (nmul (Fin (1642 / 1000000000))
        (nsub (Fin (c6 + 30 / 1 * tv * (d7 * r + d8 * p)))
          (ndiv (nmul (nmul (Fin cY) (nsub f_xcgr f_xcg)) f_cbar) f_b))))));
      [reflexivity|]. rewrite cn_fin. reflexivity.
  Qed.
  Lemma comp7 : comp out 7 = Fin w7.
  Proof. rewrite out_eq. unfold subf16_rest, comp. rewrite tvt_fin. reflexivity. Qed.
  Lemma comp8 : comp out 8 = Fin w8.
  Proof.
    rewrite out_eq. unfold subf16_rest, comp. rewrite tvt_fin.
    transitivity (nadd (Fin ((-7336 / 10000 * p - 2755 / 100000 * r + 1587 / 100000000 * (160 / 1)) * q))
      (nmul (Fin (qs * (30 / 1))) (nadd (Fin (1642 / 1000000000 * cL)) (nmul (Fin (1587 / 100000000))
        (nsub (Fin (c6 + 30 / 1 * tv * (d7 * r + d8 * p)))
          (ndiv (nmul (nmul (Fin cY) (nsub f_xcgr f_xcg)) f_cbar) f_b))))));
      [reflexivity|]. rewrite cn_fin. reflexivity.
  Qed.

  Lemma az_out : (let '(_, _, _, z, _) := out in z) = Fin (az - 15 * w7).
  Proof.
    transitivity (nsub (Fin az) (nmul (nZ 15) (comp out 7))).
    - rewrite out_eq. unfold subf16_rest, comp. rewrite tvt_fin. reflexivity.
    - rewrite comp7, nZ_fin. reflexivity.
  Qed.
  Lemma ay_out : (let '(_, _, _, _, y) := out in y) = Fin (ay + (if adj then 15 * w8 else 0)).
  Proof.
    transitivity (if adj then nadd (Fin ay) (nmul (nZ 15) (comp out 8)) else Fin ay).
    - rewrite out_eq. unfold subf16_rest, comp. rewrite tvt_fin. reflexivity.
    - rewrite comp8, nZ_fin. destruct adj; [reflexivity|]. f_equal. ring.
  Qed.

  Lemma nz_out : (let '(_, z, _, _, _) := out in z) = Fin (- (az - 15 * w7) / 32.17 - 1).
  Proof.
    transitivity (nsub (ndiv (nneg (let '(_, _, _, z, _) := out in z)) f_g) n1).
    - rewrite out_eq. reflexivity.
    - rewrite az_out. change (nneg (Fin (az - 15 * w7))) with (Fin (- (az - 15 * w7))).
      change f_g with (Fin (3217 / 100)). rewrite div_fin by lra. cbn. f_equal. lra.
  Qed.
  Lemma ny_out : (let '(_, _, y, _, _) := out in y) = Fin ((ay + (if adj then 15 * w8 else 0)) / 32.17).
  Proof.
    transitivity (ndiv (let '(_, _, _, _, y) := out in y) f_g).
    - rewrite out_eq. reflexivity.
    - rewrite ay_out. change f_g with (Fin (3217 / 100)). rewrite div_fin by lra. f_equal.
  Qed.

  Lemma newton_rate : velocity_rate x v0 ((ub * wdot - wb * udot) / dum) ((vt * vdot - vb * v0) * cb / dum)
    = (udot, vdot, wdot).
  Proof.
    unfold velocity_rate. fold vt ca sa cb sb.
    assert (Ha : sa * sa + ca * ca = 1) by (unfold sa; rewrite sin2; fold ca; ring).
    assert (Hb : sb * sb + cb * cb = 1) by (unfold sb; rewrite sin2; fold cb; ring).
    assert (Ed : dum = vt * vt * (cb * cb)).
    { unfold dum, ub, wb. transitivity (vt * vt * (cb * cb) * (sa * sa + ca * ca)); [ring|].
      rewrite Ha. ring. }
    assert (Ev : v0 = ca * cb * udot + sb * vdot + sa * cb * wdot).
    { unfold v0, ub, vb, wb. field. exact Hvt. }
    assert (E1 : vt * ((ub * wdot - wb * udot) / dum) * cb = ca * wdot - sa * udot).
    { rewrite Ed. unfold ub, wb. field. split; assumption. }
    assert (E2 : vt * ((vt * vdot - vb * v0) * cb / dum) = (vdot - sb * v0) / cb).
    { rewrite Ed. unfold vb. field. split; assumption. }
    set (X1 := (ub * wdot - wb * udot) / dum) in *. set (X2 := (vt * vdot - vb * v0) * cb / dum) in *.
    assert (E3 : vt * X2 = cb * vdot - sb * (ca * udot + sa * wdot)).
    { rewrite E2, Ev. replace (vdot - sb * (ca * cb * udot + sb * vdot + sa * cb * wdot))
        with (vdot * (1 - sb * sb) - sb * cb * (ca * udot + sa * wdot)) by ring.
      replace (1 - sb * sb) with (cb * cb) by lra. field. exact Hcb. }
    apply f_equal2; [apply f_equal2|].
    - replace (v0 * ca * cb - vt * sa * X1 * cb - vt * ca * (sb * X2))
        with (v0 * ca * cb - sa * (vt * X1 * cb) - ca * sb * (vt * X2)) by ring.
      rewrite E1, E3, Ev.
      transitivity (udot * (ca * ca * (cb * cb + sb * sb) + sa * sa)
        + wdot * (ca * sa * (cb * cb + sb * sb) - sa * ca)); [ring|].
      replace (cb * cb + sb * sb) with 1 by lra. rewrite !Rmult_1_r.
      replace (ca * ca + sa * sa) with 1 by lra. ring.
    - replace (v0 * sb + vt * (cb * X2)) with (v0 * sb + cb * (vt * X2)) by ring.
      rewrite E3, Ev. transitivity (vdot * (sb * sb + cb * cb)); [ring|]. rewrite Hb. ring.
    - replace (v0 * sa * cb + vt * (ca * X1) * cb - vt * sa * (sb * X2))
        with (v0 * sa * cb + ca * (vt * X1 * cb) - sa * sb * (vt * X2)) by ring.
      rewrite E1, E3, Ev.
      transitivity (wdot * (sa * sa * (cb * cb + sb * sb) + ca * ca)
        + udot * (ca * sa * (cb * cb + sb * sb) - sa * ca)); [ring|].
      replace (cb * cb + sb * sb) with 1 by lra. rewrite !Rmult_1_r.
      replace (sa * sa + ca * ca) with 1 by lra. ring.
  Qed.

  (** The whole, in terms of the specification. *)
  Lemma rest_force : exists v' a' b' fx fy fz p' q' r' nz ny yo zo,
    comp out 0 = Fin v' /\ comp out 1 = Fin a' /\ comp out 2 = Fin b' /\
    comp out 6 = Fin p' /\ comp out 7 = Fin q' /\ comp out 8 = Fin r' /\
    out = (fst (fst (fst (fst out))), Fin nz, Fin ny, Fin zo, Fin yo) /\
    velocity_rate x v' a' b' = newton x fx fy fz /\
    fx = 0.00157 * (300 * Q * (c1 + half_chord x * q * d0) + t) /\
    fy = 0.00157 * (300 * Q * (c2 + half_span x * (d1 * r + d2 * p))) /\
    fz = 0.00157 * (300 * Q * (c3 + half_chord x * q * d3)) /\
    (p', q', r') = rotation_rate p q r Q (c4 + half_span x * (d4 * r + d5 * p))
                     (c5 + half_chord x * q * d6) (c6 + half_span x * (d7 * r + d8 * p)) /\
    zo = fz - 15 * q' /\ yo = fy + (if adj then 15 * r' else 0) /\
    nz = - zo / 32.17 - 1 /\ ny = yo / 32.17.
  Proof.
    exists v0, ((ub * wdot - wb * udot) / dum), ((vt * vdot - vb * v0) * cb / dum).
    exists (157 / 100000 * (qs * cX + t)), ay, az, w6, w7, w8.
    exists (- (az - 15 * w7) / 32.17 - 1), ((ay + (if adj then 15 * w8 else 0)) / 32.17).
    exists (ay + (if adj then 15 * w8 else 0)), (az - 15 * w7).
    split; [exact comp0|]. split; [exact comp1|]. split; [exact comp2|].
    split; [exact comp6|]. split; [exact comp7|]. split; [exact comp8|].
    pose proof nz_out as E1. pose proof ny_out as E2. pose proof az_out as E3. pose proof ay_out as E4.
    split.
    { destruct out as [[[[xd n1] n2] z] y]. cbn [fst]. rewrite E1, E2, E3, E4. reflexivity. }
    assert (Eh : half_chord x = 1132 / 100 * tv).
    { unfold half_chord, tv. replace 11.32 with (1132 / 100) by lra. field. exact Hvt. }
    assert (Es : half_span x = 30 / 1 * tv).
    { unfold half_span, tv. field. exact Hvt. }
    split.
    { rewrite newton_rate. unfold newton, body_velocity. fold vt ca sa cb sb ub vb wb p q r.
      fold cth sth cph sph.
      apply f_equal2; [apply f_equal2|]; unfold udot, vdot, wdot, g; lra. }
    split; [unfold cX, qs; rewrite Eh; lra|].
    split; [unfold ay, cY, qs; rewrite Es; lra|].
    split; [unfold az, cZ, qs; rewrite Eh; lra|].
    split.
    { unfold rotation_rate. rewrite Eh, Es.
      apply f_equal2; [apply f_equal2|]; unfold w6, w7, w8, cL, cM, cN, qs; field_simplify_eq; lra. }
    repeat split; reflexivity.
  Qed.
End Rest.
