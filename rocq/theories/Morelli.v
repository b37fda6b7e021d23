(** The polynomial aerodynamic model, lowlevel/morellif16.py. Integer powers are repeated
    products. The debugging print of lines 172-174 is not modelled. *)
From Coq Require Import List ZArith Bool.
From Verif Require Import PyBase Num.
Local Open Scope num_scope.

Section Morelli.
  Context {T : Type} {N : Num T}.

  Fixpoint nipow (x : T) (n : nat) : T :=
    match n with O => n1 | 1%nat => x | S m => nipow x m * x end.
  Local Notation "x ^ n" := (nipow x n%nat) : num_scope.

  (** [max(-d * pi / 180, min(d' * pi / 180, x))] *)
  Definition saturate (lo hi x : T) : T :=
    py_max (lo * npi / nZ 180) (py_min (hi * npi / nZ 180) x).

  (** morellif16.py 37-207, after the saturation of the first five arguments *)
  Definition morelli_body (alpha beta de da dr p q r cbar b V xcg xcgref : T)
    : T * T * T * T * T * T :=
    let phat := p * b / (nZ 2 * V) in
    let qhat := q * cbar / (nZ 2 * V) in
    let rhat := r * b / (nZ 2 * V) in
    let a0 := (nlit (-1943367) 100000000) in
    let a1 := (nlit 2136104 10000000) in
    let a2 := (nlit (-2903457) 10000000) in
    let a3 := (nlit (-3348641) 1000000000) in
    let a4 := (nlit (-2060504) 10000000) in
    let a5 := (nlit 6988016 10000000) in
    let a6 := (nlit (-9035381) 10000000) in
    let b0 := (nlit 4833383 10000000) in
    let b1 := (nlit 8644627 1000000) in
    let b2 := (nlit 1131098 100000) in
    let b3 := (nlit (-7422961) 100000) in
    let b4 := (nlit 6075776 100000) in
    let c0 := (nlit (-1145916) 1000000) in
    let c1 := (nlit 6016057 100000000) in
    let c2 := (nlit 1642479 10000000) in
    let d0 := (nlit (-1006733) 10000000) in
    let d1 := (nlit 8679799 10000000) in
    let d2 := (nlit 4260586 1000000) in
    let d3 := (nlit (-6923267) 1000000) in
    let e0 := (nlit 8071648 10000000) in
    let e1 := (nlit 1189633 10000000) in
    let e2 := (nlit 4177702 1000000) in
    let e3 := (nlit (-9162236) 1000000) in
    let f0 := (nlit (-1378278) 10000000) in
    let f1 := (nlit (-4211369) 1000000) in
    let f2 := (nlit 4775187 1000000) in
    let f3 := (nlit (-1026225) 100000) in
    let f4 := (nlit 8399763 1000000) in
    let f5 := (nlit (-4354000) 10000000) in
    let g0 := (nlit (-3054956) 100000) in
    let g1 := (nlit (-4132305) 100000) in
    let g2 := (nlit 3292788 10000) in
    let g3 := (nlit (-6848038) 10000) in
    let g4 := (nlit 4080244 10000) in
    let h0 := (nlit (-105853) 1000000) in
    let h1 := (nlit (-5776677) 10000000) in
    let h2 := (nlit (-1672435) 100000000) in
    let h3 := (nlit 1357256 10000000) in
    let h4 := (nlit 2172952 10000000) in
    let h5 := (nlit 3464156 1000000) in
    let h6 := (nlit (-2835451) 1000000) in
    let h7 := (nlit (-1098104) 1000000) in
    let i0 := (nlit (-4126806) 10000000) in
    let i1 := (nlit (-1189974) 10000000) in
    let i2 := (nlit 1247721 1000000) in
    let i3 := (nlit (-7391132) 10000000) in
    let j0 := (nlit 6250437 100000000) in
    let j1 := (nlit 6067723 10000000) in
    let j2 := (nlit (-1101964) 1000000) in
    let j3 := (nlit 9100087 1000000) in
    let j4 := (nlit (-1192672) 100000) in
    let k0 := (nlit (-1463144) 10000000) in
    let k1 := (nlit (-407391) 10000000) in
    let k2 := (nlit 3253159 100000000) in
    let k3 := (nlit 4851209 10000000) in
    let k4 := (nlit 2978850 10000000) in
    let k5 := (nlit (-3746393) 10000000) in
    let k6 := (nlit (-3213068) 10000000) in
    let l0 := (nlit 2635729 100000000) in
    let l1 := (nlit (-2192910) 100000000) in
    let l2 := (nlit (-3152901) 1000000000) in
    let l3 := (nlit (-5817803) 100000000) in
    let l4 := (nlit 4516159 10000000) in
    let l5 := (nlit (-4928702) 10000000) in
    let l6 := (nlit (-1579864) 100000000) in
    let m0 := (nlit (-2029370) 100000000) in
    let m1 := (nlit 4660702 100000000) in
    let m2 := (nlit (-6012308) 10000000) in
    let m3 := (nlit (-8062977) 100000000) in
    let m4 := (nlit 8320429 100000000) in
    let m5 := (nlit 5018538 10000000) in
    let m6 := (nlit 6378864 10000000) in
    let m7 := (nlit 4226356 10000000) in
    let n0 := (nlit (-519153) 100000) in
    let n1 := (nlit (-3554716) 1000000) in
    let n2 := (nlit (-3598636) 100000) in
    let n3 := (nlit 2247355 10000) in
    let n4 := (nlit (-4120991) 10000) in
    let n5 := (nlit 2411750 10000) in
    let o0 := (nlit 2993363 10000000) in
    let o1 := (nlit 6594004 100000000) in
    let o2 := (nlit (-2003125) 10000000) in
    let o3 := (nlit (-6233977) 100000000) in
    let o4 := (nlit (-2107885) 1000000) in
    let o5 := (nlit 2141420 1000000) in
    let o6 := (nlit 8476901 10000000) in
    let p0 := (nlit 2677652 100000000) in
    let p1 := (nlit (-3298246) 10000000) in
    let p2 := (nlit 1926178 10000000) in
    let p3 := (nlit 4013325 1000000) in
    let p4 := (nlit (-4404302) 1000000) in
    let q0 := (nlit (-3698756) 10000000) in
    let q1 := (nlit (-1167551) 10000000) in
    let q2 := (nlit (-7641297) 10000000) in
    let r0 := (nlit (-3348717) 100000000) in
    let r1 := (nlit 4276655 100000000) in
    let r2 := (nlit 6573646 1000000000) in
    let r3 := (nlit 3535831 10000000) in
    let r4 := (nlit (-1373308) 1000000) in
    let r5 := (nlit 1237582 1000000) in
    let r6 := (nlit 2302543 10000000) in
    let r7 := (nlit (-2512876) 10000000) in
    let r8 := (nlit 1588105 10000000) in
    let r9 := (nlit (-5199526) 10000000) in
    let s0 := (nlit (-8115894) 100000000) in
    let s1 := (nlit (-1156580) 100000000) in
    let s2 := (nlit 2514167 100000000) in
    let s3 := (nlit 2038748 10000000) in
    let s4 := (nlit (-3337476) 10000000) in
    let s5 := (nlit 1004297 10000000) in
    let Cx0 := a0 + a1 * alpha + a2 * de^2 + a3 * de + a4 * alpha * de + a5 * alpha^2 + a6 *
      alpha^3 in
    let Cxq := b0 + b1 * alpha + b2 * alpha^2 + b3 * alpha^3 + b4 * alpha^4 in
    let Cy0 := c0 * beta + c1 * da + c2 * dr in
    let Cyp := d0 + d1 * alpha + d2 * alpha^2 + d3 * alpha^3 in
    let Cyr := e0 + e1 * alpha + e2 * alpha^2 + e3 * alpha^3 in
    let Cz0 := (f0 + f1 * alpha + f2 * alpha^2 + f3 * alpha^3 + f4 * alpha^4) * (nZ 1 - beta^2) +
      f5 * de in
    let Czq := g0 + g1 * alpha + g2 * alpha^2 + g3 * alpha^3 + g4 * alpha^4 in
    let Cl0 := h0 * beta + h1 * alpha * beta + h2 * alpha^2 * beta + h3 * beta^2 + h4 * alpha *
      beta^2 + h5 * alpha^3 * beta + h6 * alpha^4 * beta + h7 * alpha^2 * beta^2 in
    let Clp := i0 + i1 * alpha + i2 * alpha^2 + i3 * alpha^3 in
    let Clr := j0 + j1 * alpha + j2 * alpha^2 + j3 * alpha^3 + j4 * alpha^4 in
    let Clda := k0 + k1 * alpha + k2 * beta + k3 * alpha^2 + k4 * alpha * beta + k5 * alpha^2 *
      beta + k6 * alpha^3 in
    let Cldr := l0 + l1 * alpha + l2 * beta + l3 * alpha * beta + l4 * alpha^2 * beta + l5 *
      alpha^3 * beta + l6 * beta^2 in
    let Cm0 := m0 + m1 * alpha + m2 * de + m3 * alpha * de + m4 * de^2 + m5 * alpha^2 * de + m6
      * de^3 + m7 * alpha * de^2 in
    let Cmq := n0 + n1 * alpha + n2 * alpha^2 + n3 * alpha^3 + n4 * alpha^4 + n5 * alpha^5 in
    let Cn0 := o0 * beta + o1 * alpha * beta + o2 * beta^2 + o3 * alpha * beta^2 + o4 * alpha^2
      * beta + o5 * alpha^2 * beta^2 + o6 * alpha^3 * beta in
    let Cnp := p0 + p1 * alpha + p2 * alpha^2 + p3 * alpha^3 + p4 * alpha^4 in
    let Cnr := q0 + q1 * alpha + q2 * alpha^2 in
    let Cnda := r0 + r1 * alpha + r2 * beta + r3 * alpha * beta + r4 * alpha^2 * beta + r5 *
      alpha^3 * beta + r6 * alpha^2 + r7 * alpha^3 + r8 * beta^3 + r9 * alpha * beta^3 in
    let Cndr := s0 + s1 * alpha + s2 * beta + s3 * alpha * beta + s4 * alpha^2 * beta + s5 *
      alpha^2 in
    let Cx := Cx0 + Cxq * qhat in
    let Cy := Cy0 + Cyp * phat + Cyr * rhat in
    let Cz := Cz0 + Czq * qhat in
    let Cl := Cl0 + Clp * phat + Clr * rhat + Clda * da + Cldr * dr in
    let Cm := Cm0 + Cmq * qhat + Cz * (xcgref - xcg) in
    let Cn := Cn0 + Cnp * phat + Cnr * rhat + Cnda * da + Cndr * dr - Cy * (xcgref - xcg) *
      (cbar / b) in
    (Cx, Cy, Cz, Cl, Cm, Cn).

  (** morellif16.py 22-207 *)
  Definition Morellif16 (alpha beta de da dr p q r cbar b V xcg xcgref : T)
    : T * T * T * T * T * T :=
    let alpha := saturate (nZ (-10)) (nZ 45) alpha in
    let beta := saturate (nZ (-30)) (nZ 30) beta in
    let de := saturate (nZ (-25)) (nZ 25) de in
    let da := saturate (nlit (-215) 10) (nlit 215 10) da in
    let dr := saturate (nZ (-30)) (nZ 30) dr in
    morelli_body alpha beta de da dr p q r cbar b V xcg xcgref.
End Morelli.
