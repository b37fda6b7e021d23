(** The F-16 airframe and its low level controller:
    safe_autonomy_dynamics/external/aerobench/lowlevel/{subf16_model,conf16,clf16,
    low_level_controller}.py and controlled_f16.py. States are numpy arrays of numpy
    floats, so dividing them by zero gives inf or nan; [math.sin(theta)/math.cos(theta)] divides
    Python floats and raises. Any model string but the two known ones raises AssertionError. *)
From Coq Require Import String List ZArith Bool.
From Verif Require Import PyBase Num Aero Morelli.
Import ListNotations.
Local Open Scope num_scope.

Section F16.
  Context {T : Type} {N : Num T}.

  (** [math.sin] and [math.cos] raise ValueError on an infinite argument. *)
  Definition m_sin (x : T) : res T :=
    if neqb (nabs x) npinf then Err ValueError else Ok (nsin x).
  Definition m_cos (x : T) : res T :=
    if neqb (nabs x) npinf then Err ValueError else Ok (ncos x).
  (** [math.asin] raises ValueError outside [-1, 1]. *)
  Definition m_asin (x : T) : res T :=
    if nltb n1 (nabs x) then Err ValueError else Ok (nasin x).

  (** subf16_model.py 64: [assert model in \['stevens', 'morelli'\]] *)
  Definition known_model (model : string) : bool :=
    String.eqb model "stevens" || String.eqb model "morelli".

  (** subf16_model.py 68-88: constants. *)
  Definition f_xcg : T := nlit 35 100.
  Definition f_s : T := nZ 300.
  Definition f_b : T := nZ 30.
  Definition f_cbar : T := nlit 1132 100.
  Definition f_rm : T := nlit 157 100000.
  Definition f_xcgr : T := nlit 35 100.
  Definition f_he : T := nZ 160.
  Definition f_c1 : T := nlit (-770) 1000.
  Definition f_c2 : T := nlit 2755 100000.
  Definition f_c3 : T := nlit 1055 10000000.
  Definition f_c4 : T := nlit 1642 1000000000.
  Definition f_c5 : T := nlit 9604 10000.
  Definition f_c6 : T := nlit 1759 100000.
  Definition f_c7 : T := nlit 1792 100000000.
  Definition f_c8 : T := nlit (-7336) 10000.
  Definition f_c9 : T := nlit 1587 100000000.
  Definition f_rtod : T := nlit 5729578 100000.
  Definition f_g : T := nlit 3217 100.

  (** subf16_model.py 110-127: the component build up of either aerodynamic model. *)
  Definition buildup (model : string) (alpha beta el ail rdr p q r vt : T)
    : res (T * T * T * T * T * T) :=
    let dail := ail / nZ 20 in
    let drdr := rdr / nZ 30 in
    if String.eqb model "stevens" then
      cxt <- cx alpha el ;;
      let cyt := cy beta ail rdr in
      czt <- cz alpha beta el ;;
      cl0 <- cl alpha beta ;;
      dla <- dlda alpha beta ;;
      dlr <- dldr alpha beta ;;
      let clt := cl0 + dla * dail + dlr * drdr in
      cmt <- cm alpha el ;;
      cn0 <- cn alpha beta ;;
      dna <- dnda alpha beta ;;
      dnr <- dndr alpha beta ;;
      let cnt := cn0 + dna * dail + dnr * drdr in
      Ok (cxt, cyt, czt, clt, cmt, cnt)
    else
      Ok (Morellif16 (alpha * npi / nZ 180) (beta * npi / nZ 180) (el * npi / nZ 180)
            (ail * npi / nZ 180) (rdr * npi / nZ 180) p q r f_cbar f_b vt f_xcg f_xcgr).

  (** Unpack exactly [n] values ([thtlc, el, ail, rdr = u] and friends). *)
  Definition nth0 (l : list T) (i : nat) : T := nth i l n0.

  (** subf16_model.py 129-212, given the coefficients, the damping derivatives [d] and the sines,
      cosines and tangent ([tth]) of the angles. Returns xd, Nz, Ny, az, ay. *)
  Definition subf16_rest (vt p q r qbar t xd12 : T) (adjust_cy : bool)
      (cxt cyt czt clt cmt cnt : T) (d : list T)
      (cbta calf sbta salf sth cth sph cph spsi cpsi tth : T)
    : list T * T * T * T * T :=
    let tvt := nlit 5 10 / vt in
    let b2v := f_b * tvt in
    let cq := f_cbar * q * tvt in
    let cxt := cxt + cq * nth0 d 0 in
    let cyt := cyt + b2v * (nth0 d 1 * r + nth0 d 2 * p) in
    let czt := czt + cq * nth0 d 3 in
    let clt := clt + b2v * (nth0 d 4 * r + nth0 d 5 * p) in
    let cmt := cmt + cq * nth0 d 6 + czt * (f_xcgr - f_xcg) in
    let cnt := cnt + b2v * (nth0 d 7 * r + nth0 d 8 * p)
               - cyt * (f_xcgr - f_xcg) * f_cbar / f_b in
    let ub := vt * calf * cbta in
    let vb := vt * sbta in
    let wb := vt * salf * cbta in
    let qs := qbar * f_s in
    let qsb := qs * f_b in
    let rmqs := f_rm * qs in
    let gcth := f_g * cth in
    let qsph := q * sph in
    let ay := rmqs * cyt in
    let az := rmqs * czt in
    let udot := r * vb - q * wb - f_g * sth + f_rm * (qs * cxt + t) in
    let vdot := p * wb - r * ub + gcth * sph + ay in
    let wdot := q * ub - p * vb + gcth * cph + az in
    let dum := ub * ub + wb * wb in
    let xd0 := (ub * udot + vb * vdot + wb * wdot) / vt in
    let xd1 := (ub * wdot - wb * udot) / dum in
    let xd2 := (vt * vdot - vb * xd0) * cbta / dum in
    let xd3 := p + tth * (qsph + r * cph) in
    let xd4 := q * cph - r * sph in
    let xd5 := (qsph + r * cph) / cth in
    let xd6 := (f_c2 * p + f_c1 * r + f_c4 * f_he) * q + qsb * (f_c3 * clt + f_c4 * cnt) in
    let xd7 := (f_c5 * p - f_c7 * f_he) * r + f_c6 * (r * r - p * p)
               + qs * f_cbar * f_c7 * cmt in
    let xd8 := (f_c8 * p - f_c2 * r + f_c9 * f_he) * q + qsb * (f_c4 * clt + f_c9 * cnt) in
    let t1 := sph * cpsi in
    let t2 := cph * sth in
    let t3 := sph * spsi in
    let s1 := cth * cpsi in
    let s2 := cth * spsi in
    let s3 := t1 * sth - cph * spsi in
    let s4 := t3 * sth + cph * cpsi in
    let s5 := sph * cth in
    let s6 := t2 * cpsi + t3 in
    let s7 := t2 * spsi - t1 in
    let s8 := cph * cth in
    let xd9 := ub * s1 + vb * s3 + wb * s6 in
    let xd10 := ub * s2 + vb * s4 + wb * s7 in
    let xd11 := ub * sth - vb * s5 - wb * s8 in
    let xa := nZ 15 in
    let az := az - xa * xd7 in
    let ay := if adjust_cy then ay + xa * xd8 else ay in
    let Nz := (- az / f_g) - n1 in
    let Ny := ay / f_g in
    ([xd0; xd1; xd2; xd3; xd4; xd5; xd6; xd7; xd8; xd9; xd10; xd11; xd12],
        Nz, Ny, az, ay).

  (** subf16_model.py 58-212. The sines and cosines are results of [math], hence Python
      floats: [sth / cth] raises ZeroDivisionError when the cosine is zero (line 172), while the
      other divisions have a numpy operand. Returns xd, Nz, Ny, az, ay. *)
  Definition subf16_model (x u : list T) (model : string) (adjust_cy : bool)
    : res (list T * T * T * T * T) :=
    _ <- py_assert (known_model model) ;;
    _ <- py_assert (Nat.eqb (length x) 13) ;;
    _ <- py_assert (Nat.eqb (length u) 4) ;;
    let thtlc := nth0 u 0 in
    let el := nth0 u 1 in
    let ail := nth0 u 2 in
    let rdr := nth0 u 3 in
    let vt := nth0 x 0 in
    let alpha := nth0 x 1 * f_rtod in
    let beta := nth0 x 2 * f_rtod in
    let phi := nth0 x 3 in
    let theta := nth0 x 4 in
    let psi := nth0 x 5 in
    let p := nth0 x 6 in
    let q := nth0 x 7 in
    let r := nth0 x 8 in
    let alt := nth0 x 11 in
    let power := nth0 x 12 in
    let '(amach, qbar) := adc vt alt in
    let cpow := tgear thtlc in
    let xd12 := pdot power cpow in
    t <- thrust power alt amach ;;
    '(cxt, cyt, czt, clt, cmt, cnt) <- buildup model alpha beta el ail rdr p q r vt ;;
    d <- dampp alpha ;;
    cbta <- m_cos (nth0 x 2) ;;
    calf <- m_cos (nth0 x 1) ;;
    sbta <- m_sin (nth0 x 2) ;;
    salf <- m_sin (nth0 x 1) ;;
    sth <- m_sin theta ;;
    cth <- m_cos theta ;;
    sph <- m_sin phi ;;
    cph <- m_cos phi ;;
    spsi <- m_sin psi ;;
    cpsi <- m_cos psi ;;
    tth <- pydiv sth cth ;;
    Ok (subf16_rest vt p q r qbar t xd12 adjust_cy cxt cyt czt clt cmt cnt d
          cbta calf sbta salf sth cth sph cph spsi cpsi tth).

  (** low_level_controller.py 43-46, 57-62: the 3x8 gain matrix. The decimal numerator of the second
      gain exceeds 2^53, so its binary64 value here is one unit in the last place off Python's. *)
  Definition K_lqr : list (list T) :=
    [[nlit (-1568801506723475) 10000000000000; nlit (-31037008068526642) 1000000000000000;
      nlit (-3872983346216317) 100000000000000; n0; n0; n0; n0; n0];
     [n0; n0; n0; nlit 3784483 100000; nlit (-2540956) 100000; nlit (-682876) 100000;
      nlit (-33288343) 100000; nlit (-1715997) 100000];
     [n0; n0; n0; nlit (-2391233) 100000; nlit 569968 100000; nlit (-2163431) 100000;
      nlit 6449490 100000; nlit (-8836203) 100000]].

  (** low_level_controller.py 48-49: trim state and control. *)
  Definition xequil : list T :=
    [nZ 502; nlit 389 10000; n0; n0; nlit 389 10000; n0; n0; n0; n0; n0; n0; nZ 1000;
     nlit 90567 10000].
  Definition uequil : list T := [nlit 1395 10000; nlit (-7496) 10000; n0; n0].

  (** low_level_controller.py 24-31: control limits (low, high). *)
  Definition ctrl_limits : list (T * T) :=
    [(nZ 0, nZ 1); (nZ (-25), nZ 25); (nlit (-215) 10, nlit 215 10); (nZ (-30), nZ 30)].

  (** One row of [np.dot(-K_lqr, x_ctrl)], summed left to right. *)
  Definition ldot (k x : list T) : T :=
    fold_left (fun acc ab => acc + nneg (fst ab) * snd ab) (combine k x) n0.

  (** low_level_controller.py 82: the state indices the controller reads. *)
  Definition ctrl_index : list nat := [1; 7; 13; 2; 6; 8; 14; 15]%nat.

  (** low_level_controller.py 72-111. A state of at least 13 entries has the trim state
      subtracted from its first 13; a shorter one cannot be broadcast against it. Fewer than 16 entries raise
      IndexError, as does a reference of fewer than 4. *)
  Definition get_u_deg (u_ref f16_state : list T) : res (list T * list T) :=
    if Nat.ltb (length f16_state) 13 then Err ValueError
    else if Nat.ltb (length f16_state) 16 then Err IndexError
    else
      let x_delta := map (fun ab => fst ab - snd ab) (combine (firstn 13 f16_state) xequil)
                     ++ skipn 13 f16_state in
      let x_ctrl := map (nth0 x_delta) ctrl_index in
      if Nat.ltb (length u_ref) 4 then Err IndexError
      else
        let u_deg := nth0 u_ref 3 :: map (fun k => ldot k x_ctrl) K_lqr in
        let u_deg := map (fun ab => fst ab + snd ab) (combine u_deg uequil) in
        let u_deg := map (fun ab => py_max (py_min (fst ab) (snd (snd ab))) (fst (snd ab)))
                         (combine u_deg ctrl_limits) in
        Ok (x_ctrl, u_deg).

  (** low_level_controller.py 118-121 *)
  Definition get_integrator_derivatives (u_ref : list T) (Nz ps Ny_r : T) : list T :=
    [Nz - nth0 u_ref 0; ps - nth0 u_ref 1; Ny_r - nth0 u_ref 2].

  (** numpy [deg2rad]: multiplication by pi/180 *)
  Definition deg2rad (x : T) : T := x * (npi / nZ 180).

  (** controlled_f16.py 26-71. Returns xd, u_rad, nz, ps, ny_r. *)
  Definition controlled_f16 (x_f16 u_ref : list T) (model : string) (v2 : bool)
    : res (list T * list T * T * T * T) :=
    _ <- py_assert (Nat.eqb (length u_ref) 4) ;;
    _ <- py_assert (known_model model) ;;
    '(x_ctrl, u_deg) <- get_u_deg u_ref x_f16 ;;
    '(xd_model, nz, ny, _, _) <- subf16_model (firstn 13 x_f16) u_deg model true ;;
    '(ps, ny_r) <-
      (if v2 then
         c <- m_cos (nth0 xd_model 1) ;;
         s <- m_sin (nth0 xd_model 1) ;;
         Ok (nth0 xd_model 6 * c + nth0 xd_model 8 * s, ny + nth0 xd_model 8)
       else
         c <- m_cos (nth0 x_ctrl 0) ;;
         s <- m_sin (nth0 x_ctrl 0) ;;
         Ok (nth0 x_ctrl 4 * c + nth0 x_ctrl 5 * s, ny + nth0 x_ctrl 5)) ;;
    let int_der := get_integrator_derivatives u_ref nz ps ny_r in
    let xd := xd_model ++ int_der ++ repeat n0 (length x_f16 - 16) in
    let u_rad := [nth0 u_deg 0; deg2rad (nth0 u_deg 1); deg2rad (nth0 u_deg 2);
                  deg2rad (nth0 u_deg 3)] ++ firstn 3 u_ref in
    Ok (xd, u_rad, nz, ps, ny_r).

  (** The 12-tuple [const] of conf16.py 25 and clf16.py 33, with the entries that are read. *)
  Record trim_const : Type := {
    k_radgam : T; k_singam : T; k_rr : T; k_pr : T; k_tr : T; k_phi : T;
    k_thetadot : T; k_orient : Z
  }.

  (** In-place assignment [x\[i\] = v]. *)
  Fixpoint upd (l : list T) (i : nat) (v : T) : list T :=
    match l, i with
    | [], _ => []
    | _ :: l', O => v :: l'
    | a :: l', S i' => a :: upd l' i' v
    end.

  (** conf16.py 22-70 on a state of at least 13 entries; returns the modified x. *)
  Definition conf16 (x u : list T) (c : trim_const) : res (list T) :=
    let x := if Z.eqb (k_orient c) 1 then
               let x := upd x 3 (k_phi c) in
               let x := upd x 4 (nth0 x 1) in
               let x := upd x 6 (k_rr c) in
               let x := upd x 7 (k_pr c) in
               upd x 8 n0
             else x in
    let x := if Z.eqb (k_orient c) 2 then
               let x := upd x 3 (k_phi c) in
               let x := upd x 4 (nth0 x 1 + k_radgam c) in
               let x := upd x 6 (k_rr c) in
               let x := upd x 7 (k_pr c) in
               upd x 8 n0
             else x in
    x <- (if Z.eqb (k_orient c) 3 then
            s4 <- m_sin (nth0 x 4) ;;
            let x := upd x 6 (nneg (k_tr c) * s4) in
            c4 <- m_cos (nth0 x 4) ;;
            s3 <- m_sin (nth0 x 3) ;;
            let x := upd x 7 (k_tr c * c4 * s3) in
            c3 <- m_cos (nth0 x 3) ;;
            Ok (upd x 8 (k_tr c * c4 * c3))
          else Ok x) ;;
    let x := if Z.eqb (k_orient c) 4 then
               let x := upd x 4 (nth0 x 1) in
               let x := upd x 3 (k_phi c) in
               let x := upd x 6 (k_rr c) in
               let x := upd x 7 (k_thetadot c) in
               upd x 8 n0
             else x in
    Ok (upd x 12 (tgear (nth0 u 0))).

  Local Notation sq a := (nipow a 2).

  (** clf16.py 60-83: the cost before scaling. *)
  Definition trim_cost (c : trim_const) (gamm : T) (x xd : list T) : res T :=
    if Z.eqb (k_orient c) 1 then
      Ok (nZ 100 * (sq (nth0 xd 0) + sq (nth0 xd 1) + sq (nth0 xd 2) + sq (nth0 xd 6)
                    + sq (nth0 xd 7) + sq (nth0 xd 8)))
    else if Z.eqb (k_orient c) 2 then
      sg <- m_sin gamm ;;
      Ok (nZ 500 * sq (nth0 xd 11 - nth0 x 0 * sg) + sq (nth0 xd 0)
          + nZ 100 * (sq (nth0 xd 1) + sq (nth0 xd 2))
          + nZ 10 * (sq (nth0 xd 6) + sq (nth0 xd 7) + sq (nth0 xd 8)))
    else if Z.eqb (k_orient c) 3 then
      Ok (nth0 xd 0 * nth0 xd 0
          + nZ 100 * (nth0 xd 1 * nth0 xd 1 + nth0 xd 2 * nth0 xd 2
                      + nth0 xd 11 * nth0 xd 11)
          + nZ 10 * (nth0 xd 6 * nth0 xd 6 + nth0 xd 7 * nth0 xd 7 + nth0 xd 8 * nth0 xd 8)
          + nZ 500 * sq (nth0 xd 5 - k_tr c))
    else if Z.eqb (k_orient c) 4 then
      Ok (nZ 500 * sq (nth0 xd 4 - k_thetadot c) + sq (nth0 xd 0)
          + nZ 100 * (sq (nth0 xd 1) + sq (nth0 xd 2))
          + nZ 10 * (sq (nth0 xd 6) + sq (nth0 xd 7) + sq (nth0 xd 8)))
    else Err UnboundLocalError.

  (** clf16.py 25-91 on a 13-entry state and a 4-entry control; [s] has 3 or at least 7
      entries. Returns the cost and the modified x and u. [r**0.5] is the square root. *)
  Definition clf16 (s x u : list T) (c : trim_const) (model : string) (adjust_cy : bool)
    : res (T * list T * list T) :=
    gamm <- m_asin (k_singam c) ;;
    '(x, u) <-
      (if Nat.eqb (length s) 3 then
         Ok (upd x 1 (nth0 s 2), upd (upd u 0 (nth0 s 0)) 1 (nth0 s 1))
       else if Nat.ltb (length s) 7 then Err IndexError
       else
         Ok (upd (upd (upd x 1 (nth0 s 4)) 3 (nth0 s 5)) 4 (nth0 s 6),
             upd (upd (upd (upd u 0 (nth0 s 0)) 1 (nth0 s 1)) 2 (nth0 s 2)) 3 (nth0 s 3))) ;;
    let x := upd x 12 (tgear (nth0 u 0)) in
    x <- conf16 x u c ;;
    '(xd, _, _, _, _) <- subf16_model x u model adjust_cy ;;
    r <- trim_cost c gamm x xd ;;
    let r := if nltb r n1 then nsqrt r else r in
    Ok (r, x, u).
End F16.
