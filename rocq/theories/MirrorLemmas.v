(** Energy balance and mirror symmetry of the F-16 equations. *)
From Coq Require Import String List ZArith Reals Lra Lia Bool.
From Flocq Require Import Core.Core.
From Coquelicot Require Import Coquelicot.
From Verif Require Import PyBase Num XReal XTac Aero Morelli F16 SpecTables SpecAero SpecF16
  AeroLemmas AeroLemmas2 AeroLemmas3 AeroProps AeroProps2 AeroProps3 F16Lemmas F16Lemmas2 F16Lemmas3
  F16Props SpecMorelli MorelliLemmas F16Sym F16Total F16Examples F16Trim SpecMirror.
Import List ListNotations.
Local Open Scope R_scope.
Local Hint Extern 0 (Num xr) => exact (XR Fin) : typeclass_instances.

Lemma f16_bundle x u model adj : known_model model = true -> cos (a_theta x) <> 0 ->
  a_vt x <> 0 -> cos (a_beta x) <> 0 -> a_alt x < 142247 ->
  exists c1 c2 c3 c4 c5 c6 dd Q t d nz ny az ay fx fy fz,
    coefficients model x u c1 c2 c3 c4 c5 c6 /\ environment x dd Q t /\
    subf16_model (state_of x) (control_of u) model adj = Ok (state_of d, Fin nz, Fin ny, Fin az, Fin ay) /\
    velocity_rate x (a_vt d) (a_alpha d) (a_beta d) = newton x fx fy fz /\
    fx = 0.00157 * (300 * Q * (c1 + half_chord x * a_q x * dd 0%nat) + t) /\
    fy = 0.00157 * (300 * Q * (c2 + half_span x * (dd 1%nat * a_r x + dd 2%nat * a_p x))) /\
    fz = 0.00157 * (300 * Q * (c3 + half_chord x * a_q x * dd 3%nat)) /\
    (a_p d, a_q d, a_r d) = rotation_rate (a_p x) (a_q x) (a_r x) Q
      (c4 + half_span x * (dd 4%nat * a_r x + dd 5%nat * a_p x))
      (c5 + half_chord x * a_q x * dd 6%nat)
      (c6 + half_span x * (dd 7%nat * a_r x + dd 8%nat * a_p x)) /\
    Fin (a_pow d) = pdot (Fin (a_pow x)) (tgear (Fin (s_thr u))) /\
    rates_of (a_phi x) (a_theta x) (a_phi d) (a_theta d) (a_psi d) = (a_p x, a_q x, a_r x) /\
    to_earth x (body_velocity x) = (a_pn d, a_pe d, - a_alt d) /\
    az = fz - 15 * a_q d /\ ay = fy + (if adj then 15 * a_r d else 0) /\
    nz = - az / 32.17 - 1 /\ ny = ay / 32.17.
Proof.
  intros Hm Hct Hv Hcb Ha.
  destruct (f16_equations x u model adj Hm Hct Hv Hcb Ha)
    as [c1 [c2 [c3 [c4 [c5 [c6 [dd [Q [t [xd [nz [ny [zo [yo [v' [a' [b' [fx [fy [fz [p' [q' [r'
       [Hc [He [E [L [G0 [G1 [G2 [G6 [G7 [G8 [G12 [HN [Hfx [Hfy [Hfz [HR [Hzo [Hyo [Hnz Hny]]]]]]]]]]]]]]]]]]]]]]]]]]]]]]]]]]]]]]]]]].
  destruct (f16_kin x u model adj Hm Hct) as [out [f' [t' [s' [E' [K3 [K4 [K5 HK]]]]]]]].
  destruct (f16_nav x u model adj Hm Hct) as [out2 [n [e [h [E2 [N1 [N2 [N3 [HV _]]]]]]]]].
  destruct (f16_all x u model adj Hm Hct Hv Hcb Ha) as [d [nz2 [ny2 [az2 [ay2 E3]]]]].
  rewrite E in E', E2, E3. apply ok_inj in E', E2. subst out out2. injection E3 as -> -> -> -> ->.
  exists c1, c2, c3, c4, c5, c6, dd, Q, t, d, nz2, ny2, az2, ay2, fx, fy, fz.
  unfold comp in K3, K4, K5, N1, N2, N3. cbn in G0, G1, G2, G6, G7, G8, G12, K3, K4, K5, N1, N2, N3.
  injection G0 as G0. injection G1 as G1. injection G2 as G2. injection G6 as G6. injection G7 as G7. injection G8 as G8.
  injection K3 as K3. injection K4 as K4. injection K5 as K5. injection N1 as N1. injection N2 as N2. injection N3 as N3.
  subst v' a' b' p' q' r' f' t' s' n e h.
  repeat (apply conj; [assumption || (symmetry; assumption)|]). assumption.
Qed.

(** Kinetic plus potential energy per unit mass changes by the power of the non-gravitational
    force. *)
Lemma energy_balance x u model adj : known_model model = true -> cos (a_theta x) <> 0 ->
  a_vt x <> 0 -> cos (a_beta x) <> 0 -> a_alt x < 142247 ->
  exists c1 c2 c3 c4 c5 c6 dd Q t d nz ny az ay fx fy fz ub vb wb,
    coefficients model x u c1 c2 c3 c4 c5 c6 /\ environment x dd Q t /\
    subf16_model (state_of x) (control_of u) model adj = Ok (state_of d, Fin nz, Fin ny, Fin az, Fin ay) /\
    body_velocity x = (ub, vb, wb) /\
    fx = 0.00157 * (300 * Q * (c1 + half_chord x * a_q x * dd 0%nat) + t) /\
    fy = 0.00157 * (300 * Q * (c2 + half_span x * (dd 1%nat * a_r x + dd 2%nat * a_p x))) /\
    fz = 0.00157 * (300 * Q * (c3 + half_chord x * a_q x * dd 3%nat)) /\
    a_vt x * a_vt d + 32.17 * a_alt d = fx * ub + fy * vb + fz * wb.
Proof.
  intros Hm Hct Hv Hcb Ha.
  destruct (f16_bundle x u model adj Hm Hct Hv Hcb Ha) as
    (c1 & c2 & c3 & c4 & c5 & c6 & dd & Q & t & d & nz & ny & az & ay & fx & fy & fz & B1 & B2 & B3 & B4 & B5 & B6 & B7 & _ & _ & _ & B8 & _).
  exists c1, c2, c3, c4, c5, c6, dd, Q, t, d, nz, ny, az, ay, fx, fy, fz, (a_vt x * cos (a_alpha x) * cos (a_beta x)), (a_vt x * sin (a_beta x)),
    (a_vt x * sin (a_alpha x) * cos (a_beta x)).
  do 3 (split; [assumption|]). split; [reflexivity|]. do 3 (split; [assumption|]).
  clear B5 B6 B7.
  unfold velocity_rate, newton, to_earth, rot_x, rot_y, rot_z, body_velocity in *.
  injection B4 as E1 E2 E3. injection B8 as _ _ H3.
  set (sa := sin (a_alpha x)) in *. set (ca := cos (a_alpha x)) in *. set (sb := sin (a_beta x)) in *. set (cb := cos (a_beta x)) in *.
  set (st := sin (a_theta x)) in *. set (ct := cos (a_theta x)) in *. set (sp := sin (a_phi x)) in *. set (cp := cos (a_phi x)) in *.
  assert (S1 : sa * sa + ca * ca = 1) by (unfold sa, ca; pose proof (sin2_cos2 (a_alpha x)); unfold Rsqr in *; lra).
  assert (S2 : sb * sb + cb * cb = 1) by (unfold sb, cb; pose proof (sin2_cos2 (a_beta x)); unfold Rsqr in *; lra).
  set (V := a_vt x) in *.
  assert (W : V * a_vt d = V * ca * cb * (a_vt d * ca * cb - V * sa * a_alpha d * cb - V * ca * (sb * a_beta d))
    + V * sb * (a_vt d * sb + V * (cb * a_beta d)) + V * sa * cb * (a_vt d * sa * cb + V * (ca * a_alpha d) * cb - V * sa * (sb * a_beta d))).
  { transitivity (V * a_vt d * ((sa * sa + ca * ca) * (cb * cb) + sb * sb) - V * V * sb * cb * a_beta d * (sa * sa + ca * ca) + V * V * sb * cb * a_beta d);
      [rewrite S1; replace (1 * (cb * cb) + sb * sb) with 1 by lra; ring|ring]. }
  rewrite W, E1, E2, E3. replace (a_alt d) with (- - a_alt d) by ring. rewrite <- H3. ring.
Qed.

Lemma rate_inj x v a b v2 a2 b2 : a_vt x <> 0 -> cos (a_beta x) <> 0 ->
  velocity_rate x v a b = velocity_rate x v2 a2 b2 -> v = v2 /\ a = a2 /\ b = b2.
Proof.
  intros Hv Hcb E. unfold velocity_rate in E. injection E as E1 E2 E3.
  set (sa := sin (a_alpha x)) in *. set (ca := cos (a_alpha x)) in *. set (sb := sin (a_beta x)) in *. set (cb := cos (a_beta x)) in *.
  assert (S1 : sa * sa + ca * ca = 1) by (unfold sa, ca; pose proof (sin2_cos2 (a_alpha x)); unfold Rsqr in *; lra).
  assert (S2 : sb * sb + cb * cb = 1) by (unfold sb, cb; pose proof (sin2_cos2 (a_beta x)); unfold Rsqr in *; lra).
  set (V := a_vt x) in *. clearbody sa ca sb cb V.
  set (dv := v - v2). set (da := a - a2). set (db := b - b2).
  assert (F1 : dv * ca * cb - V * sa * da * cb - V * ca * (sb * db) = 0) by (unfold dv, da, db; lra).
  assert (F2 : dv * sb + V * (cb * db) = 0) by (unfold dv, da, db; lra).
  assert (F3 : dv * sa * cb + V * (ca * da) * cb - V * sa * (sb * db) = 0) by (unfold dv, da, db; lra).
  assert (G : dv * cb - V * sb * db = 0).
  { transitivity (ca * (dv * ca * cb - V * sa * da * cb - V * ca * (sb * db)) + sa * (dv * sa * cb + V * (ca * da) * cb - V * sa * (sb * db))).
    - transitivity ((dv * cb - V * sb * db) * (sa * sa + ca * ca)); [rewrite S1|]; ring.
    - rewrite F1, F3. ring. }
  assert (D : dv = 0).
  { transitivity (cb * (dv * cb - V * sb * db) + sb * (dv * sb + V * (cb * db))); [|rewrite G, F2; ring].
    transitivity (dv * (sb * sb + cb * cb)); [rewrite S2|]; ring. }
  rewrite D in *.
  assert (B : db = 0).
  { assert (X : V * cb * db = 0) by lra. apply Rmult_integral in X. destruct X as [X|]; auto. apply Rmult_integral in X. tauto. }
  rewrite B in *.
  assert (A : da = 0).
  { assert (X : V * cb * da = 0).
    { transitivity (V * cb * da * (sa * sa + ca * ca)); [rewrite S1; ring|].
      transitivity (ca * (0 * sa * cb + V * (ca * da) * cb - V * sa * (sb * 0)) - sa * (0 * ca * cb - V * sa * da * cb - V * ca * (sb * 0)));
        [ring|rewrite F1, F3; ring]. }
    apply Rmult_integral in X. destruct X as [X|]; auto. apply Rmult_integral in X. tauto. }
  unfold dv, da, db in *. lra.
Qed.

Lemma euler_inj phi theta a b c a2 b2 c2 : cos theta <> 0 ->
  rates_of phi theta a b c = rates_of phi theta a2 b2 c2 -> a = a2 /\ b = b2 /\ c = c2.
Proof.
  intros Hc E. unfold rates_of in E. injection E as E1 E2 E3.
  set (sp := sin phi) in *. set (cp := cos phi) in *. set (st := sin theta) in *. set (ct := cos theta) in *.
  assert (S1 : sp * sp + cp * cp = 1) by (unfold sp, cp; pose proof (sin2_cos2 phi); unfold Rsqr in *; lra).
  clearbody sp cp st ct.
  assert (F2 : (b - b2) * cp + (c - c2) * ct * sp = 0) by lra.
  assert (F3 : - (b - b2) * sp + (c - c2) * ct * cp = 0) by lra.
  assert (B : b - b2 = 0).
  { transitivity (cp * ((b - b2) * cp + (c - c2) * ct * sp) - sp * (- (b - b2) * sp + (c - c2) * ct * cp)); [|rewrite F2, F3; ring].
    transitivity ((b - b2) * (sp * sp + cp * cp)); [rewrite S1|]; ring. }
  assert (C : c - c2 = 0).
  { assert (X : (c - c2) * ct = 0).
    { transitivity (sp * ((b - b2) * cp + (c - c2) * ct * sp) + cp * (- (b - b2) * sp + (c - c2) * ct * cp)); [|rewrite F2, F3; ring].
      transitivity ((c - c2) * ct * (sp * sp + cp * cp)); [rewrite S1|]; ring. }
    apply Rmult_integral in X. tauto. }
  assert (c = c2) by lra. subst c2. lra.
Qed.

Lemma cz_even a b el : cz (Fin a) (Fin (- b)) (Fin el) = cz (Fin a) (Fin b) (Fin el).
Proof.
  unfold cz. destruct (cell _ _ _) as [[[k da] l]|]; [|reflexivity]. cbn [bind].
  destruct (rmap lit _) as [ak|]; [|reflexivity]. cbn [bind].
  destruct (rmap lit _) as [al|]; [|reflexivity]. cbn [bind].
  replace (nmul (ndiv (Fin (- b)) (nlit 573 10)) (ndiv (Fin (- b)) (nlit 573 10)))
    with (nmul (ndiv (Fin b) (nlit 573 10)) (ndiv (Fin b) (nlit 573 10))); [reflexivity|].
  change (nlit 573 10 : xr) with (Fin (573 / 10)). rewrite !div_fin by lra. cbn. f_equal. field.
Qed.

Lemma degrees_opp b : degrees (- b) = Fin (- (b * 57.29578)).
Proof. unfold degrees. f_equal. ring. Qed.

Lemma cy_fin b i r : cy (Fin b) (Fin i) (Fin r) = Fin (-0.02 * b + 0.021 * (i / 20) + 0.086 * (r / 30)).
Proof. unfold cy. rewrite !nZ_fin, !div_fin by lra. cbn. f_equal; field. Qed.

Lemma mirror_stevens x u c1 c2 c3 c4 c5 c6 d1 d2 d3 d4 d5 d6 :
  a_beta x = 0 \/ (s_ail u = 0 /\ s_rdr u = 0) ->
  stevens_coefficients x u c1 c2 c3 c4 c5 c6 ->
  stevens_coefficients (mirror x) (mirror_surfaces u) d1 d2 d3 d4 d5 d6 ->
  d1 = c1 /\ d2 = - c2 /\ d3 = c3 /\ d4 = - c4 /\ d5 = c5 /\ d6 = - c6.
Proof.
  intros Hs (A1 & A2 & A3 & A5 & (l & la & lr & Al & Ala & Alr & A4) & (n & na & nr & An & Ana & Anr & A6))
   (B1 & B2 & B3 & B5 & (l' & la' & lr' & Bl & Bla & Blr & B4) & (n' & na' & nr' & Bn & Bna & Bnr & B6)).
  cbn [mirror mirror_surfaces a_alpha a_beta s_el s_ail s_rdr] in *. rewrite degrees_opp in *.
  destruct (cl_odd (a_alpha x * 57.29578) (a_beta x * 57.29578)) as (vl & L1 & L2).
  destruct (cn_odd (a_alpha x * 57.29578) (a_beta x * 57.29578)) as (vn & N1 & N2).
  unfold degrees in *. rewrite cz_even in B3. rewrite L1 in Al. rewrite L2 in Bl. rewrite N1 in An. rewrite N2 in Bn.
  rewrite cy_fin in A2, B2. injection Al as <-. injection Bl as <-. injection An as <-. injection Bn as <-.
  injection A2 as A2. injection B2 as B2.
  rewrite A1 in B1. injection B1 as <-. rewrite A3 in B3. injection B3 as <-. rewrite A5 in B5. injection B5 as <-.
  repeat split; auto.
  - rewrite <- A2, <- B2. field.
  - rewrite A4, B4. destruct Hs as [Hb|[-> ->]]; [|field].
    rewrite Hb in *. replace (- (0 * 57.29578)) with (0 * 57.29578) in * by ring.
    rewrite Ala in Bla. injection Bla as <-. rewrite Alr in Blr. injection Blr as <-. field.
  - rewrite A6, B6. destruct Hs as [Hb|[-> ->]]; [|field].
    rewrite Hb in *. replace (- (0 * 57.29578)) with (0 * 57.29578) in * by ring.
    rewrite Ana in Bna. injection Bna as <-. rewrite Anr in Bnr. injection Bnr as <-. field.
Qed.

Lemma within_opp hi x : 0 <= hi -> SpecMorelli.within (- hi) hi (- x) = - SpecMorelli.within (- hi) hi x.
Proof.
  intros H. assert (0 <= hi * PI / 180) by (pose proof PI_RGT_0; nra).
  unfold SpecMorelli.within. replace (- hi * PI / 180) with (- (hi * PI / 180)) by field. set (m := hi * PI / 180) in *. clearbody m.
  unfold Rmin; repeat match goal with |- context [Rle_dec ?u ?v] => destruct (Rle_dec u v) end;
  unfold Rmax; repeat match goal with |- context [Rle_dec ?u ?v] => destruct (Rle_dec u v) end; lra.
Qed.

Lemma morelli_inv x u c1 c2 c3 c4 c5 c6 : a_vt x <> 0 ->
  morelli_coefficients x u c1 c2 c3 c4 c5 c6 ->
  (c1, c2, c3, c4, c5, c6) = morelli (SpecMorelli.within (-10) 45 (a_alpha x * 57.29578 * PI / 180))
    (SpecMorelli.within (-30) 30 (a_beta x * 57.29578 * PI / 180)) (SpecMorelli.within (-25) 25 (s_el u * PI / 180))
    (SpecMorelli.within (-21.5) 21.5 (s_ail u * PI / 180)) (SpecMorelli.within (-30) 30 (s_rdr u * PI / 180))
    (a_p x) (a_q x) (a_r x) 11.32 30 (a_vt x) 0.35 0.35.
Proof.
  intros Hv H. unfold morelli_coefficients in H. rewrite nZ_fin in H.
  change (nlit 1132 100 : xr) with (Fin (1132 / 100)) in H.
  change (nlit 35 100 : xr) with (Fin (35 / 100)) in H.
  replace (1132 / 100) with 11.32 in H by lra. replace (35 / 100) with 0.35 in H by lra.
  rewrite morelli_poly in H by lra.
  destruct (morelli _ _ _ _ _ _ _ _ _ _ _ _ _) as [[[[[e1 e2] e3] e4] e5] e6]. cbn [fin6] in H. injection H as -> -> -> -> -> ->. reflexivity.
Qed.

Lemma morelli_odd al de da dr p q r V : V <> 0 ->
  morelli al 0 de (- da) (- dr) (- p) q (- r) 11.32 30 V 0.35 0.35 =
  let '(c1, c2, c3, c4, c5, c6) := morelli al 0 de da dr p q r 11.32 30 V 0.35 0.35 in (c1, - c2, c3, - c4, c5, - c6).
Proof.
  intros Hv. unfold morelli.
  replace (- p * 30 / (2 * V)) with (- (p * 30 / (2 * V))) by (field; auto).
  replace (- r * 30 / (2 * V)) with (- (r * 30 / (2 * V))) by (field; auto).
  set (ph := p * 30 / (2 * V)). set (rh := r * 30 / (2 * V)). set (qh := q * 11.32 / (2 * V)).
  assert (Z4 : poly p_Cl0 al 0 de = 0) by (polys; ring).
  assert (Z6 : poly p_Cn0 al 0 de = 0) by (polys; ring).
  rewrite Z4, Z6. repeat match goal with |- context [poly ?l al 0 de] => generalize (poly l al 0 de); intro end.
  repeat apply f_equal2; ring.
Qed.

Lemma mirror_morelli x u c1 c2 c3 c4 c5 c6 d1 d2 d3 d4 d5 d6 : a_vt x <> 0 ->
  a_beta x = 0 ->
  morelli_coefficients x u c1 c2 c3 c4 c5 c6 ->
  morelli_coefficients (mirror x) (mirror_surfaces u) d1 d2 d3 d4 d5 d6 ->
  d1 = c1 /\ d2 = - c2 /\ d3 = c3 /\ d4 = - c4 /\ d5 = c5 /\ d6 = - c6.
Proof.
  intros Hv Hb A B. apply morelli_inv in A; auto. apply morelli_inv in B; auto.
  cbn [mirror mirror_surfaces a_vt a_alpha a_beta a_p a_q a_r s_el s_ail s_rdr] in B. rewrite Hb in *.
  assert (W0 : SpecMorelli.within (-30) 30 (0 * 57.29578 * PI / 180) = 0).
  { replace (0 * 57.29578 * PI / 180) with 0 by field. apply within_inside. pose proof PI_RGT_0. lra. }
  replace (- 0) with 0 in B by ring. rewrite W0 in *.
  replace (- s_ail u * PI / 180) with (- (s_ail u * PI / 180)) in B by field.
  replace (- s_rdr u * PI / 180) with (- (s_rdr u * PI / 180)) in B by field.
  replace (-21.5) with (- (21.5)) in * by lra. replace (-30) with (- (30)) in B by lra. rewrite !within_opp in B by lra.
  set (al := SpecMorelli.within (-10) 45 _) in *. set (de := SpecMorelli.within (-25) 25 _) in *.
  set (da := SpecMorelli.within _ 21.5 _) in *. replace (- (30)) with (-30) in B by lra. set (dr := SpecMorelli.within (-30) 30 _) in *.
  clearbody al de da dr. rewrite morelli_odd, <- A in B by auto. injection B. auto 10.
Qed.

Lemma mirror_coefficients model x u c1 c2 c3 c4 c5 c6 d1 d2 d3 d4 d5 d6 : a_vt x <> 0 -> symmetric_air model x u ->
  coefficients model x u c1 c2 c3 c4 c5 c6 -> coefficients model (mirror x) (mirror_surfaces u) d1 d2 d3 d4 d5 d6 ->
  d1 = c1 /\ d2 = - c2 /\ d3 = c3 /\ d4 = - c4 /\ d5 = c5 /\ d6 = - c6.
Proof.
  intros Hv Hs. unfold coefficients. destruct (String.eqb model "stevens") eqn:Em.
  - intros A B. eapply mirror_stevens; eauto. destruct Hs as [|(_ & H)]; auto.
  - intros A B. eapply mirror_morelli; eauto. destruct Hs as [|(-> & _)]; auto. discriminate.
Qed.

Lemma environment_mirror x dd Q t dd' Q' t' : environment x dd Q t -> environment (mirror x) dd' Q' t' ->
  (forall i, (i < 9)%nat -> dd' i = dd i) /\ Q' = Q /\ t' = t.
Proof.
  intros (A1 & m & A2 & A3) (B1 & m' & B2 & B3). cbn [mirror a_alpha a_vt a_alt a_pow] in *.
  rewrite A2 in B2. injection B2 as <- <-. rewrite A3 in B3. injection B3 as <-.
  rewrite A1 in B1. cbn [seq map] in B1. injection B1 as E0 E1 E2 E3 E4 E5 E6 E7 E8.
  split; auto. intros i Hi. do 9 (destruct i as [|i]; [auto|]). lia.
Qed.

(** The mirrored flight, except for the gyroscopic moment of the engine. *)
Lemma f16_mirror x u model adj : known_model model = true -> cos (a_theta x) <> 0 ->
  a_vt x <> 0 -> cos (a_beta x) <> 0 -> a_alt x < 142247 -> symmetric_air model x u ->
  exists d nz ny az ay d' nz' ny' az' ay',
    subf16_model (state_of x) (control_of u) model adj = Ok (state_of d, Fin nz, Fin ny, Fin az, Fin ay) /\
    subf16_model (state_of (mirror x)) (control_of (mirror_surfaces u)) model adj
      = Ok (state_of d', Fin nz', Fin ny', Fin az', Fin ay') /\
    without_engine (mirror x) d' = mirror (without_engine x d) /\
    az' + 15 * a_q d' = az + 15 * a_q d /\
    (adj = false -> ay' = - ay) /\ (adj = true -> ay' - 15 * a_r d' = - (ay - 15 * a_r d)).
Proof.
  intros Hm Hct Hv Hcb Ha Hs.
  destruct (f16_bundle x u model adj Hm Hct Hv Hcb Ha) as
    (c1 & c2 & c3 & c4 & c5 & c6 & dd & Q & t & d & nz & ny & az & ay & fx & fy & fz & B1 & B2 & B3 & B4 & B5 & B6 & B7 & B8 & B9 & B10 & B11 & B12 & B13 & _).
  destruct (f16_bundle (mirror x) (mirror_surfaces u) model adj Hm Hct Hv) as
    (c1' & c2' & c3' & c4' & c5' & c6' & dd' & Q' & t' & d' & nz' & ny' & az' & ay' & fx' & fy' & fz' & M1 & M2 & M3 & M4 & M5 & M6 & M7 & M8 & M9 & M10 & M11 & M12 & M13 & _).
  { cbn. rewrite cos_neg. exact Hcb. }
  { exact Ha. }
  destruct (mirror_coefficients _ _ _ _ _ _ _ _ _ _ _ _ _ _ _ Hv Hs B1 M1) as (-> & -> & -> & -> & -> & ->).
  destruct (environment_mirror _ _ _ _ _ _ _ B2 M2) as (Ed & -> & ->).
  rewrite (Ed 0%nat) in * by lia. rewrite (Ed 1%nat), (Ed 2%nat) in * by lia. rewrite (Ed 3%nat) in * by lia.
  rewrite (Ed 4%nat), (Ed 5%nat), (Ed 6%nat), (Ed 7%nat), (Ed 8%nat) in M8 by lia.
  exists d, nz, ny, az, ay, d', nz', ny', az', ay'. split; [exact B3|]. split; [exact M3|].
  assert (Hfx : fx' = fx) by (rewrite M5, B5; reflexivity).
  assert (Hfy : fy' = - fy) by (rewrite M6, B6; unfold half_span; cbn; field; auto).
  assert (Hfz : fz' = fz) by (rewrite M7, B7; reflexivity).
  assert (R1 : a_vt d' = a_vt d /\ a_alpha d' = a_alpha d /\ a_beta d' = - a_beta d).
  { apply (rate_inj (mirror x)); [exact Hv|cbn; rewrite cos_neg; exact Hcb|]. rewrite M4, Hfx, Hfy, Hfz.
    unfold velocity_rate, newton, body_velocity in *. cbn [mirror a_vt a_alpha a_beta a_phi a_theta a_psi a_p a_q a_r] in *.
    rewrite !sin_neg, !cos_neg. injection B4 as E1 E2 E3. f_equal; [f_equal|]; lra. }
  assert (R2 : a_phi d' = - a_phi d /\ a_theta d' = a_theta d /\ a_psi d' = - a_psi d).
  { apply (euler_inj (a_phi (mirror x)) (a_theta (mirror x))); [exact Hct|]. rewrite M10.
    unfold rates_of in *. cbn [mirror a_phi a_theta a_p a_q a_r] in *. rewrite sin_neg, cos_neg.
    injection B10 as E1 E2 E3. f_equal; [f_equal|]; lra. }
  assert (R3 : a_pn d' = a_pn d /\ a_pe d' = - a_pe d /\ a_alt d' = a_alt d).
  { unfold to_earth, rot_x, rot_y, rot_z, body_velocity in *. cbn [mirror a_vt a_alpha a_beta a_phi a_theta a_psi] in M11.
    rewrite !sin_neg, !cos_neg in M11. injection B11 as E1 E2 E3. injection M11 as F1 F2 F3. repeat split; lra. }
  assert (R4 : a_pow d' = a_pow d).
  { cbn [mirror mirror_surfaces a_pow s_thr] in M9. rewrite <- B9 in M9. injection M9. auto. }
  assert (R5 : a_p d' - 0.000001642 * 160 * a_q x = - (a_p d - 0.000001642 * 160 * a_q x) /\
    a_q d' + 0.00001792 * 160 * (- a_r x) = a_q d + 0.00001792 * 160 * a_r x /\
    a_r d' - 0.00001587 * 160 * a_q x = - (a_r d - 0.00001587 * 160 * a_q x)).
  { unfold rotation_rate, half_span, half_chord in *. cbn [mirror a_vt a_p a_q a_r] in M8.
    injection B8 as -> -> ->. injection M8 as -> -> ->. clear - Hv. repeat split; field; auto. }
  destruct R1 as (R11 & R12 & R13), R2 as (R21 & R22 & R23), R3 as (R31 & R32 & R33), R5 as (R51 & R52 & R53).
  split.
  { unfold without_engine, mirror. cbn. f_equal; auto. }
  split; [lra|]. split; intros ->; lra.
Qed.

(** Without the symmetry condition: the sum of the two roll accelerations. *)
Lemma roll_sum x u model adj : known_model model = true -> cos (a_theta x) <> 0 ->
  a_vt x <> 0 -> cos (a_beta x) <> 0 -> a_alt x < 142247 ->
  exists c1 c2 c3 c4 c5 c6 b1 b2 b3 b4 b5 b6 dd Q t d nz ny az ay d' nz' ny' az' ay',
    coefficients model x u c1 c2 c3 c4 c5 c6 /\ coefficients model (mirror x) (mirror_surfaces u) b1 b2 b3 b4 b5 b6 /\
    environment x dd Q t /\
    subf16_model (state_of x) (control_of u) model adj = Ok (state_of d, Fin nz, Fin ny, Fin az, Fin ay) /\
    subf16_model (state_of (mirror x)) (control_of (mirror_surfaces u)) model adj
      = Ok (state_of d', Fin nz', Fin ny', Fin az', Fin ay') /\
    a_p d' + a_p d = 2 * (0.000001642 * 160 * a_q x) + 9000 * Q * (0.0001055 * (c4 + b4) + 0.000001642 * (c6 + b6)).
Proof.
  intros Hm Hct Hv Hcb Ha.
  destruct (f16_bundle x u model adj Hm Hct Hv Hcb Ha) as
    (c1 & c2 & c3 & c4 & c5 & c6 & dd & Q & t & d & nz & ny & az & ay & fx & fy & fz & B1 & B2 & B3 & B4 & B5 & B6 & B7 & B8 & _).
  destruct (f16_bundle (mirror x) (mirror_surfaces u) model adj Hm Hct Hv) as
    (c1' & c2' & c3' & c4' & c5' & c6' & dd' & Q' & t' & d' & nz' & ny' & az' & ay' & fx' & fy' & fz' & M1 & M2 & M3 & M4 & M5 & M6 & M7 & M8 & _).
  { cbn. rewrite cos_neg. exact Hcb. }
  { exact Ha. }
  destruct (environment_mirror _ _ _ _ _ _ _ B2 M2) as (Ed & -> & ->).
  rewrite (Ed 4%nat), (Ed 5%nat), (Ed 6%nat), (Ed 7%nat), (Ed 8%nat) in M8 by lia.
  exists c1, c2, c3, c4, c5, c6, c1', c2', c3', c4', c5', c6', dd, Q, t, d, nz, ny, az, ay, d', nz', ny', az', ay'.
  do 5 (split; [assumption|]).
  unfold rotation_rate, half_span, half_chord in *. cbn [mirror a_vt a_p a_q a_r] in M8.
  injection B8 as -> _ _. injection M8 as -> _ _. clear - Hv. field; auto.
Qed.

(** Sideslip 0.1 rad in the polynomial model; sideslip of 10 degrees and full ailerons in the
    table model. *)
Definition slipping (b : R) : airframe :=
  {| a_vt := 500; a_alpha := 0; a_beta := b; a_phi := 0; a_theta := 0; a_psi := 0;
     a_p := 0; a_q := 0; a_r := 0; a_pn := 0; a_pe := 0; a_alt := 0; a_pow := 9 |}.
Definition rolling : surfaces := {| s_thr := 0; s_el := 0; s_ail := 20; s_rdr := 0 |}.

Lemma air_positive x dd Q t : 0 < a_vt x -> a_alt x < 142247 -> environment x dd Q t -> 0 < Q.
Proof.
  intros Hv Ha (_ & m & E & _). destruct (adc_positive _ _ Hv Ha) as (m' & q & E' & _ & Hq & _).
  rewrite E in E'. injection E' as _ ->. exact Hq.
Qed.

Lemma morelli_slip b c1 c2 c3 c4 c5 c6 : -0.5 <= b <= 0.5 ->
  morelli_coefficients (slipping b) idle c1 c2 c3 c4 c5 c6 ->
  c4 = -0.105853 * (b * 57.29578 * PI / 180) + 0.1357256 * (b * 57.29578 * PI / 180)^2 /\
  c6 = 0.2993363 * (b * 57.29578 * PI / 180) - 0.2003125 * (b * 57.29578 * PI / 180)^2.
Proof.
  intros Hb A. apply morelli_inv in A; [|cbn; lra]. cbn [slipping idle a_vt a_alpha a_beta a_p a_q a_r s_el s_ail s_rdr] in A.
  pose proof PI_RGT_0 as Hp.
  replace (0 * 57.29578 * PI / 180) with 0 in A by field. replace (0 * PI / 180) with 0 in A by field.
  rewrite (within_inside (-10) 45 0), (within_inside (-25) 25 0), (within_inside (-21.5) 21.5 0), (within_inside (-30) 30 0) in A by (split; nra).
  rewrite (within_inside (-30) 30) in A by (split; nra).
  set (be := b * 57.29578 * PI / 180) in *. clearbody be.
  pose proof (f_equal (fun t => let '(_, _, _, v, _, _) := t in v) A) as E4.
  pose proof (f_equal (fun t => let '(_, _, _, _, _, v) := t in v) A) as E6.
  unfold morelli in E4, E6. cbv beta iota zeta in E4, E6. rewrite E4, E6.
  split; polys; lra.
Qed.

Lemma state_of_inj a b : state_of a = state_of b -> a = b.
Proof. destruct a, b. unfold state_of. cbn. intros H. injection H. intros. subst. reflexivity. Qed.

Lemma not_mirrored x u model adj : known_model model = true -> cos (a_theta x) <> 0 ->
  a_vt x <> 0 -> cos (a_beta x) <> 0 -> a_alt x < 142247 ->
  (forall c1 c2 c3 c4 c5 c6 b1 b2 b3 b4 b5 b6 dd Q t,
    coefficients model x u c1 c2 c3 c4 c5 c6 -> coefficients model (mirror x) (mirror_surfaces u) b1 b2 b3 b4 b5 b6 ->
    environment x dd Q t ->
    2 * (0.000001642 * 160 * a_q x) + 9000 * Q * (0.0001055 * (c4 + b4) + 0.000001642 * (c6 + b6)) <> 0) ->
  ~ mirrored x u model adj.
Proof.
  intros Hm Hct Hv Hcb Ha H M.
  destruct (roll_sum x u model adj Hm Hct Hv Hcb Ha) as
    (c1 & c2 & c3 & c4 & c5 & c6 & b1 & b2 & b3 & b4 & b5 & b6 & dd & Q & t & d & nz & ny & az & ay & d' & nz' & ny' & az' & ay' & A1 & A2 & A3 & A4 & A5 & A6).
  apply (H _ _ _ _ _ _ _ _ _ _ _ _ _ _ _ A1 A2 A3). rewrite <- A6.
  destruct (M _ _ _ _ _ A4) as (n1 & n2 & n3 & n4 & E). rewrite A5 in E.
  assert (D : state_of d' = state_of (mirror d)) by (injection E; intros; unfold state_of; cbn; congruence).
  apply state_of_inj in D. subst d'. cbn. ring.
Qed.

Lemma engine_breaks adj : ~ mirrored pitching idle "stevens" adj.
Proof.
  apply not_mirrored; cbn; rewrite ?cos_0; try reflexivity; try lra.
  intros c1 c2 c3 c4 c5 c6 b1 b2 b3 b4 b5 b6 dd Q t A B _.
  destruct (mirror_coefficients "stevens" pitching idle _ _ _ _ _ _ _ _ _ _ _ _ ltac:(cbn; lra) (or_introl eq_refl) A B) as (_ & _ & _ & -> & _ & ->).
  replace (c4 + - c4) with 0 by ring. replace (c6 + - c6) with 0 by ring. lra.
Qed.

Lemma cos_small b : -0.5 <= b <= 0.5 -> cos b <> 0.
Proof. intros H. apply Rgt_not_eq, cos_gt_0; pose proof PI2_3_2; lra. Qed.

Lemma polynomial_breaks adj : ~ mirrored (slipping 0.1) idle "morelli" adj.
Proof.
  apply not_mirrored.
  - reflexivity.
  - cbn. rewrite cos_0. lra.
  - cbn. lra.
  - apply cos_small. cbn. lra.
  - cbn. lra.
  - intros c1 c2 c3 c4 c5 c6 b1 b2 b3 b4 b5 b6 dd Q t A B X.
    apply air_positive in X; [|cbn; lra|cbn; lra].
    assert (Em : mirror (slipping 0.1) = slipping (- (0.1))).
    { unfold mirror, slipping. cbn. rewrite Ropp_0. reflexivity. }
    assert (Ei : mirror_surfaces idle = idle).
    { unfold mirror_surfaces, idle. cbn. rewrite Ropp_0. reflexivity. }
    rewrite Em, Ei in B. cbn [coefficients String.eqb] in A, B.
    apply morelli_slip in A; [|lra]. apply morelli_slip in B; [|lra].
    destruct A as (-> & ->), B as (-> & ->). cbn [slipping a_q].
    replace (- (0.1) * 57.29578 * PI / 180) with (- (0.1 * 57.29578 * PI / 180)) by field.
    assert (P : 0 < 0.1 * 57.29578 * PI / 180) by (pose proof PI_RGT_0; lra).
    set (be := 0.1 * 57.29578 * PI / 180) in *. clearbody be.
    apply Rgt_not_eq.
    replace (2 * (0.000001642 * 160 * 0) + _) with (9000 * Q * (be * be * (2 * (0.0001055 * 0.1357256 - 0.000001642 * 0.2003125)))) by field.
    apply Rmult_lt_0_compat; [lra|]. apply Rmult_lt_0_compat; [nra|lra].
Qed.

Lemma table_at (f : xr -> xr -> res xr) t (m : Z) : interpolates2 f 5 10 (-2) 9 (-3) 3 t -> (-3 <= m < 3)%Z ->
  f (Fin 0) (Fin (10 * IZR m)) = Ok (Fin (t 0%Z m)).
Proof.
  intros H Hm. rewrite (H 0 (10 * IZR m) 0%Z m).
  - do 2 f_equal. unfold on_cell2, on_cell. replace (10 * IZR m / 10) with (IZR m) by field. field.
  - split; [lia|]. split; right; cbn; lra.
  - split; [lia|]. replace (10 * IZR m / 10) with (IZR m) by field. split; right; [lra|]. apply IZR_le. lia.
Qed.

Lemma table_breaks adj : ~ mirrored (slipping (10 / 57.29578)) rolling "stevens" adj.
Proof.
  apply not_mirrored.
  - reflexivity.
  - cbn. rewrite cos_0. lra.
  - cbn. lra.
  - apply cos_small. cbn. lra.
  - cbn. lra.
  - intros c1 c2 c3 c4 c5 c6 b1 b2 b3 b4 b5 b6 dd Q t A B X.
    apply air_positive in X; [|cbn; lra|cbn; lra]. cbn [coefficients String.eqb Ascii.eqb Bool.eqb] in A, B.
    destruct A as (_ & _ & _ & _ & (l & la & lr & Al & Ala & Alr & A4) & (n & na & nr & An & Ana & Anr & A6)).
    destruct B as (_ & _ & _ & _ & (l' & la' & lr' & Bl & Bla & Blr & B4) & (n' & na' & nr' & Bn & Bna & Bnr & B6)).
    cbn [mirror mirror_surfaces slipping rolling a_alpha a_beta s_ail s_rdr] in *. unfold degrees in *.
    replace (0 * 57.29578) with 0 in * by ring.
    assert (W1 : 10 / 57.29578 * 57.29578 = 10 * 1) by lra.
    assert (W2 : - (10 / 57.29578) * 57.29578 = - (10 * 1)) by lra.
    rewrite W1 in *. rewrite W2 in *.
    destruct (cl_odd 0 (10 * 1)) as (vl & L1 & L2). destruct (cn_odd 0 (10 * 1)) as (vn & N1 & N2).
    rewrite L1 in Al. rewrite L2 in Bl. rewrite N1 in An. rewrite N2 in Bn.
    injection Al as <-. injection Bl as <-. injection An as <-. injection Bn as <-.
    rewrite (table_at _ _ 1 dlda_interp ltac:(lia)) in Ala. rewrite (table_at _ _ 1 dnda_interp ltac:(lia)) in Ana.
    replace (- (10 * 1)) with (10 * IZR (-1)) in * by (cbn; ring).
    rewrite (table_at _ _ (-1) dlda_interp ltac:(lia)) in Bla. rewrite (table_at _ _ (-1) dnda_interp ltac:(lia)) in Bna.
    injection Ala as <-. injection Ana as <-. injection Bla as <-. injection Bna as <-.
    subst c4 c6 b4 b6. cbn [slipping a_q].
    assert (T1 : coeff tab_dlda (-2) (-3) 0 1 = -0.048) by (unfold coeff, entry; replace (nth _ _ 0%Z) with (-48)%Z by reflexivity; lra).
    assert (T2 : coeff tab_dlda (-2) (-3) 0 (-1) = -0.052) by (unfold coeff, entry; replace (nth _ _ 0%Z) with (-52)%Z by reflexivity; lra).
    assert (T3 : coeff tab_dnda (-2) (-3) 0 1 = -0.014) by (unfold coeff, entry; replace (nth _ _ 0%Z) with (-14)%Z by reflexivity; lra).
    assert (T4 : coeff tab_dnda (-2) (-3) 0 (-1) = -0.006) by (unfold coeff, entry; replace (nth _ _ 0%Z) with (-6)%Z by reflexivity; lra).
    rewrite T1, T2, T3, T4. apply Rgt_not_eq.
    lra.
Qed.

Lemma sub_zero a : a - 0 = a. Proof. ring. Qed.
Lemma without_engine_id x d : a_q x = 0 -> a_r x = 0 -> without_engine x d = d.
Proof.
  intros Hq Hr. unfold without_engine. rewrite Hq, Hr. rewrite !Rmult_0_r, !sub_zero, Rplus_0_r. destruct d; reflexivity.
Qed.

Lemma steady_mirror x u model adj : known_model model = true -> cos (a_theta x) <> 0 ->
  a_vt x <> 0 -> cos (a_beta x) <> 0 -> a_alt x < 142247 -> symmetric_air model x u ->
  a_q x = 0 -> a_r x = 0 ->
  exists d nz ny az ay,
    subf16_model (state_of x) (control_of u) model adj = Ok (state_of d, Fin nz, Fin ny, Fin az, Fin ay) /\
    subf16_model (state_of (mirror x)) (control_of (mirror_surfaces u)) model adj
      = Ok (state_of (mirror d), Fin nz, Fin (- ny), Fin az, Fin (- ay)).
Proof.
  intros Hm Hct Hv Hcb Ha Hs Hq Hr.
  destruct (f16_mirror x u model adj Hm Hct Hv Hcb Ha Hs) as (d & nz & ny & az & ay & d' & nz' & ny' & az' & ay' & A & B & C & D & E & F).
  rewrite !without_engine_id in C; auto. 2:{ cbn. rewrite Hr. ring. }
  subst d'. cbn [mirror a_q a_r] in *.
  assert (az' = az) by lra. assert (ay' = - ay). { destruct adj; [specialize (F eq_refl); lra|auto]. } subst az' ay'.
  exists d, nz, ny, az, ay. split; [exact A|]. rewrite B.
  destruct (f16_bundle x u model adj Hm Hct Hv Hcb Ha) as
    (c1 & c2 & c3 & c4 & c5 & c6 & dd & Q & t & d1 & nz1 & ny1 & az1 & ay1 & fx & fy & fz & B1 & B2 & B3 & B4 & B5 & B6 & B7 & B8 & B9 & B10 & B11 & B12 & B13 & B14 & B15).
  rewrite A in B3. injection B3 as _ _ _ _ _ _ _ _ _ _ _ _ _ <- <- <- <-.
  destruct (f16_bundle (mirror x) (mirror_surfaces u) model adj Hm Hct Hv) as
    (e1 & e2 & e3 & e4 & e5 & e6 & dd' & Q' & t' & d2 & nz2 & ny2 & az2 & ay2 & gx & gy & gz & M1 & M2 & M3 & M4 & M5 & M6 & M7 & M8 & M9 & M10 & M11 & M12 & M13 & M14 & M15).
  { cbn. rewrite cos_neg. exact Hcb. }
  { exact Ha. }
  rewrite B in M3. injection M3 as _ _ _ _ _ _ _ _ _ _ _ _ _ <- <- <- <-.
  assert (Ez : nz' = nz) by (rewrite M14, B14; reflexivity).
  assert (Ey : ny' = - ny) by (rewrite M15, B15; lra).
  rewrite Ez, Ey. reflexivity.
Qed.

Lemma C95_ex adj : exists dd Q t d nz ny az ay, environment cruising dd Q t /\
  subf16_model (state_of cruising) (control_of idle) "morelli" adj = Ok (state_of d, Fin nz, Fin ny, Fin az, Fin ay) /\
  500 * a_vt d + 32.17 * a_alt d = 0.00157 * (300 * Q * -0.01943367 + t) * 500.
Proof.
  destruct (energy_balance cruising idle "morelli" adj) as
   (c1 & c2 & c3 & c4 & c5 & c6 & dd & Q & t & d & nz & ny & az & ay & fx & fy & fz & ub & vb & wb & A & B & C & D & E & F & G & H);
    [reflexivity|cbn; rewrite cos_0; lra|cbn; lra|cbn; rewrite cos_0; lra|cbn; lra|].
  exists dd, Q, t, d, nz, ny, az, ay. split; [exact B|]. split; [exact C|].
  cbn [cruising a_vt] in H. rewrite H, E. cbn [cruising a_q]. unfold body_velocity in D. cbn [cruising a_vt a_alpha a_beta] in D.
  rewrite sin_0, cos_0 in D. injection D as <- <- <-.
  assert (C1 : c1 = -0.01943367).
  { cbn [coefficients String.eqb] in A. apply morelli_inv in A; [|cbn; lra]. cbn [cruising idle a_vt a_alpha a_beta a_p a_q a_r s_el s_ail s_rdr] in A.
    pose proof PI_RGT_0 as Hp. replace (0 * 57.29578 * PI / 180) with 0 in A by field. replace (0 * PI / 180) with 0 in A by field.
    rewrite (within_inside (-10) 45 0), (within_inside (-25) 25 0), (within_inside (-21.5) 21.5 0), (within_inside (-30) 30 0) in A by (split; nra).
    pose proof (f_equal (fun t => let '(v, _, _, _, _, _) := t in v) A) as E1. unfold morelli in E1. cbv beta iota zeta in E1. rewrite E1. polys. lra. }
  rewrite C1. ring.
Qed.

(** Banked, with ailerons: the mirror image of a right turn is a left turn. *)
Definition banked : airframe :=
  {| a_vt := 500; a_alpha := 0.1; a_beta := 0; a_phi := 1; a_theta := 0; a_psi := 0;
     a_p := 0.2; a_q := 0; a_r := 0; a_pn := 0; a_pe := 100; a_alt := 1000; a_pow := 50 |}.
Lemma C96_ex adj : exists d nz ny az ay,
  subf16_model (state_of banked) (control_of rolling) "morelli" adj = Ok (state_of d, Fin nz, Fin ny, Fin az, Fin ay) /\
  subf16_model (map Fin [500; 0.1; - 0; - (1); 0; - 0; - (0.2); 0; - 0; 0; - (100); 1000; 50]) (map Fin [0; 0; - (20); - 0]) "morelli" adj
    = Ok (state_of (mirror d), Fin nz, Fin (- ny), Fin az, Fin (- ay)).
Proof.
  destruct (steady_mirror banked rolling "morelli" adj) as (d & nz & ny & az & ay & A & B); [reflexivity|cbn; rewrite cos_0; lra|cbn; lra|cbn; rewrite cos_0; lra|cbn; lra|left; reflexivity|reflexivity|reflexivity|].
  exists d, nz, ny, az, ay. split; [exact A|exact B].
Qed.
