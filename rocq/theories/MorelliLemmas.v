(** The polynomial model is the specification's polynomials at saturated arguments (C61). *)
From Coq Require Import String List ZArith Reals Lra Lia Bool.
From Flocq Require Import Core.Core.
From Coquelicot Require Import Coquelicot.
From Verif Require Import PyBase Num XReal Aero Morelli SpecMorelli AeroLemmas F16 F16Lemmas.
Import List ListNotations.
Local Open Scope R_scope.
Local Hint Extern 0 (Num xr) => exact (XR Fin) : typeclass_instances.

Lemma fin_eq (x : xr) a b : x = Fin a -> a = b -> x = Fin b.
Proof. intros -> ->. reflexivity. Qed.

Ltac rcases :=
  unfold Rmin; match goal with |- context [Rle_dec ?u ?v] => destruct (Rle_dec u v) end;
  unfold Rmax; repeat match goal with |- context [Rle_dec ?u ?v] => destruct (Rle_dec u v) end.
Ltac polys := unfold poly, p_Cx0, p_Cxq, p_Cyp, p_Cyr, p_Cz0, p_Czq, p_Cl0, p_Clp, p_Clr, p_Clda,
  p_Cldr, p_Cm0, p_Cmq, p_Cn0, p_Cnp, p_Cnr, p_Cnda, p_Cndr, Cy_beta, Cy_ail, Cy_rud;
  cbn [fold_right pow].

Lemma body_poly a b de da dr p q r cbar bb V xcg xcgr : V <> 0 -> bb <> 0 ->
  morelli_body (Fin a) (Fin b) (Fin de) (Fin da) (Fin dr) (Fin p) (Fin q) (Fin r) (Fin cbar)
    (Fin bb) (Fin V) (Fin xcg) (Fin xcgr)
  = fin6 (morelli a b de da dr p q r cbar bb V xcg xcgr).
Proof.
  intros HV Hb. unfold morelli_body, morelli, fin6.
  assert (EV : nmul (nZ 2) (Fin V) = Fin (2 * V)) by (cbn; f_equal; field).
  rewrite EV.
  assert (HV2 : 2 * V <> 0) by lra.
  change (nmul (Fin p) (Fin bb)) with (Fin (p * bb)).
  change (nmul (Fin q) (Fin cbar)) with (Fin (q * cbar)).
  change (nmul (Fin r) (Fin bb)) with (Fin (r * bb)).
  rewrite !div_fin by assumption. cbv zeta.
  rewrite !nipow_fin.
  set (ph := p * bb / (2 * V)). set (qh := q * cbar / (2 * V)). set (rh := r * bb / (2 * V)).
  set (cbb := cbar / bb). set (xx := xcgr - xcg).
  change (nsub (Fin xcgr) (Fin xcg)) with (Fin xx).
  repeat apply f_equal2; (eapply fin_eq; [reflexivity|]); polys; lra.
Qed.

Lemma sat_within lo hi x : saturate (Fin lo) (Fin hi) (Fin x) = Fin (within lo hi x).
Proof.
  unfold saturate, py_min, py_max, within. rewrite nZ_fin.
  change (nmul (Fin lo) npi) with (Fin (lo * PI)). change (nmul (Fin hi) npi) with (Fin (hi * PI)).
  rewrite !div_fin by lra.
  set (l := lo * PI / 180). set (h := hi * PI / 180).
  cbn. case Rlt_bool_spec; intros H1; cbn; (case Rlt_bool_spec; intros H2); apply f_equal;
    rcases; lra.
Qed.

Lemma morelli_poly a b de da dr p q r cbar bb V xcg xcgr : V <> 0 -> bb <> 0 ->
  Morellif16 (Fin a) (Fin b) (Fin de) (Fin da) (Fin dr) (Fin p) (Fin q) (Fin r) (Fin cbar)
    (Fin bb) (Fin V) (Fin xcg) (Fin xcgr)
  = fin6 (morelli (within (-10) 45 a) (within (-30) 30 b) (within (-25) 25 de)
      (within (-21.5) 21.5 da) (within (-30) 30 dr) p q r cbar bb V xcg xcgr).
Proof.
  intros HV Hb. unfold Morellif16.
  rewrite <- body_poly by assumption. rewrite <- !sat_within. rewrite !nZ_fin.
  replace (nlit (-215) 10 : xr) with (Fin (-21.5)) by (cbn; f_equal; lra).
  replace (nlit 215 10 : xr) with (Fin 21.5) by (cbn; f_equal; lra).
  reflexivity.
Qed.

Lemma within_idem lo hi x : lo <= hi -> within lo hi (within lo hi x) = within lo hi x.
Proof.
  intros H. assert (lo * PI / 180 <= hi * PI / 180) by (pose proof PI_RGT_0; nra).
  assert (Hr : lo * PI / 180 <= within lo hi x <= hi * PI / 180) by (unfold within; rcases; lra).
  set (y := within lo hi x) in *. unfold within. rcases; lra.
Qed.

Lemma within_inside lo hi x : lo * PI / 180 <= x <= hi * PI / 180 -> within lo hi x = x.
Proof.
  intros H. unfold within.
  rcases; lra.
Qed.
Lemma within_above lo hi x : lo <= hi -> hi * PI / 180 <= x -> within lo hi x = hi * PI / 180.
Proof.
  intros H Hx. assert (lo * PI / 180 <= hi * PI / 180) by (pose proof PI_RGT_0; nra).
  unfold within.
  rcases; lra.
Qed.
Lemma within_below lo hi x : x <= lo * PI / 180 -> within lo hi x = lo * PI / 180.
Proof.
  intros Hx. unfold within.
  rcases; lra.
Qed.

Lemma morelli_saturates a b de da dr p q r cbar bb V xcg xcgr : V <> 0 -> bb <> 0 ->
  Morellif16 (Fin a) (Fin b) (Fin de) (Fin da) (Fin dr) (Fin p) (Fin q) (Fin r) (Fin cbar)
    (Fin bb) (Fin V) (Fin xcg) (Fin xcgr)
  = Morellif16 (Fin (within (-10) 45 a)) (Fin (within (-30) 30 b)) (Fin (within (-25) 25 de))
      (Fin (within (-21.5) 21.5 da)) (Fin (within (-30) 30 dr)) (Fin p) (Fin q) (Fin r) (Fin cbar)
      (Fin bb) (Fin V) (Fin xcg) (Fin xcgr).
Proof.
  intros HV Hb. rewrite !morelli_poly by assumption. rewrite !within_idem by lra. reflexivity.
Qed.

Lemma morelli_symmetric a de q cbar bb V xcg xcgr : V <> 0 -> bb <> 0 ->
  exists c1 c3 c5,
  Morellif16 (Fin a) (Fin 0) (Fin de) (Fin 0) (Fin 0) (Fin 0) (Fin q) (Fin 0) (Fin cbar)
    (Fin bb) (Fin V) (Fin xcg) (Fin xcgr)
  = (Fin c1, Fin 0, Fin c3, Fin 0, Fin c5, Fin 0).
Proof.
  intros HV Hb. rewrite morelli_poly by assumption.
  assert (HP := PI_RGT_0).
  rewrite !(within_inside _ _ 0) by lra.
  unfold morelli, fin6. do 3 eexists.
  replace (0 * bb / (2 * V)) with 0 by (field; exact HV).
  repeat apply f_equal2; try reflexivity; apply f_equal; polys; ring.
Qed.
