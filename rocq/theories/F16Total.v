(** Where the airframe derivative is defined (C77). *)
From Coq Require Import String List ZArith Reals Lra Lia Bool.
From Flocq Require Import Core.Core.
From Coquelicot Require Import Coquelicot.
From Verif Require Import PyBase Num XReal XTac Aero Morelli F16 SpecF16
  AeroLemmas AeroProps AeroProps2 AeroProps3 F16Lemmas F16Lemmas2 F16Props.
Import List ListNotations.
Local Open Scope R_scope.
Local Hint Extern 0 (Num xr) => exact (XR Fin) : typeclass_instances.

Lemma subf16_vertical x u model adj : known_model model = true -> cos (a_theta x) = 0 ->
  subf16_model (state_of x) (control_of u) model adj = Err ZeroDivisionError.
Proof.
  intros Hm Hc.
  destruct (thrust_fin_ex (a_pow x) (a_alt x) (mach_of (a_vt x) (a_alt x))) as [t Ht].
  destruct (built_ok model x u Hm) as [c [Hb Hf]].
  destruct (dampp_ex (deg (a_alpha x))) as [d [Hd Hl]].
  unfold subf16_model. rewrite Hm. cbn [py_assert bind].
  change (Nat.eqb (length (state_of x)) 13) with true.
  change (Nat.eqb (length (control_of u)) 4) with true. cbn [py_assert bind].
  cbn [state_of control_of map nth0 nth]. cbv zeta.
  rewrite (surjective_pairing (adc (Fin (a_vt x)) (Fin (a_alt x)))).
  rewrite adc_mach, Ht. cbn [bind]. rewrite !rtod_fin.
  unfold built in Hb. rewrite Hb. cbn [bind].
  destruct c as [[[[[c1 c2] c3] c4] c5] c6]. rewrite Hd. cbn [bind].
  rewrite !m_sin_fin, !m_cos_fin. cbn [bind].
  unfold pydiv.
  assert (E : neqb (Fin (cos (a_theta x))) n0 = true).
  { cbn. apply Req_bool_true. lra. }
  rewrite E. reflexivity.
Qed.

Lemma zero_times (z : R) (y : xr) : z = 0 -> nmul (Fin z) y = Fin 0 \/ nmul (Fin z) y = NaN.
Proof.
  intros ->. destruct y; cbn; unfold xinf_mul; auto; try (left; f_equal; ring);
    rewrite ?Req_bool_true by reflexivity; auto.
Qed.

Lemma at_rest_nan (ub vb wb : R) (a b c : xr) : ub = 0 -> vb = 0 -> wb = 0 ->
  ndiv (nadd (nadd (nmul (Fin ub) a) (nmul (Fin vb) b)) (nmul (Fin wb) c)) (Fin 0) = NaN.
Proof.
  intros Hu Hv Hw.
  destruct (zero_times ub a Hu) as [-> | ->], (zero_times vb b Hv) as [-> | ->],
    (zero_times wb c Hw) as [-> | ->]; cbn; try reflexivity;
    rewrite !Rplus_0_r, ?Req_bool_true, ?Rlt_bool_false by (reflexivity || lra); reflexivity.
Qed.

Lemma subf16_at_rest x u model adj : known_model model = true -> cos (a_theta x) <> 0 -> a_vt x = 0 ->
  exists xd nz ny az ay, subf16_model (state_of x) (control_of u) model adj = Ok (xd, nz, ny, az, ay) /\
    nth 0 xd (Fin 0) = NaN.
Proof.
  intros Hm Hc Hv. destruct (subf16_split x u model adj Hm Hc) as [t [c [d [_ [_ [_ [_ [_ E]]]]]]]].
  rewrite E. destruct c as [[[[[c1 c2] c3] c4] c5] c6]. unfold rest_of, subf16_rest.
  do 5 eexists. split; [reflexivity|]. cbn [nth]. rewrite Hv.
  apply at_rest_nan; ring.
Qed.
