(** The airframe model on finite states: it returns, and its result in terms of reals. *)
From Coq Require Import String List ZArith Reals Lra Lia Bool.
From Flocq Require Import Core.Core.
From Coquelicot Require Import Coquelicot.
From Verif Require Import PyBase Num XReal XTac Aero Morelli F16 SpecTables SpecAero SpecF16
  AeroLemmas AeroLemmas2 AeroLemmas3 AeroProps AeroProps2 AeroProps3.
Import List ListNotations.
Local Open Scope R_scope.
Local Hint Extern 0 (Num xr) => exact (XR Fin) : typeclass_instances.

Lemma m_sin_fin x : m_sin (Fin x) = Ok (Fin (sin x)).
Proof. reflexivity. Qed.
Lemma m_cos_fin x : m_cos (Fin x) = Ok (Fin (cos x)).
Proof. reflexivity. Qed.

Lemma div_fin a b : b <> 0 -> ndiv (Fin a) (Fin b) = Fin (a / b).
Proof. intros H. cbn. rewrite Req_bool_false by exact H. reflexivity. Qed.
Lemma div_lit a z p : ndiv (Fin a) (nlit z p : xr) = ndiv (Fin a) (Fin (IZR z / IZR (Zpos p))).
Proof. reflexivity. Qed.

Lemma adc_mach vt alt : fst (adc (Fin vt) (Fin alt)) = Fin (mach_of vt alt).
Proof.
  unfold adc, mach_of. cbn [fst].
  assert (E1 : nsub n1 (nmul (nlit 703 100000000) (Fin alt)) = Fin (1 - 0.00000703 * alt)).
  { cbn. f_equal. lra. }
  rewrite E1.
  assert (E2 : (if nleb (nZ 35000) (Fin alt) then nZ 390
                else nmul (nZ 519) (Fin (1 - 0.00000703 * alt))) = Fin (temperature alt)).
  { rewrite !nZ_fin. unfold temperature. cbn. case Rle_bool_spec; intros H;
      destruct (Rle_dec 35000 alt); try lra; reflexivity. }
  rewrite E2. pose proof (temperature_ge alt) as Ht.
  assert (E4 : nsqrt (nmul (nmul (nlit 14 10) (nlit 17163 10)) (Fin (temperature alt)))
               = Fin (sqrt (1.4 * 1716.3 * temperature alt))).
  { cbn. rewrite Rlt_bool_false by (apply Rmult_le_pos; lra). f_equal. }
  rewrite E4. apply div_fin. apply Rgt_not_eq. apply sqrt_lt_R0. lra.
Qed.

Definition deg (x : R) : R := x * 57.29578.

(** The two aerodynamic models return; finite values unless the airspeed is zero (the polynomial
    divides rates by it). *)
Lemma stevens_ok a b el ail rdr p q r vt : exists c1 c2 c3 c4 c5 c6,
  buildup "stevens" (Fin a) (Fin b) (Fin el) (Fin ail) (Fin rdr) p q r vt
  = Ok (Fin c1, Fin c2, Fin c3, Fin c4, Fin c5, Fin c6).
Proof.
  unfold buildup. cbn [String.eqb Ascii.eqb Bool.eqb].
  destruct tables_continuous as [[g1 [H1 _]] [[g2 [H2 _]] [[g3 [H3 _]] [[g4 [H4 _]] [[g5 [H5 _]]
    [[g6 [H6 _]] [[g7 [H7 _]] [[g8 [H8 _]] [g9 [H9 _]]]]]]]]]].
  rewrite H1, H9, H3, H5, H6, H2, H4, H7, H8. cbn [bind].
  assert (E : forall z, exists v, cy (Fin b) (Fin ail) (Fin rdr) = Fin v /\ z = z :> R).
  { intros z. unfold cy. rewrite !nZ_fin. rewrite !div_fin by lra. eexists. split; reflexivity. }
  destruct (E 0) as [v [-> _]]. rewrite !nZ_fin, !div_fin by lra.
  do 6 eexists. reflexivity.
Qed.

Lemma sat_fin lo hi x : exists v, saturate (Fin lo) (Fin hi) (Fin x) = Fin v.
Proof.
  unfold saturate, py_min, py_max. rewrite nZ_fin.
  change (nmul (Fin lo) npi) with (Fin (lo * PI)). change (nmul (Fin hi) npi) with (Fin (hi * PI)).
  rewrite !div_fin by lra. destruct (nltb (Fin x) _).
  - destruct (nltb _ (Fin x)); eexists; reflexivity.
  - destruct (nltb _ (Fin (hi * PI / 180))); eexists; reflexivity.
Qed.

Lemma nipow_fin x n : nipow (Fin x) n = Fin (pow x n).
Proof.
  destruct n as [|n]; [cbn; f_equal; field|]. induction n as [|n IH]; [cbn; f_equal; ring|].
  change (nipow (Fin x) (S (S n))) with (nmul (nipow (Fin x) (S n)) (Fin x)).
  rewrite IH. cbn. f_equal. ring.
Qed.

Lemma morelli_body_fin a b de da dr p q r cbar bb V xcg xcgr : V <> 0 -> bb <> 0 ->
  exists c1 c2 c3 c4 c5 c6,
  morelli_body (Fin a) (Fin b) (Fin de) (Fin da) (Fin dr) (Fin p) (Fin q) (Fin r) (Fin cbar)
    (Fin bb) (Fin V) (Fin xcg) (Fin xcgr) = (Fin c1, Fin c2, Fin c3, Fin c4, Fin c5, Fin c6).
Proof.
  intros HV Hb. unfold morelli_body.
  assert (EV : nmul (nZ 2) (Fin V) = Fin (2 * V)) by (cbn; f_equal; field).
  rewrite EV.
  assert (HV2 : 2 * V <> 0) by lra.
  change (nmul (Fin p) (Fin bb)) with (Fin (p * bb)).
  change (nmul (Fin q) (Fin cbar)) with (Fin (q * cbar)).
  change (nmul (Fin r) (Fin bb)) with (Fin (r * bb)).
  rewrite !div_fin by assumption. cbv zeta.
  rewrite !nipow_fin. do 6 eexists. reflexivity.
Qed.

Lemma morelli_ok a b el ail rdr p q r vt : vt <> 0 -> exists c1 c2 c3 c4 c5 c6,
  buildup "morelli" (Fin a) (Fin b) (Fin el) (Fin ail) (Fin rdr) (Fin p) (Fin q) (Fin r) (Fin vt)
  = Ok (Fin c1, Fin c2, Fin c3, Fin c4, Fin c5, Fin c6).
Proof.
  intros HV. unfold buildup. cbn [String.eqb Ascii.eqb Bool.eqb].
  assert (E : forall z, ndiv (nmul (Fin z) npi) (nZ 180) = Fin (z * PI / 180)).
  { intros z. rewrite nZ_fin. change (nmul (Fin z) npi) with (Fin (z * PI)). apply div_fin. lra. }
  rewrite !E. unfold Morellif16.
  assert (S : forall z p z' p' x, exists v, saturate (nlit z p) (nlit z' p') (Fin x) = Fin v)
    by (intros; apply sat_fin).
  destruct (S (-10)%Z 1%positive 45%Z 1%positive (a * PI / 180)) as [v1 E1].
  destruct (S (-30)%Z 1%positive 30%Z 1%positive (b * PI / 180)) as [v2 E2].
  destruct (S (-25)%Z 1%positive 25%Z 1%positive (el * PI / 180)) as [v3 E3].
  destruct (S (-215)%Z 10%positive 215%Z 10%positive (ail * PI / 180)) as [v4 E4].
  destruct (S (-30)%Z 1%positive 30%Z 1%positive (rdr * PI / 180)) as [v5 E5].
  destruct (morelli_body_fin v1 v2 v3 v4 v5 p q r (1132 / 100) (30 / 1) vt (35 / 100) (35 / 100))
    as [c1 [c2 [c3 [c4 [c5 [c6 E6]]]]]]; [assumption|lra|].
  exists c1, c2, c3, c4, c5, c6. apply (f_equal Ok). rewrite <- E6.
  rewrite <- E1, <- E2, <- E3, <- E4, <- E5. reflexivity.
Qed.
