(** The airframe model on finite states (C58-C60, C75-C77). *)
From Coq Require Import String List ZArith Reals Lra Lia Bool.
From Flocq Require Import Core.Core.
From Coquelicot Require Import Coquelicot.
From Verif Require Import PyBase Num XReal XTac Aero Morelli F16 SpecTables SpecAero SpecF16
  AeroLemmas AeroLemmas2 AeroLemmas3 AeroProps AeroProps2 AeroProps3 F16Lemmas.
Import List ListNotations.
Local Open Scope R_scope.
Local Hint Extern 0 (Num xr) => exact (XR Fin) : typeclass_instances.

Lemma known_cases model : known_model model = true -> model = "stevens"%string \/ model = "morelli"%string.
Proof.
  unfold known_model. intros H. apply orb_prop in H.
  destruct H as [H|H]; apply String.eqb_eq in H; auto.
Qed.

Definition six := (xr * xr * xr * xr * xr * xr)%type.
Definition six_fin (c : six) (v : R * R * R * R * R * R) : Prop :=
  let '(c1, c2, c3, c4, c5, c6) := v in c = (Fin c1, Fin c2, Fin c3, Fin c4, Fin c5, Fin c6).

(** What the body of the model is applied to. *)
Definition rest_of (x : airframe) (qbar : xr) (t : R) (xd12 : xr) (adj : bool) (c : six) (d : list R)
  : list xr * xr * xr * xr * xr :=
  let '(c1, c2, c3, c4, c5, c6) := c in
  subf16_rest (Fin (a_vt x)) (Fin (a_p x)) (Fin (a_q x)) (Fin (a_r x)) qbar (Fin t) xd12 adj
    c1 c2 c3 c4 c5 c6 (map Fin d)
    (Fin (cos (a_beta x))) (Fin (cos (a_alpha x))) (Fin (sin (a_beta x))) (Fin (sin (a_alpha x)))
    (Fin (sin (a_theta x))) (Fin (cos (a_theta x))) (Fin (sin (a_phi x))) (Fin (cos (a_phi x)))
    (Fin (sin (a_psi x))) (Fin (cos (a_psi x))) (Fin (sin (a_theta x) / cos (a_theta x))).

Definition built (model : string) (x : airframe) (u : surfaces) : res six :=
  buildup model (Fin (deg (a_alpha x))) (Fin (deg (a_beta x))) (Fin (s_el u)) (Fin (s_ail u))
    (Fin (s_rdr u)) (Fin (a_p x)) (Fin (a_q x)) (Fin (a_r x)) (Fin (a_vt x)).

Lemma rtod_fin a : nmul (Fin a) f_rtod = Fin (deg a).
Proof. reflexivity. Qed.

Lemma built_ok model x u : known_model model = true ->
  exists c, built model x u = Ok c /\ (a_vt x <> 0 -> exists v, six_fin c v).
Proof.
  intros H. unfold built. destruct (known_cases model H) as [ -> | -> ].
  - destruct (stevens_ok (deg (a_alpha x)) (deg (a_beta x)) (s_el u) (s_ail u) (s_rdr u)
      (Fin (a_p x)) (Fin (a_q x)) (Fin (a_r x)) (Fin (a_vt x))) as [c1 [c2 [c3 [c4 [c5 [c6 E]]]]]].
    eexists. split; [exact E|]. intros _. exists (c1, c2, c3, c4, c5, c6). reflexivity.
  - destruct (Req_dec (a_vt x) 0) as [E0|Hv].
    + eexists. split; [reflexivity|]. intros Hc. contradiction.
    + destruct (morelli_ok (deg (a_alpha x)) (deg (a_beta x)) (s_el u) (s_ail u) (s_rdr u)
        (a_p x) (a_q x) (a_r x) (a_vt x) Hv) as [c1 [c2 [c3 [c4 [c5 [c6 E]]]]]].
      eexists. split; [exact E|]. intros _. exists (c1, c2, c3, c4, c5, c6). reflexivity.
Qed.

Lemma thrust_fin_ex power alt mach : exists t, thrust (Fin power) (Fin alt) (Fin mach) = Ok (Fin t).
Proof. rewrite thrust_total. eexists. reflexivity. Qed.

Lemma dampp_ex a : exists d, dampp (Fin a) = Ok (map Fin d) /\ length d = 9%nat.
Proof.
  destruct dampp_continuous as [g [H _]]. exists (map (fun i => g i a) (seq 0 9)).
  rewrite H, map_map. split; reflexivity.
Qed.

Lemma subf16_split x u model adj : known_model model = true -> cos (a_theta x) <> 0 ->
  exists t c d,
    thrust (Fin (a_pow x)) (Fin (a_alt x)) (fst (adc (Fin (a_vt x)) (Fin (a_alt x)))) = Ok (Fin t) /\
    built model x u = Ok c /\ (a_vt x <> 0 -> exists v, six_fin c v) /\
    dampp (Fin (deg (a_alpha x))) = Ok (map Fin d) /\ length d = 9%nat /\
    subf16_model (state_of x) (control_of u) model adj
    = Ok (rest_of x (snd (adc (Fin (a_vt x)) (Fin (a_alt x)))) t
            (pdot (Fin (a_pow x)) (tgear (Fin (s_thr u)))) adj c d).
Proof.
  intros Hm Hc. rewrite adc_mach.
  destruct (thrust_fin_ex (a_pow x) (a_alt x) (mach_of (a_vt x) (a_alt x))) as [t Ht].
  destruct (built_ok model x u Hm) as [c [Hb Hf]].
  destruct (dampp_ex (deg (a_alpha x))) as [d [Hd Hl]].
  exists t, c, d. split; [exact Ht|]. split; [exact Hb|]. split; [exact Hf|].
  split; [exact Hd|]. split; [exact Hl|].
  unfold subf16_model. rewrite Hm. cbn [py_assert bind].
  change (Nat.eqb (length (state_of x)) 13) with true.
  change (Nat.eqb (length (control_of u)) 4) with true. cbn [py_assert bind].
  cbn [state_of control_of map nth0 nth]. cbv zeta.
  rewrite (surjective_pairing (adc (Fin (a_vt x)) (Fin (a_alt x)))).
  rewrite adc_mach, Ht. cbn [bind]. rewrite !rtod_fin.
  unfold built in Hb. rewrite Hb. cbn [bind].
  destruct c as [[[[[c1 c2] c3] c4] c5] c6]. rewrite Hd. cbn [bind].
  rewrite !m_sin_fin, !m_cos_fin. cbn [bind].
  unfold pydiv.
  assert (E : neqb (Fin (cos (a_theta x))) n0 = false).
  { cbn. apply Req_bool_false. lra. }
  rewrite E. rewrite div_fin by exact Hc. cbn [bind]. reflexivity.
Qed.

(** * C58 *)
Definition comp (x : list xr * xr * xr * xr * xr) (i : nat) : xr :=
  let '(xd, _, _, _, _) := x in nth0 xd i.

Lemma sin2 t : sin t * sin t = 1 - cos t * cos t.
Proof. pose proof (sin2_cos2 t) as H. unfold Rsqr in H. lra. Qed.

Lemma nav_fin x qbar t xd12 adj c d :
  let '(n, e, dn) := to_earth x (body_velocity x) in
  comp (rest_of x qbar t xd12 adj c d) 9 = Fin n /\ comp (rest_of x qbar t xd12 adj c d) 10 = Fin e /\
  comp (rest_of x qbar t xd12 adj c d) 11 = Fin (- dn).
Proof.
  destruct c as [[[[[c1 c2] c3] c4] c5] c6].
  unfold to_earth, rot_x, rot_y, rot_z, body_velocity, rest_of, comp, subf16_rest. cbn.
  repeat split; apply f_equal; ring.
Qed.

Lemma earth_norm x v :
  let '(a, b, c) := v in let '(n, e, d) := to_earth x v in n * n + e * e + d * d = a * a + b * b + c * c.
Proof.
  destruct v as [[a b] c]. unfold to_earth, rot_x, rot_y, rot_z.
  pose proof (sin2 (a_phi x)). pose proof (sin2 (a_theta x)). pose proof (sin2 (a_psi x)).
  set (s1 := sin (a_phi x)) in *. set (k1 := cos (a_phi x)) in *.
  set (s2 := sin (a_theta x)) in *. set (k2 := cos (a_theta x)) in *.
  set (s3 := sin (a_psi x)) in *. set (k3 := cos (a_psi x)) in *.
  set (y := k1 * b - s1 * c). set (z := s1 * b + k1 * c).
  assert (E1 : y * y + z * z = b * b + c * c).
  { unfold y, z. transitivity ((s1 * s1 + k1 * k1) * (b * b + c * c)); [ring|]. rewrite H. ring. }
  set (a' := k2 * a + s2 * z). set (z' := - s2 * a + k2 * z).
  assert (E2 : a' * a' + z' * z' = a * a + z * z).
  { unfold a', z'. transitivity ((s2 * s2 + k2 * k2) * (a * a + z * z)); [ring|]. rewrite H0. ring. }
  transitivity ((s3 * s3 + k3 * k3) * (a' * a' + y * y) + z' * z'); [ring|]. rewrite H1.
  replace ((1 - k3 * k3 + k3 * k3) * (a' * a' + y * y) + z' * z') with (a' * a' + z' * z' + y * y) by ring.
  rewrite E2. lra.
Qed.

Lemma body_norm x : let '(u, v, w) := body_velocity x in u * u + v * v + w * w = a_vt x * a_vt x.
Proof.
  unfold body_velocity. pose proof (sin2 (a_alpha x)). pose proof (sin2 (a_beta x)).
  set (sa := sin (a_alpha x)) in *. set (ca := cos (a_alpha x)) in *.
  set (sb := sin (a_beta x)) in *. set (cb := cos (a_beta x)) in *.
  transitivity (a_vt x * a_vt x * ((ca * ca + sa * sa) * (cb * cb) + sb * sb)); [ring|].
  rewrite H, H0. ring.
Qed.

Lemma f16_nav x u model adj : known_model model = true -> cos (a_theta x) <> 0 ->
  exists out n e h,
    subf16_model (state_of x) (control_of u) model adj = Ok out /\
    comp out 9 = Fin n /\ comp out 10 = Fin e /\ comp out 11 = Fin h /\
    to_earth x (body_velocity x) = (n, e, - h) /\
    n * n + e * e + h * h = a_vt x * a_vt x.
Proof.
  intros Hm Hc. destruct (subf16_split x u model adj Hm Hc) as [t [c [d [_ [_ [_ [_ [_ E]]]]]]]].
  pose proof (nav_fin x (snd (adc (Fin (a_vt x)) (Fin (a_alt x)))) t
    (pdot (Fin (a_pow x)) (tgear (Fin (s_thr u)))) adj c d) as Hn.
  pose proof (earth_norm x (body_velocity x)) as He. pose proof (body_norm x) as Hb.
  destruct (to_earth x (body_velocity x)) as [[n e] dn].
  destruct (body_velocity x) as [[ub vb] wb].
  destruct Hn as [H1 [H2 H3]].
  eexists. exists n, e, (- dn). split; [exact E|]. split; [exact H1|]. split; [exact H2|].
  split; [exact H3|]. split; [f_equal; ring|]. lra.
Qed.

(** * Kinematics *)
Lemma kin_fin x qbar t xd12 adj c d : cos (a_theta x) <> 0 ->
  let p := a_p x in let q := a_q x in let r := a_r x in
  let s := sin (a_phi x) in let k := cos (a_phi x) in
  comp (rest_of x qbar t xd12 adj c d) 3
    = Fin (p + sin (a_theta x) / cos (a_theta x) * (q * s + r * k)) /\
  comp (rest_of x qbar t xd12 adj c d) 4 = Fin (q * k - r * s) /\
  comp (rest_of x qbar t xd12 adj c d) 5 = Fin ((q * s + r * k) / cos (a_theta x)).
Proof.
  intros Hc. destruct c as [[[[[c1 c2] c3] c4] c5] c6].
  split; [reflexivity|]. split; [reflexivity|].
  change (comp (rest_of x qbar t xd12 adj (c1, c2, c3, c4, c5, c6) d) 5)
    with (ndiv (Fin (a_q x * sin (a_phi x) + a_r x * cos (a_phi x))) (Fin (cos (a_theta x)))).
  apply div_fin. exact Hc.
Qed.

Lemma f16_kin x u model adj : known_model model = true -> cos (a_theta x) <> 0 ->
  exists out phi' theta' psi',
    subf16_model (state_of x) (control_of u) model adj = Ok out /\
    comp out 3 = Fin phi' /\ comp out 4 = Fin theta' /\ comp out 5 = Fin psi' /\
    rates_of (a_phi x) (a_theta x) phi' theta' psi' = (a_p x, a_q x, a_r x).
Proof.
  intros Hm Hc. destruct (subf16_split x u model adj Hm Hc) as [t [c [d [_ [_ [_ [_ [_ E]]]]]]]].
  destruct (kin_fin x (snd (adc (Fin (a_vt x)) (Fin (a_alt x)))) t
    (pdot (Fin (a_pow x)) (tgear (Fin (s_thr u)))) adj c d Hc) as [H1 [H2 H3]].
  eexists. do 3 eexists. split; [exact E|]. split; [exact H1|]. split; [exact H2|].
  split; [exact H3|]. unfold rates_of. pose proof (sin2 (a_phi x)) as Hs.
  set (s := sin (a_phi x)) in *. set (k := cos (a_phi x)) in *.
  set (st := sin (a_theta x)). set (ct := cos (a_theta x)) in *.
  apply f_equal2; [apply f_equal2|].
  - field. exact Hc.
  - replace ((a_q x * k - a_r x * s) * k + (a_q x * s + a_r x * k) / ct * ct * s)
      with (a_q x * (s * s + k * k)) by (field; exact Hc). rewrite Hs. ring.
  - replace (- (a_q x * k - a_r x * s) * s + (a_q x * s + a_r x * k) / ct * ct * k)
      with (a_r x * (s * s + k * k)) by (field; exact Hc). rewrite Hs. ring.
Qed.
