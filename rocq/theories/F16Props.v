(** Equations of motion of the airframe model (C59, C60, C76, C78). *)
From Coq Require Import String List ZArith Reals Lra Lia Bool.
From Flocq Require Import Core.Core.
From Coquelicot Require Import Coquelicot.
From Verif Require Import PyBase Num XReal XTac Aero Morelli F16 SpecTables SpecAero SpecF16
  AeroLemmas AeroLemmas2 AeroLemmas3 AeroProps AeroProps2 AeroProps3 F16Lemmas F16Lemmas2 F16Lemmas3.
Import List ListNotations.
Local Open Scope R_scope.
Local Hint Extern 0 (Num xr) => exact (XR Fin) : typeclass_instances.

Lemma ok_inj {A} (a b : A) : Ok a = Ok b -> a = b.
Proof. intros H. injection H. auto. Qed.

Lemma stevens_built x u c1 c2 c3 c4 c5 c6 :
  built "stevens" x u = Ok (Fin c1, Fin c2, Fin c3, Fin c4, Fin c5, Fin c6) ->
  stevens_coefficients x u c1 c2 c3 c4 c5 c6.
Proof.
  unfold built, buildup, stevens_coefficients. cbn [String.eqb Ascii.eqb Bool.eqb].
  fold (degrees (a_alpha x)) (degrees (a_beta x)).
  set (a := Fin (deg (a_alpha x))). set (b := Fin (deg (a_beta x))).
  change (degrees (a_alpha x)) with a. change (degrees (a_beta x)) with b.
  destruct tables_continuous as [[g1 [H1 _]] [[g2 [H2 _]] [[g3 [H3 _]] [[g4 [H4 _]] [[g5 [H5 _]]
    [[g6 [H6 _]] [[g7 [H7 _]] [[g8 [H8 _]] [g9 [H9 _]]]]]]]]]].
  unfold a, b. rewrite H1, H9, H3, H5, H6, H2, H4, H7, H8. cbn [bind].
  rewrite !nZ_fin, !div_fin by lra. intros E. inversion E; subst.
  repeat split; try reflexivity; do 3 eexists; (split; [reflexivity|]); (split; [reflexivity|]);
    (split; [reflexivity|]); ring.
Qed.

Lemma morelli_built x u c1 c2 c3 c4 c5 c6 :
  built "morelli" x u = Ok (Fin c1, Fin c2, Fin c3, Fin c4, Fin c5, Fin c6) ->
  morelli_coefficients x u c1 c2 c3 c4 c5 c6.
Proof.
  unfold built, buildup, morelli_coefficients. cbn [String.eqb Ascii.eqb Bool.eqb].
  assert (E : forall z, ndiv (nmul (Fin z) npi) (nZ 180) = Fin (z * PI / 180)).
  { intros z. rewrite nZ_fin. change (nmul (Fin z) npi) with (Fin (z * PI)). apply div_fin. lra. }
  rewrite !E. apply ok_inj.
Qed.

Lemma built_coefficients model x u c1 c2 c3 c4 c5 c6 : known_model model = true ->
  built model x u = Ok (Fin c1, Fin c2, Fin c3, Fin c4, Fin c5, Fin c6) ->
  coefficients model x u c1 c2 c3 c4 c5 c6.
Proof.
  intros H. destruct (known_cases model H) as [ -> | -> ]; unfold coefficients;
    cbn [String.eqb Ascii.eqb Bool.eqb]; [apply stevens_built|apply morelli_built].
Qed.

Definition lst (d : list R) (i : nat) : R := nth i d 0.
Lemma nine d : length d = 9%nat -> d = map (lst d) (seq 0 9).
Proof.
  intros H. do 9 (destruct d as [|? d]; [discriminate H|]). destruct d; [reflexivity|discriminate H].
Qed.

Lemma f16_equations x u model adj : known_model model = true -> cos (a_theta x) <> 0 ->
  a_vt x <> 0 -> cos (a_beta x) <> 0 -> a_alt x < 142247 ->
  exists c1 c2 c3 c4 c5 c6 d Q t xd nz ny zo yo v' a' b' fx fy fz p' q' r',
    coefficients model x u c1 c2 c3 c4 c5 c6 /\ environment x d Q t /\
    subf16_model (state_of x) (control_of u) model adj = Ok (xd, Fin nz, Fin ny, Fin zo, Fin yo) /\
    length xd = 13%nat /\
    nth 0 xd NaN = Fin v' /\ nth 1 xd NaN = Fin a' /\ nth 2 xd NaN = Fin b' /\
    nth 6 xd NaN = Fin p' /\ nth 7 xd NaN = Fin q' /\ nth 8 xd NaN = Fin r' /\
    nth 12 xd NaN = pdot (Fin (a_pow x)) (tgear (Fin (s_thr u))) /\
    velocity_rate x v' a' b' = newton x fx fy fz /\
    fx = 0.00157 * (300 * Q * (c1 + half_chord x * a_q x * d 0%nat) + t) /\
    fy = 0.00157 * (300 * Q * (c2 + half_span x * (d 1%nat * a_r x + d 2%nat * a_p x))) /\
    fz = 0.00157 * (300 * Q * (c3 + half_chord x * a_q x * d 3%nat)) /\
    (p', q', r') = rotation_rate (a_p x) (a_q x) (a_r x) Q
      (c4 + half_span x * (d 4%nat * a_r x + d 5%nat * a_p x))
      (c5 + half_chord x * a_q x * d 6%nat)
      (c6 + half_span x * (d 7%nat * a_r x + d 8%nat * a_p x)) /\
    zo = fz - 15 * q' /\ yo = fy + (if adj then 15 * r' else 0) /\
    nz = - zo / 32.17 - 1 /\ ny = yo / 32.17.
Proof.
  intros Hm Hct Hv Hcb Ha.
  destruct (subf16_split x u model adj Hm Hct) as [t [c [d [Ht [Hb [Hf [Hd [Hl E]]]]]]]].
  destruct (Hf Hv) as [[[[[[c1 c2] c3] c4] c5] c6] Hc]. unfold six_fin in Hc. subst c.
  rewrite adc_fin in Ht, E by exact Ha. cbn [fst snd] in Ht, E.
  rewrite (nine d Hl) in Hd, E.
  set (Q := 0.5 * density (a_alt x) * a_vt x * a_vt x) in *.
  set (xd12 := pdot (Fin (a_pow x)) (tgear (Fin (s_thr u)))) in *.
  set (D := lst d) in *.
  assert (El : map D (seq 0 9) = [D 0; D 1; D 2; D 3; D 4; D 5; D 6; D 7; D 8]%nat) by reflexivity.
  rewrite El in E.
  destruct (rest_force x Q t xd12 adj c1 c2 c3 c4 c5 c6 (D 0) (D 1) (D 2) (D 3) (D 4) (D 5) (D 6) (D 7) (D 8) Hv Hcb)%nat
    as [v' [a' [b' [fx [fy [fz [p' [q' [r' [nz [ny [yo [zo [G0 [G1 [G2 [G6 [G7 [G8 [Go [G9 [G10 [G11 [G12
        [G13 [G14 [G15 [G16 G17]]]]]]]]]]]]]]]]]]]]]]]]]]]].
  set (out := rest_of x (Fin Q) t xd12 adj (Fin c1, Fin c2, Fin c3, Fin c4, Fin c5, Fin c6)
                [D 0; D 1; D 2; D 3; D 4; D 5; D 6; D 7; D 8]%nat) in *.
  exists c1, c2, c3, c4, c5, c6, D, Q, t, (fst (fst (fst (fst out)))), nz, ny, zo, yo, v', a', b', fx, fy, fz, p', q', r'.
  split; [apply built_coefficients; assumption|].
  split.
  { split; [rewrite <- map_map; exact Hd|]. eexists. split; [apply adc_fin; exact Ha|exact Ht]. }
  split; [rewrite E, <- Go; reflexivity|].
  split; [reflexivity|].
  assert (Gc : forall i, (i < 13)%nat -> comp out i = nth i (fst (fst (fst (fst out)))) NaN).
  { intros i Hi. unfold comp. rewrite (surjective_pairing out), (surjective_pairing (fst out)),
      (surjective_pairing (fst (fst out))), (surjective_pairing (fst (fst (fst out)))).
    cbn [fst]. unfold nth0. apply nth_indep. exact Hi. }
  rewrite <- !Gc by lia.
  split; [exact G0|]. split; [exact G1|]. split; [exact G2|]. split; [exact G6|].
  split; [exact G7|]. split; [exact G8|]. split; [reflexivity|].
  repeat (split; [assumption|]). assumption.
Qed.
