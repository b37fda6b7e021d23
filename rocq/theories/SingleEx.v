(** A rotating spacecraft whose rates are single precision (C116). *)
From Coq Require Import String ZArith Reals Bool List Lra Lia.
From Flocq Require Import Core.Core IEEE754.BinarySingleNaN.
From Verif Require Import PyBase Num Arr BaseModel Cwh Rot2d Float64 XTac BaseLemmas3 Rot2dLemmas ParamLemmas SpecCwh SpecRound SpecFly SpecSingle F64Wrap F64Err RoundCwh FlyEx FreshEx SingleRound.
Import List ListNotations.
Local Open Scope R_scope.

Lemma ok_inj {A} (a b : A) : Ok a = Ok b -> a = b.
Proof. intros H. injection H as H. exact H. Qed.

Section W.
  Variables (lm : libm) (w : world f64).
  Hypothesis Ac : accurate lm.
  Local Hint Extern 0 (Num f64) => exact (F64 lm) : typeclass_instances.

  Lemma limit_ex : rot2d_limit (fl 1 1) (fl 1 1) (fl 1 1) (fl 1 1) = Ok (fl 1 1).
  Proof.
    unfold rot2d_limit, pydiv. replace (neqb (fl 1 1) n0) with false by (vm_compute; reflexivity). cbn [bind]. reflexivity.
  Qed.

  (** Mass 2, moment of inertia 1, all rate limits 1, mean motion 1/1024. *)
  Definition craft (jax : bool) : res (entity f64) :=
    rot2d_spacecraft w (fl 2 1) (fl 1 1) (fl 1 1) (fl 1 1) (fl 1 1) (fl 1 1) (fl 1 1) (fl 1 1024) 0 "Euler" jax
      (fl 0 1) (fl 0 1) (fl 0 1) (fl 0 1) (fl 0 1) (fl 0 1).
  Lemma craft_ok : exists e0, craft false = Ok e0.
  Proof.
    assert (Q : is_ok (craft false) = true).
    { unfold craft. rewrite rot2d_accepts. vm_compute. reflexivity. }
    destruct (craft false) as [e0|]; [eauto|discriminate].
  Qed.

  Lemma vals : (is_finite (fl 2 1) = true /\ B2R (fl 2 1) = 2) /\ (is_finite (fl 1 1) = true /\ B2R (fl 1 1) = 1) /\
    (is_finite (fl 1 1024) = true /\ B2R (fl 1 1024) = 1 / 1024).
  Proof. split; [flv|]. split; flv. Qed.
  Lemma small k a r : is_finite a = true /\ B2R a = r -> Rabs r <= 1024 -> (10 <= k)%Z -> within k a.
  Proof. intros [F <-] H K. split; [exact F|]. eapply Rle_trans; [exact H|]. apply (bpow_le radix2 10). exact K. Qed.

  Lemma craft_step e0 s0 acts e h x y th vx vy wz (fx fy mz : f64) : craft false = Ok e0 -> run w (set_state e0 s0) acts = Ok e ->
    within 90 h -> Forall (within 90) [x; y; th; vx; vy; wz] -> Forall (fun f : f64 => is_finite f = true) [fx; fy; mz] ->
    e_state e = A1 [x; y; th; vx; vy; wz] ->
    let o := entity_step w e h (AArr (A1 [fx; fy; mz])) in
    exists s', o_res o = Ok tt /\ e_state (o_entity o) = A1 s' /\
      rot2d_follows 2 1 1 1 (1 / 1024) (B2R h) (map B2R [x; y; th; vx; vy; wz])
        [clipR (-1) 1 (B2R fx); clipR (-1) 1 (B2R fy); clipR (-1) 1 (B2R mz)] s'.
  Proof.
    intros Ec Rn Wh Ws Fu Es o. destruct vals as (V2 & V1 & Vn).
    assert (W1 : within 40 (fl 1 1)) by (eapply small; [exact V1|rewrite Rabs_R1; lra|lia]).
    destruct (rot2d_round_run lm w (fl 2 1) (fl 1 1) (fl 1 1) (fl 1 1) (fl 1 1) (fl 1 1) (fl 1 1) (fl 1 1) (fl 1 1) (fl 1 1024) 0 false
      _ _ _ _ _ _ e0 s0 acts e h x y th vx vy wz fx fy mz Ac Ec limit_ex limit_ex Rn) as (s' & R1 & R2 & R3);
      try assumption; try lia; try apply V2.
    - rewrite (proj2 V2), Rabs_pos_eq by lra. apply (Rle_trans _ (bpow radix2 0)); [apply bpow_le; lia|cbn; lra].
    - rewrite (proj2 V1), Rabs_R1. apply (Rle_trans _ (bpow radix2 0)); [apply bpow_le; lia|cbn; lra].
    - rewrite (proj2 V1). lra.
    - rewrite (proj2 V1). lra.
    - split; [apply Vn|]. rewrite (proj2 Vn), Rabs_pos_eq by lra. cbn. lra.
    - exists s'. split; [exact R1|]. split; [exact R2|]. rewrite (proj2 V2), (proj2 V1), (proj2 Vn) in R3.
      assert (M : B2R (nmul (fl 1 1) (fl 1 1)) = 1).
      { replace (nmul (fl 1 1) (fl 1 1)) with (fl 1 1) by (apply f64_eq; vm_compute; reflexivity). apply V1. }
      rewrite M in R3. exact R3.
  Qed.

  (** Coasting at 1/10 of a metre per second for a second: the new x is the float32 nearest to 1/10. *)
  Lemma coast_off : exists e0 s', craft false = Ok e0 /\
    e_state (o_entity (entity_step w (set_state e0 (A1 [fl 0 1; fl 0 1; fl 0 1; fl 1 10; fl 0 1; fl 0 1])) (fl 1 1) (AArr (A1 [fl 0 1; fl 0 1; fl 0 1])))) = A1 s' /\
    1 / 1000000000 < Rabs (B2R (nth 0 s' (fl 0 1)) - (0 + 1 * B2R (fl 1 10))).
  Proof.
    destruct craft_ok as [e0 Ec]. destruct vals as (V2 & V1 & Vn). exists e0.
    assert (V0 : is_finite (fl 0 1) = true /\ B2R (fl 0 1) = 0) by exact fl0.
    assert (V10 : is_finite (fl 1 10) = true /\ B2R (fl 1 10) = 7205759403792794 / 2 ^ 56) by flv.
    assert (W1 : within 40 (fl 1 1)) by (eapply small; [exact V1|rewrite Rabs_R1; lra|lia]).
    assert (W0 : within 90 (fl 0 1)) by (eapply small; [exact V0|rewrite Rabs_R0; lra|lia]).
    pose proof limit_ex as L. unfold rot2d_limit in L.
    destruct (rot2d_craft_inv _ _ _ _ _ _ _ _ _ _ _ _ _ _ _ _ _ _ _ Ec) as (qa & qv & Qa & Qv & D & C1 & C2 & _).
    rewrite Qa in Qv. injection Qv as <-. rewrite Qa in L. cbn [bind] in L. injection L as L. rewrite L in D, C1, C2.
    set (e := set_state e0 (A1 [fl 0 1; fl 0 1; fl 0 1; fl 1 10; fl 0 1; fl 0 1])).
    destruct (rot2d_round lm w e (fl 2 1) (fl 1 1) (fl 1 1) (fl 1 1) (fl 1 1024) 0 false (fl 1 1) (fl 0 1) (fl 0 1) (fl 0 1) (fl 1 10) (fl 0 1) (fl 0 1) (fl 0 1) (fl 0 1) (fl 0 1))
      as (s' & _ & R2 & _ & R4 & _); try assumption; try lia; try apply V2; try reflexivity.
    - rewrite (proj2 V2), Rabs_pos_eq by lra. apply (Rle_trans _ (bpow radix2 0)); [apply bpow_le; lia|cbn; lra].
    - rewrite (proj2 V1), Rabs_R1. apply (Rle_trans _ (bpow radix2 0)); [apply bpow_le; lia|cbn; lra].
    - rewrite (proj2 V1). lra.
    - rewrite (proj2 V1). lra.
    - split; [apply Vn|]. rewrite (proj2 Vn), Rabs_pos_eq by lra. cbn. lra.
    - eapply small; [exact V1|rewrite Rabs_R1; lra|lia].
    - repeat (constructor; [first [exact W0|eapply small; [exact V10|apply Rabs_le; lra|lia]]|]). constructor.
    - repeat (constructor; [apply V0|]). constructor.
    - exists s'. split; [exact Ec|]. split; [exact R2|].
      assert (Q : nth 0 s' (n0 : f64) = f64_f32 (fl 1 10)).
      { rewrite R4. apply f64_eq. vm_compute. reflexivity. }
      assert (E0 : (n0 : f64) = fl 0 1) by (apply f64_eq; vm_compute; reflexivity). rewrite E0 in Q. rewrite Q.
      assert (V32 : B2R (f64_f32 (fl 1 10)) = 7205759511166976 * bpow radix2 (-56)).
      { rewrite (B2R_of _ false 7205759511166976 (-56)) by (vm_compute; reflexivity). reflexivity. }
      rewrite V32, (proj2 V10). change (bpow radix2 (-56)) with (/ 72057594037927936). rewrite Rabs_pos_eq; lra.
  Qed.

  (** A CWHSpacecraft of the same mass doing the same. *)
  Lemma coast_cwh : exists e0 s', cwh_spacecraft (fl 2 1) (fl 1 1024) 0 "Euler" (fl 0 1) (fl 0 1) (fl 0 1) (fl 0 1) (fl 0 1) (fl 0 1) = Ok e0 /\
    e_state (o_entity (entity_step w (set_state e0 (A1 [fl 0 1; fl 0 1; fl 0 1; fl 1 10; fl 0 1; fl 0 1])) (fl 1 1) (AArr (A1 [fl 0 1; fl 0 1; fl 0 1])))) = A1 s' /\
    Rabs (B2R (nth 0 s' (fl 0 1)) - (0 + 1 * B2R (fl 1 10))) <= 1 / 1000000000000000.
  Proof.
    destruct vals as (V2 & V1 & Vn). assert (V0 : is_finite (fl 0 1) = true /\ B2R (fl 0 1) = 0) by exact fl0.
    assert (V10 : is_finite (fl 1 10) = true /\ B2R (fl 1 10) = 7205759403792794 / 2 ^ 56) by flv.
    assert (W0 : within 100 (fl 0 1)) by (eapply small; [exact V0|rewrite Rabs_R0; lra|lia]).
    destruct (cwh_spacecraft (fl 2 1) (fl 1 1024) 0 "Euler" (fl 0 1) (fl 0 1) (fl 0 1) (fl 0 1) (fl 0 1) (fl 0 1)) as [e0|] eqn:Ec.
    2:{ exfalso. assert (Q : is_ok (cwh_spacecraft (fl 2 1) (fl 1 1024) 0 "Euler" (fl 0 1) (fl 0 1) (fl 0 1) (fl 0 1) (fl 0 1) (fl 0 1)) = true) by (vm_compute; reflexivity).
        rewrite Ec in Q. discriminate. }
    exists e0. pose proof Ec as Ed. unfold cwh_spacecraft in Ed. destruct (cwh_dyn (fl 2 1) (fl 1 1024) 0 "Euler") as [d|] eqn:Dd; [|discriminate]. cbn [bind] in Ed. apply ok_inj in Ed.
    set (e := set_state e0 (A1 [fl 0 1; fl 0 1; fl 0 1; fl 1 10; fl 0 1; fl 0 1])).
    destruct (cwh_round lm w e (fl 2 1) (fl 1 1024) 0 (fl 1 1) (fl 0 1) (fl 0 1) (fl 0 1) (fl 1 10) (fl 0 1) (fl 0 1) (fl 0 1) (fl 0 1) (fl 0 1))
      as (x' & y' & z' & vx' & vy' & vz' & _ & R2 & R3); try lia; try apply V2.
    - unfold e. change (e_dyn (set_state e0 ?s)) with (e_dyn e0). rewrite <- Ed. exact Dd.
    - unfold e. rewrite <- Ed. reflexivity.
    - unfold e. rewrite <- Ed. reflexivity.
    - rewrite (proj2 V2), Rabs_pos_eq by lra. apply (Rle_trans _ (bpow radix2 0)); [apply bpow_le; lia|cbn; lra].
    - eapply small; [exact Vn|rewrite Rabs_pos_eq; lra|lia].
    - eapply small; [exact V1|rewrite Rabs_R1; lra|lia].
    - repeat (constructor; [first [exact W0|eapply small; [exact V10|apply Rabs_le; lra|lia]]|]). constructor.
    - repeat (constructor; [apply V0|]). constructor.
    - reflexivity.
    - exists [x'; y'; z'; vx'; vy'; vz']. split; [reflexivity|]. split; [exact R2|]. destruct R3 as ((_ & R3) & _). cbn [nth].
      rewrite (proj2 V0), (proj2 V1), (proj2 V10) in R3. rewrite (proj2 V10). eapply Rle_trans; [exact R3|].
      rewrite Rabs_R0, Rabs_R1, Rabs_pos_eq by lra.
      assert (P700 : bpow radix2 (-700) <= bpow radix2 (-60)) by (apply bpow_le; lia).
      change (bpow radix2 (-60)) with (/ 1152921504606846976) in P700. change (bpow radix2 (-48)) with (/ 281474976710656). lra.
  Qed.

  Lemma craft_ex : exists e0 s', craft false = Ok e0 /\
    e_state (o_entity (entity_step w (set_state e0 (A1 [fl 1000 1; fl (-500) 1; fl 1 2; fl 2 1; fl (-1) 1; fl 1 4])) (fl 1 1)
      (AArr (A1 [fl 3 1; fl 0 1; fl 1 8])))) = A1 s' /\
    rot2d_follows 2 1 1 1 (1 / 1024) 1 [1000; -500; 1 / 2; 2; -1; 1 / 4] [1; 0; 1 / 8] s' /\
    Rabs (B2R (nth 0 s' (fl 0 1)) - 1002) <= 1 / 100000.
  Proof.
    destruct craft_ok as [e0 Ec]. destruct vals as (V2 & V1 & Vn). pose proof fl0 as V0.
    assert (X1 : is_finite (fl 1000 1) = true /\ B2R (fl 1000 1) = 1000) by flv. assert (X2 : is_finite (fl (-500) 1) = true /\ B2R (fl (-500) 1) = -500) by flv.
    assert (X3 : is_finite (fl 1 2) = true /\ B2R (fl 1 2) = 1 / 2) by flv. assert (X4 : is_finite (fl (-1) 1) = true /\ B2R (fl (-1) 1) = -1) by flv.
    assert (X5 : is_finite (fl 1 4) = true /\ B2R (fl 1 4) = 1 / 4) by flv. assert (X6 : is_finite (fl 3 1) = true /\ B2R (fl 3 1) = 3) by flv.
    assert (X7 : is_finite (fl 1 8) = true /\ B2R (fl 1 8) = 1 / 8) by flv.
    set (s0 := A1 [fl 1000 1; fl (-500) 1; fl 1 2; fl 2 1; fl (-1) 1; fl 1 4]).
    destruct (craft_step e0 s0 [] (set_state e0 s0) (fl 1 1) (fl 1000 1) (fl (-500) 1) (fl 1 2) (fl 2 1) (fl (-1) 1) (fl 1 4) (fl 3 1) (fl 0 1) (fl 1 8) Ec eq_refl)
      as (s' & _ & R2 & R3).
    - eapply small; [exact V1|rewrite Rabs_R1; lra|lia].
    - repeat (constructor; [eapply small; [eassumption|apply Rabs_le; lra|lia]|]). constructor.
    - constructor; [apply X6|]. constructor; [apply V0|]. constructor; [apply X7|constructor].
    - reflexivity.
    - cbn [map] in R3. rewrite (proj2 V0), (proj2 V1), (proj2 V2), (proj2 X1), (proj2 X2), (proj2 X3), (proj2 X4), (proj2 X5), (proj2 X6), (proj2 X7) in R3.
      replace (clipR (-1) 1 3) with 1 in R3 by (unfold clipR, Rmin, Rmax; repeat destruct (Rle_dec _ _); lra).
      replace (clipR (-1) 1 0) with 0 in R3 by (unfold clipR, Rmin, Rmax; repeat destruct (Rle_dec _ _); lra).
      replace (clipR (-1) 1 (1 / 8)) with (1 / 8) in R3 by (unfold clipR, Rmin, Rmax; repeat destruct (Rle_dec _ _); lra).
      exists e0, s'. split; [exact Ec|]. split; [exact R2|]. split; [exact R3|].
      unfold rot2d_follows in R3. destruct s' as [|x' [|y' [|th' [|vx' [|vy' [|wz' [|? ?]]]]]]]; try contradiction.
      destruct R3 as ((_ & R3) & _). cbn [nth]. replace 1002 with (1000 + 1 * 2) by ring. eapply Rle_trans; [exact R3|].
      unfold single_error. rewrite Rabs_R1, !Rabs_pos_eq by lra. destruct pows as (P1 & P2 & P3 & P4 & P5 & P6).
      assert (bpow radix2 (-46) <= / 1000000000).
      { rewrite P2. apply (Rle_trans _ (4 * (/ 16000000 * / 16000000))); [|lra]. apply Rmult_le_compat_l; [lra|]. apply Rmult_le_compat; lra. }
      assert (bpow radix2 (-140) <= bpow radix2 (-46)) by (apply bpow_le; lia). lra.
  Qed.
End W.

Lemma single_refuted : exists m n inertia lim x v h zero, B2R x = 0 /\ B2R h = 1 /\
  forall (lm : libm) (w : world f64), accurate lm ->
  (exists e0 s', rot2d_spacecraft (N := F64 lm) w m inertia lim lim lim lim lim n 0 "Euler" false zero zero zero zero zero zero = Ok e0 /\
     e_state (o_entity (entity_step (N := F64 lm) w (set_state e0 (A1 [x; zero; zero; v; zero; zero])) h (AArr (A1 [zero; zero; zero])))) = A1 s' /\
     1 / 1000000000 < Rabs (B2R (nth 0 s' zero) - (0 + 1 * B2R v))) /\
  (exists e0 s', cwh_spacecraft (N := F64 lm) m n 0 "Euler" zero zero zero zero zero zero = Ok e0 /\
     e_state (o_entity (entity_step (N := F64 lm) w (set_state e0 (A1 [x; zero; zero; v; zero; zero])) h (AArr (A1 [zero; zero; zero])))) = A1 s' /\
     Rabs (B2R (nth 0 s' zero) - (0 + 1 * B2R v)) <= 1 / 1000000000000000).
Proof.
  exists (fl 2 1), (fl 1 1024), (fl 1 1), (fl 1 1), (fl 0 1), (fl 1 10), (fl 1 1), (fl 0 1).
  split; [apply fl0|]. split; [apply vals|]. intros lm w Ac. split; [apply (coast_off lm w Ac)|apply (coast_cwh lm w)].
Qed.
